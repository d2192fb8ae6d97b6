(** * C45, C74, C75, C76: rolling-average W matrices (tools/generate_w_matrices.py, tools/MW_add_W_matrices.py). *)
From Coq Require Import Reals Lra.
From Verif Require Import Base BaseLemmas ReaderModel UncModel UncSpec UncProofs TransformModel EvalModel GNModel SimModel WModel WSpec WProofs WProofs2 WProofs3 WProofs4 WProofs5.
Open Scope nat_scope.

(** ** C45 *)
(** For scan-line times above 0.01: the matrix holds, for every match-up, the kernel at its scan lines, counted from the first match-up to the nearest;
    its columns are exactly the scan lines with a weight, in order; the uncertainty of every column is the one given (for that scan line). *)
Theorem C45_rolling_average : forall times dt ku wt ks ws W u, (1 / 100 < dt)%R -> kernel ku wt ks = Ok ws -> gen_w times dt ku wt ks = Ok (W, u) ->
  exists line cols, lines_of times dt line /\ rolling ws line (length times) cols W /\ length u = length cols /\
    match ku with
    | KF x => forall v, In v u -> v = x
    | KA rows => forall g, of_lines rows line (length times) (length ws) g -> forall n c, nth_error cols n = Some c -> nth_error u n = Some (g c)
    end.
Proof. exact gen_rolling. Qed.
(** It is built for every non-empty series and kernel. *)
Theorem C45_exists : forall times dt ku wt ks ws, times <> [] -> dt <> 0%R -> kernel ku wt ks = Ok ws -> ws <> [] ->
  match ku with KF _ => True | KA rows => forall i, i < length times -> exists r, nth_error rows i = Some r /\ length r = length ws end ->
  exists W u, gen_w times dt ku wt ks = Ok (W, u).
Proof. exact gen_exists. Qed.
(** The kernel: the given weights, or equal weights of sum 1. *)
Theorem C45_kernel : forall ku wt ks ws, kernel ku wt ks = Ok ws ->
  match wt, ks, ku with
  | Some w, _, _ => ws = w
  | None, Some k, _ => ws = repeat (1 / INR k)%R k
  | None, None, KA (r :: _) => ws = repeat (1 / INR (length r))%R (length r)
  | None, None, _ => False
  end.
Proof. intros ku [w|] [k|] ws H; cbn in H; try (injection H as <-; reflexivity). destruct ku as [x|[|r rows]]; cbn in H; [discriminate|discriminate|injection H as <-; reflexivity]. Qed.
(** The result is a well-formed sparse matrix whose last column is used, so that it survives being stored in a file (C07). *)
Theorem C45_format : forall times dt ku wt ks ws W u line cols, gen_w times dt ku wt ks = Ok (W, u) -> rolling ws line (length times) cols W ->
  wf_csr W /\ (cols <> [] -> last_column_used W).
Proof. exact gen_format. Qed.
Print Assumptions C45_rolling_average.
Print Assumptions C45_exists.
Print Assumptions C45_kernel.
Print Assumptions C45_format.
(** Three match-ups, the second one scan line after the first, the third one before it, kernel of two lines, an uncertainty per line. *)
Example C45_example : exists W u, gen_w [10; 12; 8]%R 2 (KA [[1; 2]; [2; 3]; [4; 1]]%R) (Some [1; 1]%R) None = Ok (W, u) /\ c_ncols R W = 4 /\
  exists line g, of_lines [[1; 2]; [2; 3]; [4; 1]]%R line 3 2 g /\ lines_of [10; 12; 8]%R 2 line.
Proof.
  destruct (C45_exists [10; 12; 8]%R 2 (KA [[1; 2]; [2; 3]; [4; 1]]%R) (Some [1; 1]%R) None [1; 1]%R) as (W & u & H); [discriminate|lra|reflexivity|discriminate|intros [|[|[|i]]] Hi; cbn in Hi; try lia; eexists; split; reflexivity|].
  exists W, u. split; [exact H|]. assert (Hd : (1 / 100 < 2)%R) by lra. destruct (C45_rolling_average _ _ _ (Some [1; 1]%R) None [1; 1]%R _ _ Hd eq_refl H) as (line & cols & HL & HR & _ & _).
  assert (L0 : line 0 = 0%Z) by (apply (nearest_unique ((10 - 10) / 2)%R); [apply near0; cbn [IZR IPR IPR_2]; lra|exact (HL 0 _ eq_refl)]).
  assert (L1 : line 1 = 1%Z) by (apply (nearest_unique ((12 - 10) / 2)%R); [apply near0; cbn [IZR IPR IPR_2]; lra|exact (HL 1 _ eq_refl)]).
  assert (L2 : line 2 = (-1)%Z) by (apply (nearest_unique ((8 - 10) / 2)%R); [apply near0; cbn [IZR IPR IPR_2]; lra|exact (HL 2 _ eq_refl)]).
  split.
  - destruct HR as (_ & -> & HI & HC & _). assert (C : forall c, In c cols <-> In c [-1; 0; 1; 2]%Z).
    { intros c. rewrite HC. split.
      - intros (i & Hi & Hw). apply weight_range in Hw. cbn [length] in Hw. destruct i as [|[|[|i]]]; [rewrite L0 in Hw|rewrite L1 in Hw|rewrite L2 in Hw|cbn in Hi; lia]; cbn; lia.
      - assert (W0 : weight [1; 1]%R 0 <> 0%R) by (change (1 <> 0)%R; lra). assert (W1 : weight [1; 1]%R 1 <> 0%R) by (change (1 <> 0)%R; lra).
        intros [<-|[<-|[<-|[<-|[]]]]]; [exists 2; rewrite L2|exists 0; rewrite L0|exists 1; rewrite L1|exists 1; rewrite L1]; (split; [cbn; lia|assumption]). }
    assert (N : NoDup cols). { apply NoDup_nth_error. intros i j Hi E. destruct (Nat.lt_trichotomy i j) as [Hlt|[->|Hlt]]; [|auto|]; exfalso; (destruct (nth_error cols i) as [a|] eqn:Ea; [|apply nth_error_None in Ea; lia]).
      - pose proof (HI i j a a Hlt Ea (eq_sym E)). lia. - pose proof (HI j i a a Hlt (eq_sym E) Ea). lia. }
    apply Nat.le_antisymm.
    + apply (NoDup_incl_length (l' := [-1; 0; 1; 2]%Z) N). intros c Hc. apply C, Hc.
    + apply (NoDup_incl_length (l := [-1; 0; 1; 2]%Z) (l' := cols)); [repeat constructor; cbn; lia|]. intros c Hc. apply C, Hc.
  - exists line, (fun z => match z with (-1)%Z => 4 | 0%Z => 1 | 1%Z => 2 | _ => 3 end)%R. split; [|exact HL].
    intros i Hi. destruct i as [|[|[|i]]]; [| | |lia]; (eexists; split; [reflexivity|split; [reflexivity|]]); intros j v Hj; destruct j as [|[|j]]; try (destruct j; discriminate); injection Hj as <-; rewrite ?L0, ?L1, ?L2; cbn; split; lra.
Qed.

(** ** C74 *)
(** Scan-line times below 0.005: the relative time is rounded to 0.01 first, neighbouring scan lines are merged. *)
Theorem C74_short_lines_refuted : forall t dt v x, (0 < dt < 1 / 200)%R -> v <> 0%R ->
  exists W u, gen_w [t; t + dt]%R dt (KF x) (Some [v]) None = Ok (W, u) /\ ~ exists line cols, lines_of [t; t + dt]%R dt line /\ rolling [v] line 2 cols W.
Proof. exact lines_lost. Qed.
Print Assumptions C74_short_lines_refuted.

(** ** C75 *)
(** Averaged covariates of sensor 2: the file holds the rolling average for its times, and as many uncertainties as scan lines. *)
Theorem C75_sensor2 : forall time1 time2 dt uR1 uR2 ws s1 s2 mv c, (1 / 100 < dt)%R -> (exists k v, nth_error ws k = Some v /\ v <> 0%R) -> length time1 = length time2 -> (length uR1 = 1 <-> s1 = Ref) ->
  mw_variables time1 time2 dt uR1 uR2 ws s1 s2 = Ok mv -> c < averaged s2 -> covariate_ok mv (wuse2 R mv) (uuse2 R mv) time2 dt ws uR2 c.
Proof. exact mw_sensor2. Qed.
(** Sensor 1: only if both matrices have the same number of columns. *)
Theorem C75_sensor1_partial : forall time1 time2 dt uR1 uR2 ws s1 s2 mv c W1 u1 W2 u2 z1 z2, (1 / 100 < dt)%R -> (exists k v, nth_error ws k = Some v /\ v <> 0%R) -> length time1 = length time2 -> (length uR1 = 1 <-> s1 = Ref) ->
  gen_w time1 dt (KF z1) (Some ws) None = Ok (W1, u1) -> gen_w time2 dt (KF z2) (Some ws) None = Ok (W2, u2) -> nth_error uR1 0 = Some z1 -> nth_error uR2 0 = Some z2 -> c_ncols R W1 = c_ncols R W2 ->
  mw_variables time1 time2 dt uR1 uR2 ws s1 s2 = Ok mv -> c < averaged s1 -> covariate_ok mv (wuse1 R mv) (uuse1 R mv) time1 dt ws uR1 c.
Proof. exact mw_sensor1. Qed.
(** Otherwise all but the first averaged covariate of sensor 1 get as many uncertainties as sensor 2 has scan lines. *)
Theorem C75_sensor1_refuted : forall time1 time2 dt uR1 uR2 ws s1 s2 mv c W1 u1 W2 u2 z1 z2, (1 / 100 < dt)%R -> (exists k v, nth_error ws k = Some v /\ v <> 0%R) -> length time1 = length time2 -> (length uR1 = 1 <-> s1 = Ref) ->
  gen_w time1 dt (KF z1) (Some ws) None = Ok (W1, u1) -> gen_w time2 dt (KF z2) (Some ws) None = Ok (W2, u2) -> nth_error uR1 0 = Some z1 -> nth_error uR2 0 = Some z2 -> c_ncols R W1 <> c_ncols R W2 ->
  mw_variables time1 time2 dt uR1 uR2 ws s1 s2 = Ok mv -> 1 <= c < averaged s1 -> ~ covariate_ok mv (wuse1 R mv) (uuse1 R mv) time1 dt ws uR1 c.
Proof. exact mw_sensor1_wrong. Qed.
(** The covariates with a W matrix are those declared type 3 or 4. *)
Theorem C75_types : forall k a c t w, k <> 0 -> nth_error (mw_types a) c = Some t -> nth_error (w_uses k a) c = Some w -> (t = 3 \/ t = 4 <-> w <> 0).
Proof. exact types_uses. Qed.
Print Assumptions C75_sensor2.
Print Assumptions C75_sensor1_partial.
Print Assumptions C75_sensor1_refuted.
Print Assumptions C75_types.

(** Such files exist: two match-ups at the same time for sensor 1, one scan line apart for sensor 2. *)
Example C75_example : exists W1 W2 mv, gen_w [0; 0]%R 1 (KF 1%R) (Some [1%R]) None = Ok (W1, repeat 1%R (c_ncols R W1)) /\ gen_w [0; 1]%R 1 (KF 1%R) (Some [1%R]) None = Ok (W2, repeat 1%R (c_ncols R W2)) /\
  c_ncols R W1 <> c_ncols R W2 /\ mw_variables [0; 0]%R [0; 1]%R 1 [1; 1; 1]%R [1; 1; 1]%R [1]%R MHS MHS = Ok mv.
Proof.
  assert (Hd : (1 / 100 < 1)%R) by lra. assert (Hw : exists k v, nth_error [1%R] k = Some v /\ v <> 0%R) by (exists 0, 1%R; split; [reflexivity|lra]).
  destruct (C45_exists [0; 0]%R 1 (KF 1%R) (Some [1%R]) None [1%R]) as (W1 & u1 & G1); [discriminate|lra|reflexivity|discriminate|exact Logic.I|].
  destruct (C45_exists [0; 1]%R 1 (KF 1%R) (Some [1%R]) None [1%R]) as (W2 & u2 & G2); [discriminate|lra|reflexivity|discriminate|exact Logic.I|].
  destruct (gen_columns _ _ _ _ _ _ Hd Hw G1) as (F1 & C1 & N1 & U1 & l1 & c1 & L1 & R1). destruct (gen_columns _ _ _ _ _ _ Hd Hw G2) as (F2 & C2 & N2 & U2 & l2 & c2 & L2 & R2).
  destruct (codec_roundtrip 0%R [W1; W2] [repeat 1%R (c_ncols R W1); repeat 1%R (c_ncols R W2); repeat 1%R (c_ncols R W2); repeat 1%R (c_ncols R W2); repeat 1%R (c_ncols R W2); repeat 1%R (c_ncols R W2)] [] [] [] [] 2) as (mv0 & E & _); [discriminate|intros w [<-|[<-|[]]]; auto|].
  exists W1, W2. eexists. rewrite U1 in G1. rewrite U2 in G2. split; [exact G1|]. split; [exact G2|]. split.
  - assert (A0 : l1 0 = 0%Z) by (apply (nearest_unique ((0 - 0) / 1)%R); [apply near0; lra|exact (L1 0 _ eq_refl)]). assert (A1 : l1 1 = 0%Z) by (apply (nearest_unique ((0 - 0) / 1)%R); [apply near0; lra|exact (L1 1 _ eq_refl)]).
    assert (B0 : l2 0 = 0%Z) by (apply (nearest_unique ((0 - 0) / 1)%R); [apply near0; lra|exact (L2 0 _ eq_refl)]). assert (B1 : l2 1 = 1%Z) by (apply (nearest_unique ((1 - 0) / 1)%R); [apply near0; lra|exact (L2 1 _ eq_refl)]).
    assert (W0 : weight [1%R] 0 <> 0%R) by (change (1 <> 0)%R; lra).
    destruct R1 as (_ & -> & I1 & D1 & _). destruct R2 as (_ & -> & I2 & D2 & _). intros EL.
    assert (P1 : forall c, In c c1 -> c = 0%Z). { intros c Hc. apply D1 in Hc. destruct Hc as (i & Hi & Hc). apply weight_range in Hc. cbn [length] in Hc. destruct i as [|[|i]]; [rewrite A0 in Hc|rewrite A1 in Hc|cbn in Hi; lia]; lia. }
    assert (P2 : In 0%Z c2) by (apply D2; exists 0; rewrite B0; split; [cbn; lia|exact W0]). assert (P3 : In 1%Z c2) by (apply D2; exists 1; rewrite B1; split; [cbn; lia|exact W0]).
    destruct c1 as [|a [|b c1]].
    + destruct c2; [destruct P2|discriminate].
    + destruct c2 as [|x [|y c2]]; try discriminate. destruct P2 as [->|[]]. destruct P3 as [P3|[]]. discriminate.
    + pose proof (P1 a (or_introl eq_refl)). pose proof (P1 b (or_intror (or_introl eq_refl))). pose proof (I1 0 1 a b ltac:(lia) eq_refl eq_refl). lia.
  - unfold mw_variables. cbn [get nth_error bind length Nat.eqb]. rewrite G2. cbn [bind]. rewrite G1. cbn [bind]. rewrite repeat_length, E. cbn [bind use_tables]. reflexivity.
Qed.

(** ** C76 *)
(** The tool's result does not depend on the times of sensor 2 ... *)
Theorem C76_times_refuted : forall t1 t2 t2' r1 r2 s1 s2, mw_run (mkMw t1 t2 r1 r2) s1 s2 = mw_run (mkMw t1 t2' r1 r2) s1 s2.
Proof. intros. reflexivity. Qed.
(** ... it is right, for all averaged covariates, if both sensors have the times of sensor 1. *)
Theorem C76_times_partial : forall f r1 rs1 r2 rs2 s1 s2 mv, mw_ur1 f = r1 :: rs1 -> mw_ur2 f = r2 :: rs2 -> (length r1 = 1 <-> s1 = Ref) -> mw_run f s1 s2 = Ok mv ->
  (forall c, c < averaged s2 -> covariate_ok mv (wuse2 R mv) (uuse2 R mv) (mw_time1 f) (8 / 3) mw_weights r2 c) /\
  (forall c, c < averaged s1 -> covariate_ok mv (wuse1 R mv) (uuse1 R mv) (mw_time1 f) (8 / 3) mw_weights r1 c).
Proof.
  intros [t1 t2 u1 u2] r1 rs1 r2 rs2 s1 s2 mv E1 E2 Hs H. cbn [mw_ur1 mw_ur2 mw_time1] in *. subst u1 u2. unfold mw_run, read_matchup_data in H. cbn [mw_ur1 mw_ur2 mw_time1 get nth_error bind] in H.
  assert (Hd : (1 / 100 < 8 / 3)%R) by lra. assert (Hw : exists k v, nth_error mw_weights k = Some v /\ v <> 0%R) by (exists 0, (/ 16)%R; split; [reflexivity|lra]).
  split; intros c Hc.
  - eapply mw_sensor2; eauto.
  - destruct (Nat.eq_dec (length r1) 1) as [E|E]; [assert (s1 = Ref) by tauto; subst s1; cbn in Hc; lia|].
    destruct (mw_decode _ _ _ _ _ _ _ _ _ Hd Hw eq_refl Hs H) as (_ & W2 & x0 & x1 & x2 & G2 & A0 & _ & _ & D). rewrite (proj2 (Nat.eqb_neq _ _) E) in D. destruct D as (W1 & y0 & y1 & y2 & G1 & B0 & _).
    eapply (mw_sensor1 t1 t1 _ r1 r2 _ s1 s2 mv c W1 _ W2 _ y0 x0); eauto.
    destruct (gen_columns _ _ _ _ _ _ Hd Hw G1) as (_ & _ & _ & _ & l1 & c1 & _ & R1). assert (EQ : W1 = W2); [|congruence].
    clear - G1 G2. unfold gen_w in G1, G2. cbn [kernel bind] in G1, G2. destruct (column_positions t1 (8 / 3)) as [pos|]; [|discriminate]. cbn [bind] in G1, G2. destruct (pymax _); [|discriminate]. cbn [bind] in G1, G2. destruct (csr_new _ _ _ _ _); [|discriminate]. cbn [bind] in G1, G2. congruence.
Qed.
Print Assumptions C76_times_refuted.
Print Assumptions C76_times_partial.
