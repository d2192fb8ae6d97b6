(** * C58: residual and Jacobian of the preconditioner solver.  Proofs only. *)
From Coq Require Import Reals Lra.
From Verif Require Import Base BaseLemmas ReaderModel UncModel MuModel MuProofs SensorSpec SampleSpec SampleProofs TransformModel TransformSpec TransformProofs TransformProofs2 TransformMain TransformMain2 TransformMain3 EvalModel EvalSpec EvalProofs GNModel GNSpec GNAlgebra GNTerms GNAdjoint GNMain GNLoop GNTotal GNForward GNForward2 GNResidual GNOutput GNDeriv PCModel PCSpec PCAlgebra PCMatrix PCSide PCWeights PCWeights2 PCWeights3.
Open Scope nat_scope.

Definition dir (ncol : nat) (jc : nat -> nat -> R) (da : list R) (p : nat) : R := sm ncol (fun c => jc c p * nth c da 0)%R.
Definition cols_inv (n ncol : nat) (JT : list (list R)) (jc : nat -> nat -> R) : Prop := inv n ncol (eye n, JT) (fun _ => 1%R) jc.

Lemma cols_step n ncol JT jc w k c v : cols_inv n ncol JT jc -> w + k <= n -> length v = k -> c < ncol ->
  exists col col' JT', get JT c = Ok col /\ assign w (w + k) v col = Ok col' /\ setitem c col' JT = Ok JT' /\
    cols_inv n ncol JT' (fun c' p => if (c' =? c) && inw w k p then nth (p - w) v 0%R else jc c' p).
Proof.
  intros I Hw Lv Hc. destruct (col_step n ncol _ _ _ _ w k c v I Hw Lv Hc) as (JT' & E & I').
  unfold set_col in E. rewrite pyget_of_nat in E. destruct (get JT c) as [col|]; [|discriminate]. cbn [bind] in E.
  destruct (assign w (w + k) v col) as [col'|] eqn:Ea; [|discriminate]. cbn [bind] in E.
  replace (0 <=? Z.of_nat c)%Z with true in E by (symmetry; apply Z.leb_le; lia). rewrite Nat2Z.id in E. eauto 7.
Qed.

Lemma params_step n ncol w k s JB uK : w + k <= n -> length JB = k -> length uK = k ->
  forall pos cols JT jc, cols_inv n ncol JT jc -> NoDup pos -> (forall c, In c pos -> c < ncol) -> length pos = length cols -> (forall col, In col cols -> length col = k) ->
  (forall c p, In c pos -> inw w k p = true -> jc c p = 0%R) ->
  exists JT' jc', foldM (fun acc p =>
    do v <- bop Rmult (scal s JB) (snd p);; do v <- bop Rdiv v uK;; do col <- get acc (fst p);; do col' <- assign w (w + k) v col;; setitem (fst p) col' acc) (combine pos cols) JT = Ok JT' /\
    cols_inv n ncol JT' jc' /\ (forall c p, (~ In c pos \/ inw w k p = false) -> jc' c p = jc c p) /\
    forall da p, inw w k p = true -> dir ncol jc' da p = (dir ncol jc da p + s * nth (p - w) JB 0 * inner (map (fun col => nth (p - w) col 0%R) cols) (map (fun c => nth c da 0%R) pos) / nth (p - w) uK 0)%R.
Proof.
  intros Hw LB LK. induction pos as [|c pos IH]; intros cols JT jc I ND Hc Hl Hcol Hz; destruct cols as [|col cols]; try discriminate.
  - exists JT, jc. split; [reflexivity|]. split; [auto|]. split; [auto|]. intros da p Wp. cbn [map inner]. unfold Rdiv. ring.
  - cbn [combine foldM fst snd]. assert (Lcol : length col = k) by (apply Hcol; left; auto).
    rewrite bop_eq by (rewrite scal_len; lia). cbn [bind]. rewrite bop_eq by (rewrite zip2_len, scal_len; lia). cbn [bind].
    set (v := zip2 Rdiv (zip2 Rmult (scal s JB) col) uK). assert (Lv : length v = k) by (unfold v; rewrite !zip2_len, scal_len; lia).
    destruct (cols_step n ncol JT jc w k c v I Hw Lv (Hc c (or_introl eq_refl))) as (c0 & c1 & JT1 & E1 & E2 & E3 & I1).
    rewrite E1. cbn [bind]. rewrite E2. cbn [bind]. rewrite E3. cbn [bind].
    inversion ND as [|? ? Hni ND']; subst. 
    destruct (IH cols JT1 _ I1 ND') as (JT' & jc' & E' & I' & U' & D').
    + intros c' Hc'. apply Hc. right. auto.
    + cbn in Hl. lia.
    + intros x Hx. apply Hcol. right. auto.
    + intros c' p Hc' Wp. destruct (Nat.eqb_spec c' c); [subst; contradiction|]. cbn [andb]. apply Hz; [right; auto|auto].
    + exists JT', jc'. split; [exact E'|]. split; [auto|]. split.
      * intros c' p Hcp. rewrite U'.
        -- destruct Hcp as [Hn|Wf]; [|rewrite Wf, andb_false_r; auto]. destruct (Nat.eqb_spec c' c); [subst; exfalso; apply Hn; left; auto|reflexivity].
        -- destruct Hcp as [Hn|Wf]; [left; intros H; apply Hn; right; auto|right; auto].
      * intros da p Wp. rewrite D' by auto. cbn [map inner].
        assert (Ed : dir ncol (fun c' p => if (c' =? c) && inw w (length JB) p then nth (p - w) v 0%R else jc c' p) da p = (dir ncol jc da p + nth (p - w) v 0 * nth c da 0)%R).
        { unfold dir. rewrite <- (sm_delta ncol c (fun c' => (nth (p - w) v 0 * nth c' da 0)%R)) by (apply Hc; left; auto). rewrite <- sm_plus. apply sm_ext. intros c' Hc'.
          rewrite Wp, andb_true_r. destruct (Nat.eqb_spec c' c) as [->|]; [|lra]. rewrite (Hz c p (or_introl eq_refl) Wp). lra. }
        rewrite Ed. apply inw_true in Wp. unfold v. rewrite zip2_nth by (rewrite ?zip2_len, ?scal_len; lia). rewrite zip2_nth by (rewrite ?scal_len; lia). rewrite scal_nth. unfold Rdiv. ring.
Qed.

Section Jac.
Context {T : Type}.
Variables (m : mobj R T) (st : solver T) (a : list R).
Hypothesis PF : pc_for m st a.
Hypothesis FO : functions_ok m st.
Notation d := (g_m T st).
Notation sd := (g_sd T st).
Notation total := (list_sum (Nm (m_idx R T m))).
Notation off n := (list_sum (firstn n (Nm (m_idx R T m)))).
Notation N_a := (length (sd_a T (g_sd T st))).

Definition side_dir (side : nat) (ps : list string) (name : string) (J : option (list (list R))) (JB uK : list R) (i : nat) (da : list R) : R :=
  match J with
  | None => 0%R
  | Some cols => ((if side =? 1 then 1 else -1) * nth i JB 0 * inner (map (fun col => nth i col 0%R) (skipn (solver_ncov m) cols)) (labelled name ps da) / nth i uK 0)%R
  end.

Lemma side_params n side s name N ps ms f b X as_ c xt al r J r' JB uK JT jc w :
  pc_data m st a n side s name N ps ms f b X as_ c xt al r J r' JB -> length ps = N_a -> length uK = N -> w + N <= total ->
  cols_inv total N_a JT jc -> (forall i p, nth_error ps i = Some name -> inw w N p = true -> jc i p = 0%R) ->
  exists JT' jc', match J with None => Ok JT | Some J => pc_params ps name (solver_ncov m) (if side =? 1 then 1 else -1)%R JB uK J w (w + N) JT end = Ok JT' /\
    cols_inv total N_a JT' jc' /\ (forall i p, (nth_error ps i <> Some name \/ inw w N p = false) -> i < N_a -> jc' i p = jc i p) /\
    forall da p, length da = N_a -> inw w N p = true -> dir N_a jc' da p = (dir N_a jc da p + side_dir side ps name J JB uK (p - w) da)%R.
Proof.
  intros PD Lps LuK Hw I Hz. destruct PD as [Q1 Q2 Q3 Q4 Q5 Q6 (Q7 & Q8 & Q9) (Q10 & Q11) Q12 Q13 Q14 Q15].
  destruct J as [cols|].
  - destruct Q15 as (A1 & A2 & A3 & A4).
    destruct (param_cols_ok N_a total N 0 (solver_ncov m) name ps JB uK cols w (w + N) Q9 LuK eq_refl Hw ltac:(lia) A2 ltac:(lia) A4) as (pc & Ec & Ecols & Lc & Hcols).
    pose proof (param_pos_length 0 name ps) as Lp. pose proof (param_pos_NoDup 0 name ps) as Nd.
    assert (Hin : forall i, In i (param_pos ps name 0) -> nth_error ps i = Some name).
    { intros i Hi. unfold param_pos in Hi. apply in_map_iff in Hi as ((k & l) & Ei & H). cbn [fst] in Ei. apply filter_In in H as (H & Hl). cbn [fst snd] in *. apply String.eqb_eq in Hl. apply in_enumerate in H. subst. auto. }
    assert (Hin' : forall i, nth_error ps i = Some name -> In i (param_pos ps name 0)).
    { intros i Hi. unfold param_pos. apply in_map_iff. exists (i, name). split; [cbn; lia|]. apply filter_In. split; [apply in_enumerate; auto|]. cbn. apply String.eqb_refl. }
    unfold pc_params. cbv zeta. rewrite Ec. cbn [bind].
    destruct (params_step total N_a w N (if side =? 1 then 1 else -1)%R JB uK Hw Q9 LuK (param_pos ps name 0) pc JT jc I Nd) as (JT' & jc' & E' & I' & U' & D').
    + intros c0 Hc0. apply Hin in Hc0. rewrite <- Lps. apply nth_error_Some. congruence.
    + lia.
    + intros col Hcol. apply Hcols. auto.
    + intros c0 p Hc0 Wp. apply Hz; auto.
    + exists JT', jc'. split; [exact E'|]. split; [auto|]. split.
      * intros i p [Hi|Wf] Hlt; apply U'; [left; intros H; apply Hi, Hin, H|right; auto].
      * intros da p Lda Wp. rewrite D' by auto. unfold side_dir. f_equal. rewrite Ecols. f_equal. f_equal. f_equal.
        change (labelled name ps da) with (labelled name ps (skipn (0 + 0) da)). rewrite <- (labelled_pos name 0 da ps 0); [reflexivity|]. cbn [skipn Nat.add]. lia.
  - exists JT, jc. split; [auto|]. split; [auto|]. split; [auto|]. intros. cbn. lra.
Qed.

(** One series: what has been established for match-up [i]. *)
Definition match_up (n i N : nat) (x : R) (dd : list R -> R) : Prop :=
  exists name0 name1 ps s0 ms0 f0 b0 X0 as0 c0 xt0 al0 r0 J0 r0' JB0 s1 ms1 f1 b1 X1 as1 c1 xt1 al1 r1 J1 r1' JB1 uK,
    pc_data m st a n 0 s0 name0 N ps ms0 f0 b0 X0 as0 c0 xt0 al0 r0 J0 r0' JB0 /\ pc_data m st a n 1 s1 name1 N ps ms1 f1 b1 X1 as1 c1 xt1 al1 r1 J1 r1' JB1 /\
    nth_error (sensors (m_idx R T m)) s0 = Some name0 /\ nth_error (sensors (m_idx R T m)) s1 = Some name1 /\
    nth_error (m_unck R T m) n = Some uK /\ x = ((nth i r1' 0 - nth i r0' 0) / nth i uK 0)%R /\
    forall da, length da = N_a -> dd da = (side_dir 0 ps name0 J0 JB0 uK i da + side_dir 1 ps name1 J1 JB1 uK i da)%R.

Definition kJ_series (acc : list R * list (list R)) (p : nat * (nat * nat)) : res (list R * list (list R)) :=
    do uK <- get (m_unck R T d) (fst p);;
    do istart <- get (cNm (m_idx R T d)) (fst p);;
    do iend <- get (cNm (m_idx R T d)) (fst p + 1);;
    do r <- foldM (fun acc q =>
        do name <- get (sensors (m_idx R T d)) (snd q);;
        do side <- pc_side T st (snd q) (fst p + 1);;
        let s := (if fst q =? 1 then 1 else -1)%R in
        do Ja <- match fst side with
                 | None => Ok (snd acc)
                 | Some J =>
                     do ps <- match m_ps R T d with Some l => Ok l | None => Raise KeyError end;;
                     pc_params ps name (solver_ncov m) s (snd (snd side)) uK J istart iend (snd acc)
                 end;;
        Ok (fst acc ++ [fst (snd side)], Ja)) [(0, fst (snd p)); (1, snd (snd p))] ([], snd acc);;
    do B0 <- get (fst r) 0;;
    do B1 <- get (fst r) 1;;
    do d <- bop Rminus B1 B0;;
    do d <- bop Rdiv d uK;;
    do k <- assign istart iend d (fst acc);;
    Ok (k, snd r).

Lemma kJ_step n p N k JT jc : nth_error (Im (m_idx R T m)) n = Some p -> nth_error (Nm (m_idx R T m)) n = Some N ->
  length k = total -> cols_inv total N_a JT jc -> (forall q c, inw (off n) N q = true -> jc c q = 0%R) ->
  exists k' JT' jc', kJ_series (k, JT) (n, p) = Ok (k', JT') /\ length k' = total /\ cols_inv total N_a JT' jc' /\
    (forall q, inw (off n) N q = false -> nth q k' 0%R = nth q k 0%R /\ forall c, c < N_a -> jc' c q = jc c q) /\
    forall i, i < N -> match_up n i N (nth (off n + i) k' 0%R) (fun da => dir N_a jc' da (off n + i)).
Proof.
  intros Hp HN Lk I Hz. set (w := off n) in *.
  assert (Hn : n < length (Nm (m_idx R T m))) by (apply nth_error_Some; congruence).
  assert (Hw : w + N <= total).
  { rewrite <- (firstn_skipn (S n) (Nm (m_idx R T m))). rewrite list_sum_app, (list_sum_firstn_S _ _ _ HN). unfold w. lia. }
  destruct (nth_error (m_unck R T m) n) as [uK|] eqn:EuK.
  2:{ apply nth_error_None in EuK. rewrite (wf_unck _ (pf_wf _ _ _ PF)) in EuK. lia. }
  assert (LuK : length uK = N). { pose proof (proj1 (proj2 (pf_shapes _ _ _ PF)) n uK EuK). congruence. }
  destruct (SLd m st a PF) as (S1 & S2 & S3 & S4 & S5 & S6 & S7 & S8 & S9 & S10 & _).
  destruct (ev_pair _ _ (pf_ev _ _ _ PF) n p Hp) as (Hne & Hin).
  assert (Hname : forall s, s = fst p \/ s = snd p -> exists name, nth_error (sensors (m_idx R T m)) s = Some name).
  { intros s Hs. destruct (Hin s Hs) as (Hlt & _). destruct (nth_error (sensors (m_idx R T m)) s) eqn:E; [eauto|]. apply nth_error_None in E. lia. }
  unfold kJ_series. cbn [fst snd]. rewrite S10, (proj2 (get_ok _ _ _) EuK). cbn [bind]. rewrite S4, (wf_cnm _ (pf_wf _ _ _ PF)).
  assert (C0 : nth_error (cumul 0 (Nm (m_idx R T m))) n = Some w) by (rewrite cumul_nth by lia; reflexivity).
  assert (C1 : nth_error (cumul 0 (Nm (m_idx R T m))) (n + 1) = Some (w + N)). { rewrite cumul_nth by lia. f_equal. unfold w. replace (n + 1) with (S n) by lia. rewrite (list_sum_firstn_S _ _ _ HN). lia. }
  rewrite (proj2 (get_ok _ _ _) C0). cbn [bind]. rewrite (proj2 (get_ok _ _ _) C1). cbn [bind foldM fst snd].
  destruct (Hname (fst p) (or_introl eq_refl)) as (name0 & Hn0). destruct (Hname (snd p) (or_intror eq_refl)) as (name1 & Hn1).
  destruct (pc_side_ok m st a PF FO n p 0 (fst p) name0 N Hp ltac:(lia) eq_refl Hn0 HN) as (ps0 & ms0 & f0 & b0 & X0 & as0 & c0 & xt0 & al0 & r0 & J0 & r0' & JB0 & PD0).
  destruct (pc_side_ok m st a PF FO n p 1 (snd p) name1 N Hp ltac:(lia) eq_refl Hn1 HN) as (ps1 & ms1 & f1 & b1 & X1 & as1 & c1 & xt1 & al1 & r1 & J1 & r1' & JB1 & PD1).
  pose proof (pd_ps _ _ _ _ _ _ _ _ _ _ _ _ _ _ _ _ _ _ _ _ _ PD0) as P0. pose proof (pd_ps _ _ _ _ _ _ _ _ _ _ _ _ _ _ _ _ _ _ _ _ _ PD1) as P1.
  assert (ps1 = ps0) by congruence. subst ps1.
  destruct (pf_ps _ _ _ PF) as (ps & Eps & Lps). assert (ps = ps0) by congruence. subst ps.
  destruct (solver_facts (pm m) (pst m st) (SF' m st a PF)) as (nv & ns & St & _ & _ & _ & _ & _ & Hmps & _).
  change (m_ps R T d = m_ps R T m) in Hmps.
  assert (Hdiff : name0 <> name1).
  { intros E. apply Hne. apply (proj1 (NoDup_nth_error _) (ev_names _ _ (pf_ev _ _ _ PF))); [apply nth_error_Some; congruence|congruence]. }
  rewrite S1, (proj2 (get_ok _ _ _) Hn0). cbn [bind]. rewrite (pd_side _ _ _ _ _ _ _ _ _ _ _ _ _ _ _ _ _ _ _ _ _ PD0). cbn [bind fst snd]. rewrite Hmps, Eps. cbn [bind].
  destruct (side_params n 0 (fst p) name0 N ps0 ms0 f0 b0 X0 as0 c0 xt0 al0 r0 J0 r0' JB0 uK JT jc w PD0 Lps LuK Hw I) as (JT0 & jc0 & E0 & I0 & U0 & D0).
  { intros i q _ Wq. apply Hz. auto. }
  cbn [Nat.eqb] in E0 |- *. rewrite E0. cbn [bind].
  rewrite (proj2 (get_ok _ _ _) Hn1). cbn [bind]. rewrite (pd_side _ _ _ _ _ _ _ _ _ _ _ _ _ _ _ _ _ _ _ _ _ PD1). cbn [bind fst snd].
  destruct (side_params n 1 (snd p) name1 N ps0 ms1 f1 b1 X1 as1 c1 xt1 al1 r1 J1 r1' JB1 uK JT0 jc0 w PD1 Lps LuK Hw I0) as (JT1 & jc1 & E1 & I1 & U1 & D1).
  { intros i q Hi Wq. rewrite U0; [apply Hz; auto|left; congruence|]. rewrite <- Lps. apply nth_error_Some. congruence. }
  cbn [Nat.eqb] in E1. rewrite E1. cbn [bind app get nth_error fst snd].
  destruct (pd_len _ _ _ _ _ _ _ _ _ _ _ _ _ _ _ _ _ _ _ _ _ PD0) as (_ & L0 & _). destruct (pd_len _ _ _ _ _ _ _ _ _ _ _ _ _ _ _ _ _ _ _ _ _ PD1) as (_ & L1 & _).
  rewrite bop_eq by lia. cbn [bind]. rewrite bop_eq by (rewrite zip2_len; lia). cbn [bind].
  set (v := zip2 Rdiv (zip2 Rminus r1' r0') uK). assert (Lv : length v = N) by (unfold v; rewrite !zip2_len; lia).
  assert (Ls : length v = length (slice w (w + N) k)) by (rewrite slice_length; lia).
  destruct (assign w (w + N) v k) as [k'|] eqn:Ea; [|unfold assign in Ea; rewrite Ls, Nat.eqb_refl in Ea; discriminate].
  cbn [bind]. destruct (nth_assign _ _ _ _ _ 0%R Ls Ea) as (L' & N'). rewrite Lv in N'.
  exists k', JT1, jc1. split; [reflexivity|]. split; [lia|]. split; [auto|]. split.
  - intros q Wq. split; [rewrite N', Wq; auto|]. intros c Hc. rewrite U1, U0 by auto. reflexivity.
  - intros i Hi. assert (Wi : inw w N (w + i) = true) by (apply inw_true; lia).
    exists name0, name1, ps0, (fst p), ms0, f0, b0, X0, as0, c0, xt0, al0, r0, J0, r0', JB0, (snd p), ms1, f1, b1, X1, as1, c1, xt1, al1, r1, J1, r1', JB1, uK.
    do 5 (split; [auto|]). split.
    + rewrite N', Wi. replace (w + i - w) with i by lia. unfold v. rewrite zip2_nth by (rewrite ?zip2_len; lia). rewrite zip2_nth by lia. reflexivity.
    + intros da Lda. rewrite D1, D0 by auto. replace (w + i - w) with i by lia. unfold dir at 1. rewrite sm_zero; [lra|]. intros c Hc. rewrite Hz by auto. lra.
Qed.

Definition kJ_done (k0 : nat) (acc : list R * list (list R)) : Prop :=
  exists jc, length (fst acc) = total /\ cols_inv total N_a (snd acc) jc /\ (forall p c, off k0 <= p -> c < N_a -> jc c p = 0%R) /\
    forall n N i, n < k0 -> nth_error (Nm (m_idx R T m)) n = Some N -> i < N -> match_up n i N (nth (off n + i) (fst acc) 0%R) (fun da => dir N_a jc da (off n + i)).

Lemma kJ_all : exists kJ, pc_kJ T st = Ok kJ /\ kJ_done (length (Nm (m_idx R T m))) kJ.
Proof.
  assert (LI : length (Im (m_idx R T m)) = length (Nm (m_idx R T m))) by apply (proj1 (pf_shapes _ _ _ PF)).
  pose proof (ncov_ok (pm m) (pst m st) (SF' m st a PF)) as Hnc. change (pylast (n_cov (m_idx R T (g_m T st))) = Ok (solver_ncov m)) in Hnc.
  destruct (SLd m st a PF) as (S1 & S2 & S3 & S4 & S5 & S6 & S7 & S8 & S9 & S10 & _).
  assert (EP : pylast (cNm (m_idx R T d)) = Ok total) by (rewrite S4, (wf_cnm _ (pf_wf _ _ _ PF)), pylast_cumul; reflexivity).
  unfold pc_kJ. cbv zeta. rewrite EP. cbn [bind]. rewrite Hnc. cbn [bind]. rewrite S2. cbn [Nat.add].
  destruct (foldM_inv kJ_series (fun done acc => kJ_done (length done) acc) (enumerate (Im (m_idx R T m))) (repeat 0%R total, repeat (repeat 0%R total) N_a)) as (kJ & E & D).
  - exists (fun _ _ => 0%R). cbn [fst snd length]. split; [apply repeat_length|]. split; [|split; [auto|intros n N i Hn; lia]]. constructor; cbn [fst snd].
    + apply eye_square.
    + intros. apply eye_entry; auto.
    + apply repeat_length.
    + intros c Hc. apply repeat_spec in Hc. subst. apply repeat_length.
    + intros c p Hc Hp. rewrite (nth_indep _ [] (repeat 0%R total)) by (rewrite repeat_length; auto). rewrite !nth_repeat. reflexivity.
  - intros done (k, p) rest (kv, JT) El (jc & D1 & D2 & D3 & D4). assert (Hk : nth_error (enumerate (Im (m_idx R T m))) (length done) = Some (k, p)) by (rewrite El, nth_error_app2, Nat.sub_diag by auto; reflexivity).
    rewrite enumerate_nth in Hk. destruct (nth_error (Im (m_idx R T m)) (length done)) as [p'|] eqn:Ep; [|discriminate]. cbn in Hk. injection Hk as <- <-.
    assert (Hlt : length done < length (Im (m_idx R T m))) by (apply nth_error_Some; congruence).
    destruct (nth_error (Nm (m_idx R T m)) (length done)) as [N|] eqn:EN; [|apply nth_error_None in EN; lia]. cbn [fst snd] in *.
    assert (D2' : cols_inv total N_a JT (fun c p => if c <? N_a then jc c p else 0%R)).
    { eapply inv_ext; [exact D2|auto|]. intros c q Hc Hq. cbn beta. replace (c <? N_a) with true by (symmetry; apply Nat.ltb_lt; auto). reflexivity. }
    destruct (kJ_step (length done) p' N kv JT _ Ep EN D1 D2') as (k' & JT' & jc' & E' & L' & I' & U' & M').
    { intros q c Wq. apply inw_true in Wq. cbn beta. destruct (Nat.ltb_spec c N_a); [|auto]. apply D3; [lia|auto]. }
    exists (k', JT'). split; [exact E'|]. rewrite app_length. cbn [length]. rewrite Nat.add_1_r. exists jc'. cbn [fst snd]. split; [auto|]. split; [auto|].
    assert (OFF : forall c q, c < N_a -> inw (off (length done)) N q = false -> jc' c q = jc c q).
    { intros c q Hc Wq. destruct (U' q Wq) as (_ & U2). rewrite U2 by auto. cbn beta. replace (c <? N_a) with true by (symmetry; apply Nat.ltb_lt; auto). reflexivity. }
    split.
    + intros q c Hq Hc. rewrite (list_sum_firstn_S _ _ _ EN) in Hq. rewrite OFF; [apply D3; [lia|auto]|auto|apply inw_false; lia].
    + intros n N' i Hn HN' Hi. destruct (Nat.eq_dec n (length done)) as [->|Hnk].
      * assert (N' = N) by congruence. subst N'. apply M'. auto.
      * pose proof (firstn_sum_mono (Nm (m_idx R T m)) (S n) (length done) ltac:(lia)) as Mo. rewrite (list_sum_firstn_S _ _ _ HN') in Mo.
        assert (Wf : inw (off (length done)) N (off n + i) = false) by (apply inw_false; lia).
        destruct (U' _ Wf) as (U1 & _). rewrite U1. specialize (D4 n N' i ltac:(lia) HN' Hi).
        destruct D4 as (v1 & v2 & v3 & v4 & v5 & v6 & v7 & v8 & v9 & v10 & v11 & v12 & v13 & v14 & v15 & v16 & v17 & v18 & v19 & v20 & v21 & v22 & v23 & v24 & v25 & v26 & v27 & v28 & v29 & v30 & H1 & H2 & H3 & H4 & H5 & H6 & H7).
        exists v1, v2, v3, v4, v5, v6, v7, v8, v9, v10, v11, v12, v13, v14, v15, v16, v17, v18, v19, v20, v21, v22, v23, v24, v25, v26, v27, v28, v29, v30.
        do 6 (split; [auto|]). intros da Lda. rewrite <- (H7 da Lda). unfold dir. apply sm_ext. intros c Hc. rewrite OFF by auto. reflexivity.
  - exists kJ. split; [exact E|]. replace (length (enumerate (Im (m_idx R T m)))) with (length (Nm (m_idx R T m))) in D; [auto|]. unfold enumerate. rewrite <- LI. clear.
    generalize 0. induction (Im (m_idx R T m)); intros; cbn; auto.
Qed.
End Jac.
