(** * Proofs for C75, C76: the microwave tool. *)
From Coq Require Import Reals Lra.
From Verif Require Import Base BaseLemmas ReaderModel ReaderMain UncModel UncSpec UncProofs TransformModel EvalModel GNModel SimModel WModel WSpec WProofs WProofs2 WProofs3.
Open Scope nat_scope.

Lemma gen_nonempty times dt ku wt ks W u : gen_w times dt ku wt ks = Ok (W, u) -> times <> [].
Proof. intros H ->. unfold gen_w in H. destruct (kernel ku wt ks); [|discriminate]. cbn in H. discriminate. Qed.
Lemma gen_columns times dt x ws W u : (1 / 100 < dt)%R -> (exists k v, nth_error ws k = Some v /\ v <> 0%R) -> gen_w times dt (KF x) (Some ws) None = Ok (W, u) ->
  wf_csr W /\ last_column_used W /\ c_nrows R W = length times /\ u = repeat x (c_ncols R W) /\ exists line cols, lines_of times dt line /\ rolling ws line (length times) cols W.
Proof.
  intros Hd (k & v & Hk & Hv) H. destruct (gen_rolling times dt (KF x) (Some ws) None ws W u Hd eq_refl H) as (line & cols & HL & HR & Hu & Hx). cbn in Hx.
  destruct (gen_format _ _ _ _ _ ws W u line cols H HR) as (F1 & F2). split; [auto|]. pose proof HR as (R1 & R2 & R3 & R4 & R5). split; [|split; [auto|split; [|eauto]]].
  - apply F2. intros ->. apply (proj2 (R4 (line 0%nat + Z.of_nat k)%Z)). exists 0. split; [pose proof (gen_nonempty _ _ _ _ _ _ _ H); destruct times; [congruence|cbn; lia]|]. unfold weight.
    replace (line 0%nat + Z.of_nat k - line 0%nat)%Z with (Z.of_nat k) by lia. replace (0 <=? Z.of_nat k)%Z with true by (symmetry; apply Z.leb_le; lia). rewrite Nat2Z.id, (nth_error_nth _ _ 0%R Hk). auto.
  - rewrite R2, <- Hu. apply (nth_ext _ _ 0%R 0%R); [rewrite repeat_length; auto|]. intros n Hn. rewrite (Hx (nth n u 0%R)) by (apply nth_In; auto). symmetry. apply nth_error_nth, repeat_nth. auto.
Qed.

Lemma uses_nth k a c : c < averaged a -> nth_error (w_uses k a) c = Some k /\ nth_error (u_uses k a) c = Some (k + Nat.min c 2).
Proof. intros H. destruct a; cbn [averaged] in H; [lia| |]; do 9 (destruct c as [|c]; [cbn; split; f_equal; lia|]); lia. Qed.
(** Types 3 and 4 are the averaged covariates. *)
Lemma types_uses k a c t w : k <> 0 -> nth_error (mw_types a) c = Some t -> nth_error (w_uses k a) c = Some w -> (t = 3 \/ t = 4 <-> w <> 0).
Proof. intros Hk. destruct a; do 11 (destruct c as [|c]; [cbn; intros H1 H2; first [discriminate H1 | discriminate H2 | injection H1 as <-; injection H2 as <-; split; [intros [?|?]; (discriminate || auto)|intros; (congruence || lia || auto)]]|]); destruct c; discriminate. Qed.

(** The variables and what they decode to. *)
Lemma mw_decode time1 time2 dt uR1 uR2 ws s1 s2 mv : (1 / 100 < dt)%R -> (exists k v, nth_error ws k = Some v /\ v <> 0%R) -> length time1 = length time2 -> (length uR1 = 1 <-> s1 = Ref) ->
  mw_variables time1 time2 dt uR1 uR2 ws s1 s2 = Ok mv ->
  s2 <> Ref /\ exists W2 x0 x1 x2, gen_w time2 dt (KF x0) (Some ws) None = Ok (W2, repeat x0 (c_ncols R W2)) /\ nth_error uR2 0 = Some x0 /\ nth_error uR2 1 = Some x1 /\ nth_error uR2 2 = Some x2 /\
  if (length uR1 =? 1) then wuse1 R mv = w_uses 1 s1 /\ wuse2 R mv = w_uses 1 s2 /\ uuse1 R mv = u_uses 1 s1 /\ uuse2 R mv = u_uses 1 s2 /\ open_w_matrix R mv 1 = Ok W2 /\
    open_u_matrix R mv 1 = Ok (repeat x0 (c_ncols R W2)) /\ open_u_matrix R mv 2 = Ok (repeat x1 (c_ncols R W2)) /\ open_u_matrix R mv 3 = Ok (repeat x2 (c_ncols R W2))
  else exists W1 y0 y1 y2, gen_w time1 dt (KF y0) (Some ws) None = Ok (W1, repeat y0 (c_ncols R W1)) /\ nth_error uR1 0 = Some y0 /\ nth_error uR1 1 = Some y1 /\ nth_error uR1 2 = Some y2 /\
    wuse1 R mv = w_uses 1 s1 /\ wuse2 R mv = w_uses 2 s2 /\ uuse1 R mv = u_uses 1 s1 /\ uuse2 R mv = u_uses 4 s2 /\ open_w_matrix R mv 1 = Ok W1 /\ open_w_matrix R mv 2 = Ok W2 /\
    open_u_matrix R mv 1 = Ok (repeat y0 (c_ncols R W1)) /\ open_u_matrix R mv 2 = Ok (repeat y1 (c_ncols R W2)) /\ open_u_matrix R mv 3 = Ok (repeat y2 (c_ncols R W2)) /\
    open_u_matrix R mv 4 = Ok (repeat x0 (c_ncols R W2)) /\ open_u_matrix R mv 5 = Ok (repeat x1 (c_ncols R W2)) /\ open_u_matrix R mv 6 = Ok (repeat x2 (c_ncols R W2)).
Proof.
  intros Hd Hws Hlen Hs1 H. unfold mw_variables in H.
  destruct (get uR2 0) as [x0|] eqn:X0; [|discriminate]. cbn [bind] in H. destruct (gen_w time2 dt (KF x0) (Some ws) None) as [[W2 u20]|] eqn:G2; [|discriminate]. cbn [bind] in H.
  destruct (get uR2 1) as [x1|] eqn:X1; [|discriminate]. cbn [bind] in H. destruct (get uR2 2) as [x2|] eqn:X2; [|discriminate]. cbn [bind] in H.
  destruct (gen_columns time2 dt x0 ws W2 u20 Hd Hws G2) as (F2 & L2 & N2 & U2 & _). rewrite U2, repeat_length in H. rewrite U2 in G2.
  apply get_ok in X0, X1, X2.
  destruct (Nat.eqb_spec (length uR1) 1) as [E1|E1].
  - cbn [bind] in H. destruct (codec_roundtrip 0%R [W2] [repeat x0 (c_ncols R W2); repeat x1 (c_ncols R W2); repeat x2 (c_ncols R W2)] [] [] [] [] (length time2)) as (mv0 & E & _ & _ & _ & _ & HW & HU); [discriminate|intros w [<-|[]]; auto|].
    rewrite E in H. cbn [bind] in H. assert (s1 = Ref) by tauto. subst s1. unfold use_tables in H. destruct s2; [discriminate| |]; cbn [bind] in H; injection H as <-;
      (split; [discriminate|]; exists W2, x0, x1, x2; do 4 (split; [assumption|]); cbn [wuse1 wuse2 uuse1 uuse2]; do 4 (split; [reflexivity|]);
       split; [exact (HW 0 W2 eq_refl)|]; split; [exact (HU 0 _ eq_refl)|]; split; [exact (HU 1 _ eq_refl)|exact (HU 2 _ eq_refl)]).
  - destruct (get uR1 0) as [y0|] eqn:Y0; [|discriminate]. cbn [bind] in H. destruct (gen_w time1 dt (KF y0) (Some ws) None) as [[W1 u10]|] eqn:G1; [|discriminate]. cbn [bind] in H.
    destruct (get uR1 1) as [y1|] eqn:Y1; [|discriminate]. cbn [bind] in H. destruct (get uR1 2) as [y2|] eqn:Y2; [|discriminate]. cbn [bind] in H.
    destruct (gen_columns time1 dt y0 ws W1 u10 Hd Hws G1) as (F1 & L1 & N1 & U1 & _). rewrite U1 in H, G1. apply get_ok in Y0, Y1, Y2.
    destruct (codec_roundtrip 0%R [W1; W2] [repeat y0 (c_ncols R W1); repeat y1 (c_ncols R W2); repeat y2 (c_ncols R W2); repeat x0 (c_ncols R W2); repeat x1 (c_ncols R W2); repeat x2 (c_ncols R W2)] [] [] [] [] (length time2)) as (mv0 & E & _ & _ & _ & _ & HW & HU); [discriminate|intros w [<-|[<-|[]]]; auto; rewrite <- Hlen; auto|].
    rewrite E in H. cbn [bind] in H. assert (s1 <> Ref) by (intros ->; apply E1; tauto). unfold use_tables in H. destruct s1; [congruence| |]; (destruct s2; [discriminate| |]); cbn [bind] in H; injection H as <-;
      (split; [discriminate|]; exists W2, x0, x1, x2; do 4 (split; [assumption|]); exists W1, y0, y1, y2; do 4 (split; [assumption|]); cbn [wuse1 wuse2 uuse1 uuse2]; do 4 (split; [reflexivity|]);
       split; [exact (HW 0 W1 eq_refl)|]; split; [exact (HW 1 W2 eq_refl)|]; split; [exact (HU 0 _ eq_refl)|]; split; [exact (HU 1 _ eq_refl)|]; split; [exact (HU 2 _ eq_refl)|];
       split; [exact (HU 3 _ eq_refl)|]; split; [exact (HU 4 _ eq_refl)|exact (HU 5 _ eq_refl)]).
Qed.
Lemma covariate_ok_intro mv k kw a times dt ws uR c W n x0 x1 x2 z : (1 / 100 < dt)%R -> (exists k v, nth_error ws k = Some v /\ v <> 0%R) -> c < averaged a -> gen_w times dt (KF z) (Some ws) None = Ok (W, repeat z (c_ncols R W)) ->
  nth_error uR 0 = Some x0 -> nth_error uR 1 = Some x1 -> nth_error uR 2 = Some x2 -> n = c_ncols R W -> open_w_matrix R mv kw = Ok W ->
  open_u_matrix R mv k = Ok (repeat x0 (c_ncols R W)) -> open_u_matrix R mv (k + 1) = Ok (repeat x1 n) -> open_u_matrix R mv (k + 2) = Ok (repeat x2 n) ->
  covariate_ok mv (w_uses kw a) (u_uses k a) times dt ws uR c.
Proof.
  intros Hd Hws Hc G A0 A1 A2 -> HW U0 U1 U2. destruct (gen_columns _ _ _ _ _ _ Hd Hws G) as (_ & _ & _ & _ & line & cols & HL & HR). pose proof HR as (_ & R2 & _).
  destruct (uses_nth kw a c Hc) as (E1 & _). destruct (uses_nth k a c Hc) as (_ & E2).
  assert (HU : exists x, open_u_matrix R mv (k + Nat.min c 2) = Ok (repeat x (c_ncols R W)) /\ nth_error uR (Nat.min c 2) = Some x).
  { destruct c as [|[|c]]; cbn [Nat.min]; [exists x0; rewrite Nat.add_0_r|exists x1|rewrite Nat.min_0_r || idtac; exists x2; replace (Nat.min c 0) with 0 by lia]; auto. }
  destruct HU as (x & Ux & Ex). exists kw, (k + Nat.min c 2), W, (repeat x (c_ncols R W)), line, cols. do 6 (split; [assumption|]). split; [rewrite repeat_length; auto|]. intros v Hv. apply repeat_spec in Hv. subst v. auto.
Qed.
Theorem mw_sensor2 time1 time2 dt uR1 uR2 ws s1 s2 mv c : (1 / 100 < dt)%R -> (exists k v, nth_error ws k = Some v /\ v <> 0%R) -> length time1 = length time2 -> (length uR1 = 1 <-> s1 = Ref) ->
  mw_variables time1 time2 dt uR1 uR2 ws s1 s2 = Ok mv -> c < averaged s2 -> covariate_ok mv (wuse2 R mv) (uuse2 R mv) time2 dt ws uR2 c.
Proof.
  intros Hd Hws Hl Hs1 H Hc. destruct (mw_decode _ _ _ _ _ _ _ _ _ Hd Hws Hl Hs1 H) as (_ & W2 & x0 & x1 & x2 & G2 & A0 & A1 & A2 & D). destruct (length uR1 =? 1).
  - destruct D as (_ & E2 & _ & E4 & D1 & D2 & D3 & D4). rewrite E2, E4. eapply covariate_ok_intro; eauto.
  - destruct D as (W1 & y0 & y1 & y2 & _ & _ & _ & _ & _ & E2 & _ & E4 & _ & D1 & _ & _ & _ & D2 & D3 & D4). rewrite E2, E4. eapply covariate_ok_intro; eauto.
Qed.
Theorem mw_sensor1 time1 time2 dt uR1 uR2 ws s1 s2 mv c W1 u1 W2 u2 z1 z2 : (1 / 100 < dt)%R -> (exists k v, nth_error ws k = Some v /\ v <> 0%R) -> length time1 = length time2 -> (length uR1 = 1 <-> s1 = Ref) ->
  gen_w time1 dt (KF z1) (Some ws) None = Ok (W1, u1) -> gen_w time2 dt (KF z2) (Some ws) None = Ok (W2, u2) -> nth_error uR1 0 = Some z1 -> nth_error uR2 0 = Some z2 -> c_ncols R W1 = c_ncols R W2 ->
  mw_variables time1 time2 dt uR1 uR2 ws s1 s2 = Ok mv -> c < averaged s1 -> covariate_ok mv (wuse1 R mv) (uuse1 R mv) time1 dt ws uR1 c.
Proof.
  intros Hd Hws Hl Hs1 G1 G2 Z1 Z2 Hcol H Hc. destruct (mw_decode _ _ _ _ _ _ _ _ _ Hd Hws Hl Hs1 H) as (_ & W2' & x0 & x1 & x2 & G2' & A0 & A1 & A2 & D). destruct (Nat.eqb_spec (length uR1) 1) as [E|E].
  - assert (s1 = Ref) by tauto. subst s1. cbn in Hc. lia.
  - destruct D as (W1' & y0 & y1 & y2 & G1' & B0 & B1 & B2 & E1 & _ & E3 & _ & D0 & _ & D1 & D2 & D3 & _). rewrite E1, E3. rewrite A0 in Z2. injection Z2 as <-. rewrite B0 in Z1. injection Z1 as <-. rewrite G2 in G2'. injection G2' as <- _. rewrite G1 in G1'. injection G1' as <- Eu. rewrite Eu in G1.
    eapply (covariate_ok_intro mv 1 1 s1 time1 dt ws uR1 c W1 (c_ncols R W2)); eauto.
Qed.
Theorem mw_sensor1_wrong time1 time2 dt uR1 uR2 ws s1 s2 mv c W1 u1 W2 u2 z1 z2 : (1 / 100 < dt)%R -> (exists k v, nth_error ws k = Some v /\ v <> 0%R) -> length time1 = length time2 -> (length uR1 = 1 <-> s1 = Ref) ->
  gen_w time1 dt (KF z1) (Some ws) None = Ok (W1, u1) -> gen_w time2 dt (KF z2) (Some ws) None = Ok (W2, u2) -> nth_error uR1 0 = Some z1 -> nth_error uR2 0 = Some z2 -> c_ncols R W1 <> c_ncols R W2 ->
  mw_variables time1 time2 dt uR1 uR2 ws s1 s2 = Ok mv -> 1 <= c < averaged s1 -> ~ covariate_ok mv (wuse1 R mv) (uuse1 R mv) time1 dt ws uR1 c.
Proof.
  intros Hd Hws Hl Hs1 G1 G2 Z1 Z2 Hcol H Hc (w & k & W & uv & line & cols & Hw & Hk & OW & OU & _ & HR & HL & _). destruct (mw_decode _ _ _ _ _ _ _ _ _ Hd Hws Hl Hs1 H) as (_ & W2' & x0 & x1 & x2 & G2' & A0 & A1 & A2 & D). destruct (Nat.eqb_spec (length uR1) 1) as [E|E].
  - assert (s1 = Ref) by tauto. subst s1. cbn in Hc. lia.
  - destruct D as (W1' & y0 & y1 & y2 & G1' & B0 & B1 & B2 & E1 & _ & E3 & _ & D0 & _ & D1 & D2 & D3 & _). rewrite E1, E3 in *. rewrite A0 in Z2. injection Z2 as <-. rewrite B0 in Z1. injection Z1 as <-. rewrite G2 in G2'. injection G2' as <- _. rewrite G1 in G1'. injection G1' as <- _.
    destruct (uses_nth 1 s1 c ltac:(lia)) as (Q1 & Q2). rewrite Hw in Q1. injection Q1 as ->. rewrite Hk in Q2. injection Q2 as ->. rewrite D0 in OW. injection OW as <-. destruct HR as (_ & R2 & _).
    assert (length uv = c_ncols R W2); [|congruence]. destruct c as [|[|c]]; [lia| |]; cbn [Nat.min Nat.add] in OU; [|replace (Nat.min c 0) with 0 in OU by lia]; rewrite ?D2, ?D3 in OU; injection OU as <-; apply repeat_length.
Qed.
