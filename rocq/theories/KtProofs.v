From Coq Require Import Reals Lra Lia.
From Verif Require Import Base BaseLemmas TransformModel PCAlgebra LsmrModel LsmrAlg LsmrSpec KtModel KtSpec.
Open Scope R_scope.

Lemma Rabs_le_inv a b : Rabs a <= b -> - b <= a <= b.
Proof. intros H. pose proof (Rle_abs a). pose proof (Rle_abs (- a)). rewrite Rabs_Ropp in H1. lra. Qed.

(** ** roots_quadratic *)
Lemma newton_root a2 a1 a0 r : quad a2 a1 a0 r = 0 -> newton a2 a1 a0 r = Ok r.
Proof.
  intros H. unfold newton. destruct (Reqb (2 * a2 * r + a1) 0) eqn:E; [reflexivity|].
  rewrite pdiv_ok. 2:{ intros K. apply Reqb_iff in K. rewrite K in E. discriminate. }
  cbn [bind]. f_equal. replace ((a2 * r + a1) * r + a0) with 0.
  - unfold Rdiv. ring.
  - rewrite <- H. unfold quad. ring.
Qed.
Lemma refine_root a2 a1 a0 r : quad a2 a1 a0 r = 0 -> forall k, refine k a2 a1 a0 r = Ok r.
Proof. intros H. induction k; cbn [refine]; [reflexivity|]. rewrite newton_root by auto. exact IHk. Qed.
Lemma newton_ok a2 a1 a0 r : exists r', newton a2 a1 a0 r = Ok r'.
Proof.
  unfold newton. destruct (Reqb (2 * a2 * r + a1) 0) eqn:E; [eexists; reflexivity|].
  rewrite pdiv_ok; [eexists; reflexivity|]. intros K. apply Reqb_iff in K. rewrite K in E. discriminate.
Qed.
Lemma refine_ok a2 a1 a0 : forall k r, exists r', refine k a2 a1 a0 r = Ok r'.
Proof. induction k; intros r; cbn [refine]; [eauto|]. destruct (newton_ok a2 a1 a0 r) as [r' ->]. cbn [bind]. apply IHk. Qed.

Lemma copysign_facts rho a1 : 0 <= rho -> let c := copysign (sqrt rho) a1 in c * c = rho /\ 0 <= a1 * c.
Proof.
  intros H. cbn. unfold copysign. pose proof (sqrt_sqrt rho H) as E. pose proof (sqrt_pos rho) as P.
  destruct (Rltb a1 0) eqn:L.
  - apply Rltb_iff in L. split; [rewrite <- E at 3; ring|]. replace (a1 * - sqrt rho) with ((- a1) * sqrt rho) by ring. apply Rmult_le_pos; lra.
  - assert (0 <= a1). { destruct (Rle_dec 0 a1); auto. rewrite Rltb_t in L by lra. discriminate. }
    split; [exact E|]. apply Rmult_le_pos; lra.
Qed.

Lemma two_roots a2 a1 a0 tol k : a2 <> 0 -> tol * a1 * a1 < Rabs (a0 * a2) -> 0 <= a1 * a1 - 4 * a2 * a0 ->
  exists r1 r2, roots_quadratic a2 a1 a0 tol k = Ok [r1; r2] /\ forall x, quad a2 a1 a0 x = a2 * (x - r1) * (x - r2).
Proof.
  intros H2 Ht Hr. destruct (copysign_facts _ a1 Hr) as [Hc Hs].
  set (c := copysign (sqrt (a1 * a1 - 4 * a2 * a0)) a1) in *.
  set (d := - (1 / 2) * (a1 + c)).
  assert (Hd : d <> 0).
  { intros K. assert (Ea : a1 = - c) by (unfold d in K; lra).
    assert (Hz : a1 * a1 = 0). { assert (0 <= a1 * a1) by apply Rle_0_sqr. assert (a1 * c = - (a1 * a1)) by (rewrite Ea; ring). lra. }
    assert (a1 = 0) by (apply Rmult_integral in Hz; tauto). assert (c = 0) by lra.
    assert (a2 * a0 = 0) by (rewrite H in Hc; rewrite H0 in Hc; lra).
    rewrite H, (Rmult_comm a0 a2), H1, Rabs_R0 in Ht. lra. }
  assert (Hq : d * d + a1 * d + a2 * a0 = 0).
  { unfold d. replace ((- (1 / 2) * (a1 + c)) * (- (1 / 2) * (a1 + c)) + a1 * (- (1 / 2) * (a1 + c)) + a2 * a0) with (/ 4 * (c * c - (a1 * a1 - 4 * a2 * a0))) by field.
    rewrite Hc. ring. }
  assert (F : forall x, quad a2 a1 a0 x = a2 * (x - d / a2) * (x - a0 / d)).
  { intros x. unfold quad. replace (a2 * (x - d / a2) * (x - a0 / d)) with (a2 * x ^ 2 - x * ((d * d + a2 * a0) / d) + a0) by (field; auto).
    replace (d * d + a2 * a0) with (- (a1 * d)) by lra. field. auto. }
  exists (d / a2), (a0 / d). split; [|exact F].
  unfold roots_quadratic, first_roots. rewrite (Reqb_f a2 0 H2), (Rltb_t _ _ Ht), (Rltb_f _ 0 Hr). cbv zeta.
  change (- (1 / 2) * (a1 + copysign (sqrt (a1 * a1 - 4 * a2 * a0)) a1)) with d.
  rewrite (pdiv_ok d a2 H2), (pdiv_ok a0 d Hd). cbn [bind mapM].
  rewrite (refine_root a2 a1 a0 (d / a2)) by (rewrite F; field; auto).
  rewrite (refine_root a2 a1 a0 (a0 / d)) by (rewrite F; field; auto). reflexivity.
Qed.

Lemma no_roots a2 a1 a0 tol k : a2 <> 0 -> tol * a1 * a1 < Rabs (a0 * a2) -> a1 * a1 - 4 * a2 * a0 < 0 ->
  roots_quadratic a2 a1 a0 tol k = Ok [] /\ forall x, quad a2 a1 a0 x <> 0.
Proof.
  intros H2 Ht Hr. split.
  - unfold roots_quadratic, first_roots. rewrite (Reqb_f a2 0 H2), (Rltb_t _ _ Ht), (Rltb_t _ 0 Hr). reflexivity.
  - intros x E. unfold quad in E. assert (K : (2 * a2 * x + a1) * (2 * a2 * x + a1) = a1 * a1 - 4 * a2 * a0).
    { replace (a1 * a1 - 4 * a2 * a0) with (a1 * a1 - 4 * a2 * a0 + 4 * a2 * (a2 * x ^ 2 + a1 * x + a0)) by (rewrite E; ring). ring. }
    assert (0 <= (2 * a2 * x + a1) * (2 * a2 * x + a1)) by apply Rle_0_sqr. lra.
Qed.

Lemma roots_exact q2 q1 q0 tol k : (q2 <> 0 -> tol * q1 * q1 < Rabs (q0 * q2)) -> ~ (q2 = 0 /\ q1 = 0 /\ q0 = 0) ->
  exists l, roots_quadratic q2 q1 q0 tol k = Ok l /\ forall x, In x l <-> quad q2 q1 q0 x = 0.
Proof.
  intros Ht Hn. destruct (Req_EM_T q2 0) as [E2|H2].
  - destruct (Req_EM_T q1 0) as [E1|H1].
    + assert (H0 : q0 <> 0) by tauto. exists []. split.
      * unfold roots_quadratic, first_roots. rewrite (Reqb_t q2 0 E2), (Reqb_t q1 0 E1), (Reqb_f q0 0 H0). reflexivity.
      * intros x. split; [intros []|]. unfold quad. rewrite E2, E1. intros K. apply H0. lra.
    + assert (Z : quad q2 q1 q0 (- q0 / q1) = 0) by (unfold quad; rewrite E2; field; auto).
      exists [- q0 / q1]. split.
      * unfold roots_quadratic, first_roots. rewrite (Reqb_t q2 0 E2), (Reqb_f q1 0 H1), (pdiv_ok _ _ H1). cbn [bind mapM].
        rewrite refine_root by exact Z. reflexivity.
      * intros x. split; [intros [<-|[]]; exact Z|]. unfold quad. rewrite E2. intros K. left.
        apply Rmult_eq_reg_l with q1; auto. replace (q1 * (- q0 / q1)) with (- q0) by (field; auto). lra.
  - specialize (Ht H2). destruct (Rlt_dec (q1 * q1 - 4 * q2 * q0) 0) as [L|L].
    + destruct (no_roots q2 q1 q0 tol k H2 Ht L) as [E F]. exists []. split; [exact E|]. intros x. split; [intros []|]. intros K. exact (F x K).
    + destruct (two_roots q2 q1 q0 tol k H2 Ht ltac:(lra)) as (r1 & r2 & E & F). exists [r1; r2]. split; [exact E|].
      intros x. rewrite F. split.
      * intros [<-|[<-|[]]]; ring.
      * intros K. apply Rmult_integral in K as [K|K]; [apply Rmult_integral in K as [K|K]; [contradiction|]|]; [left|right; left]; lra.
Qed.

Lemma roots_total q2 q1 q0 tol k : exists l, roots_quadratic q2 q1 q0 tol k = Ok l.
Proof.
  destruct (Req_EM_T q2 0) as [E2|H2].
  - unfold roots_quadratic, first_roots. rewrite (Reqb_t q2 0 E2).
    destruct (Reqb q1 0) eqn:E1; [destruct (Reqb q0 0); eexists; reflexivity|].
    rewrite pdiv_ok. 2:{ intros K. apply Reqb_iff in K. rewrite K in E1. discriminate. }
    cbn [bind mapM]. destruct (refine_ok q2 q1 q0 k (- q0 / q1)) as [r ->]. eexists; reflexivity.
  - destruct (Rlt_dec (tol * q1 * q1) (Rabs (q0 * q2))) as [Ht|Ht].
    + destruct (roots_exact q2 q1 q0 tol k) as (l & E & _); [auto|tauto|]. eauto.
    + unfold roots_quadratic, first_roots. rewrite (Reqb_f q2 0 H2), (Rltb_f (tol * q1 * q1) (Rabs (q0 * q2)) ltac:(lra)). rewrite (pdiv_ok _ _ H2). cbn [bind mapM].
      destruct (refine_ok q2 q1 q0 k (- q1 / q2)) as [r ->]. cbn [bind]. destruct (refine_ok q2 q1 q0 k 0) as [r' ->]. eexists; reflexivity.
Qed.

(** *** Newton's iteration in the ill-conditioned case *)
Lemma newton_mirror a2 a1 a0 x : a2 <> 0 -> newton a2 a1 a0 (- a1 / a2 - x) = do r <- newton a2 a1 a0 x;; Ok (- a1 / a2 - r).
Proof.
  intros H. unfold newton.
  assert (ED : 2 * a2 * (- a1 / a2 - x) + a1 = - (2 * a2 * x + a1)) by (field; auto).
  assert (EV : (a2 * (- a1 / a2 - x) + a1) * (- a1 / a2 - x) + a0 = (a2 * x + a1) * x + a0) by (field; auto).
  rewrite ED, EV. set (D := 2 * a2 * x + a1). set (V := (a2 * x + a1) * x + a0).
  destruct (Req_EM_T D 0) as [Z|Z].
  - rewrite (Reqb_t (- D) 0), (Reqb_t D 0) by lra. reflexivity.
  - rewrite (Reqb_f (- D) 0), (Reqb_f D 0) by lra. rewrite !pdiv_ok by lra. cbn [bind]. f_equal. field. split; lra.
Qed.
Lemma refine_mirror a2 a1 a0 : a2 <> 0 -> forall k x, refine k a2 a1 a0 (- a1 / a2 - x) = do r <- refine k a2 a1 a0 x;; Ok (- a1 / a2 - r).
Proof.
  intros H. induction k; intros x; cbn [refine]; [reflexivity|].
  rewrite newton_mirror by auto. destruct (newton a2 a1 a0 x) as [r|] eqn:E; cbn [bind]; [apply IHk|reflexivity].
Qed.

Section Near.
Variables (a2 a1 a0 tol sg : R).
Hypothesis (H2 : a2 <> 0) (Ht0 : 0 <= tol) (Ht : tol <= 1 / 4) (Hsg : sg * sg = a1 * a1 - 4 * a2 * a0).
Let r := (sg - a1) / (2 * a2).
Let V x := (a2 * x + a1) * x + a0.
Let D x := 2 * a2 * x + a1.
Lemma near_root x : D x <> 0 -> 0 <= D x * sg -> Rabs (x - r) <= 2 * Rabs (V x / D x).
Proof.
  intros Hd Hs.
  assert (Hk : D x + sg <> 0). { intros K. assert (sg = - D x) by lra. rewrite H in Hs. assert (0 < D x * D x) by (apply Rsqr_pos_lt; auto). lra. }
  assert (E : x - r = 2 * V x / (D x + sg)).
  { unfold r. apply Rmult_eq_reg_l with (2 * a2 * (D x + sg)). 2:{ apply Rmult_integral_contrapositive_currified; lra. }
    transitivity (D x * D x - sg * sg). { unfold D. field. auto. } rewrite Hsg. unfold V, D. field. exact Hk. }
  rewrite E. unfold Rdiv. rewrite !Rabs_mult, (Rabs_right 2) by lra. rewrite Rmult_assoc.
  apply Rmult_le_compat_l; [lra|]. apply Rmult_le_compat_l; [apply Rabs_pos|].
  rewrite !Rabs_inv. apply Rinv_le_contravar; [apply Rabs_pos_lt; auto|].
  assert (Q : D x * D x <= (D x + sg) * (D x + sg)). { assert (0 <= sg * sg) by apply Rle_0_sqr. lra. }
  apply Rsqr_le_abs_0 in Q. exact Q.
Qed.
Lemma newton_step x : D x <> 0 -> 0 <= D x * sg -> Rabs (a2 * V x) <= tol * (D x * D x) ->
  exists x', newton a2 a1 a0 x = Ok x' /\ D x' <> 0 /\ 0 <= D x' * sg /\ Rabs (a2 * V x') <= tol * (D x' * D x') /\
    Rabs (V x') <= Rabs (V x) * tol /\ Rabs (V x' / D x') <= Rabs (V x / D x) * (2 * tol).
Proof.
  intros Hd Hs Hv. exists (x - V x / D x). split.
  { unfold newton. fold (V x) (D x). rewrite Reqb_f, pdiv_ok by auto. reflexivity. }
  set (h := a2 * V x / (D x * D x)).
  assert (Hdd : 0 < D x * D x) by (apply Rsqr_pos_lt; auto).
  assert (Hh : Rabs h <= tol).
  { unfold h, Rdiv. rewrite Rabs_mult, Rabs_inv, (Rabs_right (D x * D x)) by lra.
    apply Rmult_le_reg_r with (D x * D x); auto. rewrite Rmult_assoc, Rinv_l by lra. lra. }
  assert (Bh : - (1 / 4) <= h <= 1 / 4). { apply Rabs_le_inv in Hh. lra. }
  assert (EV : V (x - V x / D x) = h * V x).
  { transitivity (a2 * (V x / D x) * (V x / D x) + (V x - D x * (V x / D x))). { unfold V at 1, D. ring_simplify. unfold V. ring. }
    unfold h. field. auto. }
  assert (ED : D (x - V x / D x) = D x * (1 - 2 * h)).
  { transitivity (D x - 2 * a2 * (V x / D x)). { unfold D at 1. ring_simplify. unfold D. ring. } unfold h. field. auto. }
  rewrite EV, ED. assert (Hh0 : 0 <= Rabs h) by apply Rabs_pos. repeat split.
  - apply Rmult_integral_contrapositive_currified; lra.
  - replace (D x * (1 - 2 * h) * sg) with ((D x * sg) * (1 - 2 * h)) by ring. apply Rmult_le_pos; lra.
  - replace (a2 * (h * V x)) with (h * h * (D x * D x)) by (unfold h; field; auto).
    rewrite Rabs_mult, (Rabs_right (D x * D x)) by lra. replace (D x * (1 - 2 * h) * (D x * (1 - 2 * h))) with ((1 - 2 * h) * (1 - 2 * h) * (D x * D x)) by ring.
    rewrite <- (Rmult_assoc tol). apply Rmult_le_compat_r; [lra|]. rewrite Rabs_mult.
    apply Rmult_le_compat; auto. apply Rle_trans with (1 / 4); [apply Rabs_le; lra|].
    replace (1 / 4) with (/ 2 * / 2) by field. apply Rmult_le_compat; lra.
  - rewrite Rabs_mult, Rmult_comm. apply Rmult_le_compat_l; [apply Rabs_pos|exact Hh].
  - replace (h * V x / (D x * (1 - 2 * h))) with ((V x / D x) * (h * / (1 - 2 * h))) by (field; lra).
    rewrite Rabs_mult. apply Rmult_le_compat_l; [apply Rabs_pos|]. rewrite Rabs_mult, Rabs_inv, (Rabs_right (1 - 2 * h)) by lra.
    rewrite Rmult_comm. apply Rmult_le_compat; auto.
    + left. apply Rinv_0_lt_compat. lra.
    + rewrite <- (Rinv_inv 2). apply Rinv_le_contravar; lra.
Qed.
Lemma refine_near : forall k x, D x <> 0 -> 0 <= D x * sg -> Rabs (a2 * V x) <= tol * (D x * D x) ->
  exists x', refine k a2 a1 a0 x = Ok x' /\ Rabs (x' - r) <= 2 * Rabs (V x / D x) * (2 * tol) ^ k /\ Rabs (V x') <= Rabs (V x) * tol ^ k.
Proof.
  induction k; intros x Hd Hs Hv; cbn [refine pow].
  - exists x. rewrite !Rmult_1_r. repeat split; [apply near_root; auto|lra].
  - destruct (newton_step x Hd Hs Hv) as (x1 & E1 & Hd1 & Hs1 & Hv1 & B1 & B2). rewrite E1. cbn [bind].
    destruct (IHk x1 Hd1 Hs1 Hv1) as (x' & E' & B3 & B4). exists x'. split; [exact E'|].
    assert (P1 : 0 <= (2 * tol) ^ k) by (apply pow_le; lra). assert (P2 : 0 <= tol ^ k) by (apply pow_le; lra). split.
    + eapply Rle_trans; [exact B3|].
      replace (2 * Rabs (V x / D x) * (2 * tol * (2 * tol) ^ k)) with (2 * (Rabs (V x / D x) * (2 * tol)) * (2 * tol) ^ k) by ring.
      apply Rmult_le_compat_r; auto. apply Rmult_le_compat_l; lra.
    + eapply Rle_trans; [exact B4|]. rewrite <- (Rmult_assoc (Rabs (V x))). apply Rmult_le_compat_r; auto.
Qed.
End Near.

Lemma ill_conditioned q2 q1 q0 tol k : q2 <> 0 -> 0 <= tol -> tol <= 1 / 4 -> Rabs (q0 * q2) <= tol * q1 * q1 ->
  exists x y r1 r2, roots_quadratic q2 q1 q0 tol k = Ok [y; x] /\
    (forall t, quad q2 q1 q0 t = q2 * (t - r1) * (t - r2)) /\ Rabs r1 <= Rabs r2 /\
    Rabs (x - r1) <= 3 * Rabs r1 * (2 * tol) ^ k /\ Rabs (y - r2) <= 3 * Rabs r1 * (2 * tol) ^ k /\
    Rabs (quad q2 q1 q0 x) <= Rabs q0 * tol ^ k /\ Rabs (quad q2 q1 q0 y) <= Rabs q0 * tol ^ k.
Proof.
  intros H2 Ht0 Ht Hi.
  assert (Q1 : 0 <= q1 * q1) by apply Rle_0_sqr.
  assert (Hb : Rabs (q0 * q2) <= 1 / 4 * (q1 * q1)). { eapply Rle_trans; [exact Hi|]. rewrite Rmult_assoc. apply Rmult_le_compat_r; lra. }
  assert (Hb' : - (1 / 4 * (q1 * q1)) <= q0 * q2 <= 1 / 4 * (q1 * q1)) by (apply Rabs_le_inv; exact Hb).
  assert (Hdisc : 0 <= q1 * q1 - 4 * q2 * q0) by lra.
  destruct (copysign_facts _ q1 Hdisc) as [Hc Hs]. set (sg := copysign _ q1) in *.
  set (r := (sg - q1) / (2 * q2)).
  assert (F : forall t, quad q2 q1 q0 t = q2 * (t - r) * (t - (- q1 / q2 - r))).
  { intros t. unfold quad, r. replace q0 with ((q1 * q1 - sg * sg) / (4 * q2)) by (rewrite Hc; field; auto). field. auto. }
  assert (EG : roots_quadratic q2 q1 q0 tol k = do y <- refine k q2 q1 q0 (- q1 / q2);; do x <- refine k q2 q1 q0 0;; Ok [y; x]).
  { unfold roots_quadratic, first_roots. rewrite (Reqb_f q2 0 H2), (Rltb_f _ _ Hi). rewrite (pdiv_ok _ _ H2). cbn [bind mapM].
    destruct (refine k q2 q1 q0 (- q1 / q2)); [cbn [bind]|reflexivity]. destruct (refine k q2 q1 q0 0); reflexivity. }
  assert (EM : refine k q2 q1 q0 (- q1 / q2) = do x <- refine k q2 q1 q0 0;; Ok (- q1 / q2 - x)).
  { rewrite <- refine_mirror by auto. f_equal. ring. }
  assert (Hx : exists x, refine k q2 q1 q0 0 = Ok x /\ Rabs (x - r) <= 3 * Rabs r * (2 * tol) ^ k /\ Rabs (quad q2 q1 q0 x) <= Rabs q0 * tol ^ k).
  { destruct (Req_EM_T q1 0) as [E1|H1].
    - assert (E0 : q0 = 0). { rewrite E1 in Hb'. assert (K : q0 * q2 = 0) by lra. apply Rmult_integral in K. tauto. }
      assert (Es : sg = 0). { rewrite E1, E0 in Hc. assert (K : sg * sg = 0) by lra. apply Rmult_integral in K. tauto. }
      assert (Er : r = 0) by (unfold r; rewrite Es, E1; field; auto).
      assert (Z : quad q2 q1 q0 0 = 0) by (unfold quad; rewrite E0; ring).
      exists 0. rewrite refine_root by exact Z. split; [reflexivity|]. rewrite Er, Z, E0, Rminus_0_r, Rabs_R0. split; lra.
    - destruct (refine_near q2 q1 q0 tol sg H2 Ht0 Ht Hc k 0) as (x & E & B1 & B2).
      + lra.
      + replace (2 * q2 * 0 + q1) with q1 by ring. exact Hs.
      + replace ((q2 * 0 + q1) * 0 + q0) with q0 by ring. replace (2 * q2 * 0 + q1) with q1 by ring. rewrite (Rmult_comm q2 q0). lra.
      + exists x. split; [exact E|].
        replace ((q2 * 0 + q1) * 0 + q0) with q0 in B1, B2 by ring. replace (2 * q2 * 0 + q1) with q1 in B1 by ring.
        replace ((q2 * x + q1) * x + q0) with (quad q2 q1 q0 x) in B2 by (unfold quad; ring).
        split; [|exact B2]. eapply Rle_trans; [exact B1|]. apply Rmult_le_compat_r; [apply pow_le; lra|].
        assert (HA : 0 < Rabs q1) by (apply Rabs_pos_lt; auto).
        assert (S1 : Rabs sg <= 3 / 2 * Rabs q1).
        { apply Rsqr_incr_0; [|apply Rabs_pos|lra]. rewrite <- Rsqr_abs. unfold Rsqr. rewrite Hc.
          replace (3 / 2 * Rabs q1 * (3 / 2 * Rabs q1)) with (9 / 4 * (Rabs q1 * Rabs q1)) by field. rewrite <- (Rabs_mult q1 q1), (Rabs_right (q1 * q1)) by lra. lra. }
        assert (K : q1 + sg <> 0). { intros K. assert (sg = - q1) by lra. rewrite H in Hs. assert (0 < q1 * q1) by (apply Rsqr_pos_lt; auto). lra. }
        assert (Er : r * (q1 + sg) = -2 * q0).
        { unfold r. transitivity ((sg * sg - q1 * q1) / (2 * q2)); [field; auto|]. rewrite Hc. field. auto. }
        assert (S2 : 2 * Rabs q0 <= 5 / 2 * (Rabs r * Rabs q1)).
        { replace (2 * Rabs q0) with (Rabs (-2 * q0)) by (rewrite Rabs_mult, (Rabs_left (-2)) by lra; lra). rewrite <- Er, Rabs_mult.
          replace (5 / 2 * (Rabs r * Rabs q1)) with (Rabs r * (5 / 2 * Rabs q1)) by field. apply Rmult_le_compat_l; [apply Rabs_pos|].
          eapply Rle_trans; [apply Rabs_triang|]. lra. }
        unfold Rdiv. rewrite Rabs_mult, Rabs_inv. apply Rmult_le_reg_r with (Rabs q1); auto.
        replace (2 * (Rabs q0 * / Rabs q1) * Rabs q1) with (2 * Rabs q0) by (field; lra).
        assert (0 <= Rabs r * Rabs q1) by (apply Rmult_le_pos; apply Rabs_pos). lra. }
  destruct Hx as (x & Ex & B1 & B2). exists x, (- q1 / q2 - x), r, (- q1 / q2 - r).
  rewrite EG, EM, Ex. cbn [bind]. split; [reflexivity|]. split; [exact F|]. split.
  { replace (- q1 / q2 - r) with ((- sg - q1) * / (2 * q2)) by (unfold r; field; auto). unfold r, Rdiv. rewrite !Rabs_mult. apply Rmult_le_compat_r; [apply Rabs_pos|].
    apply Rsqr_le_abs_0. unfold Rsqr. lra. }
  split; [exact B1|]. split; [|split; [exact B2|]].
  - replace (- q1 / q2 - x - (- q1 / q2 - r)) with (- (x - r)) by ring. rewrite Rabs_Ropp. exact B1.
  - replace (quad q2 q1 q0 (- q1 / q2 - x)) with (quad q2 q1 q0 x) by (unfold quad; field; auto). exact B2.
Qed.
