(** * MINRES gives numbers unless its right-hand side is (almost) an eigenvector. *)
From Coq Require Import Reals ZArith Lra Lia.
From Verif Require Import Base BaseLemmas TransformModel PCAlgebra LsmrModel LsmrAlg LsmrSpec LsmrInv MinresModel MinresProofs.
Open Scope R_scope.

Lemma pow2_gt_0 x : x <> 0 -> 0 < x ^ 2.
Proof. intros H. replace (x ^ 2) with (x * x) by ring. apply Rsqr_pos_lt, H. Qed.
Lemma vdot_same n x x' y y' : (forall i, (i < n)%nat -> x i = x' i) -> (forall i, (i < n)%nat -> y i = y' i) -> vdot n x y = vdot n x' y'.
Proof. intros H1 H2. unfold vdot. f_equal. apply map_ext_in. intros i Hi. apply in_seq in Hi. rewrite H1, H2 by lia. reflexivity. Qed.
Section F.
Variables (n : nat) (A : matrix) (eps rtol etol : R) (itnlim : nat).
Hypotheses (He : 0 < eps) (Hr : 0 <= rtol).
Notation mstep := (mstep n A eps rtol etol itnlim).
Notation mloop := (mloop n A eps rtol etol itnlim).

Lemma mstep_go beta1 s : m_beta s <> 0 -> 0 <= m_tnorm2 s -> 0 <= m_ynorm2 s -> (m_rhs1 s <> 0 \/ 0 < m_ynorm2 s) ->
  exists s', mstep beta1 s = Some s' /\ 0 <= m_tnorm2 s' /\ 0 < m_ynorm2 s' /\ m_itn s' = S (m_itn s).
Proof.
  intros Nb Ht Hy Hz. destruct (mstep beta1 s) as [s'|] eqn:E.
  - exists s'. split; [reflexivity|]. destruct (mstep_inv _ _ _ _ _ _ _ _ _ E) as (v & y & alfa & gamma & delta & gbar & _ & _ & _ & _ & E1 & _ & _ & _ & _ & _ & _ & _ & _ & Eg & _ & _ & _ & _ & _ & _ & _ & _ & _ & E17 & _ & E19 & _).
    split; [rewrite E17; pose proof (pow2_ge_0 alfa); pose proof (pow2_ge_0 (m_beta s)); pose proof (pow2_ge_0 (m_beta s')); lra|]. split; [|exact E1].
    rewrite E19. assert (Pg : 0 < gamma) by (rewrite Eg; apply (Rlt_le_trans _ eps); [exact He|apply Rmax_r]).
    destruct Hz as [Hz|Hz]; [|pose proof (pow2_ge_0 (m_rhs1 s / gamma)); lra].
    assert (0 < (m_rhs1 s / gamma) ^ 2); [|lra]. apply pow2_gt_0. intros Q. apply Hz. unfold Rdiv in Q. apply Rmult_integral in Q. destruct Q as [Q|Q]; [exact Q|]. exfalso. apply (Rinv_neq_0_compat gamma); lra.
  - exfalso. revert E. unfold MinresModel.mstep. rewrite (Reqb_f _ 0 Nb). cbv zeta.
    match goal with |- context [Rmax ?p eps] => assert (Pg : 0 < Rmax p eps) by (apply (Rlt_le_trans _ eps); [exact He|apply Rmax_r]); set (g := Rmax p eps) in * end.
    match goal with |- context [Reqb (sqrt ?p * sqrt ?q) 0] => assert (P1 : 0 < p); [|assert (P2 : 0 < q); [|rewrite (Reqb_f (sqrt p * sqrt q) 0); [discriminate|]]] end.
    + match goal with |- 0 < _ + ?a ^ 2 + _ + ?c ^ 2 => pose proof (pow2_ge_0 a); pose proof (pow2_ge_0 c) end. pose proof (pow2_gt_0 _ Nb). lra.
    + destruct Hz as [Hz|Hz]; [|pose proof (pow2_ge_0 (m_rhs1 s / g)); lra].
      assert (0 < (m_rhs1 s / g) ^ 2); [|lra]. apply pow2_gt_0. intros Q. apply Hz. unfold Rdiv in Q. apply Rmult_integral in Q. destruct Q as [Q|Q]; [exact Q|]. exfalso. apply (Rinv_neq_0_compat g); lra.
    + apply Rgt_not_eq. apply Rmult_lt_0_compat; apply sqrt_lt_R0; assumption.
Qed.
(** An iteration that does not stop leaves something to go on with. *)
Lemma mstep_open beta1 s s' : mstep beta1 s = Some s' -> m_istop s = 0%Z -> (m_itn s = 0%nat -> 10 * eps < m_beta s' / beta1) ->
  (0 < m_istop s')%Z \/ m_istop s' = 0%Z /\ m_beta s' <> 0.
Proof.
  intros E I0 H1. destruct (mstep_inv _ _ _ _ _ _ _ _ _ E) as (v & y & alfa & gamma & delta & gbar & _ & _ & _ & _ & E1 & _ & _ & _ & _ & _ & _ & _ & _ & Eg & _ & Es & Ep & _ & _ & _ & _ & E15 & E16 & _ & E18 & _ & NA & _ & istop & Ef & Ei).
  assert (Hi : istop = 10%Z \/ istop = 0%Z).
  { destruct Ei as [->|Ei]; [auto|]. right. rewrite Ei. destruct (Nat.eqb_spec (m_itn s) 0) as [Z|Z]; [|exact I0]. rewrite Rleb_f by (apply H1, Z). exact I0. }
  destruct Hi as [->|Hi].
  - left. rewrite Ef. reflexivity.
  - pose proof (mflags_cases eps rtol itnlim istop (m_itn s') (m_rnorm s' / (m_Anorm s' * m_ynorm s')) (normof2 gbar (m_dbar s') / m_Anorm s') (m_Anorm s' * m_ynorm s' * eps) beta1 (m_Acond s') Hr Hi) as C. cbv zeta in C. rewrite <- Ef in C.
    destruct C as [[F C]|[[F C]|[[F C]|[[F C]|[[F C]|[F C]]]]]]; rewrite F; try (left; lia). right. split; [reflexivity|]. intros B0.
    assert (R0 : m_rnorm s' = 0) by (rewrite E15, Ep, Es, B0; unfold Rdiv; ring).
    assert (G : mflags eps rtol itnlim istop (m_itn s') (m_rnorm s' / (m_Anorm s' * m_ynorm s')) (normof2 gbar (m_dbar s') / m_Anorm s') (m_Anorm s' * m_ynorm s' * eps) beta1 (m_Acond s') = 1%Z).
    { unfold mflags. rewrite Hi. cbn [Z.eqb]. rewrite (Rleb_t _ rtol); [reflexivity|]. rewrite R0. unfold Rdiv. rewrite Rmult_0_l. exact Hr. }
    congruence.
Qed.
Lemma mloop_finite beta1 : forall fuel s, m_beta s <> 0 -> 0 <= m_tnorm2 s -> 0 < m_ynorm2 s -> m_istop s = 0%Z -> (1 <= m_itn s)%nat -> exists s', mloop fuel beta1 s = Finite s'.
Proof.
  induction fuel as [|f IH]; intros s Nb Ht Hy I0 It; cbn [MinresModel.mloop]; [eexists; reflexivity|].
  destruct (mstep_go beta1 s Nb Ht ltac:(lra) (or_intror Hy)) as (s' & E & T' & Y' & It'). rewrite E.
  destruct (mstep_open beta1 s s' E I0 ltac:(lia)) as [P|(Z & B)].
  - rewrite (proj2 (Z.ltb_lt _ _) P). eexists; reflexivity.
  - rewrite Z. cbn [Z.ltb Z.compare]. apply IH; auto; try lra. lia.
Qed.
Lemma msolve_finite b : 0 < vdot n b b ->
  (let v := vscal (1 / vnorm n b) b in 10 * eps * vnorm n b < vnorm n (vsub (mul n A v) (vscal (vdot n v (mul n A v)) v))) ->
  exists s, msolve n A eps rtol etol itnlim true b = Finite s.
Proof.
  intros Hb. cbv zeta. intros H. unfold msolve. cbn [negb]. rewrite (Reqb_f _ 0) by lra. set (fuel := itnlim) at 2. clearbody fuel. destruct fuel as [|k]; [eexists; reflexivity|]. cbn [MinresModel.mloop].
  assert (P : 0 < vnorm n b) by (apply sqrt_lt_R0, Hb). change (m_beta (minit n b)) with (vnorm n b).
  destruct (mstep_go (vnorm n b) (minit n b)) as (s1 & E & T1 & Y1 & It1).
  { change (m_beta (minit n b)) with (vnorm n b). lra. } { cbn. lra. } { cbn. lra. } { left. change (m_rhs1 (minit n b)) with (vnorm n b). lra. }
  rewrite E. destruct (mstep_open (vnorm n b) _ s1 E eq_refl) as [Q|(Z & B)].
  - intros _. destruct (mstep_inv _ _ _ _ _ _ _ _ _ E) as (v & y & alfa & gamma & delta & gbar & _ & Ev & Ey & Ea & _ & _ & E2 & _ & E4 & _).
    change (m_itn (minit n b)) with 0%nat in Ey. cbn [Nat.leb] in Ey. change (m_beta (minit n b)) with (vnorm n b) in *. change (m_r2 (minit n b)) with b in *. rewrite <- Ev in H.
    assert (B1 : m_beta s1 = vnorm n (vsub (mul n A v) (vscal (vdot n v (mul n A v)) v))).
    { rewrite E4. unfold vnorm. f_equal. apply vdot_same; intros i Hi; rewrite E2, Ea, Ey; unfold vadd, vsub, vscal; rewrite Ev; unfold vscal; field; lra. }
    rewrite B1. apply (Rmult_lt_reg_r (vnorm n b)); [exact P|]. match goal with |- _ < ?a / ?c * ?c => replace (a / c * c) with a by (field; lra) end. lra.
  - rewrite (proj2 (Z.ltb_lt _ _) Q). eexists; reflexivity.
  - rewrite Z. cbn [Z.ltb Z.compare]. apply mloop_finite; auto. change (m_itn (minit n b)) with 0%nat in It1. lia.
Qed.
End F.

(** ** At most n iterations *)
Section It.
Variables (n : nat) (A : matrix) (eps rtol etol : R) (itnlim : nat) (b : vec).
Hypotheses (sym : forall i j, (i < n)%nat -> (j < n)%nat -> A i j = A j i) (He : 0 < eps) (Hr : 0 <= rtol).
Notation mstep := (mstep n A eps rtol etol itnlim).
Notation mloop := (mloop n A eps rtol etol itnlim).
Notation MInv := (MInv n A b).

Lemma mstep_six beta1 s s' : In (m_istop s) [0; -1]%Z -> mstep beta1 s = Some s' -> m_istop s' = 6%Z -> (itnlim <= m_itn s')%nat /\ m_beta s' <> 0.
Proof.
  intros I0 E E6. destruct (mstep_inv _ _ _ _ _ _ _ _ _ E) as (v & y & alfa & gamma & delta & gbar & _ & _ & _ & _ & E1 & _ & _ & _ & _ & _ & _ & _ & _ & Eg & _ & Es & Ep & _ & _ & _ & _ & E15 & E16 & _ & E18 & _ & NA & _ & istop & Ef & Ei).
  assert (Hi : istop = 0%Z).
  { assert (Q : istop = 0%Z \/ istop = (-1)%Z \/ istop = 10%Z). { destruct Ei as [->|Ei]; [auto|]. rewrite Ei. cbn [In] in I0. destruct (Nat.eqb _ _); [destruct (Rleb _ _)|]; intuition auto; try lia. }
    destruct Q as [Q|[Q|Q]]; [exact Q|exfalso; rewrite Ef, Q in E6; discriminate|exfalso; rewrite Ef, Q in E6; discriminate]. }
  pose proof (mflags_cases eps rtol itnlim istop (m_itn s') (m_rnorm s' / (m_Anorm s' * m_ynorm s')) (normof2 gbar (m_dbar s') / m_Anorm s') (m_Anorm s' * m_ynorm s' * eps) beta1 (m_Acond s') Hr Hi) as C. cbv zeta in C. rewrite <- Ef, E6 in C.
  split; [intuition (try discriminate; auto)|]. intros B0.
  assert (R0 : m_rnorm s' = 0) by (rewrite E15, Ep, Es, B0; unfold Rdiv; ring).
  assert (G : mflags eps rtol itnlim istop (m_itn s') (m_rnorm s' / (m_Anorm s' * m_ynorm s')) (normof2 gbar (m_dbar s') / m_Anorm s') (m_Anorm s' * m_ynorm s' * eps) beta1 (m_Acond s') = 1%Z).
  { unfold mflags. rewrite Hi. cbn [Z.eqb]. rewrite (Rleb_t _ rtol); [reflexivity|]. rewrite R0. unfold Rdiv. rewrite Rmult_0_l. exact Hr. }
  congruence.
Qed.
Lemma mloop_iter beta1 : forall fuel s s', In (m_istop s) [0; -1]%Z -> (m_beta s <> 0 -> exists vs t tp, MInv s vs t tp /\ length vs = m_itn s) -> (m_itn s <= n)%nat -> mloop fuel beta1 s = Finite s' -> eps < m_gmin s' ->
  (m_itn s' <= n)%nat /\ (m_istop s' = 6%Z -> (itnlim < n)%nat).
Proof.
  induction fuel as [|f IH]; intros s s' I0 HI Hn H Hg; cbn [MinresModel.mloop] in H.
  - injection H as <-. split; [exact Hn|]. intros E6. exfalso. cbn [In] in I0. rewrite E6 in I0. intuition discriminate.
  - destruct (mstep beta1 s) as [s1|] eqn:E; [|discriminate].
    assert (N : m_beta s <> 0). { unfold MinresModel.mstep in E. intros Z. rewrite (Reqb_t _ _ Z) in E. discriminate. }
    assert (It : m_itn s1 = S (m_itn s)). { destruct (mstep_inv _ _ _ _ _ _ _ _ _ E) as (v & y & alfa & gamma & delta & gbar & _ & _ & _ & _ & E1 & _). exact E1. }
    destruct (HI N) as (vs & t & tp & I & Lv). pose proof (onb_length n _ (k_onb _ _ _ _ _ _ _ I)) as OL. cbn [length] in OL.
    assert (NX : eps < m_gmin s1 -> m_beta s1 <> 0 -> exists vs' t' tp', MInv s1 vs' t' tp' /\ length vs' = m_itn s1).
    { intros Hg1 Nb. destruct (minres_step n A eps rtol etol itnlim b sym s s1 beta1 vs t tp I E He Hg1) as (_ & _ & _ & R4). destruct (R4 Nb) as (t' & I'). exists (vn s :: vs), t', t. split; [exact I'|]. cbn [length]. lia. }
    destruct (Z.ltb 0 (m_istop s1)) eqn:L.
    + injection H as <-. split; [lia|]. intros E6. destruct (mstep_six beta1 s s1 I0 E E6) as (K1 & K2). destruct (NX Hg K2) as (vs' & t' & tp' & I' & Lv').
      pose proof (onb_length n _ (k_onb _ _ _ _ _ _ _ I')) as OL'. cbn [length] in OL'. lia.
    + pose proof (mloop_gmin n A eps rtol etol itnlim _ _ _ _ H ltac:(lia)) as Gm. apply (IH s1 s'); [|apply NX; lra|lia|exact H|exact Hg].
      destruct (mstep_flags n A eps rtol etol itnlim _ _ _ Hr I0 E) as (M & _). apply Z.ltb_ge in L. destruct M as (_ & _ & _ & _ & M & _). cbn [In] in M |- *. lia.
Qed.
Lemma msolve_iterations s : msolve n A eps rtol etol itnlim true b = Finite s -> ((0 < m_itn s)%nat -> eps < m_gmin s) ->
  (m_itn s <= n)%nat /\ (m_istop s = 6%Z -> (itnlim < n)%nat).
Proof.
  intros H Hg. unfold msolve in H. cbn [negb] in H. destruct (Req_EM_T (vdot n b b) 0) as [Z|Z].
  - rewrite (Reqb_t _ _ Z) in H. injection H as <-. cbn [m_itn minit m_istop]. split; [lia|discriminate].
  - rewrite (Reqb_f _ _ Z) in H. assert (P : 0 < vdot n b b) by (pose proof (vdot_pos n b); lra).
    destruct (Nat.eq_dec (m_itn s) 0) as [E0|E0].
    + split; [lia|]. intros E6. destruct itnlim as [|k] eqn:El; [cbn [MinresModel.mloop] in H; injection H as <-; discriminate|].
      exfalso. rewrite <- El in *. 
      assert (G : forall fuel s0 s1 b1, mloop fuel b1 s0 = Finite s1 -> (m_itn s0 <= m_itn s1)%nat).
      { induction fuel as [|f IH]; intros s0 s1 b1 H0; cbn [MinresModel.mloop] in H0; [injection H0 as <-; lia|]. destruct (mstep b1 s0) as [s2|] eqn:E; [|discriminate].
        destruct (mstep_inv _ _ _ _ _ _ _ _ _ E) as (v & y & alfa & gamma & delta & gbar & _ & _ & _ & _ & E1 & _). destruct (Z.ltb 0 (m_istop s2)); [injection H0 as <-; lia|]. pose proof (IH _ _ _ H0). lia. }
      remember itnlim as fuel eqn:Ef in H at 2. rewrite El in Ef. subst fuel. cbn [MinresModel.mloop] in H. destruct (mstep (m_beta (minit n b)) (minit n b)) as [s2|] eqn:E; [|discriminate].
      destruct (mstep_inv _ _ _ _ _ _ _ _ _ E) as (v & y & alfa & gamma & delta & gbar & _ & _ & _ & _ & E1 & _). destruct (Z.ltb 0 (m_istop s2)); [injection H as <-; lia|]. pose proof (G _ _ _ _ H). lia.
    + apply (mloop_iter (m_beta (minit n b)) itnlim (minit n b) s); [left; reflexivity| |cbn; lia|exact H|apply Hg; lia].
      intros _. destruct (minit_inv n A b P) as (vs & t & tp & I). exists vs, t, tp. split; [exact I|]. destruct (k_vs _ _ _ _ _ _ _ I) as [(_ & ->)|(vk & vs' & K & _)]; [reflexivity|cbn in K; lia].
Qed.
End It.
