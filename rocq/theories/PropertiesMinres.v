(** * Theorems about the symmetric solver MINRES: C84, C85, C86, C87. *)
From Coq Require Import Reals ZArith Lra Lia.
From Verif Require Import Base BaseLemmas TransformModel LsmrModel LsmrSpec LsmrAlg LsmrInv MinresModel MinresProofs MinresPivot.
Open Scope R_scope.

(** ** C84: the iteration limit and the stop flag *)
Theorem C84_flags_partial : forall n A eps rtol etol itnlim b s, 0 <= rtol -> (0 < itnlim)%nat -> msolve n A eps rtol etol itnlim true b = Finite s ->
  (m_itn s <= itnlim)%nat /\ (m_istop s = 0%Z -> vdot n b b = 0 /\ m_itn s = 0%nat) /\
  (m_istop s = 1%Z -> m_rnorm s <= rtol * (m_Anorm s * m_ynorm s)) /\
  (m_istop s = 3%Z -> vnorm n b <= eps * (m_Anorm s * m_ynorm s)) /\
  (m_istop s = 4%Z -> match m_Acond s with None => True | Some a => 1 / 10 / eps <= a end) /\
  (m_istop s = 6%Z -> m_itn s = itnlim) /\ In (m_istop s) [-1; 0; 1; 2; 3; 4; 6; 10]%Z.
Proof.
  intros n A eps rtol etol itnlim b s Hr Hl H. unfold msolve in H. cbn [negb] in H. destruct (Req_EM_T (vdot n b b) 0) as [Z|Z].
  - rewrite (Reqb_t _ _ Z) in H. injection H as <-. unfold minit. cbn [m_itn m_istop]. split; [lia|]. split; [auto|]. do 4 (split; [discriminate|]). cbn [In]. tauto.
  - rewrite (Reqb_f _ _ Z) in H. destruct (mloop_flags n A eps rtol etol itnlim (m_beta (minit n b)) Hr itnlim (minit n b) s) as [[F _]|((M1 & M2 & M3 & M4 & M5 & M6) & B)]; [left; reflexivity|reflexivity|exact H|lia|].
    split; [lia|]. split; [|split; [exact M1|split; [intros Q; specialize (M2 Q); change (m_beta (minit n b)) with (vnorm n b) in M2; lra|split; [exact M3|split; [intros Q; specialize (M4 Q); lia|exact M5]]]]].
    (* flag 0 is not possible after an iteration *)
    intros Q. exfalso. specialize (M6 Q).
    assert (G : forall fuel s0, mloop n A eps rtol etol itnlim fuel (m_beta (minit n b)) s0 = Finite s -> (m_itn s0 + fuel = itnlim)%nat -> m_itn s = itnlim \/ (0 < m_istop s)%Z).
    { induction fuel as [|f IH]; intros s0 H0 E0; cbn [mloop] in H0; [injection H0 as <-; lia|]. destruct (mstep n A eps rtol etol itnlim (m_beta (minit n b)) s0) as [s1|] eqn:E; [|discriminate].
      destruct (mstep_inv n A eps rtol etol itnlim _ _ _ E) as (v & y & alfa & gamma & delta & gbar & _ & _ & _ & _ & E1 & _). destruct (Z.ltb 0 (m_istop s1)) eqn:L; [injection H0 as <-; right; apply Z.ltb_lt, L|]. apply (IH s1 H0). lia. }
    destruct (G itnlim (minit n b) H ltac:(reflexivity)) as [G0|G0]; lia.
Qed.
Print Assumptions C84_flags_partial.

(** What "converged" tells: one of the tests has been met; not "converged": b = 0, the iteration limit was reached, or the solver found (flag -1) that the first
    two residuals are parallel.  A solution that is not a number is never called converged. *)
Theorem C84_reported_partial : forall n A eps rtol etol itnlim b s, 0 <= rtol -> (0 < itnlim)%nat -> msolve n A eps rtol etol itnlim true b = Finite s ->
  (m_istop s = 6%Z -> converged (Finite s) = false) /\
  (converged (Finite s) = true -> m_rnorm s <= rtol * (m_Anorm s * m_ynorm s) \/ m_istop s = 2%Z \/ vnorm n b <= eps * (m_Anorm s * m_ynorm s) \/
     (match m_Acond s with None => True | Some a => 1 / 10 / eps <= a end) \/ m_istop s = 10%Z) /\
  (converged (Finite s) = false -> (vdot n b b = 0 /\ m_itn s = 0%nat) \/ m_itn s = itnlim \/ m_istop s = (-1)%Z).
Proof.
  intros n A eps rtol etol itnlim b s Hr Hl H. destruct (C84_flags_partial n A eps rtol etol itnlim b s Hr Hl H) as (_ & F0 & F1 & F3 & F4 & F6 & HI).
  unfold converged. cbn [In] in HI. split; [intros E; rewrite E; reflexivity|].
  destruct HI as [E|[E|[E|[E|[E|[E|[E|[E|[]]]]]]]]]; rewrite <- E; cbn [existsb Z.eqb Pos.eqb orb]; (split; [intros Q; try discriminate Q|intros Q; try discriminate Q]); symmetry in E; tauto.
Qed.
Theorem C84_nan_not_converged : forall n A eps rtol etol itnlim sym b i itn, msolve n A eps rtol etol itnlim sym b = NotANumber i itn -> converged (NotANumber i itn) = false.
Proof.
  intros n A eps rtol etol itnlim sym b i itn. unfold msolve. destruct (negb sym); [discriminate|]. destruct (Reqb (vdot n b b) 0); [discriminate|].
  assert (G : forall fuel s0, (m_istop s0 <= 0)%Z -> mloop n A eps rtol etol itnlim fuel (m_beta (minit n b)) s0 = NotANumber i itn -> (i <= 0)%Z \/ i = 6%Z).
  { induction fuel as [|f IH]; intros s0 H0; cbn [mloop]; [discriminate|]. destruct (mstep n A eps rtol etol itnlim (m_beta (minit n b)) s0) as [s1|].
    - destruct (Z.ltb_spec 0 (m_istop s1)); [discriminate|]. apply IH. lia.
    - destruct (Z.eqb_spec (m_istop s0) 0); intros [= <- <-]; [right; reflexivity|left; exact H0]. }
  intros H. destruct (G itnlim (minit n b)) as [Q|Q]; [cbn; lia|exact H| |]; unfold converged; [|rewrite Q; reflexivity].
  cbn [existsb]. repeat (rewrite (proj2 (Z.eqb_neq i _)) by lia). reflexivity.
Qed.
Print Assumptions C84_reported_partial.
Print Assumptions C84_nan_not_converged.

(** [[0, 1], [1, 0]] and b = (1, 0): the solution is (0, 1). *)
Definition swA : matrix := fun i j => if Nat.eqb i j then 0 else 1.
Definition swb : vec := fun i => if Nat.eqb i 0 then 1 else 0.
(** The first iteration ends with x = 0 and the residual b, yet the solver reports that it has converged, with
    flag 4: documented as "x has converged to an eigenvector", set for the condition number (documented as 5). *)
Theorem C84_converged_refuted : forall eps rtol etol itnlim, 0 < eps < 1 / 100 -> 0 <= rtol < 1 / 2 -> (0 < itnlim)%nat ->
  exists s, msolve 2 swA eps rtol etol itnlim true swb = Finite s /\ converged (Finite s) = true /\ m_istop s = 4%Z /\
    (forall j, m_x s j = 0) /\ vnorm 2 (residual 2 swA swb (m_x s)) = vnorm 2 swb /\ solves 2 2 swA swb (fun j => if Nat.eqb j 1 then 1 else 0).
Proof.
  intros eps rtol etol itnlim He Hr Hl.
  assert (Vb : vdot 2 swb swb = 1) by (unfold vdot, swb, rsum; cbn; ring).
  set (v := vscal (1 / 1) swb).
  assert (E1 : forall i, mul 2 swA v i = if Nat.eqb i 0 then 0 else 1) by (intros [|i]; unfold mul, rsum, swA, v, vscal, swb; cbn; lra).
  assert (Al : vdot 2 v (mul 2 swA v) = 0) by (unfold vdot, rsum; cbn [seq map fold_right]; rewrite !E1; unfold v, vscal, swb; cbn; lra).
  set (r2 := vadd (vscal (- 0 / 1) swb) (mul 2 swA v)).
  assert (Rr : vdot 2 r2 r2 = 1) by (unfold vdot, rsum, r2, vadd; cbn [seq map fold_right]; rewrite !E1; unfold vscal, swb; cbn; lra).
  assert (N1 : normof2 (0 * 0 - -1 * 0) 1 = 1) by (unfold normof2; replace ((0 * 0 - -1 * 0) ^ 2 + 1 ^ 2) with 1 by ring; apply sqrt_1).
  assert (S2 : 1 < sqrt 2 < 3 / 2). { split; [rewrite <- sqrt_1 at 1; apply sqrt_lt_1; lra|]. replace (3 / 2) with (sqrt (9 / 4)) by (replace (9 / 4) with (3 / 2 * (3 / 2)) by field; apply sqrt_square; lra). apply sqrt_lt_1; lra. }
  assert (ST : exists s, mstep 2 swA eps rtol etol itnlim 1 (minit 2 swb) = Some s /\ m_istop s = 4%Z /\ (forall j, m_x s j = 0)).
  { unfold mstep, minit. rewrite Vb, sqrt_1. cbn [m_itn m_r1 m_r2 m_oldb m_beta m_dbar m_epsln m_phibar m_rhs1 m_rhs2 m_tnorm2 m_ynorm2 m_cs m_sn m_w m_w2 m_x m_gmax m_gmin m_istop m_xNrg m_dErr]. rewrite (Reqb_f 1 0) by lra. cbv zeta. cbn [Nat.leb Nat.eqb]. fold v. rewrite Al. fold r2. rewrite Rr, sqrt_1, N1. rewrite (Rmax_left 1 eps) by lra.
    replace (0 + 0 ^ 2 + 1 ^ 2 + 1 ^ 2) with 2 by ring. replace ((1 / 1) ^ 2 + 0) with 1 by field. rewrite sqrt_1. rewrite (Reqb_f (sqrt 2 * 1) 0) by lra.
    eexists. split; [reflexivity|]. cbn [m_istop m_x]. split.
    - rewrite (Rleb_f (1 / 1)) by lra. cbn [Nat.ltb Nat.leb window andb]. rewrite Rabs_R0. replace (Rmin 0 1) with 0 by (unfold Rmin; destruct (Rle_dec 0 1); lra). rewrite (Reqb_t 0 0) by reflexivity. unfold mflags. cbn [Z.eqb].
      replace (normof2 (0 * 0 - -1 * 0) (- -1 * 1)) with 1 by (unfold normof2; replace ((0 * 0 - -1 * 0) ^ 2 + (- -1 * 1) ^ 2) with 1 by ring; symmetry; apply sqrt_1).
      assert (T : 1 / 2 < 1 / sqrt 2). { apply (Rmult_lt_reg_r (sqrt 2)); [lra|]. replace (1 / sqrt 2 * sqrt 2) with 1 by (field; lra). lra. }
      rewrite (Rleb_f (1 / 1 * 1 / (sqrt 2 * 1)) rtol) by (replace (1 / 1 * 1 / (sqrt 2 * 1)) with (1 / sqrt 2) by (field; lra); lra). rewrite (Rleb_f (1 / sqrt 2) rtol) by lra. rewrite (Rleb_f 1 (sqrt 2 * 1 * eps)); [reflexivity|].
      assert (sqrt 2 * eps < 3 / 2 * (1 / 100)); [|lra]. apply Rmult_le_0_lt_compat; lra.
    - intros j. unfold vadd, vzero, vscal. unfold Rdiv. ring. }
  destruct ST as (s & E & I4 & X0). exists s. unfold msolve. cbn [negb]. rewrite Vb, (Reqb_f 1 0) by lra. change (m_beta (minit 2 swb)) with (sqrt (vdot 2 swb swb)). rewrite Vb, sqrt_1. destruct itnlim as [|f]; [lia|]. cbn [mloop]. rewrite E, I4. cbn [Z.ltb Z.compare].
  split; [reflexivity|]. split; [unfold converged; rewrite I4; reflexivity|]. split; [reflexivity|]. split; [exact X0|]. split.
  - unfold vnorm. f_equal. unfold vdot, residual, mul, rsum. cbn [seq map fold_right]. rewrite !X0. ring.
  - intros [|[|i]] Hi; [| |lia]; unfold mul, rsum, swA, swb; cbn; ring.
Qed.
Print Assumptions C84_converged_refuted.

(** ** C85: the reported residual norm is that of the returned x *)
Theorem C85_rnorm : forall n A eps rtol etol itnlim b s, symmetric n A -> 0 < eps -> (0 < itnlim)%nat ->
  msolve n A eps rtol etol itnlim true b = Finite s -> ((0 < m_itn s)%nat -> eps < m_gmin s) ->
  m_rnorm s = vnorm n (residual n A b (m_x s)) /\ m_rnorm s <= vnorm n b.
Proof. intros n A eps rtol etol itnlim b s Hs He Hl H Hg. exact (msolve_exact n A eps rtol etol itnlim b Hs s He Hl H Hg). Qed.
Print Assumptions C85_rnorm.
(** In particular for every matrix none of whose eigenvalues is as small as eps. *)
Theorem C85_definite : forall n A alpha eps rtol etol itnlim b s, symmetric n A -> 0 < eps < alpha -> (0 < itnlim)%nat ->
  (forall v, alpha * vdot n v v <= vdot n v (mul n A v)) -> msolve n A eps rtol etol itnlim true b = Finite s ->
  m_rnorm s = vnorm n (residual n A b (m_x s)) /\ m_rnorm s <= vnorm n b.
Proof.
  intros n A alpha eps rtol etol itnlim b s Hs He Hl Hd H. apply (C85_rnorm n A eps rtol etol itnlim b s Hs (proj1 He) Hl H).
  exact (msolve_pivots n A eps rtol etol itnlim b alpha Hs He Hd s H).
Qed.
Print Assumptions C85_definite.

(** ** C86: a system whose right-hand side is an eigenvector *)
(** The first iteration finds the exact solution; with any larger limit the loop goes on and x becomes nan. *)
Theorem C86_eigenvector_refuted : forall n A b lam eps rtol etol itnlim, 0 < vdot n b b -> (forall i, (i < n)%nat -> mul n A b i = lam * b i) -> 0 < eps -> (2 <= itnlim)%nat ->
  msolve n A eps rtol etol itnlim true b = NotANumber (-1) itnlim.
Proof. intros. eapply eigen_nan; eauto. Qed.
Print Assumptions C86_eigenvector_refuted.
Theorem C86_first_iteration_partial : forall n A b lam eps rtol etol, 0 < vdot n b b -> (forall i, (i < n)%nat -> mul n A b i = lam * b i) -> 0 < eps -> eps <= Rabs lam ->
  exists s, msolve n A eps rtol etol 1 true b = Finite s /\ (forall i, m_x s i = b i / lam) /\ solves n n A b (m_x s) /\ m_rnorm s = 0.
Proof.
  intros n A b lam eps rtol etol Hb He Hp Hl. destruct (eigen_step n A eps rtol etol 1 b lam Hb He Hp) as (s & E & B0 & I1 & _ & R0 & _ & X). exists s. split.
  - unfold msolve. cbn [negb]. rewrite (Reqb_f _ 0) by lra. cbn [mloop]. change (m_beta (minit n b)) with (sqrt (vdot n b b)). rewrite E, I1. reflexivity.
  - specialize (X Hl). split; [exact X|]. split; [|exact R0]. intros i Hi. rewrite (mul_lin n A b b (m_x s) (/ lam) 0) by (intros j _; rewrite X; unfold Rdiv; ring). rewrite (He i Hi).
    assert (lam <> 0) by (intros Z; rewrite Z, Rabs_R0 in Hl; lra). field. assumption.
Qed.
Print Assumptions C86_first_iteration_partial.
(** The identity: every b is an eigenvector. *)
Definition eyeA : matrix := fun i j => if Nat.eqb i j then 1 else 0.
Example C86_example : msolve 2 eyeA (1 / 1000) (1 / 1000) (1 / 1000000) 500 true (fun i => if Nat.eqb i 0 then 3 else 4) = NotANumber (-1) 500.
Proof.
  apply (C86_eigenvector_refuted 2 eyeA _ 1); [unfold vdot, rsum; cbn; lra| |lra|lia]. intros [|[|i]] Hi; [| |lia]; unfold mul, rsum, eyeA; cbn; ring.
Qed.
(** C85 on the same system, stopped after its first iteration. *)
Example C85_example : exists s, msolve 2 eyeA (1 / 1000) (1 / 1000) (1 / 1000000) 1 true (fun i => if Nat.eqb i 0 then 3 else 4) = Finite s /\ (0 < m_itn s)%nat /\ 1 / 1000 < m_gmin s /\ symmetric 2 eyeA.
Proof.
  set (b := fun i : nat => if Nat.eqb i 0 then 3 else 4).
  assert (Hb : 0 < vdot 2 b b) by (unfold vdot, rsum, b; cbn; lra). assert (He : forall i, (i < 2)%nat -> mul 2 eyeA b i = 1 * b i) by (intros [|[|i]] Hi; [| |lia]; unfold mul, rsum, eyeA, b; cbn; ring).
  destruct (eigen_step 2 eyeA (1 / 1000) (1 / 1000) (1 / 1000000) 1 b 1 Hb He ltac:(lra)) as (s & E & B0 & I1 & It & _). exists s. split.
  - unfold msolve. cbn [negb]. rewrite (Reqb_f _ 0) by lra. cbn [mloop]. change (m_beta (minit 2 b)) with (sqrt (vdot 2 b b)). rewrite E, I1. reflexivity.
  - split; [lia|]. split; [|intros i j _ _; unfold eyeA; rewrite Nat.eqb_sym; reflexivity].
    destruct (mstep_inv _ _ _ _ _ _ _ _ _ E) as (v & y & alfa & gamma & delta & gbar & _ & Ev & Ey & Ea & E1 & E2 & E3 & E4 & E5 & Ed & Eg & E6 & E7 & Egm & _ & _ & _ & _ & _ & _ & E14 & _).
    rewrite E14. change (m_itn (minit 2 b)) with 0%nat in *. cbn [Nat.eqb Nat.leb] in *. change (m_beta (minit 2 b)) with (sqrt (vdot 2 b b)) in *. change (m_r2 (minit 2 b)) with b in *. change (m_cs (minit 2 b)) with (-1) in *. change (m_sn (minit 2 b)) with 0 in *.
    assert (V25 : sqrt (vdot 2 b b) = 5) by (replace (vdot 2 b b) with (5 * 5) by (unfold vdot, rsum, b; cbn; ring); apply sqrt_square; lra). rewrite V25 in *.
    assert (A1 : alfa = 1). { rewrite Ea, Ey, Ev. unfold vdot, mul, rsum, vscal, eyeA, b. cbn. lra. }
    rewrite A1, Rabs_R1. apply Rmin_glb_lt; [lra|]. rewrite Egm. apply (Rlt_le_trans _ (normof2 gbar (m_beta s))); [|apply Rmax_l]. rewrite B0, Eg, A1. unfold normof2. change (m_dbar (minit 2 b)) with 0. replace ((0 * 0 - -1 * 1) ^ 2 + 0 ^ 2) with 1 by ring. rewrite sqrt_1. lra.
Qed.

(** ** C87: the reported norm of A r *)
(** It is that of the iterate before: for an eigenvector b it is not 0 although the residual is. *)
Theorem C87_arnorm_refuted : forall n A b lam eps rtol etol, 0 < vdot n b b -> (forall i, (i < n)%nat -> mul n A b i = lam * b i) -> 0 < eps -> eps <= Rabs lam ->
  exists s, msolve n A eps rtol etol 1 true b = Finite s /\ vnorm n (mul n A (residual n A b (m_x s))) = 0 /\ m_Arnorm s = vnorm n (mul n A b) /\ 0 < m_Arnorm s.
Proof.
  intros n A b lam eps rtol etol Hb He Hp Hl. destruct (eigen_step n A eps rtol etol 1 b lam Hb He Hp) as (s & E & B0 & I1 & _ & R0 & AR & X). exists s. assert (Nz : lam <> 0) by (intros Z; rewrite Z, Rabs_R0 in Hl; lra). split.
  - unfold msolve. cbn [negb]. rewrite (Reqb_f _ 0) by lra. cbn [mloop]. change (m_beta (minit n b)) with (sqrt (vdot n b b)). rewrite E, I1. reflexivity.
  - specialize (X Hl). assert (Rz : forall i, (i < n)%nat -> residual n A b (m_x s) i = 0). { intros i Hi. unfold residual. rewrite (mul_lin n A b b (m_x s) (/ lam) 0) by (intros j _; rewrite X; unfold Rdiv; ring). rewrite (He i Hi). field. exact Nz. }
    split; [apply vnorm_eq; [lra|]; rewrite vdot_zero; [lra|]; intros i Hi; rewrite (mul_lin n A b b _ 0 0) by (intros j Hj; rewrite (Rz j Hj); ring); ring|].
    split; [|rewrite AR; apply Rmult_lt_0_compat; [apply sqrt_lt_R0, Hb|apply Rabs_pos_lt, Nz]].
    rewrite AR. symmetry. apply vnorm_eq; [apply Rmult_le_pos; [apply sqrt_pos|apply Rabs_pos]|]. assert (Eb : forall i, (i < n)%nat -> mul n A b i = lam * b i + 0 * b i) by (intros i Hi; rewrite (He i Hi); ring).
    rewrite (vdot_lin_l n _ _ _ _ _ _ Eb), !(vdot_lin n _ _ _ _ _ _ Eb). replace (sqrt (vdot n b b) * Rabs lam * (sqrt (vdot n b b) * Rabs lam)) with (sqrt (vdot n b b) * sqrt (vdot n b b) * (Rabs lam * Rabs lam)) by ring.
    rewrite sqrt_sqrt by apply vdot_pos. rewrite <- Rabs_mult, Rabs_right by (apply Rle_ge, Rle_0_sqr). ring.
Qed.
Print Assumptions C87_arnorm_refuted.
