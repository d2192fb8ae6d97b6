(** * The covariance of the small problem: one over the sum of the two match-ups' weights, 3/2. *)
From Coq Require Import Reals ZArith Lra Lia.
From Verif Require Import Base BaseLemmas ReaderModel UncModel MuModel SensorSpec SampleSpec TransformModel TransformSpec TransformProofs TransformProofs2 EvalModel EvalSpec
  HistModel GNModel GNAlgebra GNTerms GNAdjoint GNMain GNResidual GNForward GNDeriv GNLoop GNTotal GNOutput PCAlgebra LsmrModel LsmrSpec MinresModel MinresTwo
  EivModel EivSpec EivProofs EivProofs2 EivProofs3 EivProofs4 EivCase EivCase2 GNSpec PropertiesEval.
Local Open Scope R_scope.

Section C.
Variables (k1 k2 : R) (x1 x2 x3 x4 x5 : R).
Notation st := (with_xyza nat (oxst k1 k2) [x1; x2; x3; x4; x5]).
Lemma oy_solver : solver_for (oxm k1 k2) st.
Proof. apply solver_with; [apply ox_solver|]. unfold unknowns_vec. destruct (ox_dims k1 k2) as (-> & _ & ->). reflexivity. Qed.
Lemma oy_functions : functions_ok (oxm k1 k2) st.
Proof. exact (ox_functions k1 k2). Qed.
Ltac rlazy := lazy -[Rplus Rmult Rdiv Rinv Ropp Rminus IZR].
Ltac same := repeat (apply (f_equal2 cons); [field|]); reflexivity.
Lemma oy_H s1 s2 s3 s4 s5 : calc_Hx nat st [s1; s2; s3; s4; s5] = Ok [2 * s1 - s3 - s5; 2 * s2 - s4 - s5; 2 * s3 - s1 + s5; 2 * s4 - s2 + s5; 2 * s5 + s3 - s1 + s4 - s2].
Proof.
  match goal with |- ?a = Ok ?b => assert (E : exists l, a = Ok l /\ l = b) end.
  { eexists. split; [rlazy; reflexivity|]. same. }
  destruct E as (l & -> & ->). reflexivity.
Qed.
Lemma oy_dims : n_vars st = 4%nat /\ n_pars st = 1%nat.
Proof. split; reflexivity. Qed.
Lemma oy_system : system_of st 0 [0; 0; 0; 0; 1].
Proof.
  unfold system_of. destruct oy_dims as (-> & ->).
  match goal with |- ?a = Ok ?b => assert (E : exists l, a = Ok l /\ l = b) end.
  { eexists. split; [rlazy; reflexivity|]. same. }
  destruct E as (l & -> & ->). reflexivity.
Qed.
Lemma oy_exact : exact_solution st 0 [1/2; 1/2; -1/2; -1/2; 3/2] /\ exact_entry st [1/2; 1/2; -1/2; -1/2; 3/2] 0 (3 / 2).
Proof.
  split.
  - exists [0; 0; 0; 0; 1]. split; [exact oy_system|]. split; [unfold unknowns_vec; destruct oy_dims as (-> & ->); reflexivity|]. rewrite oy_H. f_equal. repeat (apply (f_equal2 cons); [lra|]). reflexivity.
  - exists [1/2; 1/2; -1/2; -1/2; 3/2]. split; [apply ox_P|]. reflexivity.
Qed.
Variables (eps : R) (xr : list vec) (He : 0 < eps < 1 / 1000).
Lemma oy_minres : exists s, minres_call nat eps xr st (n_vars st) [0; 0; 0; 0; 1] = Finite s /\ eps < m_gmin s /\ m_rnorm s = 0.
Proof.
  unfold minres_call. change (n_a_of nat st) with (n_pars st).
  rewrite (check_H (oxm k1 k2) st oy_solver oy_functions eps xr (proj1 He)).
  pose proof (HADJ (oxm k1 k2) st oy_solver oy_functions) as AD. destruct oy_dims as (D1 & D2). rewrite D1, D2 in *. change (4 + 1)%nat with 5%nat in *.
  set (H := op_matrix 5 (calc_Hx nat st)).
  assert (M : forall x y, length x = 5%nat -> calc_Hx nat st x = Ok y -> forall i, (i < 5)%nat -> mul 5 H (vec_of x) i = nth i y 0).
  { intros x y Lx Ey i Hi. destruct (op_mul 5 5 _ _ AD x Lx) as (y' & Ey' & _ & Hy'). assert (y' = y) by congruence. subst y'. exact (Hy' i Hi). }
  destruct (two_steps 5 H eps tolU (1 / 1000000) 500 (vec_of [0; 0; 0; 0; 1]) (vec_of [-1/2; -1/2; 1/2; 1/2; 0])) as (s & E & G & R0 & _).
  - exact He.
  - unfold tolU. lra.
  - lia.
  - unfold vdot, vec_of, rsum. cbn. lra.
  - unfold vdot, vec_of, rsum. cbn. lra.
  - unfold vdot, vec_of, rsum. cbn. lra.
  - intros i Hi. rewrite (M [0; 0; 0; 0; 1] _ eq_refl (oy_H 0 0 0 0 1) i Hi). do 5 (destruct i as [|i]; [unfold vec_of; cbn [nth]; lra|]). lia.
  - intros i Hi. rewrite (M [-1/2; -1/2; 1/2; 1/2; 0] _ eq_refl (oy_H (-1/2) (-1/2) (1/2) (1/2) 0) i Hi). do 5 (destruct i as [|i]; [unfold vec_of; cbn [nth]; lra|]). lia.
  - exists s. split; [exact E|]. auto.
Qed.
Lemma oy_cov : cov_matrix nat eps xr st = Ok [[Some (3 / 2)]].
Proof.
  destruct (cov_total (oxm k1 k2) (oxst k1 k2) (ox_solver k1 k2) eps xr [x1; x2; x3; x4; x5]) as (V & EV); [unfold unknowns_vec; destruct (ox_dims k1 k2) as (-> & _ & ->); reflexivity|].
  rewrite EV. f_equal. destruct (matrix_ok (oxm k1 k2) st oy_solver oy_functions eps xr (proj1 He) V EV) as (L1 & L2 & H). destruct oy_dims as (_ & D2). rewrite D2 in *.
  destruct V as [|r [|? ?]]; try discriminate. specialize (L2 r (or_introl eq_refl)). destruct r as [|v [|? ?]]; try discriminate.
  destruct (H 0%nat 0%nat ltac:(lia) ltac:(lia)) as (_ & Hv). cbn [nth] in Hv. destruct oy_minres as (s & Es & Gs & Rs).
  destruct v as [v|].
  - destruct Hv as (si & sj & (b & Sb & Eb) & (b' & Sb' & Eb') & Q). unfold system_of in *. pose proof oy_system as S0. unfold system_of in S0.
    assert (b = [0; 0; 0; 0; 1]) by congruence. assert (b' = [0; 0; 0; 0; 1]) by congruence. subst b b'. assert (si = s) by congruence. assert (sj = s) by congruence. subst si sj.
    destruct oy_exact as (X1 & X2). specialize (Q (fun _ => Gs) (fun _ => Gs) _ _ _ X1 X1 X2). rewrite Rs, !Rmult_0_r in Q. unfold Rdiv in Q at 2. rewrite Rplus_0_r, Rmult_0_l in Q.
    pose proof (Rabs_pos (v - 3 / 2)) as P. assert (Z : Rabs (v - 3 / 2) = 0) by lra. assert (v = 3 / 2); [|subst; reflexivity]. destruct (Req_EM_T (v - 3 / 2) 0) as [E0|N0]; [lra|]. apply Rabs_no_R0 in N0. contradiction.
  - destruct Hv as (k & f & n & Hk & (b & Sb & Eb)). assert (k = 0%nat) by (destruct Hk; auto). subst k. unfold system_of in *. pose proof oy_system as S0. unfold system_of in S0. assert (b = [0; 0; 0; 0; 1]) by congruence. subst b. congruence.
Qed.
End C.
