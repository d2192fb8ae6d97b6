(** * The covariance of a well-conditioned problem. *)
From Coq Require Import Reals ZArith Lra Lia.
From Verif Require Import Base BaseLemmas ReaderModel UncModel MuModel SensorSpec SampleSpec TransformModel TransformSpec TransformProofs TransformProofs2 EvalModel EvalSpec
  HistModel GNModel GNAlgebra GNTerms GNAdjoint GNMain GNResidual GNForward GNDeriv GNLoop GNTotal GNOutput PCModel PCAlgebra PCMatrix PCWhite PCSpec Routines LsmrModel LsmrSpec LsmrAlg LsmrInv MinresModel MinresProofs MinresPivot EivModel EivSpec EivSpec2 EivProofs EivProofs2 EivProofs3 EivProofs4 GNSpec.
Open Scope nat_scope.

(** A matrix that maps only zero to zero reaches every vector. *)
Lemma injective_onto n (A : matrix) (b : vec) : (forall x, (forall i, i < n -> mul n A x i = 0%R) -> forall i, i < n -> x i = 0%R) ->
  exists z, length z = n /\ forall i, i < n -> mul n A (vec_of z) i = b i.
Proof.
  intros Inj. set (M := listm n A).
  assert (SM : square M n) by (unfold M, listm; apply mapseq_square).
  assert (EM : forall i j, i < n -> j < n -> entry M i j = A i j) by (intros i j Hi Hj; unfold M, listm; apply mapseq_entry; auto).
  assert (IM : injective_mat M n).
  { intros x Lx E. apply (nth_ext _ _ 0%R 0%R); [rewrite repeat_length; exact Lx|]. intros k Hk. rewrite Lx in Hk. rewrite nth_repeat.
    apply (Inj (vec_of x)); [|exact Hk]. intros i Hi. assert (Q : nth i (mul_vec M x) 0%R = 0%R) by (rewrite E; apply nth_repeat).
    rewrite (mul_vec_sm M n) in Q by auto. rewrite <- Q. unfold mul, sm. f_equal. apply map_ext_in. intros j Hj. apply in_seq in Hj. rewrite EM by lia. reflexivity. }
  destruct lsq_is_exact as (Tot & Ex). destruct (Tot M) as (U & EU). destruct (Ex M U n SM IM EU) as (SU & _ & P).
  exists (map (fun i => sm n (fun t => entry U i t * b t)%R) (seq 0 n)). split; [rewrite map_length, seq_length; reflexivity|].
  intros i Hi. unfold mul. change (rsum (map ?g (seq 0 n))) with (sm n g).
  rewrite (sm_ext n _ (fun j => sm n (fun t => A i j * (entry U j t * b t)))%R).
  2: { intros j Hj. unfold vec_of. rewrite map_seq_nth by auto. rewrite sm_scal. reflexivity. }
  rewrite sm_swap. rewrite (sm_ext n _ (fun t => (if t =? i then b t else 0))%R).
  - apply (sm_delta n i b Hi).
  - intros t Ht. destruct (P i t Hi Ht) as (_ & Q). unfold mat_prod in Q. rewrite rsum_sm in Q.
    rewrite (sm_ext n _ (fun j => (entry M i j * entry U j t) * b t)%R) by (intros j Hj; rewrite EM by auto; ring).
    rewrite sm_scal_r, Q. unfold delta. rewrite Nat.eqb_sym. destruct (t =? i); ring.
Qed.

Section Cond.
Context {T : Type}.
Variables (m : mobj R T) (st : solver T) (SF : solver_for m st) (FO : functions_ok m st).
Variables (eps alpha : R) (xr : list vec) (He : (0 < eps < alpha)%R) (HC : curvature_at_least alpha st).
Notation n1 := (n_vars st + n_pars st).
Notation H := (op_matrix n1 (calc_Hx T st)).

Lemma curved v : (alpha * vdot n1 v v <= vdot n1 v (mul n1 H v))%R.
Proof.
  destruct (op_mul n1 n1 _ _ (HADJ m st SF FO) (list_of n1 v) (list_of_len n1 v)) as (h & E & L & Hh).
  pose proof (HC (list_of n1 v) h (list_of_len n1 v) E) as C. unfold sum_sq in C.
  rewrite <- (vdot_inner n1 (list_of n1 v) (list_of n1 v) (list_of_len n1 v) (list_of_len n1 v)) in C.
  rewrite <- (vdot_inner n1 (list_of n1 v) h (list_of_len n1 v) L) in C.
  rewrite (vdot_ext n1 (vec_of (list_of n1 v)) v (vec_of (list_of n1 v)) v) in C by (intros; apply vec_list; assumption).
  rewrite (vdot_ext n1 (vec_of (list_of n1 v)) v (vec_of h) (mul n1 H v)) in C; [exact C|intros; apply vec_list; assumption|].
  intros i Hi. unfold vec_of. rewrite <- (Hh i Hi). apply mul_ext. intros j Hj. apply vec_list, Hj.
Qed.

Lemma pivots_hold j s : solved_for eps xr st j (Finite s) -> pivots_ok eps s.
Proof.
  intros (b & _ & E) L. unfold minres_call in E. change (n_a_of T st) with (n_pars st) in E. cbv zeta in E. rewrite (check_H m st SF FO eps xr (proj1 He)) in E.
  exact (msolve_pivots n1 H eps _ _ _ _ alpha (H_sym m st SF FO) He curved s E L).
Qed.

Lemma solution_exists j : exists z, exact_solution st j z.
Proof.
  destruct (unit_sys m st SF j) as (b & Eb & Lb).
  destruct (injective_onto n1 H (vec_of b)) as (z & Lz & Hz).
  { intros x Hx. apply vdot_null. pose proof (curved x) as C. rewrite (vdot_comm n1 x (mul n1 H x)), (vdot_zero n1 (mul n1 H x) x Hx) in C. pose proof (vdot_pos n1 x).
    destruct (Req_dec (vdot n1 x x) 0) as [|N]; [assumption|exfalso]. assert (0 < alpha * vdot n1 x x)%R by (apply Rmult_lt_0_compat; lra). lra. }
  exists z, b. split; [exact Eb|]. split; [exact Lz|].
  destruct (op_mul n1 n1 _ _ (HADJ m st SF FO) z Lz) as (h & E & L & Hh). rewrite E. f_equal.
  apply (nth_ext _ _ 0%R 0%R); [congruence|]. intros k Hk. rewrite L in Hk. rewrite <- (Hh k Hk), (Hz k Hk). reflexivity.
Qed.

Lemma entry_exists j z i : exact_solution st j z -> exists w, exact_entry st z i w.
Proof.
  intros (b & _ & Lz & _). destruct (calc_Px_ok m st SF z Lz) as (p & q & E & _). eexists. exists p. split; [exact E|reflexivity].
Qed.

Lemma solution_unique j z z' : exact_solution st j z -> exact_solution st j z' -> z = z'.
Proof.
  intros (b & Eb & Lz & E) (b' & Eb' & Lz' & E'). unfold system_of in *. assert (b' = b) by congruence. subst b'.
  destruct (op_mul n1 n1 _ _ (HADJ m st SF FO) z Lz) as (h & F & _ & Hh). destruct (op_mul n1 n1 _ _ (HADJ m st SF FO) z' Lz') as (h' & F' & _ & Hh').
  assert (h' = h) by congruence. subst h'.
  set (d := fun i => (1 * vec_of z i + (-1) * vec_of z' i)%R).
  assert (D0 : forall i, i < n1 -> mul n1 H d i = 0%R).
  { intros i Hi. rewrite (mul_lin n1 H (vec_of z) (vec_of z') d 1 (-1)) by reflexivity. rewrite (Hh i Hi), (Hh' i Hi). ring. }
  assert (Z : forall i, i < n1 -> d i = 0%R).
  { apply vdot_null. pose proof (curved d) as C. rewrite (vdot_comm n1 d (mul n1 H d)), (vdot_zero n1 (mul n1 H d) d D0) in C. pose proof (vdot_pos n1 d).
    destruct (Req_dec (vdot n1 d d) 0) as [|N]; [assumption|exfalso]. assert (0 < alpha * vdot n1 d d)%R by (apply Rmult_lt_0_compat; lra). lra. }
  apply (nth_ext _ _ 0%R 0%R); [unfold unknowns_vec in *; congruence|]. intros k Hk. rewrite Lz in Hk. specialize (Z k Hk). unfold d, vec_of in Z. lra.
Qed.

Theorem conditioned_ok V : cov_matrix T eps xr st = Ok V ->
  length V = n_pars st /\ (forall r, In r V -> length r = n_pars st) /\
  forall i j, i < n_pars st -> j < n_pars st -> nth j (nth i V []) None = nth i (nth j V []) None /\
  match nth j (nth i V []) None with
  | Some v => exists si sj zi zj w, solved_for eps xr st i (Finite si) /\ solved_for eps xr st j (Finite sj) /\
      exact_solution st i zi /\ exact_solution st j zj /\ exact_entry st zj i w /\
      (Rabs (v - w) <= (sqrt (sum_sq zi) * m_rnorm sj + sqrt (sum_sq zj) * m_rnorm si) / 2)%R
  | None => exists k f n, (k = i \/ k = j) /\ solved_for eps xr st k (NotANumber f n)
  end.
Proof.
  intros E. destruct (matrix_ok m st SF FO eps xr (proj1 He) V E) as (L1 & L2 & M). split; [exact L1|]. split; [exact L2|].
  intros i j Hi Hj. destruct (M i j Hi Hj) as (S & C). split; [exact S|]. destruct (nth j (nth i V []) None) as [v|]; [|exact C].
  destruct C as (si & sj & Si & Sj & B). destruct (solution_exists i) as (zi & Zi). destruct (solution_exists j) as (zj & Zj). destruct (entry_exists j zj i Zj) as (w & W).
  exists si, sj, zi, zj, w. do 5 (split; [assumption|]). apply B; auto; eapply pivots_hold; eassumption.
Qed.
End Cond.
