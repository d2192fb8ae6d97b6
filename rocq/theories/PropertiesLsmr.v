(** * Theorems about the least-squares solver LSMR: C47, C48, C49, C81, C82, C83. *)
From Coq Require Import Reals Lra Lia.
From Verif Require Import Base BaseLemmas TransformModel LsmrModel LsmrSpec LsmrAlg LsmrInv LsmrMain LsmrLoop.
Open Scope R_scope.

(** ** C47: the plane rotations *)
Theorem C47_rotation : forall a b : R, let '(c, s, r) := symOrtho a b in
  c * c + s * s = 1 /\ c * a + s * b = r /\ s * a - c * b = 0 /\ r = sqrt (a * a + b * b).
Proof. intros a b. destruct (symOrtho a b) as [[c s] r] eqn:E. exact (symOrtho_spec _ _ _ _ _ E). Qed.
Print Assumptions C47_rotation.
Example C47_example : let '(c, s, r) := symOrtho 3 4 in c = 3 / 5 /\ s = 4 / 5 /\ r = 5.
Proof.
  destruct (symOrtho 3 4) as [[c s] r] eqn:E. destruct (symOrtho_spec _ _ _ _ _ E) as (H1 & H2 & H3 & H4). assert (E5 : r = 5) by (rewrite H4; replace (3 * 3 + 4 * 4) with (5 * 5) by ring; apply sqrt_square; lra).
  split; [lra|]. split; lra.
Qed.

(** ** C48: the stop flag means what is documented, and the iteration limit is respected *)
Theorem C48_flags : forall m n A b atol btol conlim itnlim self_x s self_x', 0 <= atol ->
  solve m n A 0 atol btol conlim itnlim self_x b = (Ok s, self_x') ->
  (l_itn s <= itnlim)%nat /\
  (l_istop s = 0%nat /\ l_itn s = 0%nat /\ (forall j, l_x s j = 0) /\ ((0 < itnlim)%nat -> vnorm n (mulH m A (residual n A b (l_x s))) = 0) \/
   (0 < l_itn s)%nat /\ flag_right m n A b atol btol conlim itnlim s).
Proof. intros m n A b atol btol conlim itnlim sx s sx' Ha. exact (solve_flags m n A b atol btol conlim itnlim Ha sx s sx'). Qed.
Print Assumptions C48_flags.

(** ** C81: the reported norms are those of the returned x *)
Theorem C81_norms : forall m n A b atol btol conlim itnlim self_x s self_x', 0 <= atol ->
  solve m n A 0 atol btol conlim itnlim self_x b = (Ok s, self_x') ->
  let x := l_x s in let r := residual n A b x in
  l_normr s = vnorm m r /\ l_normar s = vnorm n (mulH m A r) /\ l_normx s = vnorm n x /\ l_normar s <= vnorm n (mulH m A b) /\
  (forall y, vnorm m r ^ 2 <= vnorm m (residual n A b y) ^ 2 + 2 * l_normar s * vnorm n (vsub x y)).
Proof.
  intros m n A b atol btol conlim itnlim sx s sx' Ha H x r. pose proof (solve_exact m n A b atol btol conlim itnlim Ha sx) as EX. rewrite H in EX. destruct EX as (X1 & X2 & X3 & _ & X5 & _).
  split; [exact X1|]. split; [exact X2|]. split; [exact X3|]. split; [exact X5|]. intros y. pose proof (gap m n A b x y) as G. rewrite X2. unfold vnorm at 1 2. rewrite !pow2_sqrt by apply vdot_pos. unfold r. fold x. rewrite Rmult_assoc. exact G.
Qed.
Print Assumptions C81_norms.

(** ** C82: a least-squares problem always has its answer *)
(** A failure is a division by zero, and only happens when A x = b has a solution. *)
Theorem C82_inconsistent_partial : forall m n A b atol btol conlim itnlim self_x e self_x', 0 <= atol ->
  solve m n A 0 atol btol conlim itnlim self_x b = (Raise e, self_x') -> e = ZeroDivisionError /\ (exists x, solves m n A b x) /\ self_x' = self_x.
Proof.
  intros m n A b atol btol conlim itnlim sx e sx' Ha H. pose proof (solve_exact m n A b atol btol conlim itnlim Ha sx) as EX. rewrite H in EX. destruct EX as (-> & x & Hx). split; [reflexivity|]. split; [exists x; exact Hx|].
  unfold solve in H. destruct (Reqb _ _); [discriminate|]. destruct (loop _ _ _ _ _ _ _ _ _ _ _); [discriminate|]. congruence.
Qed.
Print Assumptions C82_inconsistent_partial.
(** Whenever b is an eigenvector of A A^T - any b if A is the identity - the solution is found in the first
    iteration and then lost: [solve] raises ZeroDivisionError. *)
Theorem C82_exact_solution_refuted : forall m n A b c atol btol conlim itnlim self_x, (0 < itnlim)%nat ->
  (exists j, (j < n)%nat /\ mulH m A b j <> 0) -> (forall i, (i < m)%nat -> mul n A (mulH m A b) i = c * b i) ->
  solve m n A 0 atol btol conlim itnlim self_x b = (Raise ZeroDivisionError, self_x).
Proof. intros. eapply solve_eigen; eauto. Qed.
Print Assumptions C82_exact_solution_refuted.

(** ** C83: at most min(m, n) iterations are needed *)
Theorem C83_iterations : forall m n A b atol btol conlim itnlim self_x s self_x', 0 <= atol ->
  solve m n A 0 atol btol conlim itnlim self_x b = (Ok s, self_x') ->
  (l_itn s <= Nat.min m n)%nat /\ ((Nat.min m n <= itnlim)%nat -> l_istop s <> 7%nat).
Proof.
  intros m n A b atol btol conlim itnlim sx s sx' Ha H. pose proof (solve_exact m n A b atol btol conlim itnlim Ha sx) as EX. rewrite H in EX. destruct EX as (_ & _ & _ & _ & _ & X6 & X7 & X8). split; [lia|].
  intros Hl E7. specialize (X8 E7). destruct (solve_flags m n A b atol btol conlim itnlim Ha sx s sx' H) as [_ [(E0 & _)|(_ & F)]]; [rewrite E7 in E0; discriminate|].
  unfold flag_right in F. rewrite E7 in F. destruct F as [[F _]|[[F _]|[[F _]|[[_ F]|[F _]]]]]; try discriminate. lia.
Qed.
Print Assumptions C83_iterations.

(** A concrete case: two equations x = 2, x = 0 in one unknown. *)
Definition lsA : matrix := fun _ _ => 1.
Definition lsb : vec := fun i => if Nat.eqb i 0 then 2 else 0.
Example C48_C81_C83_example : exists s, fst (solve 2 1 lsA 0 0 0 0 10 None lsb) = Ok s /\ l_normr s = vnorm 2 (residual 1 lsA lsb (l_x s)) /\ (l_itn s <= 1)%nat.
Proof.
  destruct (solve 2 1 lsA 0 0 0 0 10 None lsb) as [[s|e] sx'] eqn:E.
  - exists s. split; [reflexivity|]. split; [apply (C81_norms 2 1 lsA lsb 0 0 0 10 None s sx'); [lra|exact E]|]. destruct (C83_iterations 2 1 lsA lsb 0 0 0 10 None s sx') as [H _]; [lra|exact E|exact H].
  - exfalso. destruct (C82_inconsistent_partial 2 1 lsA lsb 0 0 0 10 None e sx') as (_ & (x & Hx) & _); [lra|exact E|]. pose proof (Hx 0%nat ltac:(lia)) as H0. pose proof (Hx 1%nat ltac:(lia)) as H1. unfold mul, rsum, lsA, lsb in H0, H1. cbn in H0, H1. lra.
Qed.
(** The identity of order 2 and b = (3, 5). *)
Definition idA : matrix := fun i j => if Nat.eqb i j then 1 else 0.
Definition idb : vec := fun i => if Nat.eqb i 0 then 3 else 5.
Example C82_example : fst (solve 2 2 idA 0 (1 / 1000) (1 / 1000) 100 10 None idb) = Raise ZeroDivisionError /\ solves 2 2 idA idb idb.
Proof.
  assert (M : forall x i, (i < 2)%nat -> mul 2 idA x i = x i) by (intros x i Hi; destruct i as [|[|]]; [cbn; ring|cbn; ring|lia]).
  assert (M' : forall x i, (i < 2)%nat -> mulH 2 idA x i = x i) by (intros x i Hi; destruct i as [|[|]]; [cbn; ring|cbn; ring|lia]).
  split; [|intros i Hi; rewrite M by auto; reflexivity].
  rewrite (C82_exact_solution_refuted 2 2 idA idb 1); [reflexivity|lia| |].
  - exists 0%nat. split; [lia|]. rewrite M' by lia. cbn. lra.
  - intros i Hi. rewrite M, M' by lia. ring.
Qed.

(** ** C49: after [solve] the attribute x holds the solution *)
Theorem C49_attribute_partial : forall m n A b damp atol btol conlim itnlim self_x s self_x', vnorm n (mulH m A b) <> 0 ->
  solve m n A damp atol btol conlim itnlim self_x b = (Ok s, self_x') -> self_x' = Some (l_x s).
Proof.
  intros m n A b damp atol btol conlim itnlim sx s sx' N H. unfold solve in H. destruct (Req_EM_T (l_normar (init m n A b)) 0) as [E|E].
  - exfalso. apply N. destruct (init_norms m n A b) as (_ & I2 & _). destruct (init_zero m n A b) as (_ & _ & Ex). rewrite <- E, I2, Ex. apply rhs_norm.
  - rewrite (Reqb_f _ _ E) in H. destruct (loop _ _ _ _ _ _ _ _ _ _ _); [|discriminate]. congruence.
Qed.
Print Assumptions C49_attribute_partial.
(** If A^T b = 0 - when the residuals are already least - the attribute keeps the value of an earlier
    call, or [None]; the Gauss-Newton solver reads its step from it. *)
Theorem C49_attribute_refuted : forall m n A b damp atol btol conlim itnlim self_x, vnorm n (mulH m A b) = 0 ->
  exists s, solve m n A damp atol btol conlim itnlim self_x b = (Ok s, self_x) /\ (forall j, l_x s j = 0).
Proof.
  intros m n A b damp atol btol conlim itnlim sx N. exists (init m n A b). destruct (init_zero m n A b) as (_ & _ & Ex). split; [|intros j; rewrite Ex; reflexivity]. unfold solve. rewrite Reqb_t; [reflexivity|].
  destruct (init_norms m n A b) as (_ & I2 & _). rewrite I2, Ex, <- N. symmetry. apply rhs_norm.
Qed.
Print Assumptions C49_attribute_refuted.
(** A = 1, b = 0 after a call that left x = 7: the returned x is 0, the attribute 7. *)
Example C49_example : exists s, solve 1 1 lsA 0 0 0 0 10 (Some (fun _ => 7)) (fun _ => 0) = (Ok s, Some (fun _ => 7)) /\ l_x s 0%nat = 0.
Proof.
  destruct (C49_attribute_refuted 1 1 lsA (fun _ => 0) 0 0 0 0 10 (Some (fun _ => 7))) as (s & E & Z).
  - unfold vnorm, vdot, mulH. cbn. match goal with |- sqrt ?e = 0 => replace e with 0 by ring end. apply sqrt_0.
  - exists s. auto.
Qed.
