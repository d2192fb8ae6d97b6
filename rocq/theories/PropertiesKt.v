(** * Properties of the utilities of the Krylov solvers (C126-C131). *)
From Coq Require Import Reals Lra Lia.
From Verif Require Import Base TransformModel LsmrModel LsmrSpec MinresModel KtModel KtSpec KtProofs KtProofs2.
Open Scope R_scope.

(** C126: outside the ill-conditioned case the result holds exactly the real roots, however many
    refinements are asked for, and it has two entries when a quadratic has real roots (a double root is
    repeated); the function never raises. *)
Theorem C126_roots_exact : forall q2 q1 q0 tol nitref,
  (q2 <> 0 -> tol * q1 * q1 < Rabs (q0 * q2)) -> ~ (q2 = 0 /\ q1 = 0 /\ q0 = 0) ->
  exists l, roots_quadratic q2 q1 q0 tol nitref = Ok l /\ forall x, In x l <-> quad q2 q1 q0 x = 0.
Proof. exact roots_exact. Qed.
Theorem C126_factorisation : forall q2 q1 q0 tol nitref,
  q2 <> 0 -> tol * q1 * q1 < Rabs (q0 * q2) -> 0 <= q1 * q1 - 4 * q2 * q0 ->
  exists r1 r2, roots_quadratic q2 q1 q0 tol nitref = Ok [r1; r2] /\ forall x, quad q2 q1 q0 x = q2 * (x - r1) * (x - r2).
Proof. exact two_roots. Qed.
Theorem C126_never_raises : forall q2 q1 q0 tol nitref, exists l, roots_quadratic q2 q1 q0 tol nitref = Ok l.
Proof. exact roots_total. Qed.
Print Assumptions C126_roots_exact.
Print Assumptions C126_factorisation.
Print Assumptions C126_never_raises.
(** x^2 - 3x + 2 meets the hypotheses, with the default tolerance. *)
Example C126_case : (1 <> 0 -> default_tol * (-3) * (-3) < Rabs (2 * 1)) /\ ~ (1 = 0 /\ -3 = 0 /\ 2 = 0) /\ 0 <= (-3) * (-3) - 4 * 1 * 2.
Proof. unfold default_tol. rewrite Rabs_right by lra. cbn [pow]. repeat split; try lra. Qed.

(** C127: in the ill-conditioned case, with a tolerance of at most 1/4, the quadratic has two real roots; the
    second number returned is close to the smaller in modulus, the first to the other, with errors below
    3 |r1| (2 tol)^nitref, and both residuals are at most |q0| tol^nitref. *)
Theorem C127_ill_conditioned : forall q2 q1 q0 tol nitref,
  q2 <> 0 -> 0 <= tol -> tol <= 1 / 4 -> Rabs (q0 * q2) <= tol * q1 * q1 ->
  exists x y r1 r2, roots_quadratic q2 q1 q0 tol nitref = Ok [y; x] /\
    (forall t, quad q2 q1 q0 t = q2 * (t - r1) * (t - r2)) /\ Rabs r1 <= Rabs r2 /\
    Rabs (x - r1) <= 3 * Rabs r1 * (2 * tol) ^ nitref /\ Rabs (y - r2) <= 3 * Rabs r1 * (2 * tol) ^ nitref /\
    Rabs (quad q2 q1 q0 x) <= Rabs q0 * tol ^ nitref /\ Rabs (quad q2 q1 q0 y) <= Rabs q0 * tol ^ nitref.
Proof. exact ill_conditioned. Qed.
Print Assumptions C127_ill_conditioned.
(** The quadratic of the file's last lines, 2e20 x^2 + 0.1 x - 4, is not of this kind; x^2 + 10^6 x + 1 is. *)
Example C127_case : Rabs (1 * 1) <= default_tol * 10 ^ 6 * 10 ^ 6 /\ 0 <= default_tol <= 1 / 4.
Proof. unfold default_tol. rewrite Rabs_right by lra. cbn [pow]. lra. Qed.
(** The bound on the tolerance is needed: above 1/4 a quadratic without real roots may get two. *)
Example C127_bound_is_needed : (exists x y, roots_quadratic 1 1 1 1 1 = Ok [x; y]) /\ forall x, quad 1 1 1 x <> 0.
Proof.
  split.
  - unfold roots_quadratic, first_roots. rewrite LsmrAlg.Reqb_f by lra. rewrite LsmrAlg.Rltb_f by (rewrite Rabs_right; lra).
    rewrite LsmrAlg.pdiv_ok by lra. cbn [bind mapM]. destruct (refine_ok 1 1 1 1 (- (1) / 1)) as [x ->]. destruct (refine_ok 1 1 1 1 0) as [y ->]. cbn [bind]. eauto.
  - intros x E. unfold quad in E. assert (0 <= (x + 1 / 2) * (x + 1 / 2)) by apply Rle_0_sqr. lra.
Qed.

(** C128: the symmetry check accepts every symmetric operator whatever vectors are drawn, so MINRES
    treats a symmetric operator as if it were not checked; it refuses every operator that is not square. *)
Theorem C128_symmetric_accepted : forall stream n A repeats g, symmetric n A -> fst (check_symmetric stream n n A repeats g) = true.
Proof. exact check_symmetric_complete. Qed.
Theorem C128_minres_not_stopped : forall stream n A eps rtol etol itnlim repeats g b, symmetric n A ->
  msolve n A eps rtol etol itnlim (fst (check_symmetric stream n n A repeats g)) b = msolve n A eps rtol etol itnlim true b.
Proof. intros. rewrite check_symmetric_complete by assumption. reflexivity. Qed.
Theorem C128_not_square : forall stream m n A repeats g, m <> n -> fst (check_symmetric stream m n A repeats g) = false.
Proof. intros. apply (check_nonsquare stream m n A repeats g false). assumption. Qed.
(** An operator accepted whatever is drawn is symmetric up to the tolerance, in the Frobenius norm. *)
Theorem C128_accepted_nearly_symmetric : forall n A repeats g, (0 < repeats)%nat ->
  (forall stream, (forall s k, uniform n (stream s k)) -> fst (check_symmetric stream n n A repeats g) = true) ->
  asymmetry2 n A <= 2 * cbrt_eps * (size2 n A + INR n * machine_epsilon).
Proof. exact check_symmetric_sound. Qed.
Print Assumptions C128_symmetric_accepted.
Print Assumptions C128_minres_not_stopped.
Print Assumptions C128_not_square.
Print Assumptions C128_accepted_nearly_symmetric.
(** A symmetric operator that is not diagonal, and one that is refused when the second unit vector (halved) is drawn. *)
Definition kt_sym : matrix := fun i j => if Nat.eqb i j then 2 else 1.
Example C128_case : symmetric 2 kt_sym /\ kt_sym 0%nat 1%nat = 1.
Proof. split; [|reflexivity]. intros i j _ _. unfold kt_sym. rewrite (Nat.eqb_sym j i). reflexivity. Qed.
Definition kt_asym : matrix := fun i j => match i, j with 0%nat, 1%nat => 1 | _, _ => 0 end.
Example C128_case_refused : fst (check_symmetric (fun _ _ i => match i with 1%nat => 1 / 2 | _ => 0 end) 2%nat 2%nat kt_asym 10%nat (mkRng O O)) = false.
Proof.
  unfold check_symmetric. cbn [Nat.eqb trials random]. unfold symmetric_on at 1. cbv [mul vdot seq map rsum fold_right kt_asym].
  rewrite LsmrAlg.Rltb_t; [reflexivity|].
  assert (C : cbrt_eps < 1 / 2).
  { unfold cbrt_eps, machine_epsilon. rewrite <- (Rpower_pow 52) by lra. rewrite <- Rpower_Ropp, Rpower_mult.
    apply Rlt_trans with (Rpower 2 (- (2))); [apply Rpower_lt; cbn [INR]; lra|]. rewrite Rpower_Ropp. change 2 with (INR 2) at 2. rewrite Rpower_pow by lra. cbn [pow]. lra. }
  pose proof cbrt_pos as P. pose proof eps_pos as E.
  assert (E2 : machine_epsilon < 1 / 4). { unfold machine_epsilon. replace (1 / 4) with (/ 2 ^ 2) by (cbn; field). apply Rinv_lt_contravar; [apply Rmult_lt_0_compat; apply pow_lt; lra|]. apply Rlt_pow; [lra|lia]. }
  match goal with |- _ < Rabs ?z => replace z with (1 / 4) by field end. rewrite Rabs_right by lra.
  match goal with |- (?s + _) * _ < _ => replace s with (1 / 4) by field end.
  apply Rlt_le_trans with ((1 / 4 + machine_epsilon) * (1 / 2)); [apply Rmult_lt_compat_l; lra|]. lra.
Qed.

(** C129 does not hold: an operator with entries (0,1) and (1,0) equal to 1/1000 and 0 passes the check
    whatever vectors are drawn, so MINRES runs on it. *)
Theorem C129_only_symmetric_accepted_refuted :
  ~ (forall n A repeats g, (0 < repeats)%nat ->
      (forall stream, (forall s k, uniform n (stream s k)) -> fst (check_symmetric stream n n A repeats g) = true) -> symmetric n A).
Proof.
  intros H.
  specialize (H 2%nat _ 10%nat (mkRng O O) ltac:(lia) (fun stream _ => sym_1000 stream 10 (mkRng O O)) 0%nat 1%nat ltac:(lia) ltac:(lia)).
  cbv beta iota in H. lra.
Qed.
Print Assumptions C129_only_symmetric_accepted_refuted.

(** C130 does not hold for the symmetry check: numbers drawn after it do not depend on the seed the
    caller had set.  Looking at definiteness keeps the seed. *)
Theorem C130_definiteness_keeps_seed : forall stream m n A repeats semi g,
  g_seed (snd (check_positive_definite stream m n A repeats semi g)) = g_seed g.
Proof. intros. unfold check_positive_definite. destruct (Nat.eqb m n); [apply trials_seed|reflexivity]. Qed.
Theorem C130_symmetry_keeps_seed_refuted :
  (forall stream n A repeats g g', snd (check_symmetric stream n n A repeats g) = snd (check_symmetric stream n n A repeats g')) /\
  exists stream A g, g_seed (snd (check_symmetric stream 2 2 A 10 g)) <> g_seed g.
Proof.
  split.
  - intros. unfold check_symmetric. rewrite Nat.eqb_refl. reflexivity.
  - exists (fun _ _ => vzero), kt_sym, (mkRng 7 0). unfold check_symmetric. cbn [Nat.eqb]. rewrite trials_seed. discriminate.
Qed.
Print Assumptions C130_definiteness_keeps_seed.
Print Assumptions C130_symmetry_keeps_seed_refuted.

(** C131: the definiteness check accepts every positive definite operator unless a zero vector is drawn,
    every positive semi-definite one with semi = True, and refuses any other square operator as soon as a
    drawn vector shows it; but it can only see vectors without negative components. *)
Theorem C131_definite_accepted : forall stream n A repeats g,
  positive_definite n A -> (forall s k, nonzero n (stream s k)) -> fst (check_positive_definite stream n n A repeats false g) = true.
Proof. intros stream n A repeats g H Hn. apply check_definite. intros k _. apply H, Hn. Qed.
Theorem C131_semidefinite_accepted : forall stream n A repeats g,
  positive_semidefinite n A -> fst (check_positive_definite stream n n A repeats true g) = true.
Proof. intros stream n A repeats g H. apply check_definite. intros k _. apply H. Qed.
Theorem C131_not_square : forall stream m n A repeats semi g, m <> n -> fst (check_positive_definite stream m n A repeats semi g) = false.
Proof. intros. apply check_nonsquare. assumption. Qed.
Theorem C131_accepted_copositive : forall n A repeats g, (0 < repeats)%nat ->
  (forall stream, (forall s k, uniform n (stream s k) /\ nonzero n (stream s k)) -> fst (check_positive_definite stream n n A repeats false g) = true) ->
  forall x, (forall i, (i < n)%nat -> 0 <= x i) -> nonzero n x -> 0 < form n A x.
Proof. exact check_definite_sound. Qed.
(** "Accepted means positive definite" fails for all draws at once: rows (1, 2) and (2, 1). *)
Definition kt_indef : matrix := fun i j => if Nat.eqb i j then 1 else 2.
Theorem C131_accepted_definite_refuted :
  (forall stream repeats semi g, (forall s k, uniform 2 (stream s k) /\ nonzero 2 (stream s k)) ->
     fst (check_positive_definite stream 2 2 kt_indef repeats semi g) = true) /\
  ~ positive_definite 2 kt_indef /\ ~ positive_semidefinite 2 kt_indef.
Proof.
  assert (F : forall x, form 2 kt_indef x = x 0%nat * x 0%nat + 4 * (x 0%nat * x 1%nat) + x 1%nat * x 1%nat).
  { intros x. cbv [form mul vdot seq map rsum fold_right kt_indef Nat.eqb]. ring. }
  assert (N : form 2 kt_indef (fun i => match i with 0%nat => 1 | _ => -1 end) = -2) by (rewrite F; ring).
  repeat split.
  - intros stream repeats semi g H. apply check_definite. intros k _.
    destruct (H (g_seed g) (g_pos g + k)%nat) as [U (j & Hj & Nj)]. set (x := stream (g_seed g) (g_pos g + k)%nat) in *.
    pose proof (U 0%nat ltac:(lia)) as U0. pose proof (U 1%nat ltac:(lia)) as U1.
    assert (P : 0 < form 2 kt_indef x).
    { rewrite F. assert (0 <= x 0%nat * x 1%nat) by (apply Rmult_le_pos; lra).
      assert (0 <= x 0%nat * x 0%nat) by apply Rle_0_sqr. assert (0 <= x 1%nat * x 1%nat) by apply Rle_0_sqr.
      assert (0 < x j * x j) by (apply Rsqr_pos_lt; exact Nj).
      destruct j as [|[|j]]; [lra|lra|lia]. }
    destruct semi; lra.
  - intros K. specialize (K (fun i => match i with 0%nat => 1 | _ => -1 end)). rewrite N in K. cut (0 < -2); [lra|]. apply K. exists 0%nat. split; [lia|lra].
  - intros K. specialize (K (fun i => match i with 0%nat => 1 | _ => -1 end)). rewrite N in K. lra.
Qed.
Print Assumptions C131_definite_accepted.
Print Assumptions C131_semidefinite_accepted.
Print Assumptions C131_not_square.
Print Assumptions C131_accepted_copositive.
Print Assumptions C131_accepted_definite_refuted.
(** The identity is positive definite. *)
Example C131_case : positive_definite 2 (fun i j => if Nat.eqb i j then 1 else 0).
Proof.
  intros x (j & Hj & Nj). cbv [form mul vdot seq map rsum fold_right Nat.eqb].
  assert (0 <= x 0%nat * x 0%nat) by apply Rle_0_sqr. assert (0 <= x 1%nat * x 1%nat) by apply Rle_0_sqr.
  assert (0 < x j * x j) by (apply Rsqr_pos_lt; exact Nj).
  destruct j as [|[|j]]; [lra|lra|lia].
Qed.
