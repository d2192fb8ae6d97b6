(** * C110-C114: the Gauss-Newton run with LSMR and MINRES in place. *)
From Coq Require Import Reals ZArith Lra Lia.
From Verif Require Import Base ReaderModel UncModel MuModel SensorSpec TransformModel TransformSpec EvalModel EvalSpec HistModel GNModel LsmrModel LsmrSpec MinresModel EivModel EivSpec
  GNMain GNResidual GNForward GNLoop GNTotal GNOutput EivProofs EivProofs2 EivProofs3 EivProofs4 EivCase EivCase2 EivCase3 EivCase4 MinresFinite MinresTwo MinresPivot EivSpec2 EivProofs9 GNSpec.
Open Scope nat_scope.

Section Props.
Context {T : Type}.
Variables (m : mobj R T) (st : solver T).
Variables (tolA tolB eps : R) (xr : list vec) (tol : R) (rc : bool).
Notation run := (eiv_run T tolA tolB eps xr st tol rc).

(** ** C110: every step lowers the linearised cost and points downhill *)
Theorem C110_steps : solver_for m st -> functions_ok m st -> (0 <= tolA)%R -> 1 <= n_vars st -> well_numbered m ->
  forall e, run = Ok e -> exists xs ss, eiv_steps st (g_xyza T st) xs ss /\ length ss = e_iter e /\ nth_error xs (e_iter e) = Some (e_xyza e) /\
  forall k x s x', nth_error xs k = Some x -> nth_error ss k = Some s -> nth_error xs (S k) = Some x' -> ~ stationary st x ->
    (exists f Js, residuals_at st x f /\ calc_prod_JPx T (with_xyza T st x) s false = Ok Js /\ (sum_sq (vadd f Js) < sum_sq f)%R) /\
    (derivatives_correct m (with_xyza T st x) -> ignores_indices m st -> reference_random m st ->
     exists d, x' = vadd x d /\ descent st x d).
Proof.
  intros SF FO HA NV HN e E. pose proof (run_outcome m st SF FO tolA tolB eps xr HA NV tol rc HN) as RO. rewrite E in RO.
  destruct RO as (xs & ss & St & _ & _ & Ls & _ & _ & _ & _ & El & _). exists xs, ss. split; [exact St|]. split; [exact Ls|]. split; [exact El|].
  intros k x s x' Hx Hs Hx' NS. destruct St as (_ & _ & St). pose proof (St k x s x' Hx Hs Hx') as Sk. split.
  - destruct Sk as (_ & _ & _ & _ & D). destruct (D NS) as (f & g & Js & D1 & _ & D2 & D3 & _). exists f, Js. auto.
  - intros DC II RR. pose proof Sk as Sk'. destruct Sk as (_ & _ & (d & Ed & Ex & _) & _). exists d. split; [exact Ex|].
    exact (step_descends m st SF FO _ x s x' d DC II RR Sk' NS Ed).
Qed.

(** ** C111: what a run does and returns *)
Theorem C111_outcome : solver_for m st -> functions_ok m st -> (0 <= tolA)%R -> 1 <= n_vars st -> well_numbered m ->
  match run with
  | Ok e => exists xs ss, eiv_steps st (g_xyza T st) xs ss /\ history st tol (g_xyza T st) xs (e_log e) /\
      length (e_log e) = e_iter e /\ length ss = e_iter e /\ 1 <= e_iter e <= n_vars st /\
      (forall k l, nth_error (e_log e) k = Some l -> S k < e_iter e -> ~ criteria l) /\
      (e_conv e = true <-> exists l, nth_error (e_log e) (e_iter e - 1) = Some l /\ criteria l) /\
      (e_conv e = false -> e_iter e = n_vars st) /\
      nth_error xs (e_iter e) = Some (e_xyza e) /\ e_a e = skipn (n_vars st) (e_xyza e) /\ e_cost e = cost_at st (e_xyza e) /\
      (if rc then cov_matrix T eps xr (with_xyza T st (e_xyza e)) = Ok (e_cov e) else e_cov e = map (fun _ => repeat (Some 0%R) (length (e_a e))) (e_a e))
  | Raise x => x = TypeError /\ stationary st (g_xyza T st) \/
      x = ZeroDivisionError /\ exists xs ss y, eiv_steps st (g_xyza T st) xs ss /\ nth_error xs (length ss) = Some y /\ length ss < n_vars st /\
        linearly_solvable st y /\ ~ stationary st y
  end.
Proof. intros SF FO HA NV HN. exact (run_outcome m st SF FO tolA tolB eps xr HA NV tol rc HN). Qed.
(** The residuals and systematic errors returned are those of the final estimate. *)
Theorem C111_residuals : solver_for m st -> functions_ok m st -> (0 <= tolA)%R -> 1 <= n_vars st -> well_numbered m -> nonzero (all_uK m) ->
  forall e, run = Ok e ->
  exists est ks, estimate_of m st (e_xyza e) est /\ evaluate_K T est (with_params (g_sd T st) (e_a e)) SelAll = Ok ks /\
    length (e_ks e) = n_ks st /\
    (forall i, i < n_ks st -> nth i (e_ks e) 0%R = (nth i ks 0 - nth i (m_ks R T m) 0)%R) /\
    match e_sys e with
    | None => forall u, In u (m_unc R T m) -> ~ has_systematic u
    | Some (errs, names) => length errs = length names /\
        forall k err name, nth_error errs k = Some err -> nth_error names k = Some name -> exists b u s, nth_error (m_unc R T m) b = Some u /\ has_systematic u /\ u_sysi R u = Some (S k) /\
          nth_error (n_sensor (m_idx R T m)) b = Some s /\ nth_error (sensors (m_idx R T m)) s = Some name /\
          nth_error (e_xyza e) (n_vars st - length errs + k) = Some err
    end.
Proof.
  intros SF FO HA NV HN HU e E. destruct (run_refines m st SF FO tolA tolB eps xr HA NV tol rc e E) as (lsmr & r & HL & ER & E1 & E2 & E3 & E4 & E5 & E6 & E7).
  pose proof (run_output m st SF FO lsmr (fun _ _ _ _ => Ok []) tol false r (ER _) HL NV HU HN) as RO. rewrite E1, E5, E6, E7 in RO. exact RO.
Qed.

(** ** C112: an estimate that is already right *)
(** A run that starts at a minimum (or any point where the gradient vanishes) fails. *)
Theorem C112_stationary_start_refuted : solver_for m st -> functions_ok m st -> 1 <= n_vars st ->
  stationary st (g_xyza T st) -> run = Raise TypeError.
Proof. intros SF FO NV St. exact (run_stationary m st SF FO tolA tolB eps xr NV tol rc St). Qed.
(** An iterate where the gradient vanishes is left again, by the step that led to it. *)
Theorem C112_left_again_refuted : solver_for m st -> functions_ok m st -> (0 <= tolA)%R -> 1 <= n_vars st -> well_numbered m ->
  forall e, run = Ok e -> exists xs, length xs = S (e_iter e) /\ nth_error xs 0 = Some (g_xyza T st) /\ nth_error xs (e_iter e) = Some (e_xyza e) /\
  forall k x x' x'', nth_error xs k = Some x -> nth_error xs (S k) = Some x' -> nth_error xs (S (S k)) = Some x'' -> stationary st x' ->
    exists d, length d = length x /\ x' = vadd x d /\ x'' = vadd x' d.
Proof.
  intros SF FO HA NV HN e E. pose proof (run_outcome m st SF FO tolA tolB eps xr HA NV tol rc HN) as RO. rewrite E in RO.
  destruct RO as (xs & ss & (S1 & S2 & S3) & _ & _ & Ls & _ & _ & _ & _ & El & _). exists xs. split; [congruence|]. split; [exact S2|]. split; [exact El|].
  intros k x x' x'' Hx Hx' Hx'' St.
  assert (L : S (S k) < length xs) by (apply nth_error_Some; congruence).
  destruct (nth_error ss k) as [s|] eqn:Es; [|exfalso; apply nth_error_None in Es; lia]. destruct (nth_error ss (S k)) as [s'|] eqn:Es'; [|exfalso; apply nth_error_None in Es'; lia].
  destruct (S3 k x s x' Hx Es Hx') as (_ & _ & (d & Ed & Ex & Ld) & _). destruct (S3 (S k) x' s' x'' Hx' Es' Hx'') as (_ & _ & (d' & Ed' & Ex' & Ld') & A & _).
  specialize (A St). rewrite Es in A. injection A as ->. exists d. split; [exact Ld|]. split; [exact Ex|]. change (calc_Px T (with_xyza T st x') s' false) with (calc_Px T (with_xyza T st x) s' false) in Ed'. congruence.
Qed.

(** ** C113: the accuracy of the covariance *)
Theorem C113_covariance : forall alpha, solver_for m st -> functions_ok m st -> (0 < eps < alpha)%R -> curvature_at_least alpha st ->
  forall V, cov_matrix T eps xr st = Ok V ->
  length V = n_pars st /\ (forall r, In r V -> length r = n_pars st) /\
  forall i j, i < n_pars st -> j < n_pars st -> nth j (nth i V []) None = nth i (nth j V []) None /\
  match nth j (nth i V []) None with
  | Some v => exists si sj zi zj w, solved_for eps xr st i (Finite si) /\ solved_for eps xr st j (Finite sj) /\
      exact_solution st i zi /\ exact_solution st j zj /\ exact_entry st zj i w /\
      (Rabs (v - w) <= (sqrt (sum_sq zi) * m_rnorm sj + sqrt (sum_sq zj) * m_rnorm si) / 2)%R
  | None => exists k f n, (k = i \/ k = j) /\ solved_for eps xr st k (NotANumber f n)
  end.
Proof. intros alpha SF FO He HC V. exact (conditioned_ok m st SF FO eps alpha xr He HC V). Qed.
(** The exact solution, hence the exact entry, is unique. *)
Theorem C113_unique : forall alpha j z z', solver_for m st -> functions_ok m st -> (0 < eps < alpha)%R -> curvature_at_least alpha st ->
  exact_solution st j z -> exact_solution st j z' -> z = z'.
Proof. intros alpha j z z' SF FO He HC. exact (solution_unique m st SF FO eps alpha He HC j z z'). Qed.
(** Without a bound of the curvature: as far as no pivot of MINRES is as small as eps. *)
Theorem C113_pivots : solver_for m st -> functions_ok m st -> (0 < eps)%R ->
  forall V, cov_matrix T eps xr st = Ok V ->
  length V = n_pars st /\ (forall r, In r V -> length r = n_pars st) /\
  forall i j, i < n_pars st -> j < n_pars st -> nth j (nth i V []) None = nth i (nth j V []) None /\
  match nth j (nth i V []) None with
  | Some v => exists si sj, solved_for eps xr st i (Finite si) /\ solved_for eps xr st j (Finite sj) /\
      (pivots_ok eps si -> pivots_ok eps sj -> forall zi zj w, exact_solution st i zi -> exact_solution st j zj -> exact_entry st zj i w ->
        (Rabs (v - w) <= (sqrt (sum_sq zi) * m_rnorm sj + sqrt (sum_sq zj) * m_rnorm si) / 2)%R)
  | None => exists k f n, (k = i \/ k = j) /\ solved_for eps xr st k (NotANumber f n)
  end.
Proof. intros SF FO He V. exact (matrix_ok m st SF FO eps xr He V). Qed.
(** ** C114: the symmetry check never rejects the Hessian *)
Theorem C114_hessian : solver_for m st -> functions_ok m st -> (0 < eps)%R ->
  check_symmetric (n_vars st + n_pars st) (op_matrix (n_vars st + n_pars st) (calc_Hx T st)) eps xr = true.
Proof. intros SF FO He. exact (check_H m st SF FO eps xr He). Qed.
End Props.
Theorem C114_symmetric : forall n A eps xs, symmetric n A -> (0 <= eps)%R -> check_symmetric n A eps xs = true.
Proof. exact check_accepts. Qed.

(** ** C115: MINRES gives numbers unless the right-hand side is numerically an eigenvector *)
Theorem C115_finite : forall n A b eps rtol etol itnlim, (0 < eps)%R -> (0 <= rtol)%R -> (0 < vdot n b b)%R ->
  (let v := vscal (1 / vnorm n b) b in (10 * eps * vnorm n b < vnorm n (vsub (mul n A v) (vscal (vdot n v (mul n A v)) v)))%R) ->
  exists s, msolve n A eps rtol etol itnlim true b = Finite s.
Proof. intros n A b eps rtol etol itnlim He Hr Hb H. exact (msolve_finite n A eps rtol etol itnlim He Hr b Hb H). Qed.
(** ** C116: MINRES takes at most as many iterations as there are unknowns *)
Theorem C116_iterations : forall n A b eps rtol etol itnlim s, symmetric n A -> (0 < eps)%R -> (0 <= rtol)%R ->
  msolve n A eps rtol etol itnlim true b = Finite s -> (0 < m_itn s -> (eps < m_gmin s)%R) ->
  m_itn s <= n /\ (m_istop s = 6%Z -> itnlim < n).
Proof. intros n A b eps rtol etol itnlim s Hs He Hr. exact (msolve_iterations n A eps rtol etol itnlim b Hs He Hr s). Qed.
(** In particular for every matrix none of whose eigenvalues is as small as eps. *)
Theorem C116_definite : forall n A alpha b eps rtol etol itnlim s, symmetric n A -> (0 < eps < alpha)%R -> (0 <= rtol)%R ->
  (forall v, (alpha * vdot n v v <= vdot n v (mul n A v))%R) -> msolve n A eps rtol etol itnlim true b = Finite s ->
  m_itn s <= n /\ (m_istop s = 6%Z -> itnlim < n).
Proof.
  intros n A alpha b eps rtol etol itnlim s Hs He Hr Hd H. apply (C116_iterations n A b eps rtol etol itnlim s Hs (proj1 He) Hr H).
  exact (msolve_pivots n A eps rtol etol itnlim b alpha Hs He Hd s H).
Qed.
Print Assumptions C110_steps.
Print Assumptions C111_outcome.
Print Assumptions C111_residuals.
Print Assumptions C112_stationary_start_refuted.
Print Assumptions C112_left_again_refuted.
Print Assumptions C113_covariance.
Print Assumptions C113_unique.
Print Assumptions C113_pivots.
Print Assumptions C114_hessian.
Print Assumptions C114_symmetric.
Print Assumptions C115_finite.
Print Assumptions C116_iterations.
Print Assumptions C116_definite.

(** ** The hypotheses are met: two match-ups of a reference A and a sensor B with an unknown offset, whose K values contradict each other *)
Section Example.
Local Open Scope R_scope.
(** The minimum is passed twice; the run ends, unconverged, where it started, at three times the least cost. *)
Theorem C112_minimum_lost_refuted : forall tolA tolB eps xr tol rc, 0 <= tolA -> tol <= 4 / 5 ->
  exists e, eiv_run nat tolA tolB eps xr (oxst 1 (-1)) tol rc = Ok e /\ e_xyza e = g_xyza nat (oxst 1 (-1)) /\ e_cost e = 2 /\ e_conv e = false /\ e_iter e = 4%nat /\
  exists xs ss, eiv_steps (oxst 1 (-1)) (g_xyza nat (oxst 1 (-1))) xs ss /\ length ss = e_iter e /\
    exists x, nth_error xs 1 = Some x /\ stationary (oxst 1 (-1)) x /\ cost_at (oxst 1 (-1)) x = 2 / 3 /\ forall y, unknowns_vec (oxst 1 (-1)) y -> 2 / 3 <= cost_at (oxst 1 (-1)) y.
Proof.
  intros tolA tolB eps xr tol rc HA Ht. destruct (ox_run tolA tolB eps xr HA tol Ht rc) as (e & E & X & I & C & xs & ss & St & Ls & X1). exists e. split; [exact E|]. split; [rewrite ox_x0; exact X|].
  destruct ox_costs as (C1 & C2 & C3). split.
  - pose proof (run_outcome (oxm 1 (-1)) (oxst 1 (-1)) (ox_solver 1 (-1)) (ox_functions 1 (-1)) tolA tolB eps xr HA ox_nv tol rc (ox_numbered 1 (-1))) as RO. rewrite E in RO.
    destruct RO as (xs' & ss' & _ & _ & _ & _ & _ & _ & _ & _ & _ & _ & Ec & _). rewrite Ec, X. exact C1.
  - split; [exact C|]. split; [exact I|]. exists xs, ss. split; [rewrite ox_x0; exact St|]. split; [exact Ls|]. exists x_min. split; [exact X1|]. split; [exact ox_stationary|]. split; [exact C2|exact C3].
Qed.
(** C110 and C111 apply to it, at every estimate. *)
Example C110_case : forall x, unknowns_vec (oxst 1 (-1)) x -> solver_for (oxm 1 (-1)) (oxst 1 (-1)) /\ functions_ok (oxm 1 (-1)) (oxst 1 (-1)) /\ well_numbered (oxm 1 (-1)) /\ (1 <= n_vars (oxst 1 (-1)))%nat /\
  derivatives_correct (oxm 1 (-1)) (with_xyza nat (oxst 1 (-1)) x) /\ ignores_indices (oxm 1 (-1)) (oxst 1 (-1)) /\ reference_random (oxm 1 (-1)) (oxst 1 (-1)) /\ nonzero (all_uK (oxm 1 (-1))).
Proof.
  intros x Hx. split; [apply ox_solver|]. split; [apply ox_functions|]. split; [apply ox_numbered|]. split; [apply ox_nv|]. split; [apply ox_derivatives, Hx|]. split; [apply ox_ignores|]. split; [apply ox_reference|].
  cbn. intros u [<-|[<-|[]]]; lra.
Qed.
(** Its start is not stationary; consistent match-ups make it so. *)
Example C112_stationary_case : stationary (oxst 0 0) (g_xyza nat (oxst 0 0)) /\ ~ stationary (oxst 1 (-1)) (g_xyza nat (oxst 1 (-1))).
Proof.
  split.
  - assert (E0 : g_xyza nat (oxst 0 0) = [0; 0; 0; 0; 0]) by exact ox_x0. rewrite E0. eexists. split; [eexists; split; [apply ox_f|apply ox_Jt]|]. intros a [<-|[<-|[<-|[<-|[<-|[]]]]]]; lra.
  - rewrite ox_x0. intros (g & (f & Ef & Eg) & Z). unfold x_start in *. pose proof (ox_f 1 (-1) 0 0 0 0 0) as F. unfold residuals_at in *. rewrite F in Ef. injection Ef as <-. rewrite ox_Jt in Eg. injection Eg as <-. specialize (Z _ (or_introl eq_refl)). lra.
Qed.
(** The covariance of its only parameter is exact: (1 + 1 + 1) / 2. *)
Example C113_case : forall eps xr x1 x2 x3 x4 x5, 0 < eps < 1 / 1000 -> let st := with_xyza nat (oxst 1 (-1)) [x1; x2; x3; x4; x5] in
  cov_matrix nat eps xr st = Ok [[Some (3 / 2)]] /\ (exists z, exact_solution st 0 z /\ exact_entry st z 0 (3 / 2)) /\ exists s, solved_for eps xr st 0 (Finite s) /\ pivots_ok eps s /\ m_rnorm s = 0.
Proof.
  intros eps xr x1 x2 x3 x4 x5 He st. split; [apply oy_cov, He|]. split; [eexists; exact (oy_exact 1 (-1) x1 x2 x3 x4 x5)|].
  destruct (oy_minres 1 (-1) x1 x2 x3 x4 x5 eps xr He) as (s & E & G & R0). exists s. split; [eexists; split; [apply oy_system|exact E]|]. split; [intros _; exact G|exact R0].
Qed.
(** No eigenvalue of its Hessian is below 1/4. *)
Example C113_curvature_case : forall x1 x2 x3 x4 x5, let st := with_xyza nat (oxst 1 (-1)) [x1; x2; x3; x4; x5] in curvature_at_least (1 / 4) st.
Proof.
  intros x1 x2 x3 x4 x5 st x h Hx E. unfold unknowns_vec in Hx. destruct (oy_dims 1 (-1) x1 x2 x3 x4 x5) as (D1 & D2). unfold st in *. rewrite D1, D2 in Hx.
  destruct x as [|s1 [|s2 [|s3 [|s4 [|s5 [|s6 x]]]]]]; try discriminate Hx. rewrite oy_H in E. injection E as <-. unfold sum_sq, inner. cbn.
  assert (A1 : s5 * s5 <= 3 * ((s5 + s3 - s1) * (s5 + s3 - s1) + s3 * s3 + s1 * s1)) by (set (e := s5 + s3 - s1); replace s5 with (e - s3 + s1) by (unfold e; ring); pose proof (Rle_0_sqr (e + s3)) as Q1; pose proof (Rle_0_sqr (e - s1)) as Q2; pose proof (Rle_0_sqr (s1 + s3)) as Q3; unfold Rsqr in *; lra).
  assert (P1 : 0 <= (s5 + s3 - s1) * (s5 + s3 - s1)) by exact (Rle_0_sqr _). assert (P2 : 0 <= (s5 + s4 - s2) * (s5 + s4 - s2)) by exact (Rle_0_sqr _).
  assert (Q1 : 0 <= s1 * s1) by exact (Rle_0_sqr _). assert (Q2 : 0 <= s2 * s2) by exact (Rle_0_sqr _). assert (Q3 : 0 <= s3 * s3) by exact (Rle_0_sqr _). assert (Q4 : 0 <= s4 * s4) by exact (Rle_0_sqr _).
  lra.
Qed.
(** C115, C116: the first column of ((2, 2), (2, 3)). *)
Example C116_case : exists A b s, symmetric 2 A /\ 0 < vdot 2 b b /\
  (let v := vscal (1 / vnorm 2 b) b in 10 * (1 / 10000) * vnorm 2 b < vnorm 2 (vsub (mul 2 A v) (vscal (vdot 2 v (mul 2 A v)) v))) /\
  msolve 2 A (1 / 10000) (1 / 100) (1 / 100) 7 true b = Finite s /\ (1 / 10000 < m_gmin s) /\ m_itn s = 2%nat /\ m_istop s = 1%Z.
Proof.
  set (A := (fun i j => if Nat.eqb i 1 then (if Nat.eqb j 1 then 3 else 2) else 2) : matrix). set (b := (fun i => if Nat.eqb i 0 then 1 else 0) : vec).
  destruct (two_steps 2 A (1 / 10000) (1 / 100) (1 / 100) 7 b (fun i => if Nat.eqb i 1 then 1 else 0)) as (s & E & G & _ & I & It).
  - lra.
  - lra.
  - lia.
  - unfold vdot, b, rsum. cbn. lra.
  - unfold vdot, b, rsum. cbn. lra.
  - unfold vdot, rsum. cbn. lra.
  - intros [|[|i]] Hi; [| |lia]; unfold mul, rsum, A, b; cbn; lra.
  - intros [|[|i]] Hi; [| |lia]; unfold mul, rsum, A, b; cbn; lra.
  - exists A, b, s. split; [intros [|[|i]] [|[|j]] Hi Hj; try lia; reflexivity|]. split; [unfold vdot, b, rsum; cbn; lra|]. split; [|auto].
    assert (N1 : vnorm 2 b = 1) by (unfold vnorm; replace (vdot 2 b b) with 1 by (unfold vdot, b, rsum; cbn; ring); apply sqrt_1). rewrite N1. cbv zeta.
    replace (vnorm 2 (vsub (mul 2 A (vscal (1 / 1) b)) (vscal (vdot 2 (vscal (1 / 1) b) (mul 2 A (vscal (1 / 1) b))) (vscal (1 / 1) b)))) with 2; [lra|].
    symmetry. unfold vnorm. apply sqrt_sq; [lra|]. unfold vdot, mul, vsub, vscal, A, b, rsum. cbn. lra.
Qed.
End Example.
Print Assumptions C112_minimum_lost_refuted.
