(** * C50: saving a solver and opening it again. *)
From Coq Require Import Reals Lra.
From Verif Require Import Base ReaderModel UncModel MuModel TransformModel EvalModel HistModel GNModel GNSpec SaveModel SaveSpec SaveProofs PropertiesGN.
Open Scope nat_scope.

Section C50.
Context {T : Type}.
Variable f4 : R -> R.
Notation reopened st m sd := (gn_reopen T (gn_save T f4 st) m sd (g_ocs T st)).

(** What the file and the pickle hold is what is opened: estimate, preconditioner solution, transformed
    values and layout, rounded to 4-byte floats. *)
Theorem C50_restored : forall (st : solver T) m sd ocs, let st' := gn_reopen T (gn_save T f4 st) m sd ocs in
  g_xyza T st' = map f4 (g_xyza T st) /\ g_S T st' = map (map f4) (g_S T st) /\ m_values R T (g_m T st') = map f4 (m_values R T (g_m T st)) /\
  m_idx R T (g_m T st') = m_idx R T (g_m T st) /\ m_ps R T (g_m T st') = m_ps R T (g_m T st).
Proof. intros. repeat split. Qed.

(** If the numbers are 4-byte floats and the sensor data has the same functions and constants, the re-opened solver has the same Jacobian and Hessian products and
    hence the same covariance, element by element (what the re-opening in calculate_parameter_covariance_ij
    needs). *)
Theorem C88_covariance_from_saved_solver : forall (m : mobj R T) (st : solver T) sd, same_sensors (g_sd T st) sd -> solver_for m st -> stored_exactly f4 st -> ignores_times (g_sd T st) ->
  (forall x tr, calc_prod_JPx T (reopened st m sd) x tr = calc_prod_JPx T st x tr) /\ (forall x, calc_Hx T (reopened st m sd) x = calc_Hx T st x) /\
  forall minres i j, minres_by_products minres -> covariance_ij T minres (reopened st m sd) i j = covariance_ij T minres st i j.
Proof.
  intros m st sd SS SF SE IG. destruct (reopen_twin f4 m st sd (sf_run _ _ SF) SE SS) as (W & _). split; [|split].
  - intros. apply prod_twin; auto.
  - intros. apply Hx_twin; auto.
  - intros minres i j HM. apply cov_ij_twin; auto.
Qed.

(** The residual and the rest of a run are the same if each K value equals K divided by its uncertainty:
    the K values themselves are not saved, and stay as read from the match-up files. *)
Theorem C50_continuation_partial : forall (m : mobj R T) (st : solver T) sd, same_sensors (g_sd T st) sd -> solver_for m st -> functions_ok m st -> stored_exactly f4 st -> ignores_times (g_sd T st) ->
  (forall i, i < n_ks st -> (nth i (m_ks R T m) 0 / nth i (all_uK m) 0 = nth i (m_ks R T m) 0)%R) ->
  forall lsmr minres, lsmr_by_products lsmr -> minres_by_products minres ->
  (forall x, unknowns_vec st x -> calc_f T (reopened st m sd) x = calc_f T st x) /\
  forall tol rc, gn_run T lsmr minres (reopened st m sd) tol rc = gn_run T lsmr minres st tol rc.
Proof.
  intros m st sd SS SF FO SE IG HK lsmr minres HL HM. destruct (reopen_twin f4 m st sd (sf_run _ _ SF) SE SS) as (W & K).
  assert (K' : m_ks R T (g_m T (reopened st m sd)) = m_ks R T (g_m T st)) by (rewrite K; apply ks_fixed; auto).
  split; [intros x _; apply calc_f_twin; auto|]. intros. apply run_twin; auto.
Qed.

(** Otherwise the residual of the re-opened solver is wrong by K/u(K) - K. *)
Theorem C50_residual_reopened : forall (m : mobj R T) (st : solver T) sd x, same_sensors (g_sd T st) sd -> solver_for m st -> functions_ok m st -> stored_exactly f4 st -> unknowns_vec st x ->
  exists f f', calc_f T st x = Ok f /\ calc_f T (reopened st m sd) x = Ok f' /\ residual_vec st f /\ residual_vec st f' /\
  (forall i, i < n_vars st -> nth i f' 0%R = nth i f 0%R) /\
  (forall i, i < n_ks st -> (nth (n_vars st + i) f' 0 - nth (n_vars st + i) f 0 = nth i (m_ks R T m) 0 / nth i (all_uK m) 0 - nth i (m_ks R T m) 0)%R).
Proof. intros m st sd x SS SF FO SE. exact (residual_reopened f4 m st sd x SF FO SE SS). Qed.
End C50.
Print Assumptions C50_restored.
Print Assumptions C88_covariance_from_saved_solver.
Print Assumptions C50_continuation_partial.
Print Assumptions C50_residual_reopened.


(** The solver of C22-C28 (four uncertainty types), saved without any rounding: its second K value is 2
    with uncertainty 2, and the re-opened solver's residual for it is too small by 1. *)
Lemma same_self {T} (sd : sdat T) : same_sensors sd sd.
Proof. repeat split. Qed.
Lemma gx_exact : stored_exactly (fun x => x) gxst.
Proof. repeat split. Qed.
Lemma gx_times : ignores_times (g_sd nat gxst).
Proof.
  intros s f X a c xt al t H. do 3 (destruct s as [|s]; [cbn in H; injection H as <-; reflexivity|]). destruct s; discriminate.
Qed.
Theorem C50_continuation_refuted : exists f f', solver_for gxm gxst /\ functions_ok gxm gxst /\
  calc_f nat gxst (g_xyza nat gxst) = Ok f /\
  calc_f nat (gn_reopen nat (gn_save nat (fun x => x) gxst) gxm (g_sd nat gxst) (g_ocs nat gxst)) (g_xyza nat gxst) = Ok f' /\
  (nth (n_vars gxst + 1) f' 0 - nth (n_vars gxst + 1) f 0 = -1)%R.
Proof.
  destruct (C50_residual_reopened (fun x => x) gxm gxst (g_sd nat gxst) (g_xyza nat gxst) (same_self _) gx_solver gx_functions gx_exact) as (f & f' & E & E' & _ & _ & _ & H).
  - apply (sf_xyza _ _ gx_solver).
  - exists f, f'. split; [exact gx_solver|]. split; [exact gx_functions|]. split; [auto|]. split; [auto|]. destruct gx_vars as (V & K & P).
    rewrite H by (rewrite K; lia). cbn. lra.
Qed.
Print Assumptions C50_continuation_refuted.
Example C50_example : forall x tr, calc_prod_JPx nat (gn_reopen nat (gn_save nat (fun x => x) gxst) gxm (g_sd nat gxst) (g_ocs nat gxst)) x tr = calc_prod_JPx nat gxst x tr.
Proof. exact (proj1 (C88_covariance_from_saved_solver (fun x => x) gxm gxst (g_sd nat gxst) (same_self _) gx_solver gx_exact gx_times)). Qed.
