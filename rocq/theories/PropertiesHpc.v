(** * C154-C156: harmonisation in separate jobs. *)
From Coq Require Import Reals Lra Permutation.
From Verif Require Import Base BaseLemmas ReaderModel ReaderSpec UncModel SensorModel SensorSpec MuModel TransformModel EvalModel EvalSpec HistModel GNModel PCModel PCSpec LsmrModel EivModel EivSpec CheckModel CheckSpec
  IOModel IOSpec OpModel OpSpec FullModel FullSpec SaveModel SaveSpec SaveProofs HpcModel HpcSpec HpcProofs HpcProofs2 EivProofs3 EivCase EivCase2 FullCase HpcCase Routines PropertiesFull GNSpec.
Open Scope nat_scope.

Section Props.
Context {T : Type} (nanV : R) (zeroT : T) (f32 i32 : R -> R) (todate : R -> T) (isfill : R -> bool) (ord : list string -> list string) (ordn : list nat -> list nat).
Variables (cholesky : list (list R) -> res (list (list R))) (tolA tolB eps tol : R) (xs : list vec) (f4 : R -> R).
Notation open_matchup := (open_matchup nanV zeroT f32 i32 todate isfill ord ordn).
Notation direct_run := (eiv_from cholesky tolA tolB eps tol xs).
Notation run_saving := (run_saving cholesky tolA tolB eps tol xs f4).
Notation covariance_job := (covariance_job eps xs).
Notation run_reopening := (run_reopening cholesky tolA tolB eps tol xs).

(** ** C154: covariance elements computed by separate jobs *)
Theorem C154_covariance_in_jobs : (forall l, Permutation (ordn l) l) -> cholesky_total cholesky -> (0 <= tolA)%R ->
  forall dict fs, (forall f, In f fs -> usable f) -> agree fs -> describes dict fs -> (exists f M, In f fs /\ size f "M" M /\ 1 <= M) -> dict_ignores_times dict ->
  exists m sd, open_matchup dict fs = Ok (m, sd) /\ forall a V, length a = length (sd_a T sd) -> spd V (length a) ->
  match run_saving m sd (a, V) with
  (* an exception ends the run in the same way with and without saving *)
  | Raise e => direct_run m sd false (a, V) = Raise e
  | Ok (h, sv) => exists h0 d L, direct_run m sd false (a, V) = Ok h0 /\ same_but_covariance h h0 /\ tn_run T m = Ok d /\ cholesky V = Ok L /\ cholesky_factor L V (length a) /\
      let st := with_xyza T (start sd d a L) (e_xyza (h_result h)) in
      (* each job computes the element of the solver as stored, in 4-byte floats *)
      (forall i j, covariance_job m sd sv i j = cov_element T eps xs (rounded f4 st) i j) /\
      (* if nothing is lost in storing, the jobs together give the covariance of the direct run *)
      (stored_exactly f4 st -> exists v, (forall i j, i < length a -> j < length a -> covariance_job m sd sv i j = Ok (v i j)) /\
        e_cov (h_result h0) = map (fun i => map (fun j => half_sum (v i j) (v j i)) (seq 0 (length a))) (seq 0 (length a)) /\
        forall w files, length a <= 10 -> (forall i j, i < length a -> j < length a -> v i j = Some (w i j)) -> element_files (length a) w files ->
          exists M, combine_elements files = Ok M /\ e_cov (h_result h0) = map (map (@Some R)) M)
  end.
Proof.
  intros PM CT HA dict fs US AG DE (f & M & Hf & HM & H1) DI. assert (NE : fs <> []) by (intros ->; destruct Hf).
  destruct (C117_open_ready nanV zeroT f32 i32 todate isfill ord ordn PM dict fs NE US AG DE) as (m & sd & EO & RD & NM & _). exists m, sd. split; [exact EO|]. intros a V La SV.
  pose proof (jobs cholesky tolA tolB eps tol xs f4 m sd a V RD CT HA (ex_intro _ M (conj (NM f M Hf HM) H1)) La SV (opened_ignores nanV zeroT f32 i32 todate isfill ord ordn dict fs m sd DI EO)) as J.
  destruct (run_saving m sd (a, V)) as [[h sv]|e]; [|exact J]. destruct J as (h0 & d & L & J1 & J2 & J3 & J4 & J5 & J6 & J7). exists h0, d, L. do 5 (split; [assumption|]). cbv zeta in *.
  split; [exact J6|]. intros SE. destruct (J7 SE) as (v & K1 & K2). exists v. split; [exact K1|]. split; [exact K2|]. intros w files Hn Hv Hfi. rewrite K2. exact (combined (length a) v w files Hn Hv Hfi).
Qed.

(** ** C155: a run that starts from the saved initial solver *)
(** It gives the result of the direct run if the preconditioner's parameters are those of the sensor data, the numbers are 4-byte floats and the K values are
    unchanged by the transformation. *)
Theorem C155_from_initial_partial : (forall l, Permutation (ordn l) l) -> cholesky_total cholesky ->
  forall dict fs, fs <> [] -> (forall f, In f fs -> usable f) -> agree fs -> describes dict fs -> dict_ignores_times dict ->
  exists m sd sv, open_matchup dict fs = Ok (m, sd) /\ initial_job f4 m sd = Ok sv /\
  forall V save, spd V (length (sd_a T sd)) -> ks_normal m -> (forall d, tn_run T m = Ok d -> stored_exactly f4 (gn_init T d sd (sd_cs T sd))) ->
  run_reopening m sd sv save (sd_a T sd, V) = direct_run m sd save (sd_a T sd, V).
Proof.
  intros PM CT dict fs NE US AG DE DI. destruct (C117_open_ready nanV zeroT f32 i32 todate isfill ord ordn PM dict fs NE US AG DE) as (m & sd & EO & RD & _). pose proof (opened_ignores nanV zeroT f32 i32 todate isfill ord ordn dict fs m sd DI EO) as IG.
  destruct (FullProofs6.run_dims m sd RD) as (d & Ed & _). exists m, sd, (gn_save T f4 (gn_init T d sd (sd_cs T sd))). split; [exact EO|]. assert (EI : initial_job f4 m sd = Ok (gn_save T f4 (gn_init T d sd (sd_cs T sd)))) by (unfold initial_job; rewrite Ed; reflexivity).
  split; [exact EI|]. intros V save SV KN SE. destruct (reopening_initial cholesky tolA tolB eps tol xs f4 m sd V RD SV CT IG KN) as (sv & E & Q). rewrite EI in E. injection E as <-. exact (Q save SE).
Qed.
(** Whatever was saved, the parameters of the preconditioner have no influence: the run starts from the saved estimates. *)
Theorem C155_parameters_unused : forall (m : mobj R T) sd sv save a a' V, length a = length a' -> ignores_times sd -> run_reopening m sd sv save (a, V) = run_reopening m sd sv save (a', V).
Proof. intros. apply reopening_ignores; assumption. Qed.

(** ** C156: the options save_gn and return_covariance *)
(** With and without them the operator gives the same result, with its covariance, and no saved solver. *)
Theorem C156_options_refuted : forall precond (m : mobj R T) sd o o', pc_input o = pc_input o' -> gn_input o = gn_input o' ->
  op_run cholesky tolA tolB eps tol xs precond m sd o = op_run cholesky tolA tolB eps tol xs precond m sd o' /\
  forall h s, op_run cholesky tolA tolB eps tol xs precond m sd o = Ok (h, s) -> s = None /\
    (gn_input o = None -> forall pc, pc_input o = Some pc -> direct_run m sd false pc = Ok h).
Proof.
  intros precond m sd o o' E1 E2. unfold op_run. rewrite E1, E2. split; [reflexivity|]. intros h s H.
  destruct (match pc_input o' with Some p => Ok p | None => precond m sd end) as [pc|] eqn:Ep; cbn [bind] in H; [|discriminate].
  match type of H with bind ?x _ = _ => destruct x as [h'|] eqn:Eh; cbn [bind] in H; [|discriminate] end. injection H as <- <-. split; [reflexivity|]. intros Eg pc' Epc. rewrite Eg in Eh. rewrite Epc in Ep. injection Ep as <-. exact Eh.
Qed.
End Props.
Print Assumptions C154_covariance_in_jobs.
Print Assumptions C155_from_initial_partial.
Print Assumptions C155_parameters_unused.
Print Assumptions C156_options_refuted.

(** K values that the transformation leaves unchanged, sensor functions without times, exact storage: only the preconditioner's parameters (1) differ from those
    saved (0, which solve the problem).  The run from the saved solver raises TypeError (C112); the direct run does not. *)
Theorem C155_from_initial_refuted : forall tolA tolB eps tol xr, (0 <= tolA)%R -> exists (m : mobj R nat) sd sv a V, ks_normal m /\ ignores_times sd /\ length a = length (sd_a nat sd) /\ initial_job (fun x => x) m sd = Ok sv /\
  run_reopening chol1 tolA tolB eps tol xr m sd sv false (a, V) = Raise TypeError /\ eiv_from chol1 tolA tolB eps tol xr m sd false (a, V) <> Raise TypeError.
Proof.
  intros tolA tolB eps tol xr HA. destruct (ox_resume tolA tolB eps tol xr HA) as (sv & E1 & E2 & E3). exists (oxm 0 0), oxsd, sv, [1%R], [[1%R]]. split; [exact ox_normal|]. split; [exact ox_times|]. split; [reflexivity|]. auto.
Qed.
Print Assumptions C155_from_initial_refuted.

(** ** The hypotheses are met *)
Example C154_example : (forall f, In f [exqf] -> usable f) /\ agree [exqf] /\ describes (exdict "A" "B") [exqf] /\ size exqf "M" 10 /\ dict_ignores_times (exdict "A" "B").
Proof.
  destruct exqf_files as (H1 & H2 & H3 & H4 & H5). do 4 (split; [assumption|]). intros s e X a c xt al t [E|[E|[]]]; injection E as <- <-; reflexivity.
Qed.
(** A run that saves and one job: the covariance is that of the direct run, 3/2. *)
Example C154_case : forall tolA tolB eps tol xr, (0 <= tolA)%R -> (0 < eps < 1 / 1000)%R -> (tol <= 4 / 5)%R ->
  exists h sv, run_saving chol1 tolA tolB eps tol xr (fun x => x) (oxm 1 (-1)) oxsd ([0%R], [[1%R]]) = Ok (h, sv) /\ e_iter (h_result h) = 4 /\ e_cov (h_result h) = [[Some 0%R]] /\
  covariance_job eps xr (oxm 1 (-1)) oxsd sv 0 0 = Ok (Some (3 / 2)%R) /\
  exists h0, eiv_from chol1 tolA tolB eps tol xr (oxm 1 (-1)) oxsd false ([0%R], [[1%R]]) = Ok h0 /\ e_cov (h_result h0) = [[Some (3 / 2)%R]].
Proof. intros tolA tolB eps tol xr HA He Ht. exact (ox_jobs tolA tolB eps tol xr HA He Ht). Qed.
Example C155_example : ks_normal (oxm 0 0) /\ ignores_times oxsd /\ solver_for (oxm 0 0) (oxst 0 0).
Proof. split; [exact ox_normal|]. split; [exact ox_times|exact (ox_solver 0 0)]. Qed.
