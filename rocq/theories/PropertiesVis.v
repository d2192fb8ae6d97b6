(** * Harmonised quantities of HarmonisationVis: C37, C68. *)
From Coq Require Import Reals Lra.
From Verif Require Import Base BaseLemmas ReaderModel UncModel MuModel TransformModel EvalModel HistModel VisModel VisSpec VisProofs PropertiesTransform PropertiesEval.
Open Scope nat_scope.

Section Props.
Context {T : Type}.
(** C37: in every history that starts with the measurand of sensor 1, every answer is the harmonised one. *)
Theorem C37_harmonised_answers : forall (m : mobj R T) (sd : sdat T) par labels nominal2 H1 H2 old cs,
  m_ps R T m = Some old -> adjusted_with m sd par labels = Ok (H1, H2) ->
  Forall2 (harmonised_answer H1 H2 (m_ks R T m) nominal2) (CL1 :: cs) (snd (calls T par labels nominal2 (new_vis T m sd) (CL1 :: cs))).
Proof. intros m sd par labels nominal2 H1 H2 old cs Hp HE. exact (first_L1 par labels nominal2 m sd H1 H2 old Hp HE cs). Qed.
(** C37: whatever is called in whatever order, the match-up data are the same afterwards. *)
Theorem C37_data_restored : forall (m : mobj R T) (sd : sdat T) par labels nominal2 H1 H2 old cs,
  m_ps R T m = Some old -> adjusted_with m sd par labels = Ok (H1, H2) ->
  v_m T (fst (calls T par labels nominal2 (new_vis T m sd) cs)) = m /\ v_sd T (fst (calls T par labels nominal2 (new_vis T m sd) cs)) = sd.
Proof. intros m sd par labels nominal2 H1 H2 old cs Hp HE. exact (calls_keep par labels nominal2 m sd H1 H2 old Hp HE cs (new_vis T m sd) eq_refl eq_refl). Qed.

(** C68: asked first, the "harmonised" measurand of sensor 2 and K residual are nominal ones - and so is
    the "harmonised" measurand of sensor 1 asked next. *)
Theorem C68_nominal_measurands_refuted : forall (m : mobj R T) (sd : sdat T) par labels nominal2 N1 N2,
  evaluate_adjusted_measurand T m sd SelAll = Ok (N1, N2) ->
  snd (calls T par labels nominal2 (new_vis T m sd) [CL2; CL1]) = [Arr N2; Arr N1].
Proof.
  intros m sd par labels nominal2 N1 N2 E. destruct (fresh_L2 par labels m sd N1 N2 E) as (A & B). cbn [calls do_call].
  destruct (get_L2_harm T (new_vis T m sd)) as (s1, r1). cbn [fst snd] in *. destruct (get_L1_harm T par labels s1) as (s2, r2). cbn [snd] in *. congruence.
Qed.
Theorem C68_nominal_residual_refuted : forall (m : mobj R T) (sd : sdat T) par labels N1 N2,
  evaluate_adjusted_measurand T m sd SelAll = Ok (N1, N2) ->
  residual N2 N1 (m_ks R T m) (snd (get_kres_harm_harm T par labels (new_vis T m sd))).
Proof. intros m sd par labels. apply fresh_kres. Qed.
(** C68: if the evaluation fails, the harmonised parameters stay in the match-up data. *)
Theorem C68_parameters_left_refuted : forall (m : mobj R T) (sd : sdat T) par labels old e,
  m_ps R T m = Some old -> adjusted_with m sd par labels = Raise e ->
  let s := fst (get_L1_harm T par labels (new_vis T m sd)) in
  snd (get_L1_harm T par labels (new_vis T m sd)) = Exc ValueError /\ sd_a T (v_sd T s) = par /\ m_ps R T (v_m T s) = Some labels.
Proof.
  intros m sd par labels old e Hp HE. cbv zeta. unfold get_L1_harm. cbn [v_L1 new_vis v_m v_sd]. rewrite Hp. change (evaluate_adjusted_measurand T (set_ps T m (Some labels) (m_ops R T m)) (set_a T sd par) SelAll = Raise e) in HE. rewrite HE.
  repeat split.
Qed.
End Props.
Print Assumptions C37_harmonised_answers.
Print Assumptions C37_data_restored.
Print Assumptions C68_nominal_measurands_refuted.
Print Assumptions C68_nominal_residual_refuted.
Print Assumptions C68_parameters_left_refuted.

(** ** The object of PropertiesEval with harmonised parameters. *)
Local Open Scope R_scope.
Definition hpar : list R := [11; 22; 33; 44].
Example C37_case : m_ps R nat exm = Some exps /\ exists H1 H2, adjusted_with exm exsd hpar exps = Ok (H1, H2) /\
  H1 = [1; 2; 22 + 33 * 5; 22 + 33 * 6] /\ H2 = [22 + 33 * 3; 22 + 33 * 4; 11 + 44 * 7; 11 + 44 * 8].
Proof. split; [reflexivity|]. eexists. eexists. split; [vm_compute; reflexivity|]. split; repeat f_equal. Qed.
(** The two orders of calling give different results. *)
Theorem C68_order_refuted : exists r1 r2 r3 r4,
  snd (calls nat hpar exps (Raise KeyError) (new_vis nat exm exsd) [CL1; CL2]) = [r1; r2] /\
  snd (calls nat hpar exps (Raise KeyError) (new_vis nat exm exsd) [CL2; CL1]) = [r4; r3] /\ r1 <> r3 /\ r2 <> r4.
Proof.
  exists (Arr [1; 2; 22 + 33 * 5; 22 + 33 * 6]), (Arr [22 + 33 * 3; 22 + 33 * 4; 11 + 44 * 7; 11 + 44 * 8]),
         (Arr [1; 2; 20 + 30 * 5; 20 + 30 * 6]), (Arr [20 + 30 * 3; 20 + 30 * 4; 10 + 40 * 7; 10 + 40 * 8]).
  split; [vm_compute; reflexivity|]. split; [vm_compute; reflexivity|].
  split; intros H; injection H; intros; lra.
Qed.
(** A failing evaluation: wrong number of parameters. *)
Example C68_failing : exists e, adjusted_with exm exsd [1] ["B"%string] = Raise e.
Proof. eexists. vm_compute. reflexivity. Qed.
Print Assumptions C68_order_refuted.
