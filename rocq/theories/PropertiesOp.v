(** * Operators and command line: C35, C36, C51, C64, C65, C66. *)
From Coq Require Import Reals Lra Permutation.
From Verif Require Import Base BaseLemmas ReaderModel HRModel HRSpec OpModel OpSpec OpProofs PropertiesHR.
Open Scope nat_scope.

(** ** C35 *)
Theorem C35_elements_combined : forall n c files, n <= 10 -> element_files n c files ->
  exists m, combine_elements files = Ok m /\ is_matrix n (fun i j => (c i j + c j i) / 2)%R m.
Proof. exact elements_combined. Qed.
Theorem C35_symmetric_elements : forall n c files, n <= 10 -> element_files n c files -> (forall i j, c i j = c j i) ->
  exists m, combine_elements files = Ok m /\ is_matrix n c m.
Proof.
  intros n c files Hn H Hc. destruct (elements_combined n c files Hn H) as (m & E & L & M). exists m. split; [auto|]. split; [auto|].
  intros i Hi. destruct (M i Hi) as (row & R1 & R2 & R3). exists row. split; [auto|]. split; [auto|]. intros j Hj. rewrite (R3 j Hj). f_equal. rewrite (Hc j i). field.
Qed.
Print Assumptions C35_elements_combined.
Print Assumptions C35_symmetric_elements.
Example C35_case : element_name 3 7 = "parameter_covariance_matrix[3,7].dat"%string /\
  element_files 2 (fun i j => INR (i + j)) (rev [(element_name 0 0, 0%R); (element_name 0 1, 1%R); (element_name 1 0, 1%R); (element_name 1 1, INR 2)]).
Proof. split; [reflexivity|]. unfold element_files. apply Permutation_sym, Permutation_rev. Qed.

(** ** C64 *)
Theorem C64_more_than_ten_parameters_refuted : forall n c files, 10 < n -> element_files n c files -> combine_elements files = Raise ValueError.
Proof. exact too_many_elements. Qed.
Print Assumptions C64_more_than_ten_parameters_refuted.
Example C64_case : element_files 11 (fun _ _ => 1%R) (flat_map (fun i => map (fun j => (element_name i j, 1%R)) (seq 0 11)) (seq 0 11)).
Proof. apply Permutation_refl. Qed.

(** ** C36 *)
Theorem C36_running_statistics : forall w trials e var, (forall k, In k trials -> length k = w) -> mc_stats trials = Some (e, var) ->
  length e = w /\ length var = w /\
  forall t, t < w -> nth t e 0%R = mean_of t trials /\ (2 <= length trials -> nth t var 0%R = sample_variance t trials).
Proof. exact running_stats. Qed.
Theorem C36_failed_trials_ignored : forall n_a trials, (forall a, In (Some a) trials -> exists x, In x a /\ x <> 0%R) ->
  mc_parameters n_a trials = flat_map (fun t => match t with Some a => [a] | None => [] end) trials.
Proof. exact trial_parameters. Qed.
Print Assumptions C36_running_statistics.
Print Assumptions C36_failed_trials_ignored.
Example C36_case : exists e var, mc_stats [[1; 10]; [3; 20]; [5; 60]]%R = Some (e, var) /\ (nth 0 e 0 = 3 /\ nth 0 var 0 = 4 /\ nth 1 e 0 = 30 /\ nth 1 var 0 = 700)%R.
Proof.
  destruct (mc_stats [[1; 10]; [3; 20]; [5; 60]]%R) as [[e var]|] eqn:E; [|discriminate]. exists e, var. split; [auto|].
  assert (L : forall k, In k [[1; 10]; [3; 20]; [5; 60]]%R -> length k = 2) by (intros k [<-|[<-|[<-|[]]]]; reflexivity).
  destruct (running_stats 2 _ e var L E) as (_ & _ & H).
  destruct (H 0 ltac:(lia)) as (A & B). destruct (H 1 ltac:(lia)) as (C & D). rewrite A, C, B, D by (cbn; lia).
  unfold sample_variance, mean_of, total, comp. cbn. repeat split; field.
Qed.

(** ** C51 *)
Theorem C51_accepted_iff_documented : forall solver_options a,
  parse_ok solver_options a = true <-> documented solver_options a /\ ~ (c_verbose a = true /\ c_quiet a = true).
Proof. exact accepted_documented. Qed.
Print Assumptions C51_accepted_iff_documented.
Example C51_case : documented true (mkCmd (Some "a.job") None None None None None None None false true)%string /\
  ~ documented true (mkCmd (Some "a.job") None None None (Some "pc.nc") None None None false true)%string /\
  documented false (mkCmd None (Some "in") (Some "AVHRR") (Some "out") None None None None true false)%string.
Proof.
  assert (G : forall s, s <> ""%string -> given (Some s)) by (intros s H; exists s; auto).
  assert (M : missing None) by (intros (s & E & _); discriminate).
  split; [|split].
  - left. repeat split; try apply M. apply G. discriminate.
  - intros [(_ & _ & _ & _ & H)|(H & _)]; [destruct (H eq_refl) as (H' & _); apply H'; apply G; discriminate|apply H; apply G; discriminate].
  - right. split; [apply M|]. repeat split; apply G; discriminate.
Qed.

(** ** C65: an accepted -j "" is taken for a job file; --verbose and --quiet have no effect. *)
Theorem C65_verbosity_ignored_refuted : forall a b, snd (read_cmdline a) = snd (read_cmdline b) /\ snd (read_cmdline a) = 0.
Proof. intros a b. split; reflexivity. Qed.
Theorem C65_empty_job_file_refuted : exists a, parse_ok true a = true /\ c_in a = Some "in"%string /\ fst (read_cmdline a) = JobFile "".
Proof. exists (mkCmd (Some "") (Some "in") (Some "AVHRR") (Some "out") None None None None false false)%string. repeat split. Qed.
Print Assumptions C65_verbosity_ignored_refuted.
Print Assumptions C65_empty_job_file_refuted.

(** ** C66: the command line tool computes the solution and then fails before anything is written. *)
Theorem C66_nothing_written_refuted : forall (V A : Type) (fillV : V) (sa : string -> A) short_name version tag (r : result V A) d,
  op_write V A fillV sa (Some (solver_cfg short_name version tag)) r d = Raise KeyError.
Proof. reflexivity. Qed.
(** With a complete configuration the result is written. *)
Theorem C66_complete_configuration_partial : forall (V A : Type) (fillV : V) (sa : string -> A) cfg software version tag job ds (r : result V A) d,
  lookup "software" cfg = Some software -> lookup "version" cfg = Some version -> lookup "tag" cfg = Some tag ->
  lookup "job_id" cfg = Some job -> lookup "matchup_dataset" cfg = Some ds ->
  op_write V A fillV sa (Some cfg) r d =
  save V A fillV ("harm_" ++ software ++ "_" ++ version ++ "_" ++ tag ++ "_" ++ job ++ "_" ++ ds ++ ".nc")%string true
    (set_attrs V A r [("software", sa software); ("software_version", sa version); ("software_tag", sa tag); ("job_id", sa job); ("matchup_dataset", sa (ds ++ "__"))]%string) d.
Proof.
  intros V A fillV sa cfg software version tag job ds r d H1 H2 H3 H4 H5. unfold op_write, cfg_get. cbn [bind]. rewrite H1. cbn [bind]. rewrite H2. cbn [bind].
  rewrite H3. cbn [bind]. rewrite H4. cbn [bind]. rewrite H5. reflexivity.
Qed.
Print Assumptions C66_nothing_written_refuted.
Print Assumptions C66_complete_configuration_partial.
Example C66_case : exists d1, op_write nat string 999 (fun s => s) (Some [("software", "EV"); ("version", "0.0"); ("tag", ""); ("job_id", "j1"); ("matchup_dataset", "TEST")]) hr [] = Ok d1 /\
  map fst d1 = ["harm_EV_0.0__j1_TEST.nc"; "harm_EV_0.0__j1_TEST_res_ref_n19.nc"; "harm_EV_0.0__j1_TEST_res_n19_n18.nc"].
Proof. eexists. split; vm_compute; reflexivity. Qed.
