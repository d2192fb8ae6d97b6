(** Property theorems C160-C165 (Monte Carlo statistics, scripts, comparison plots).
    Vocabulary: McSpec.v, ToolSpec.v.  Models: McModel.v, ToolModel.v. *)
From Verif Require Import Base BaseLemmas TransformModel ReaderModel ReaderSpec McModel McSpec McProofs
  ToolModel ToolSpec ToolProofs.
From Coq Require Import Reals Lra.
Open Scope nat_scope.

(** C160: mean and variance of the residuals of the trials, computed trial by trial. *)
Theorem C160_residual_statistics : forall trials m,
  trials <> [] -> (forall x, In x trials -> length x = m) ->
  exists e v, mc_residuals trials = Ok (Some (length trials, e, v)) /\
    length e = m /\ length v = m /\
    forall j, j < m -> nth j e 0%R = average (at_position j trials) /\
      (2 <= length trials -> nth j v 0%R = sample_variance (at_position j trials)).
Proof. exact residual_statistics. Qed.

(** C161: failed trials are left out of the parameters, if the first trial did not fail and no trial
    gives only zeros. *)
Theorem C161_failed_left_out_partial : forall zerob outs a0 rest, decides_zero zerob -> outs = Some a0 :: rest ->
  (forall a, In (Some a) outs -> length a = length a0 /\ exists x, In x a /\ x <> 0%R) ->
  get_parameters_mc outs zerob = Ok (finished outs).
Proof. exact parameters_of_trials. Qed.

(** The covariance is the sample covariance of the rows, the standard deviation is not its square
    root. *)
Theorem C161_covariance : forall n_a rows i j, i < n_a -> j < n_a ->
  let '(means, _, covariance) := parameter_statistics n_a rows in
  nth i means 0%R = average (at_position i rows) /\
  nth j (nth i covariance []) 0%R = sample_covariance (at_position i rows) (at_position j rows).
Proof.
  intros n_a rows i j Hi Hj. cbn [parameter_statistics].
  assert (G : forall (B : Type) (f : nat -> B) d k, k < n_a -> nth k (map f (seq 0 n_a)) d = f k).
  { intros B f d k Hk. rewrite (nth_indep _ d (f 0)) by (rewrite map_length, seq_length; auto).
    rewrite map_nth, seq_nth by auto. reflexivity. }
  split.
  - rewrite G by auto. reflexivity.
  - rewrite (G _ _ [] i Hi). rewrite (G _ _ 0%R j Hj). reflexivity.
Qed.

Theorem C161_deviation_refuted : forall n_a rows j, j < n_a -> 2 <= length rows ->
  let '(_, std, covariance) := parameter_statistics n_a rows in
  (nth j std 0 ^ 2 * INR (length rows) = nth j (nth j covariance []) 0 * (INR (length rows) - 1))%R /\
  ((0 < nth j (nth j covariance []) 0)%R -> (nth j std 0 ^ 2 < nth j (nth j covariance []) 0)%R).
Proof.
  intros n_a rows j Hj Hn. cbn [parameter_statistics].
  assert (G : forall (B : Type) (f : nat -> B) d k, k < n_a -> nth k (map f (seq 0 n_a)) d = f k).
  { intros B f d k Hk. rewrite (nth_indep _ d (f 0)) by (rewrite map_length, seq_length; auto).
    rewrite map_nth, seq_nth by auto. reflexivity. }
  rewrite (G _ _ [] j Hj), !(G _ _ 0%R j Hj).
  assert (Hl : length (col j rows) = length rows) by apply map_length.
  pose proof (std_cov (col j rows)) as E. rewrite Hl in E. specialize (E Hn).
  split; [exact E|]. intros Hp. apply le_INR in Hn. change (INR 2) with 2%R in Hn.
  apply Rmult_lt_reg_r with (INR (length rows)); [lra|]. rewrite E. nra.
Qed.

(** If the first trial failed, the combination fails although others succeeded; a trial whose
    parameters are all zero is left out. *)
Theorem C161_first_failed_refuted : forall zerob rest, get_parameters_mc (None :: rest) zerob = Raise OtherError.
Proof. reflexivity. Qed.
Theorem C161_zero_result_refuted : forall zerob, decides_zero zerob ->
  get_parameters_mc [Some [1%R]; Some [0%R]] zerob = Ok [[1%R]].
Proof.
  intros zerob Hz. unfold get_parameters_mc. cbn.
  assert (zerob 1%R = false) as ->.
  { destruct (zerob 1%R) eqn:E; [|reflexivity]. apply Hz in E. lra. }
  assert (zerob 0%R = true) as -> by (apply Hz; reflexivity). reflexivity.
Qed.

(** C162: a trial does not draw one value per variable: the new state has one value, drawn around the
    first parameter, in place of all variables. *)
Theorem C162_trial_start_refuted : forall noise xs a0 a ks,
  mc_start noise (length xs) (xs ++ a0 :: a) ks (a0 :: a) = Ok ((a0 + noise 0%nat)%R :: a0 :: a, mc_ks noise 1 ks).
Proof.
  intros noise xs a0 a ks. unfold mc_start, mc_values.
  assert (get (xs ++ a0 :: a) (length xs) = Ok a0) as ->; [|reflexivity].
  apply get_ok. rewrite nth_error_app2, Nat.sub_diag by lia. reflexivity.
Qed.
(** Each K value gets its own number. *)
Theorem C162_ks : forall noise drawn ks i k, nth_error ks i = Some k ->
  nth_error (mc_ks noise drawn ks) i = Some (k + noise (drawn + i)%nat)%R.
Proof.
  intros noise drawn ks i k H. unfold mc_ks. rewrite nth_error_map', enumerate_nth, H. reflexivity.
Qed.

(** C163: every job script raises NameError, whatever the functions it calls do. *)
Theorem C163_scripts_refuted : forall does l,
  In l [pc_script; initial_script; analytical_script true; analytical_script false;
        montecarlo_script true; montecarlo_script false] ->
  run_script job_names does l = Raise NameError.
Proof. intros does l [<- |[<- |[<- |[<- |[<- |[<- |[]]]]]]]; reflexivity. Qed.
(** Also with all names bound and all functions successful: TypeError from the constructor. *)
Theorem C163_constructor_refuted : forall ns does l,
  In l [pc_script; initial_script; analytical_script true; analytical_script false;
        montecarlo_script true; montecarlo_script false] ->
  (forall n, In (Call n) l -> In n ns) -> In "HarmonisationOp"%string ns -> (forall n, does n = Ok tt) ->
  run_script ns does l = Raise TypeError.
Proof.
  intros ns does l Hl Hc Hh Hd.
  assert (Hcall : forall n, In (Call n) l -> exec ns does (Call n) = Ok tt).
  { intros n Hn. unfold exec. rewrite (proj2 (existsb_in n ns) (Hc n Hn)). apply Hd. }
  assert (Hnew : forall kw, kw <> [] -> exec ns does (New "HarmonisationOp" kw) = Raise TypeError).
  { intros kw Hk. unfold exec. rewrite (proj2 (existsb_in _ ns) Hh). destruct kw as [|k kw]; [congruence|reflexivity]. }
  assert (G : exists pre kw rest, l = pre ++ New "HarmonisationOp" kw :: rest /\ kw <> [] /\
                                  (forall m, In m pre -> exists n, m = Call n)).
  { destruct Hl as [<- |[<- |[<- |[<- |[<- |[<- |[]]]]]]].
    1-2: exists [Call "read_software_cfg"; Call "read_job_cfg"; Call "get_dataset_paths"; Call "basename"; Call "makedirs"]%string.
    3-4: exists [Call "read_software_cfg"; Call "read_job_cfg"; Call "get_dataset_paths"; Call "basename"; Call "get_harm_paths"]%string.
    5-6: exists [Call "read_software_cfg"; Call "read_job_cfg"; Call "get_dataset_paths"; Call "import_file"; Call "basename"; Call "makedirs"]%string.
    all: do 2 eexists; split; [reflexivity|]; split; [discriminate|];
         intros m Hm; cbn [In] in Hm; repeat (destruct Hm as [<- |Hm]; [eexists; reflexivity|]); destruct Hm. }
  destruct G as (pre & kw & rest & -> & Hk & Hp). apply run_prefix; [|apply Hnew; exact Hk].
  intros m Hm. destruct (Hp m Hm) as (n & ->). apply Hcall. apply in_or_app. left. exact Hm.
Qed.

(** C164: the console script for comparison plots raises TypeError for every command line it can
    read. *)
Theorem C164_comparison_refuted : forall does, does "read_parsed_cmdline"%string = Ok tt ->
  run_script comp_plot_names does comp_plot_script = Raise TypeError.
Proof.
  intros does H. apply (run_prefix comp_plot_names does [Call "read_parsed_cmdline"%string]); [|reflexivity].
  intros m [<- |[]]. exact H.
Qed.

(** C165: the comparison plots: the loop ends, every sensor has a plot, and no series beyond the
    first ones with all sensors is used. *)
Theorem C165_plots : forall A ix (ss : list (series A)), indexes ix ss ->
  exists k, covered (sensors ix) (firstn k ss) /\ (forall j, j < k -> ~ covered (sensors ix) (firstn j ss)) /\
    compare_plots A ix (concat (map se_meas ss)) (concat (map se_diff ss)) =
      Ok (concat (map plots_of (firstn k ss))).
Proof. intros A ix ss H. exact (compare_plots_ok ix ss H). Qed.
Theorem C165_files : forall A V (ds : list (dataset V)) ix (m1 m2 : dataset V -> list (A * A)),
  good_files ds -> get_idx V ds = Ok ix ->
  (forall d, In d ds -> length (m1 d) = d_M V d /\ length (m2 d) = d_M V d) ->
  indexes ix (map (fun d => mkSeries (d_s1 V d) (d_s2 V d) (m1 d) (m2 d)) ds).
Proof. intros A V ds ix m1 m2. exact (opened_indexes ds ix m1 m2). Qed.

(** ** Concrete cases *)
(** Three trials 1, 2, 6: mean 3, variance 7. *)
Example mc_case : exists e v, mc_residuals [[1%R]; [2%R]; [6%R]] = Ok (Some (3, [e], [v])) /\ e = 3%R /\ v = 7%R.
Proof.
  unfold mc_residuals. cbn [foldM mc_step length repeat Nat.eqb combine map fst snd].
  do 2 eexists. split; [reflexivity|]. unfold new_mean, new_variance, new_mean. cbn [INR].
  split; field.
Qed.
(** A failed second trial is left out. *)
Example mc_failed : forall zerob, decides_zero zerob ->
  get_parameters_mc [Some [1%R; 0%R]; None; Some [2%R; 3%R]] zerob = Ok [[1%R; 0%R]; [2%R; 3%R]].
Proof.
  intros zerob Hz. apply (C161_failed_left_out_partial zerob _ [1%R; 0%R] [None; Some [2%R; 3%R]] Hz eq_refl).
  intros a [E|[E|[E|[]]]]; try discriminate; injection E as <-; (split; [reflexivity|]).
  - exists 1%R. split; [left; reflexivity|lra].
  - exists 2%R. split; [left; reflexivity|lra].
Qed.
(** Three series A-B, A-B, B-C: the third is needed for C; A and B are plotted twice. *)
Definition cmp_ix : idx_t :=
  mkIdx [1; 1; 1] [0; 1; 2; 3] [(0, 1); (0, 1); (1, 2)] ["A"; "B"; "C"]%string [1; 1; 1] [] [] [] [] [].
Definition cmp_ss : list (series nat) :=
  [mkSeries "A" "B" [(1, 2)] [(10, 20)]; mkSeries "A" "B" [(3, 4)] [(30, 40)];
   mkSeries "B" "C" [(5, 6)] [(50, 60)]]%string.
Example cmp_indexes : indexes cmp_ix cmp_ss.
Proof.
  split; [|split; [reflexivity|split]].
  - repeat constructor.
  - intros s [<- |[<- |[<- |[]]]]; reflexivity.
  - intros n [<- |[<- |[<- |[]]]].
    + eexists; split; [left; reflexivity|left; reflexivity].
    + eexists; split; [left; reflexivity|right; reflexivity].
    + eexists; split; [right; right; left; reflexivity|right; reflexivity].
Qed.
Example cmp_case : compare_plots nat cmp_ix (concat (map se_meas cmp_ss)) (concat (map se_diff cmp_ss)) =
  Ok (concat (map plots_of cmp_ss)).
Proof. reflexivity. Qed.

Print Assumptions C160_residual_statistics.
Print Assumptions C161_failed_left_out_partial.
Print Assumptions C161_covariance.
Print Assumptions C161_deviation_refuted.
Print Assumptions C161_first_failed_refuted.
Print Assumptions C161_zero_result_refuted.
Print Assumptions C162_trial_start_refuted.
Print Assumptions C162_ks.
Print Assumptions C163_scripts_refuted.
Print Assumptions C163_constructor_refuted.
Print Assumptions C164_comparison_refuted.
Print Assumptions C165_plots.
Print Assumptions C165_files.
