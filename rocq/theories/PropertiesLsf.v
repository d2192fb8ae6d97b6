(** * Properties of the batch workflow. *)
From Coq Require Import Reals Lra Permutation.
From Verif Require Import Base ReaderModel HRModel OpModel OpSpec LsfModel LsfSpec LsfProofs LsfProofs2 LsfProofs3 LsfProofs4.
Open Scope nat_scope.

(** ** C120: the combination is submitted only when every element file exists, and never writes a wrong matrix *)
Theorem C120_complete_before_combination : forall n elem out es,
  let w := run (Some n) elem es (initially [] out) in combination_submitted w ->
  forall i j, i < n -> j < n -> element_exists i j w /\ elem i j <> None.
Proof. exact complete_before_combination. Qed.
Theorem C120_never_wrong : forall n elem out es,
  let w := run (Some n) elem es (initially [] out) in combination_submitted w ->
  exists c, w_out w = Some (n, c) /\ forall m, c = Some m -> covariance_of n elem m.
Proof. exact never_wrong. Qed.
Theorem C120_combined_right : forall n elem out es1 k s es2, n <= 10 ->
  let w := run (Some n) elem es1 (initially [] out) in
  nth_error (w_queue w) k = Some (JCombine, s) -> ~ element_job_active w ->
  exists m, w_out (run (Some n) elem (es1 ++ Job k :: es2) (initially [] out)) = Some (n, Some m) /\ covariance_of n elem m.
Proof. exact combined_right. Qed.
Print Assumptions C120_complete_before_combination.
Print Assumptions C120_never_wrong.
Print Assumptions C120_combined_right.
(** One parameter: the jobs one after the other. *)
Definition in_order : list event := [Script; Job 0; Job 0; Script; Job 0; Script; Script; Script; Job 0; Job 0; Script; Job 0; Script].
Example C120_case : forall v,
  let w := run (Some 1) (fun _ _ => Some v) (firstn 11 in_order) (initially [] None) in
  nth_error (w_queue w) 0 = Some (JCombine, Queued) /\ ~ element_job_active w /\ combination_submitted w /\
  w_out (run (Some 1) (fun _ _ => Some v) in_order (initially [] None)) = Some (1, Some [[((v + v) / 2)%R]]) /\
  w_phase (run (Some 1) (fun _ _ => Some v) in_order (initially [] None)) = Finished.
Proof.
  intros v. split; [reflexivity|]. split; [|split; [left; reflexivity|split; reflexivity]]. intros (i & j & s & [E|[]]). discriminate E.
Qed.

(** ** C121: the workflow ends *)
Theorem C121_terminates : forall n elem out sched, (forall i j, i < n -> j < n -> elem i j <> None) ->
  fair (Some n) elem sched (initially [] out) ->
  exists t, w_phase (at_time (Some n) elem sched (initially [] out) t) = Finished.
Proof. exact fair_terminates. Qed.
Theorem C121_bounded_work : forall n elem out es k, changes (Some n) elem (initially [] out) es k -> k <= 3 * (n * n) + 10.
Proof. exact bounded_work. Qed.
Print Assumptions C121_terminates.
Print Assumptions C121_bounded_work.
(** The schedule of C120_case, continued for ever by polling, is fair. *)
Example C121_case : forall v, fair (Some 1) (fun _ _ => Some v) (fun t => nth t in_order Script) (initially [] None).
Proof.
  intros v t (e & He). assert (D : t < 13 \/ 13 <= t) by lia. destruct D as [D|D].
  - exists t. split; [lia|]. clear He e. do 13 (destruct t as [|t]; [intros E; first [apply (f_equal w_phase) in E; discriminate E|apply (f_equal w_queue) in E; discriminate E]|]). lia.
  - exfalso. assert (T : forall u, at_time (Some 1) (fun _ _ => Some v) (fun t => nth t in_order Script) (initially [] None) (13 + u) = mkWorld Finished [JPC; JTransform; JSolver; JElement 0 0; JCombine] [] [(element_name 0 0, Some v)] (Some (1, Some [[((v + v) / 2)%R]]))).
    { induction u as [|u IH]; [reflexivity|]. rewrite Nat.add_succ_r. cbn [at_time]. rewrite IH. rewrite nth_overflow by (cbn [in_order length]; lia). reflexivity. }
    replace t with (13 + (t - 13)) in He by lia. rewrite T in He. apply He. destruct e as [|k]; [reflexivity|]. cbn. destruct k; reflexivity.
Qed.

(** ** C122: a failing job is noticed (refuted: the script polls for ever) *)
Theorem C122_failing_element_refuted : forall n elem out es i j, i < n -> j < n -> elem i j = None ->
  ~ combination_submitted (run (Some n) elem es (initially [] out)).
Proof. exact failing_never. Qed.
Print Assumptions C122_failing_element_refuted.
Example C122_case : let elem := fun i j => if (i =? 1) && (j =? 0) then None else Some 1%R in
  elem 1 0 = None /\ w_phase (run (Some 2) elem ([Script; Job 0; Job 0; Script; Job 0; Script] ++ repeat Script 5 ++ repeat (Job 0) 8) (initially [] None)) = WaitElements 2 /\
  w_queue (run (Some 2) elem ([Script; Job 0; Job 0; Script; Job 0; Script] ++ repeat Script 5 ++ repeat (Job 0) 8) (initially [] None)) = [].
Proof. cbv zeta. split; [reflexivity|split; reflexivity]. Qed.

(** ** C123: files of earlier runs (refuted) *)
(** The n x n files of an earlier run: the covariance of that run is written, before any element of this run
    has been computed, and stays. *)
Theorem C123_old_elements_refuted : forall n elem files old out, n <= 10 -> element_files n old files ->
  exists es m, is_matrix n (fun i j => (old i j + old j i) / 2)%R m /\
    (forall i j, ~ In (JElement i j) (w_logs (run (Some n) elem es (initially (left_over files) out)))) /\
    forall es', w_phase (run (Some n) elem (es ++ es') (initially (left_over files) out)) = Finished /\
                w_out (run (Some n) elem (es ++ es') (initially (left_over files) out)) = Some (n, Some m).
Proof. exact old_elements. Qed.
(** More files than elements (an earlier run with more parameters): the script never gets any further. *)
Theorem C123_more_files_refuted : forall n elem temp out es, n * n < length temp ->
  ~ combination_submitted (run (Some n) elem es (initially temp out)).
Proof. exact leftover_never. Qed.
Print Assumptions C123_old_elements_refuted.
Print Assumptions C123_more_files_refuted.
Example C123_case : element_files 1 (fun _ _ => 7%R) [(element_name 0 0, 7%R)] /\ 1 * 1 < length (left_over [(element_name 0 0, 7%R); (element_name 0 1, 7%R)]).
Proof. split; [apply Permutation_refl|cbn; lia]. Qed.

(** ** C124: the combination waits until the elements have been written (refuted) *)
Theorem C124_race_refuted : exists es, forall v out es', let w := run (Some 1) (fun _ _ => Some v) (es ++ es') (initially [] out) in
  w_phase w = Finished /\ w_out w = Some (1, None).
Proof. exists race. exact race_loses. Qed.
Print Assumptions C124_race_refuted.

(** ** C125: the Monte Carlo trials are combined (refuted: the list of files is compared with their number) *)
Theorem C125_trials_combined_refuted : forall ntrials history,
  (forall d, In d history -> forall p, In p (m_trials d) -> absolute p) -> mcrun ntrials history <> MCDone.
Proof. exact mc_never. Qed.
Print Assumptions C125_trials_combined_refuted.
Example C125_case : let d := mkMC ["0_1.nc"%string] ["harm.nc"%string; "harm_res_0_1.nc"%string] ["/out/MC/1.nc"%string; "/out/MC/2.nc"%string] in
  mcrun 2 [d; d; d] = MCTrials /\ (forall p, In p (m_trials d) -> absolute p) /\ length (m_trials d) = 2.
Proof. cbv zeta. split; [reflexivity|]. split; [|reflexivity]. intros p [<-|[<-|[]]]; eexists; reflexivity. Qed.
