(** * Left-over files, races, and the Monte Carlo script.  Proofs only. *)
From Coq Require Import Reals Lra Permutation.
From Verif Require Import Base BaseLemmas ReaderModel HRModel OpModel OpSpec OpProofs LsfModel LsfSpec LsfProofs LsfProofs2.
Open Scope nat_scope.

Section Stale.
Variables (n : nat) (elem : nat -> nat -> option R).
Notation step := (step (Some n) elem).
Notation run := (run (Some n) elem).

(** *** More left-over files than elements *)
Definition stuck (w : world) : Prop :=
  n * n < length (w_temp w) /\ ~ combination_submitted w /\
  (In JSolver (w_logs w) -> exists c, w_out w = Some (n, c)) /\
  match w_phase w with SubmitElements m _ | WaitElements m => m = n | _ => True end.
Lemma combination_n w c : w_out w = Some (n, c) -> exists c', combination w = Some (n, c').
Proof.
  intros E. unfold combination. rewrite E. destruct (do files <- load_all (w_temp w);; combine_elements files) as [m|]; [destruct (length m =? n)|]; eauto.
Qed.
Lemma stuck_step w e : stuck w -> stuck (step w e).
Proof.
  intros (L & N & O & P). destruct e as [|k]; cbn [LsfModel.step].
  - unfold script. unfold combination_submitted in N. destruct (w_phase w) as [| | |m [|(a, b) todo]|m| | |] eqn:E; try (exfalso; apply N; auto; fail).
    + repeat split; cbn; auto. intros [|]; discriminate.
    + destruct (ended JPC w && ended JTransform w); [|repeat split; auto; unfold combination_submitted; rewrite E; auto]. repeat split; cbn; auto. intros [|]; discriminate.
      all: rewrite E; auto.
    + destruct (ended JSolver w) eqn:Es; [|repeat split; auto; unfold combination_submitted; rewrite E; auto]. apply ended_in in Es. destruct (O Es) as (c & Eo). rewrite Eo.
      repeat split; cbn; auto. intros [|]; discriminate.
      all: rewrite E; auto.
    + repeat split; cbn; auto. intros [|]; discriminate.
    + repeat split; cbn; auto. intros [|]; discriminate.
    + subst m. destruct (Nat.eqb_spec (length (w_temp w)) (n * n)); [lia|]. repeat split; auto; unfold combination_submitted; rewrite E; auto.
    + repeat split; auto; unfold combination_submitted; rewrite E; auto.
  - unfold work. destruct (nth_error (w_queue w) k) as [(j, s)|]; [|repeat split; auto].
    assert (SL : forall j', In JSolver (w_logs w ++ [j']) -> j' <> JSolver -> In JSolver (w_logs w)). { intros j' Hi Nj. apply in_app_iff in Hi. destruct Hi as [|[|[]]]; auto. congruence. }
    destruct j as [| | |i j|].
    + repeat split; auto. intros Hi. apply O. apply (SL _ Hi). discriminate.
    + repeat split; auto. intros Hi. apply O. apply (SL _ Hi). discriminate.
    + repeat split; auto. intros _. cbn. eauto.
    + destruct s; [destruct (elem i j)|].
      * repeat split; auto. cbn [w_temp]. pose proof (put_len (element_name i j) None (w_temp w)). lia.
      * repeat split; auto. intros Hi. apply O. apply (SL _ Hi). discriminate.
      * repeat split; auto; [cbn [w_temp finish]; pose proof (put_len (element_name i j) (elem i j) (w_temp w)); lia|]. intros Hi. apply O. apply (SL _ Hi). discriminate.
    + repeat split; auto. cbn. intros Hi. destruct (O (SL _ Hi ltac:(discriminate))) as (c & Eo). apply (combination_n w c Eo).
Qed.
Theorem leftover_never temp out es : n * n < length temp -> ~ combination_submitted (run es (initially temp out)).
Proof.
  intros L. assert (H : stuck (initially temp out)). { repeat split; cbn; auto; [intros [|]; discriminate|intros []]. }
  revert H. generalize (initially temp out). induction es as [|e es IH]; intros w H; [apply H|]. cbn. apply IH, stuck_step, H.
Qed.

(** *** The n x n files of an earlier run *)
Definition queue_of (ps : list (nat * nat)) : list (job * stage) := map (fun p => (JElement (fst p) (snd p), Queued)) ps.
Lemma submit_all m logs temp out : forall todo q, run (repeat Script (length todo)) (mkWorld (SubmitElements m todo) logs q temp out) = mkWorld (SubmitElements m []) logs (q ++ queue_of todo) temp out.
Proof.
  induction todo as [|(i, j) todo IH]; intros q; cbn [length repeat]; [cbn; rewrite app_nil_r; auto|].
  change (run (repeat Script (length todo)) (mkWorld (SubmitElements m todo) logs (q ++ [(JElement i j, Queued)]) temp out) = mkWorld (SubmitElements m []) logs (q ++ queue_of ((i, j) :: todo)) temp out).
  rewrite IH. f_equal. rewrite <- app_assoc. reflexivity.
Qed.
Definition early : list event := [Script; Job 0; Job 0; Script; Job 0; Script] ++ repeat Script (n * n) ++ [Script; Script; Job (n * n); Script].
Definition rest : list job := [JPC; JTransform; JSolver; JCombine].
Lemma queue_len ps : length (queue_of ps) = length ps. Proof. apply map_length. Qed.
Lemma early_run temp files m out : length temp = n * n -> load_all temp = Ok files -> combine_elements files = Ok m -> length m = n ->
  run early (initially temp out) = mkWorld Finished rest (queue_of (pairs n)) temp (Some (n, Some m)).
Proof.
  intros L E1 E2 Lm. unfold early, LsfModel.run. rewrite !fold_left_app.
  change (fold_left step [Script; Job 0; Job 0; Script; Job 0; Script] (initially temp out)) with (mkWorld (SubmitElements n (pairs n)) [JPC; JTransform; JSolver] [] temp (Some (n, None))).
  assert (Ln : n * n = length (pairs n)) by (rewrite pairs_all, all_pairs_len; auto). rewrite Ln.
  change (fold_left step (repeat Script (length (pairs n))) ?w) with (run (repeat Script (length (pairs n))) w). rewrite submit_all. rewrite <- Ln. cbn [app fold_left LsfModel.step].
  replace (script (mkWorld (SubmitElements n []) [JPC; JTransform; JSolver] (queue_of (pairs n)) temp (Some (n, None))))
    with (mkWorld (WaitElements n) [JPC; JTransform; JSolver] (queue_of (pairs n)) temp (Some (n, None))) by (unfold script, submit; cbn; rewrite app_nil_r; auto).
  unfold script at 2. cbn [w_phase w_temp]. rewrite L, Nat.eqb_refl. unfold submit. cbn [w_phase w_logs w_queue w_temp w_out map].
  unfold work. cbn [w_queue]. rewrite nth_error_app2 by (rewrite queue_len; lia). rewrite queue_len, <- Ln, Nat.sub_diag. cbn [nth_error].
  unfold finish. cbn [w_phase w_logs w_queue w_temp w_out]. unfold combination. cbn [w_out w_temp]. rewrite E1. cbn [bind]. rewrite E2, Lm, Nat.eqb_refl.
  unfold remove_at. rewrite Ln, <- queue_len. rewrite firstn_app, firstn_all, Nat.sub_diag. cbn [firstn]. rewrite app_nil_r.
  rewrite skipn_all2 by (rewrite app_length; cbn; lia). rewrite app_nil_r. cbn. unfold submit. cbn. rewrite app_nil_r. reflexivity.
Qed.
(** With only element jobs left nothing changes the output file. *)
Definition over (w : world) : Prop := w_phase w = Finished /\ forall j s, In (j, s) (w_queue w) -> exists a b, j = JElement a b.
Lemma over_step w e : over w -> over (step w e) /\ w_out (step w e) = w_out w.
Proof.
  intros (P & Q). destruct e as [|k]; cbn [LsfModel.step]; [unfold script; rewrite P; split; [split; auto|auto]|].
  unfold work. destruct (nth_error (w_queue w) k) as [(j, s)|] eqn:E; [|split; [split; auto|auto]]. destruct (Q j s (nth_error_In _ _ E)) as (a & b & ->).
  assert (RQ : forall j s, In (j, s) (remove_at k (w_queue w)) -> exists a b, j = JElement a b). { intros j' s' Hi. apply (Q j' s'). apply (in_remove_at _ _ _ _ E). auto. }
  destruct s; [destruct (elem a b)|]; (split; [split; [auto|cbn [w_queue finish]; auto]|reflexivity]).
  intros j' s' Hi. apply (in_upd _ _ _ _ _ E) in Hi. destruct Hi as [[= -> _]|Hi]; eauto.
Qed.
Lemma over_run es : forall w, over w -> over (run es w) /\ w_out (run es w) = w_out w.
Proof. induction es as [|e es IH]; intros w H; cbn; [auto|]. destruct (over_step w e H) as (A & B). destruct (IH _ A) as (C & D). split; [auto|]. etransitivity; [exact D|exact B]. Qed.

Lemma load_left files : load_all (left_over files) = Ok files.
Proof. unfold load_all, left_over. induction files as [|(a, b) files IH]; cbn [map mapM]; [auto|]. cbn [fst snd bind]. rewrite IH. reflexivity. Qed.
Theorem old_elements files old out : n <= 10 -> element_files n old files ->
  exists es m, is_matrix n (fun i j => (old i j + old j i) / 2)%R m /\
    (forall i j, ~ In (JElement i j) (w_logs (run es (initially (left_over files) out)))) /\
    forall es', w_phase (run (es ++ es') (initially (left_over files) out)) = Finished /\ w_out (run (es ++ es') (initially (left_over files) out)) = Some (n, Some m).
Proof.
  intros Hn Hf. destruct (elements_combined n old files Hn Hf) as (m & Em & Mm). exists early, m. split; [auto|].
  assert (L : length (left_over files) = n * n). { unfold left_over. rewrite map_length. destruct (files_pairs n old files Hf) as (ps & -> & P). rewrite map_length, (Permutation_length P), all_pairs_len. auto. }
  pose proof (early_run (left_over files) files m out L (load_left files) Em (proj1 Mm)) as E. split.
  - intros i j. rewrite E. cbn. intuition discriminate.
  - intros es'. unfold LsfModel.run. rewrite fold_left_app. change (fold_left step early ?w) with (run early w). rewrite E. change (fold_left step es' ?w) with (run es' w).
    destruct (over_run es' (mkWorld Finished rest (queue_of (pairs n)) (left_over files) (Some (n, Some m)))) as ((A & _) & B).
    + split; [auto|]. cbn. intros j s Hi. apply in_map_iff in Hi. destruct Hi as (p & [= <- _] & _). eauto.
    + split; [exact A|exact B].
Qed.
End Stale.

(** *** The combination reads a file that has only been created *)
Definition race : list event := [Script; Job 0; Job 0; Script; Job 0; Script; Script; Script; Job 0; Script; Job 1; Script].
Theorem race_loses v out : forall es', let w := run (Some 1) (fun _ _ => Some v) (race ++ es') (initially [] out) in
  w_phase w = Finished /\ w_out w = Some (1, None).
Proof.
  intros es'. cbv zeta. unfold run at 1 2. rewrite fold_left_app.
  change (fold_left (step (Some 1) (fun _ _ => Some v)) race (initially [] out)) with
    (mkWorld Finished rest [(JElement 0 0, Writing)] [(element_name 0 0, None)] (Some (1, None))).
  change (fold_left (step (Some 1) (fun _ _ => Some v)) es' ?w) with (run (Some 1) (fun _ _ => Some v) es' w).
  destruct (over_run 1 (fun _ _ => Some v) es' (mkWorld Finished rest [(JElement 0 0, Writing)] [(element_name 0 0, None)] (Some (1, None)))) as ((A & _) & B).
  - split; [auto|]. cbn. intros j s [[= <- _]|[]]. eauto.
  - split; [exact A|exact B].
Qed.

(** *** Monte Carlo script *)
Lemma test_absolute words k : (forall p, In p words -> absolute p) -> test_eq words k = false.
Proof.
  intros H. unfold test_eq. destruct words as [|p [|q l]]; auto. destruct (H p (or_introl eq_refl)) as (s & ->). cbn [tx list_ascii_of_string]. reflexivity.
Qed.
Theorem mc_never ntrials history : (forall d, In d history -> forall p, In p (m_trials d) -> absolute p) -> mcrun ntrials history <> MCDone.
Proof.
  unfold mcrun. assert (G : forall l ph, ph <> MCDone -> (forall d, In d l -> forall p, In p (m_trials d) -> absolute p) -> fold_left (mcscript ntrials) l ph <> MCDone).
  { induction l as [|d l IH]; intros ph Np H; cbn [fold_left]; [auto|]. apply IH; [|intros; eapply H; cbn; eauto].
    destruct ph; cbn [mcscript]; [destruct (_ =? _); discriminate| |congruence]. rewrite test_absolute by (apply H; cbn; auto). discriminate. }
  intros H. apply G; [discriminate|auto].
Qed.
