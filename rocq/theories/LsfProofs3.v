(** * Safety, termination and the counterexamples of the batch workflow.  Proofs only. *)
From Coq Require Import Reals Lra Permutation.
From Verif Require Import Base BaseLemmas ReaderModel HRModel OpModel OpSpec OpProofs LsfModel LsfSpec LsfProofs LsfProofs2.
Open Scope nat_scope.

Section Clean.
Variables (n : nat) (elem : nat -> nat -> option R).
Notation name := element_name.
Notation inv := (inv n elem).
Notation step := (step (Some n) elem).
Notation run := (run (Some n) elem).

Lemma submitted_comb w : combination_submitted w <-> comb (w_phase w).
Proof. unfold combination_submitted. destruct (w_phase w); cbn; intuition discriminate. Qed.
Lemma comb_elem w i j : inv w -> comb (w_phase w) -> i < n -> j < n -> elem i j <> None.
Proof.
  intros H Hc Hi Hj. pose proof (i_comp _ _ _ H Hc i j Hi Hj) as Hm. apply in_map_iff in Hm. destruct Hm as ((nm & c) & E & Hin). cbn [fst] in E. subst nm.
  destruct (i_temp _ _ _ H _ _ Hin) as (a & b & Eab & D). apply name_inj in Eab. destruct Eab as (<- & <-). destruct D as [(_ & D)|(_ & _ & D)]; [|auto]. apply (i_writing _ _ _ H i j D).
Qed.
Theorem complete_before_combination out es : let w := run es (initially [] out) in combination_submitted w ->
  forall i j, i < n -> j < n -> element_exists i j w /\ elem i j <> None.
Proof.
  intros w Hc i j Hi Hj. assert (H : inv w) by apply inv_run, inv_init. apply submitted_comb in Hc. split; [|apply (comb_elem w); auto].
  pose proof (i_comp _ _ _ H Hc i j Hi Hj) as Hm. apply in_map_iff in Hm. destruct Hm as ((nm & c) & E & Hin). cbn [fst] in E. subst nm. exists c. auto.
Qed.
Theorem never_wrong out es : let w := run es (initially [] out) in combination_submitted w ->
  exists c, w_out w = Some (n, c) /\ forall m, c = Some m -> covariance_of n elem m.
Proof.
  intros w Hc. assert (H : inv w) by apply inv_run, inv_init. apply submitted_comb in Hc. apply (i_out _ _ _ H). apply (i_late _ _ _ H). destruct (w_phase w); cbn in *; auto.
Qed.
Theorem failing_never out es i j : i < n -> j < n -> elem i j = None -> ~ combination_submitted (run es (initially [] out)).
Proof. intros Hi Hj E Hc. apply (proj2 (complete_before_combination out es Hc i j Hi Hj)). auto. Qed.

(** *** The output after the combination *)
Lemma out_kept w e : inv w -> In JCombine (w_logs w) -> w_out (step w e) = w_out w /\ In JCombine (w_logs (step w e)).
Proof.
  intros H Hc. assert (Hs : In JSolver (w_logs w)).
  { apply (i_late _ _ _ H). assert (Hi : In JCombine (subs n (w_phase w))). { apply (Permutation_in _ (i_perm _ _ _ H)). apply in_app_iff. auto. }
    assert (NE : forall l, ~ In JCombine (map el l)). { intros l Hl. apply in_map_iff in Hl. destruct Hl as (p & Hp & _). discriminate. }
    destruct (w_phase w); cbn [subs late] in *; auto; unfold firsts in Hi; cbn [In app] in Hi; try (intuition discriminate). }
  destruct e as [|k]; cbn [LsfModel.step].
  - unfold script. destruct (w_phase w) as [| | |m [|(a, b) todo]|m| | |]; auto; try (cbn; auto; fail).
    + destruct (ended JPC w && ended JTransform w); cbn; auto.
    + destruct (ended JSolver w); [destruct (w_out w) as [(a, b)|] eqn:E|]; cbn; rewrite ?E; auto.
    + destruct (length (w_temp w) =? m * m); cbn; auto.
    + destruct (ended JCombine w); cbn; auto.
  - unfold work. destruct (nth_error (w_queue w) k) as [(j, s)|] eqn:Ek; [|auto]. pose proof (nth_error_In _ _ Ek) as Hq.
    destruct j as [| | |i j|]; try (exfalso; first [exact (log_not_queued n elem w _ s H Hs Hq)|exact (log_not_queued n elem w _ s H Hc Hq)]).
    + cbn. rewrite in_app_iff. auto.
    + cbn. rewrite in_app_iff. auto.
    + destruct s; [destruct (elem i j)|]; cbn; rewrite ?in_app_iff; auto.
Qed.
Lemma out_kept_run es : forall w, inv w -> In JCombine (w_logs w) -> w_out (run es w) = w_out w.
Proof.
  induction es as [|e es IH]; intros w H Hc; cbn [LsfModel.run fold_left]; [auto|]. destruct (out_kept w e H Hc) as (A & B). rewrite <- A. apply IH; auto. apply inv_step; auto.
Qed.
Lemma load_all_total t : (forall nm c, In (nm, c) t -> c <> None) -> exists files, load_all t = Ok files.
Proof.
  unfold load_all. induction t as [|(nm, c) t IH]; intros H; cbn [mapM]; [eauto|]. cbn [fst snd]. destruct c as [v|]; [|exfalso; apply (H nm None); cbn; auto].
  cbn [bind]. destruct IH as (fs & ->); [intros; apply (H nm0); cbn; auto|]. cbn. eauto.
Qed.
Theorem combined_right out es1 k s es2 : n <= 10 -> let w := run es1 (initially [] out) in nth_error (w_queue w) k = Some (JCombine, s) -> ~ element_job_active w ->
  exists m, w_out (run (es1 ++ Job k :: es2) (initially [] out)) = Some (n, Some m) /\ covariance_of n elem m.
Proof.
  intros Hn w Ek Na. assert (H : inv w) by apply inv_run, inv_init. pose proof (nth_error_In _ _ Ek) as Hq. pose proof (combine_queued _ _ w s H Hq) as Hc.
  assert (Hl : late (w_phase w)) by (destruct (w_phase w); cbn in *; auto). destruct (i_out _ _ _ H (i_late _ _ _ H Hl)) as (c & Eo & Hm).
  assert (Nn : forall nm c, In (nm, c) (w_temp w) -> c <> None).
  { intros nm c' Hi. destruct (i_temp _ _ _ H nm c' Hi) as (i & j & _ & [(_ & D)|(_ & -> & D)]); [|auto]. exfalso. apply Na. exists i, j, Writing. auto. }
  destruct (load_all_total _ Nn) as (files & El). destruct (files_of _ _ w files H Hc (comb_len _ _ w H Hc) El) as (v & Hv & Hf).
  destruct (elements_combined n v files Hn Hf) as (m & Em & Mm). exists m.
  assert (Ew : step w (Job k) = finish k JCombine (w_temp w) (Some (n, Some m)) w).
  { cbn [LsfModel.step]. unfold work. rewrite Ek. f_equal. unfold combination. rewrite Eo, El. cbn [bind]. rewrite Em. destruct Mm as (Lm & _). rewrite Lm, Nat.eqb_refl. auto. }
  split; [|exists v; auto]. unfold LsfModel.run. rewrite fold_left_app. cbn [fold_left]. change (fold_left step es1 (initially [] out)) with w.
  change (w_out (run es2 (step w (Job k))) = Some (n, Some m)). rewrite out_kept_run.
  - rewrite Ew. reflexivity.
  - apply inv_step. auto.
  - rewrite Ew. cbn. apply in_app_iff. cbn. auto.
Qed.

(** *** Termination *)
Definition jobm (x : job * stage) : nat := match x with (JElement _ _, Queued) => 2 | _ => 1 end.
Definition phm (ph : phase) : nat :=
  match ph with Finished | Broken => 0 | WaitCombine => 1 | WaitElements _ => 3 | SubmitElements _ todo => 4 + 3 * length todo
  | WaitSolver => 5 + 3 * (n * n) | WaitFirst => 7 + 3 * (n * n) | Start => 10 + 3 * (n * n) end.
Definition mu (w : world) : nat := phm (w_phase w) + list_sum (map jobm (w_queue w)).
Lemma sum_remove q k x : nth_error q k = Some x -> list_sum (map jobm q) = jobm x + list_sum (map jobm (remove_at k q)).
Proof. intros H. pose proof (remove_at_perm _ _ _ H) as P. apply (Permutation_map jobm) in P. assert (G : forall a b, Permutation a b -> list_sum a = list_sum b). { clear. intros a b Pb. unfold list_sum. induction Pb; cbn [fold_right]; lia. } rewrite (G _ _ P). reflexivity. Qed.
Lemma ls_cons x l : list_sum (x :: l) = x + list_sum l. Proof. reflexivity. Qed.
Lemma sum_upd q : forall k x y, nth_error q k = Some x -> list_sum (map jobm (upd k y q)) + jobm x = list_sum (map jobm q) + jobm y.
Proof.
  induction q as [|a q IH]; intros [|k] x y H; try discriminate; cbn [nth_error] in H.
  - injection H as ->. cbn [upd map]. rewrite !ls_cons. lia.
  - specialize (IH k x y H). cbn [upd map]. rewrite !ls_cons. lia.
Qed.
Lemma jobm_pos x : 1 <= jobm x. Proof. destruct x as ([], []); cbn; lia. Qed.
Lemma sum_app a b : list_sum (map jobm (a ++ b)) = list_sum (map jobm a) + list_sum (map jobm b).
Proof. rewrite map_app, list_sum_app. auto. Qed.
Lemma mu_script w : inv w -> script w = w \/ mu (script w) < mu w.
Proof.
  intros H. pose proof (i_ph _ _ _ H) as Hp. unfold script, mu. destruct (w_phase w) as [| | |m [|(a, b) todo]|m| | |] eqn:E; auto.
  - right. unfold submit. cbn [w_phase w_queue]. rewrite sum_app. cbn [phm map jobm list_sum fold_right]. lia.
  - destruct (ended JPC w && ended JTransform w); [right|auto]. unfold submit. cbn [w_phase w_queue]. rewrite sum_app. cbn [phm map jobm list_sum fold_right]. lia.
  - destruct (ended JSolver w) eqn:Es; [|auto]. apply ended_in in Es. destruct (i_out _ _ _ H Es) as (c & -> & _). right. unfold submit. cbn [w_phase w_queue]. rewrite sum_app. cbn [phm map list_sum fold_right].
    rewrite pairs_all, all_pairs_len. lia.
  - right. unfold submit. cbn [w_phase w_queue]. rewrite sum_app. cbn. lia.
  - right. unfold submit. cbn [w_phase w_queue]. rewrite sum_app. cbn [phm map jobm list_sum fold_right length]. lia.
  - destruct (length (w_temp w) =? m * m); [right|auto]. unfold submit. cbn [w_phase w_queue]. rewrite sum_app. cbn [phm map jobm list_sum fold_right]. lia.
  - destruct (ended JCombine w); [right|auto]. unfold submit. cbn [w_phase w_queue]. rewrite sum_app. cbn. lia.
Qed.
Lemma mu_finish w k x j t o : nth_error (w_queue w) k = Some x -> mu (finish k j t o w) < mu w.
Proof. intros E. unfold mu, finish. cbn [w_phase w_queue]. rewrite (sum_remove _ _ _ E). pose proof (jobm_pos x). lia. Qed.
Lemma mu_work k w : nth_error (w_queue w) k <> None -> mu (work (Some n) elem k w) < mu w.
Proof.
  unfold work. destruct (nth_error (w_queue w) k) as [(j, s)|] eqn:E; [intros _|congruence]. destruct j as [| | |i j|]; try (eapply mu_finish; exact E).
  destruct s; [|eapply mu_finish; exact E]. destruct (elem i j); [|eapply mu_finish; exact E]. unfold mu. cbn [w_phase w_queue]. pose proof (sum_upd _ _ _ (JElement i j, Writing) E) as S. cbn [jobm] in S. lia.
Qed.
Lemma mu_step w e : inv w -> step w e = w \/ mu (step w e) < mu w.
Proof.
  intros H. destruct e as [|k]; cbn [LsfModel.step]; [apply mu_script; auto|]. destruct (nth_error (w_queue w) k) eqn:E; [right; apply mu_work; congruence|left; unfold work; rewrite E; auto].
Qed.
Lemma all_done_len w : inv w -> (forall i j, i < n -> j < n -> In (name i j) (map fst (w_temp w))) -> length (w_temp w) = n * n.
Proof.
  intros H Hc. rewrite <- (map_length fst). apply Nat.le_antisymm.
  - replace (n * n) with (length (map (fun p => name (fst p) (snd p)) (pairs n))) by (rewrite map_length, pairs_all, all_pairs_len; auto). apply NoDup_incl_length; [apply (i_nodup _ _ _ H)|].
    intros nm Hi. apply in_map_iff in Hi. destruct Hi as ((m & c) & <- & Hi). destruct (temp_pair _ _ w m c H Hi) as (i & j & Hi' & Hj & ->). apply in_map_iff. exists (i, j). split; [auto|]. apply in_pairs. auto.
  - replace (n * n) with (length (map (fun p => name (fst p) (snd p)) (pairs n))) by (rewrite map_length, pairs_all, all_pairs_len; auto). apply NoDup_incl_length.
    + apply FinFun.Injective_map_NoDup; [|apply pairs_nodup]. intros (a & b) (c & d) E. apply name_inj in E. cbn in E. destruct E as (-> & ->). auto.
    + intros nm Hi. apply in_map_iff in Hi. destruct Hi as ((i & j) & <- & Hi). apply in_pairs in Hi. cbn [fst snd]. apply Hc; tauto.
Qed.
Lemma progress w : inv w -> (forall i j, i < n -> j < n -> elem i j <> None) -> w_phase w <> Finished -> exists e, mu (step w e) < mu w.
Proof.
  intros H He Np. destruct (w_queue w) as [|x q] eqn:Q.
  2:{ exists (Job 0). apply mu_work. rewrite Q. discriminate. }
  exists Script. destruct (mu_script w H) as [E|]; [exfalso|auto]. pose proof (i_perm _ _ _ H) as P. rewrite Q in P. cbn [map] in P. rewrite app_nil_r in P. pose proof (i_ph _ _ _ H) as Hp.
  assert (L : forall j, In j (subs n (w_phase w)) -> ended j w = true). { intros j Hj. apply ended_in. apply (Permutation_in _ (Permutation_sym P)). auto. }
  apply (f_equal w_phase) in E. unfold script in E. destruct (w_phase w) as [| | |m [|(a, b) todo]|m| | |] eqn:Ep; cbn [subs phok] in *; try discriminate; try congruence; try tauto.
  - rewrite !L in E by (cbn; auto). discriminate.
  - rewrite L in E by (cbn; auto). destruct (w_out w) as [(? & ?)|]; discriminate.
  - cbn in E. injection E as E. apply (f_equal (@length _)) in E. cbn in E. lia.
  - subst m. rewrite (all_done_len w H), Nat.eqb_refl in E; [discriminate|]. intros i j Hi Hj. assert (Hin : In (name i j, elem i j) (w_temp w)).
    { apply (i_done _ _ _ H); [|auto]. apply ended_in. apply L. apply in_app_iff. right. apply in_map_iff. exists (i, j). split; [auto|apply in_pairs; auto]. }
    apply (in_map fst) in Hin. auto.
  - rewrite L in E; [discriminate|]. rewrite !in_app_iff. cbn. auto.
Qed.
Theorem bounded_work out es k : changes (Some n) elem (initially [] out) es k -> k <= 3 * (n * n) + 10.
Proof.
  assert (G : forall w, inv w -> changes (Some n) elem w es k -> k <= mu w).
  { intros w H Hc. induction Hc as [|w e es k E Hc IH|w e es k E Hc IH]; [lia|auto|]. destruct (mu_step w e H) as [E2|Hlt]; [congruence|]. specialize (IH (inv_step _ _ w e H)). lia. }
  intros Hc. specialize (G _ (inv_init n elem out) Hc). cbn in G. lia.
Qed.
Lemma at_inv sched w t : inv w -> inv (at_time (Some n) elem sched w t).
Proof. intros H. induction t; cbn [at_time]; [auto|apply inv_step; auto]. Qed.
Lemma at_mono sched w t t' : inv w -> t <= t' -> mu (at_time (Some n) elem sched w t') <= mu (at_time (Some n) elem sched w t).
Proof.
  intros H L. induction L as [|t' L IH]; [lia|]. cbn [at_time]. destruct (mu_step (at_time (Some n) elem sched w t') (sched t') (at_inv sched w t' H)) as [->|]; lia.
Qed.
Theorem fair_terminates out sched : (forall i j, i < n -> j < n -> elem i j <> None) -> fair (Some n) elem sched (initially [] out) ->
  exists t, w_phase (at_time (Some n) elem sched (initially [] out) t) = Finished.
Proof.
  intros He Hf. set (w0 := initially [] out) in *. assert (H0 : inv w0) by apply inv_init.
  assert (G : forall k t, mu (at_time (Some n) elem sched w0 t) <= k -> exists t', w_phase (at_time (Some n) elem sched w0 t') = Finished).
  { induction k as [k IH] using lt_wf_ind. intros t Hk. assert (D : w_phase (at_time (Some n) elem sched w0 t) = Finished \/ w_phase (at_time (Some n) elem sched w0 t) <> Finished) by (destruct (w_phase (at_time (Some n) elem sched w0 t)); auto; right; discriminate).
    destruct D as [D|D]; [eauto|]. destruct (progress _ (at_inv sched w0 t H0) He D) as (e & Hlt). destruct (Hf t) as (t' & L & Ne).
    - exists e. intros E. change (LsfModel.step (Some n) elem) with step in E. rewrite E in Hlt. lia.
    - pose proof (at_mono sched w0 t t' H0 L) as M. assert (M2 : mu (at_time (Some n) elem sched w0 (S t')) < mu (at_time (Some n) elem sched w0 t')).
      { cbn [at_time] in *. destruct (mu_step (at_time (Some n) elem sched w0 t') (sched t') (at_inv sched w0 t' H0)) as [E|]; [congruence|auto]. }
      apply (IH (mu (at_time (Some n) elem sched w0 (S t'))) ltac:(lia) (S t')). lia. }
  exact (G _ 0 (le_n _)).
Qed.
End Clean.
