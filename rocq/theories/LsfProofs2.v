(** * The invariant of the batch workflow.  Proofs only. *)
From Coq Require Import Reals Lra Permutation.
From Verif Require Import Base BaseLemmas ReaderModel HRModel OpModel OpSpec OpProofs LsfModel LsfSpec LsfProofs.
Open Scope nat_scope.

Section Inv.
Variables (n : nat) (elem : nat -> nat -> option R).
Notation name := element_name.
Definition firsts := [JPC; JTransform; JSolver].
Definition subs (ph : phase) : list job :=
  match ph with
  | Start => []
  | WaitFirst => [JPC; JTransform]
  | WaitSolver | Broken => firsts
  | SubmitElements _ todo => firsts ++ map el (firstn (length (pairs n) - length todo) (pairs n))
  | WaitElements _ => firsts ++ map el (pairs n)
  | WaitCombine | Finished => firsts ++ map el (pairs n) ++ [JCombine]
  end.
Definition phok (ph : phase) : Prop :=
  match ph with SubmitElements m todo => m = n /\ exists dn, dn ++ todo = pairs n | WaitElements m => m = n | Broken => False | _ => True end.
Definition late (ph : phase) : Prop := match ph with Start | WaitFirst | WaitSolver | Broken => False | _ => True end.
Definition comb (ph : phase) : Prop := match ph with WaitCombine | Finished => True | _ => False end.
Record inv (w : world) : Prop := mkInv {
  i_ph : phok (w_phase w);
  i_perm : Permutation (w_logs w ++ map fst (w_queue w)) (subs (w_phase w));
  i_late : late (w_phase w) -> In JSolver (w_logs w);
  i_nodup : NoDup (map fst (w_temp w));
  i_temp : forall nm c, In (nm, c) (w_temp w) -> exists i j, nm = name i j /\
    ((c = None /\ In (JElement i j, Writing) (w_queue w)) \/ (In (JElement i j) (w_logs w) /\ c = elem i j /\ elem i j <> None));
  i_writing : forall i j, In (JElement i j, Writing) (w_queue w) -> In (name i j, None) (w_temp w) /\ elem i j <> None;
  i_done : forall i j, In (JElement i j) (w_logs w) -> elem i j <> None -> In (name i j, elem i j) (w_temp w);
  i_comp : comb (w_phase w) -> forall i j, i < n -> j < n -> In (name i j) (map fst (w_temp w));
  i_out : In JSolver (w_logs w) -> exists c, w_out w = Some (n, c) /\ (forall m, c = Some m -> covariance_of n elem m) }.

Lemma el_inj p q : el p = el q -> p = q.
Proof. destruct p, q. unfold el. cbn. intros [= -> ->]. auto. Qed.
Lemma el_notin_firsts j l : In j firsts -> ~ In j (map el l).
Proof. intros H Hi. apply in_map_iff in Hi. destruct Hi as (p & <- & _). destruct H as [H|[H|[H|[]]]]; discriminate H. Qed.
Lemma firsts_nodup : NoDup firsts.
Proof. repeat constructor; cbn; intuition discriminate. Qed.
Lemma firstn_nodup {A} k (l : list A) : NoDup l -> NoDup (firstn k l).
Proof. intros H. rewrite <- (firstn_skipn k l) in H. revert H. generalize (skipn k l). generalize (firstn k l). intros a b. induction a; cbn; intros H; [constructor|]. inversion H; subst. constructor; auto. rewrite in_app_iff in *. tauto. Qed.
Lemma subs_nodup ph : NoDup (subs ph).
Proof.
  assert (E : forall l, NoDup l -> NoDup (firsts ++ map el l)).
  { intros l Hl. apply nodup_app; [apply firsts_nodup|apply FinFun.Injective_map_NoDup; auto; intros p q; apply el_inj|]. intros x Hx. apply el_notin_firsts. auto. }
  assert (C : NoDup (firsts ++ map el (pairs n) ++ [JCombine])).
  { rewrite app_assoc. apply nodup_app; [apply E, pairs_nodup|repeat constructor; cbn; tauto|]. intros x Hx [<-|[]]. apply in_app_iff in Hx. destruct Hx as [[H|[H|[H|[]]]]|Hx]; try discriminate.
    apply in_map_iff in Hx. destruct Hx as (p & Hp & _). discriminate. }
  destruct ph; cbn [subs]; try apply E; try apply C; try apply firsts_nodup; try apply firstn_nodup; try apply pairs_nodup.
  - constructor.
  - repeat constructor; cbn; intuition discriminate.
Qed.
Lemma jobs_nodup w : inv w -> NoDup (w_logs w ++ map fst (w_queue w)).
Proof. intros H. eapply Permutation_NoDup; [apply Permutation_sym, (i_perm _ H)|apply subs_nodup]. Qed.
Lemma nodup_app_inv {A} (a b : list A) : NoDup (a ++ b) -> NoDup a /\ NoDup b /\ (forall x, In x a -> In x b -> False).
Proof.
  induction a as [|x a IH]; cbn [app]; intros H; [repeat split; auto; constructor|]. inversion H as [|? ? Hx Ha]; subst. destruct (IH Ha) as (A1 & A2 & A3).
  rewrite in_app_iff in Hx. repeat split; auto; [constructor; auto|]. intros y [<-|Hy] Hb; [auto|]. eapply A3; eauto.
Qed.
Lemma queue_stage (q : list (job * stage)) j s t : NoDup (map fst q) -> In (j, s) q -> In (j, t) q -> s = t.
Proof.
  induction q as [|(a, b) q IH]; intros Hn H1 H2; [destruct H1|]. cbn [map fst] in Hn. inversion Hn as [|? ? Ha Hq]; subst.
  destruct H1 as [E1|H1], H2 as [E2|H2]; [congruence| | |auto]; exfalso; apply Ha; [injection E1 as -> _; apply (in_map fst) in H2|injection E2 as -> _; apply (in_map fst) in H1]; auto.
Qed.
Lemma log_not_queued w j s : inv w -> In j (w_logs w) -> In (j, s) (w_queue w) -> False.
Proof. intros H Hl Hq. destruct (nodup_app_inv _ _ (jobs_nodup w H)) as (_ & _ & D). apply (D j Hl). apply (in_map fst) in Hq. auto. Qed.

Lemma inv_init out : inv (initially [] out).
Proof.
  split; cbn; try tauto; try constructor.
  all: try (intros ? ? []). all: intros ? ? _ [].
Qed.

(** *** The script *)
Lemma inv_submit w ph js : inv w -> phok ph -> Permutation (subs (w_phase w) ++ js) (subs ph) -> (late ph -> In JSolver (w_logs w)) ->
  (comb ph -> forall i j, i < n -> j < n -> In (name i j) (map fst (w_temp w))) -> inv (submit ph js w).
Proof.
  intros H Hp Hs Hl Hc. unfold submit.
  assert (Q : forall i j, In (JElement i j, Writing) (w_queue w ++ map (fun j => (j, Queued)) js) <-> In (JElement i j, Writing) (w_queue w)).
  { intros i j. rewrite in_app_iff. split; [|auto]. intros [|Hi]; [auto|]. apply in_map_iff in Hi. destruct Hi as (x & [=] & _). }
  split; cbn [w_phase w_logs w_queue w_temp w_out]; auto.
  - rewrite map_app, map_map, map_id, app_assoc. etransitivity; [|exact Hs]. apply Permutation_app_tail. apply (i_perm _ H).
  - apply (i_nodup _ H).
  - intros nm c Hi. destruct (i_temp _ H nm c Hi) as (i & j & E & [(A & B)|B]); exists i, j; (split; [auto|]); [left; rewrite Q; auto|auto].
  - intros i j. rewrite Q. apply (i_writing _ H).
  - apply (i_done _ H).
  - apply (i_out _ H).
Qed.
Lemma names_complete w : inv w -> length (w_temp w) = n * n -> (forall nm c, In (nm, c) (w_temp w) -> exists i j, i < n /\ j < n /\ nm = name i j) ->
  Permutation (map fst (w_temp w)) (map (fun p => name (fst p) (snd p)) (pairs n)).
Proof.
  intros H L S. apply NoDup_Permutation_bis; [apply (i_nodup _ H)| |].
  - rewrite !map_length, L, pairs_all, all_pairs_len. lia.
  - intros nm Hi. apply in_map_iff in Hi. destruct Hi as ((m & c) & <- & Hi). destruct (S m c Hi) as (i & j & Hi' & Hj & ->). cbn [fst]. apply in_map_iff. exists (i, j). split; [auto|]. apply in_pairs. auto.
Qed.
(** Every element job that was submitted is one of the n x n. *)
Lemma submitted_pair w i j : inv w -> In (JElement i j) (w_logs w ++ map fst (w_queue w)) -> i < n /\ j < n.
Proof.
  intros H Hi. apply (Permutation_in _ (i_perm _ H)) in Hi. assert (G : forall l, In (JElement i j) (map el l) -> In (i, j) l).
  { intros l Hl. apply in_map_iff in Hl. destruct Hl as ((a & b) & E & Hl). unfold el in E. cbn in E. injection E as -> ->. auto. }
  apply in_pairs. destruct (w_phase w) as [| | |m todo|m| | |] eqn:E; cbn [subs] in Hi; unfold firsts in Hi; rewrite ?in_app_iff in Hi; cbn [In] in Hi; try (intuition discriminate).
  - destruct Hi as [[Hi|[Hi|[Hi|[]]]]|Hi]; try discriminate. apply G in Hi. rewrite <- (firstn_skipn (length (pairs n) - length todo)). apply in_app_iff. auto.
  - destruct Hi as [[Hi|[Hi|[Hi|[]]]]|Hi]; try discriminate. apply G in Hi. auto.
  - destruct Hi as [[Hi|[Hi|[Hi|[]]]]|[Hi|[Hi|[]]]]; try discriminate. apply G in Hi. auto.
  - destruct Hi as [[Hi|[Hi|[Hi|[]]]]|[Hi|[Hi|[]]]]; try discriminate. apply G in Hi. auto.
Qed.
Lemma temp_pair w nm c : inv w -> In (nm, c) (w_temp w) -> exists i j, i < n /\ j < n /\ nm = name i j.
Proof.
  intros H Hi. destruct (i_temp _ H nm c Hi) as (i & j & E & D). exists i, j. assert (P : In (JElement i j) (w_logs w ++ map fst (w_queue w))).
  { apply in_app_iff. destruct D as [(_ & D)|(D & _)]; [right; apply (in_map fst) in D; auto|auto]. }
  destruct (submitted_pair w i j H P). auto.
Qed.
Lemma inv_script w : inv w -> inv (script w).
Proof.
  intros H. pose proof (i_ph _ H) as Hp. pose proof (i_late _ H) as Hl. unfold script. destruct (w_phase w) as [| | |m todo|m| | |] eqn:E.
  - apply inv_submit; cbn; auto; try tauto. rewrite E. cbn. auto.
  - destruct (ended JPC w && ended JTransform w); [|auto]. apply inv_submit; cbn; auto; try tauto. rewrite E. cbn. auto.
  - destruct (ended JSolver w) eqn:Es; [|auto]. apply ended_in in Es. destruct (i_out _ H Es) as (c & Eo & _). rewrite Eo. apply inv_submit; auto.
    + cbn. split; [auto|]. exists []. reflexivity.
    + rewrite E. cbn [subs]. rewrite Nat.sub_diag. cbn [firstn map]. rewrite app_nil_r. apply Permutation_refl.
    + intros [].
  - cbn [phok late] in Hp, Hl. destruct Hp as (-> & dn & Ed). destruct todo as [|(i, j) todo].
    + apply inv_submit; cbn [late comb phok]; auto; try tauto. rewrite E. cbn [subs length]. rewrite Nat.sub_0_r, firstn_all, app_nil_r. apply Permutation_refl.
    + apply inv_submit; cbn [late comb phok]; auto; try tauto.
      * split; [auto|]. exists (dn ++ [(i, j)]). rewrite <- app_assoc. auto.
      * rewrite E. cbn [subs]. rewrite <- Ed at 2 4. rewrite <- Ed, app_length. cbn [length]. replace (length dn + S (length todo) - S (length todo)) with (length dn) by lia.
        replace (length dn + S (length todo) - length todo) with (length dn + 1) by lia. rewrite firstn_app, firstn_all, Nat.sub_diag. cbn [firstn]. rewrite app_nil_r.
        rewrite firstn_app_2. cbn [firstn]. rewrite map_app, <- app_assoc. cbn. apply Permutation_refl.
  - cbn [phok late] in Hp, Hl. subst m. destruct (Nat.eqb_spec (length (w_temp w)) (n * n)) as [L|L]; [|auto]. apply inv_submit; cbn [late comb phok]; auto.
    + rewrite E. cbn [subs]. rewrite <- app_assoc. apply Permutation_refl.
    + intros _ i j Hi Hj. pose proof (names_complete w H L (fun nm c => temp_pair w nm c H)) as P. apply (Permutation_in _ (Permutation_sym P)). apply in_map_iff. exists (i, j). split; [auto|]. apply in_pairs. auto.
  - destruct (ended JCombine w); [|auto]. apply inv_submit; cbn [late comb phok]; auto.
    + rewrite E. cbn [subs]. rewrite app_nil_r. apply Permutation_refl.
    + intros _. apply (i_comp _ H). rewrite E. cbn. auto.
  - auto.
  - auto.
Qed.

(** *** The jobs *)
Lemma perm_finish w k j s : nth_error (w_queue w) k = Some (j, s) ->
  Permutation ((w_logs w ++ [j]) ++ map fst (remove_at k (w_queue w))) (w_logs w ++ map fst (w_queue w)).
Proof.
  intros E. rewrite <- app_assoc. apply Permutation_app_head. pose proof (remove_at_perm _ _ _ E) as P. apply (Permutation_map fst) in P. cbn [map fst] in P. apply Permutation_sym. exact P.
Qed.
(** Ending a job other than an element job. *)
Lemma inv_finish w k j s o : inv w -> nth_error (w_queue w) k = Some (j, s) -> (forall i l, j <> JElement i l) ->
  (In JSolver (w_logs w) \/ j = JSolver -> exists c, o = Some (n, c) /\ (forall m, c = Some m -> covariance_of n elem m)) -> inv (finish k j (w_temp w) o w).
Proof.
  intros H Ek Nj Ho. unfold finish.
  assert (Q : forall i l t, In (JElement i l, t) (remove_at k (w_queue w)) <-> In (JElement i l, t) (w_queue w)).
  { intros i l t. rewrite (in_remove_at (w_queue w) k (j, s)) by auto. split; [auto|]. intros [[= E _]|]; [exfalso; apply (Nj i l); auto|auto]. }
  assert (L : forall i l, In (JElement i l) (w_logs w ++ [j]) <-> In (JElement i l) (w_logs w)).
  { intros i l. rewrite in_app_iff. cbn. split; [intros [|[E|[]]]; [auto|exfalso; apply (Nj i l); auto]|auto]. }
  split; cbn [w_phase w_logs w_queue w_temp w_out].
  - apply (i_ph _ H).
  - etransitivity; [apply (perm_finish w k j s Ek)|apply (i_perm _ H)].
  - intros Hl. apply in_app_iff. left. apply (i_late _ H Hl).
  - apply (i_nodup _ H).
  - intros nm c Hi. destruct (i_temp _ H nm c Hi) as (a & b & E & [(A & B)|B]); exists a, b; (split; [auto|]); rewrite ?Q, ?L; auto.
  - intros a b. rewrite Q. apply (i_writing _ H).
  - intros a b. rewrite L. apply (i_done _ H).
  - apply (i_comp _ H).
  - intros Hs. apply Ho. apply in_app_iff in Hs. destruct Hs as [Hs|[Hs|[]]]; auto.
Qed.
Lemma load_all_in t files : load_all t = Ok files -> files = map (fun f => (fst f, match snd f with Some v => v | None => 0%R end)) t /\ forall nm c, In (nm, c) t -> c <> None.
Proof.
  unfold load_all. revert files. induction t as [|(nm, c) t IH]; intros files H; cbn [mapM] in H.
  - injection H as <-. split; [auto|]. intros ? ? [].
  - cbn [fst snd] in H. destruct c as [v|]; cbn [bind] in H; [|discriminate]. destruct (mapM _ t) as [fs|] eqn:E; cbn [bind] in H; [|discriminate]. injection H as <-.
    destruct (IH fs eq_refl) as (-> & N). split; [reflexivity|]. intros nm' c' [[= _ <-]|Hi]; [discriminate|eauto].
Qed.
(** What the combination reads if all element files exist. *)
Lemma files_of w files : inv w -> comb (w_phase w) -> length (w_temp w) = n * n -> load_all (w_temp w) = Ok files ->
  exists v, (forall i j, i < n -> j < n -> elem i j = Some (v i j)) /\ element_files n v files.
Proof.
  intros H Hc L E. destruct (load_all_in _ _ E) as (-> & Nn).
  assert (Hv : forall i j, i < n -> j < n -> exists x, elem i j = Some x /\ In (name i j, Some x) (w_temp w)).
  { intros i j Hi Hj. pose proof (i_comp _ H Hc i j Hi Hj) as Hm. apply in_map_iff in Hm. destruct Hm as ((nm & c) & Enm & Hin). cbn [fst] in Enm. subst nm.
    destruct (i_temp _ H _ _ Hin) as (a & b & Eab & D). apply name_inj in Eab. destruct Eab as (<- & <-). destruct D as [(-> & _)|(_ & Ec & Ne)].
    - exfalso. apply (Nn _ _ Hin). auto.
    - destruct (elem i j) as [x|]; [|congruence]. exists x. subst c. auto. }
  exists (fun i j => match elem i j with Some x => x | None => 0%R end). split.
  - intros i j Hi Hj. destruct (Hv i j Hi Hj) as (x & -> & _). auto.
  - unfold element_files. set (v := fun i j => match elem i j with Some x => x | None => 0%R end).
    assert (EE : flat_map (fun i => map (fun j => (name i j, v i j)) (seq 0 n)) (seq 0 n) = map (fun p => (name (fst p) (snd p), v (fst p) (snd p))) (pairs n)).
    { unfold pairs. generalize (seq 0 n) at 2 4. intros l. induction l as [|i l IH]; [reflexivity|]. cbn [flat_map]. rewrite map_app, map_map, IH. reflexivity. }
    change (Permutation (map (fun f => (fst f, match snd f with Some v => v | None => 0%R end)) (w_temp w)) (flat_map (fun i => map (fun j => (name i j, v i j)) (seq 0 n)) (seq 0 n))).
    rewrite EE. apply NoDup_Permutation_bis.
    + apply (NoDup_map_inv fst). rewrite map_map. cbn [fst]. apply (i_nodup _ H).
    + rewrite !map_length, L, pairs_all, all_pairs_len. lia.
    + intros (nm & x) Hi. apply in_map_iff in Hi. destruct Hi as ((m & c) & Em & Hin). cbn [fst snd] in Em. injection Em as <- <-.
      destruct (temp_pair w m c H Hin) as (i & j & Hi & Hj & ->). apply in_map_iff. exists (i, j). cbn [fst snd]. split; [|apply in_pairs; auto].
      destruct (Hv i j Hi Hj) as (y & Ey & Hy). f_equal. unfold v. rewrite Ey. destruct (i_temp _ H _ _ Hin) as (a & b & Eab & D). apply name_inj in Eab. destruct Eab as (<- & <-).
      destruct D as [(-> & _)|(_ & -> & _)]; [exfalso; apply (Nn _ _ Hin); auto|]. rewrite Ey. reflexivity.
Qed.
Lemma comb_len w : inv w -> comb (w_phase w) -> length (w_temp w) = n * n.
Proof.
  intros H Hc. rewrite <- (map_length fst). apply Nat.le_antisymm.
  - replace (n * n) with (length (map (fun p => name (fst p) (snd p)) (pairs n))) by (rewrite map_length, pairs_all, all_pairs_len; auto). apply NoDup_incl_length; [apply (i_nodup _ H)|].
    intros nm Hi. apply in_map_iff in Hi. destruct Hi as ((m & c) & <- & Hi). destruct (temp_pair w m c H Hi) as (i & j & Hi' & Hj & ->). apply in_map_iff. exists (i, j). split; [auto|]. apply in_pairs. auto.
  - replace (n * n) with (length (map (fun p => name (fst p) (snd p)) (pairs n))) by (rewrite map_length, pairs_all, all_pairs_len; auto). apply NoDup_incl_length.
    + apply FinFun.Injective_map_NoDup; [|apply pairs_nodup]. intros (a & b) (c & d) E. apply name_inj in E. cbn in E. destruct E as (-> & ->). auto.
    + intros nm Hi. apply in_map_iff in Hi. destruct Hi as ((i & j) & <- & Hi). apply in_pairs in Hi. cbn [fst snd]. apply (i_comp _ H Hc); tauto.
Qed.
Lemma combine_queued w s : inv w -> In (JCombine, s) (w_queue w) -> comb (w_phase w).
Proof.
  intros H Hi. assert (Hs : In JCombine (subs (w_phase w))). { apply (Permutation_in _ (i_perm _ H)). apply in_app_iff. right. apply (in_map fst) in Hi. auto. }
  assert (NE : forall l, ~ In JCombine (map el l)). { intros l Hl. apply in_map_iff in Hl. destruct Hl as (p & Hp & _). discriminate. }
  destruct (w_phase w); cbn [subs comb] in *; auto; unfold firsts in Hs; cbn [In app] in Hs; try (intuition discriminate); try (destruct Hs as [Hs|[Hs|[Hs|Hs]]]; try discriminate; apply (NE _ Hs)).
Qed.
Lemma combination_ok w s : inv w -> In (JCombine, s) (w_queue w) -> exists c, combination w = Some (n, c) /\ (forall m, c = Some m -> covariance_of n elem m).
Proof.
  intros H Hq. pose proof (combine_queued w s H Hq) as Hc. assert (Hl : late (w_phase w)) by (destruct (w_phase w); cbn in *; auto).
  destruct (i_out _ H (i_late _ H Hl)) as (c & Eo & Hm). unfold combination. rewrite Eo.
  destruct (load_all (w_temp w)) as [files|] eqn:El; cbn [bind]; [|exists c; auto].
  destruct (files_of w files H Hc (comb_len w H Hc) El) as (v & Hv & Hf).
  destruct (combine_elements files) as [m|] eqn:Em; [|exists c; auto]. destruct (Nat.eqb_spec (length m) n); [|exists c; auto]. exists (Some m). split; [auto|]. intros m' [= <-].
  exists v. split; [auto|]. destruct (le_lt_dec n 10) as [Hn|Hn].
  - destruct (elements_combined n v files Hn Hf) as (m2 & E2 & M2). rewrite Em in E2. injection E2 as <-. auto.
  - rewrite (too_many_elements n v files Hn Hf) in Em. discriminate.
Qed.
Lemma inv_work k w : inv w -> inv (work (Some n) elem k w).
Proof.
  intros H. unfold work. destruct (nth_error (w_queue w) k) as [(j, s)|] eqn:Ek; [|auto]. pose proof (nth_error_In _ _ Ek) as Hq.
  destruct (nodup_app_inv _ _ (jobs_nodup w H)) as (_ & Nq & _).
  destruct j as [| | |i j|].
  - eapply inv_finish; eauto; try discriminate. intros [Hs|Hs]; [apply (i_out _ H Hs)|discriminate].
  - eapply inv_finish; eauto; try discriminate. intros [Hs|Hs]; [apply (i_out _ H Hs)|discriminate].
  - eapply inv_finish; eauto; try discriminate. intros _. exists None. split; [auto|discriminate].
  - destruct s.
    + destruct (elem i j) as [v|] eqn:Ev.
      * assert (U : forall a b t, In (JElement a b, t) (upd k (JElement i j, Writing) (w_queue w)) -> (a = i /\ b = j /\ t = Writing) \/ (In (JElement a b, t) (w_queue w))).
        { intros a b t Hi. apply (in_upd _ _ _ _ _ Ek) in Hi. destruct Hi as [[= -> -> ->]|Hi]; auto. }
        split; cbn [w_phase w_logs w_queue w_temp w_out].
        -- apply (i_ph _ H).
        -- rewrite (upd_map fst _ _ _ _ Ek) by reflexivity. apply (i_perm _ H).
        -- apply (i_late _ H).
        -- apply put_nodup, (i_nodup _ H).
        -- intros nm c Hi. apply in_put in Hi; [|apply (i_nodup _ H)]. destruct Hi as [(-> & ->)|(Ne & Hi)].
           ++ exists i, j. split; [auto|]. left. split; [auto|]. apply (in_upd_new _ _ _ _ Ek).
           ++ destruct (i_temp _ H nm c Hi) as (a & b & -> & [(A & B)|B]); exists a, b; (split; [auto|]); [left|auto]. split; [auto|].
              destruct (in_upd_old _ _ _ (JElement i j, Writing) _ Ek B) as [[=]|]; auto.
        -- intros a b Hi. apply U in Hi. destruct Hi as [(-> & -> & _)|Hi].
           ++ split; [apply in_put; [apply (i_nodup _ H)|auto]|congruence].
           ++ destruct (i_writing _ H a b Hi) as (A & B). split; [|auto]. apply in_put; [apply (i_nodup _ H)|]. right. split; [|auto]. intros E. apply name_inj in E. destruct E as (-> & ->).
              pose proof (queue_stage _ _ _ _ Nq Hq Hi). discriminate.
        -- intros a b Hi Ne. apply in_put; [apply (i_nodup _ H)|]. right. split; [|apply (i_done _ H); auto]. intros E. apply name_inj in E. destruct E as (-> & ->).
           apply (log_not_queued w _ _ H Hi Hq).
        -- intros Hc a b Ha Hb. pose proof (i_comp _ H Hc a b Ha Hb) as Hm. rewrite put_names. destruct (existsb _ _); [auto|]. apply in_app_iff. auto.
        -- apply (i_out _ H).
      * unfold finish. split; cbn [w_phase w_logs w_queue w_temp w_out].
        -- apply (i_ph _ H).
        -- etransitivity; [apply (perm_finish w k _ _ Ek)|apply (i_perm _ H)].
        -- intros Hl. apply in_app_iff. left. apply (i_late _ H Hl).
        -- apply (i_nodup _ H).
        -- intros nm c Hi. destruct (i_temp _ H nm c Hi) as (a & b & E & [(A & B)|(B1 & B2)]); exists a, b; (split; [auto|]).
           ++ left. split; [auto|]. apply (in_remove_at _ _ _ _ Ek) in B. destruct B as [[=]|]; auto.
           ++ right. rewrite in_app_iff. auto.
        -- intros a b Hi. apply (i_writing _ H). apply (in_remove_at _ _ _ _ Ek). auto.
        -- intros a b Hi Ne. apply in_app_iff in Hi. destruct Hi as [Hi|[[= -> ->]|[]]]; [apply (i_done _ H); auto|congruence].
        -- apply (i_comp _ H).
        -- intros Hs. apply (i_out _ H). apply in_app_iff in Hs. destruct Hs as [Hs|[Hs|[]]]; [auto|discriminate].
    + destruct (i_writing _ H i j Hq) as (W1 & W2). unfold finish. split; cbn [w_phase w_logs w_queue w_temp w_out].
      * apply (i_ph _ H).
      * etransitivity; [apply (perm_finish w k _ _ Ek)|apply (i_perm _ H)].
      * intros Hl. apply in_app_iff. left. apply (i_late _ H Hl).
      * apply put_nodup, (i_nodup _ H).
      * intros nm c Hi. apply in_put in Hi; [|apply (i_nodup _ H)]. destruct Hi as [(-> & ->)|(Ne & Hi)].
        -- exists i, j. split; [auto|]. right. rewrite in_app_iff. cbn. auto.
        -- destruct (i_temp _ H nm c Hi) as (a & b & -> & [(A & B)|(B1 & B2)]); exists a, b; (split; [auto|]); [left|right; rewrite in_app_iff; auto]. split; [auto|].
           apply (in_remove_at _ _ _ _ Ek) in B. destruct B as [[= -> ->]|]; [congruence|auto].
      * intros a b Hi. assert (Hi' : In (JElement a b, Writing) (w_queue w)) by (apply (in_remove_at _ _ _ _ Ek); auto). destruct (i_writing _ H a b Hi') as (A & B). split; [|auto].
        apply in_put; [apply (i_nodup _ H)|]. right. split; [|auto]. intros E. apply name_inj in E. destruct E as (-> & ->).
        pose proof (remove_at_perm _ _ _ Ek) as P. apply (Permutation_map fst) in P. cbn [map fst] in P. apply (Permutation_NoDup P) in Nq. inversion Nq as [|? ? Hn _]; subst. apply Hn. apply (in_map fst) in Hi. auto.
      * intros a b Hi Ne. apply in_put; [apply (i_nodup _ H)|]. apply in_app_iff in Hi. destruct Hi as [Hi|[[= -> ->]|[]]]; [|auto]. right. split; [|apply (i_done _ H); auto].
        intros E. apply name_inj in E. destruct E as (-> & ->). apply (log_not_queued w _ _ H Hi Hq).
      * intros Hc a b Ha Hb. pose proof (i_comp _ H Hc a b Ha Hb) as Hm. rewrite put_names. destruct (existsb _ _); [auto|]. apply in_app_iff. auto.
      * intros Hs. apply (i_out _ H). apply in_app_iff in Hs. destruct Hs as [Hs|[Hs|[]]]; [auto|discriminate].
  - eapply inv_finish; eauto; try discriminate. intros _. apply (combination_ok w s H Hq).
Qed.
Lemma inv_step w e : inv w -> inv (step (Some n) elem w e).
Proof. destruct e; cbn [step]; [apply inv_script|apply inv_work]. Qed.
Lemma inv_run es : forall w, inv w -> inv (run (Some n) elem es w).
Proof. induction es as [|e es IH]; intros w H; cbn; [auto|]. apply IH, inv_step, H. Qed.
End Inv.
