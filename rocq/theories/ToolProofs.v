(** Proofs about the scripts and the comparison plots. *)
From Verif Require Import Base BaseLemmas ReaderModel ReaderSpec ReaderProofs ReaderMain ToolModel ToolSpec.
Open Scope nat_scope.

Lemma existsb_in x l : existsb (String.eqb x) l = true <-> In x l.
Proof.
  rewrite existsb_exists. split.
  - intros (y & Hy & E). apply String.eqb_eq in E. subst; auto.
  - intros H. exists x. split; auto. apply String.eqb_refl.
Qed.
Lemma same_set_spec a b : same_set a b = true <-> (forall x, In x a <-> In x b).
Proof.
  unfold same_set. rewrite andb_true_iff, !forallb_forall. split.
  - intros (H1 & H2) x. split; intros H; apply existsb_in; auto.
  - intros H. split; intros x Hx; apply existsb_in; apply H; auto.
Qed.

Lemma concat_slice {A B} (g : A -> list B) (len : A -> nat) (l : list A) i a :
  (forall x, In x l -> length (g x) = len x) -> nth_error l i = Some a ->
  exists lo hi, nth_error (cumul 0 (map len l)) i = Some lo /\ nth_error (cumul 0 (map len l)) (i + 1) = Some hi /\
    slice lo hi (concat (map g l)) = g a.
Proof.
  intros Hl Hi.
  assert (Hlt : i < length l) by (apply nth_error_Some; congruence).
  rewrite !cumul_nth by (rewrite map_length; lia). do 2 eexists. split; [reflexivity|]. split; [reflexivity|].
  cbn [Nat.add]. assert (E : map len l = map (@length B) (map g l)).
  { rewrite map_map. apply map_ext_in. intros; symmetry; apply Hl; auto. }
  rewrite E, Nat.add_1_r. apply slice_concat. rewrite nth_error_map', Hi. reflexivity.
Qed.

Section Compare.
Context {A : Type}.
Variables (ix : idx_t) (ss : list (series A)).
Hypothesis Hix : indexes ix ss.
Let meas := concat (map se_meas ss).
Let diff := concat (map se_diff ss).

Lemma series_plots_ok i s : nth_error ss i = Some s -> series_plots A ix meas diff i = Ok (plots_of s).
Proof.
  intros Hs. destruct Hix as (HF & Hc & Hd & _). unfold series_plots. rewrite Hc.
  destruct (concat_slice se_meas (fun s => length (se_meas s)) ss i s) as (lo & hi & E1 & E2 & E3); auto.
  destruct (concat_slice se_diff (fun s => length (se_meas s)) ss i s) as (lo' & hi' & E1' & E2' & E3'); auto.
  rewrite E1 in E1'. injection E1' as <-. rewrite E2 in E2'. injection E2' as <-.
  rewrite (proj2 (get_ok _ _ _) E1), (proj2 (get_ok _ _ _) E2). cbn [bind].
  assert (G : exists p, nth_error (Im ix) i = Some p /\ nth_error (sensors ix) (fst p) = Some (se_1 s) /\
                        nth_error (sensors ix) (snd p) = Some (se_2 s)).
  { clear - HF Hs. revert i Hs. induction HF as [|x y l l' Hxy HF IH]; intros [|i] Hs; cbn in *; try discriminate.
    - injection Hs as <-. exists y. tauto.
    - apply IH. exact Hs. }
  destruct G as (p & Ep & En1 & En2).
  rewrite (proj2 (get_ok _ _ _) Ep). cbn [bind mapM fst snd].
  rewrite (proj2 (get_ok _ _ _) En1), (proj2 (get_ok _ _ _) En2). cbn [bind].
  unfold meas, diff. rewrite E3, E3'. unfold plots_of, column2. cbn [Nat.eqb]. reflexivity.
Qed.

Lemma plotted_names k : map (p_sensor A) (concat (map plots_of (firstn k ss))) = concat (map (fun s => [se_1 s; se_2 s]) (firstn k ss)).
Proof. rewrite concat_map, map_map. reflexivity. Qed.

Lemma in_names n l : In n (concat (map (fun s : series A => [se_1 s; se_2 s]) l)) <-> exists s, In s l /\ (n = se_1 s \/ n = se_2 s).
Proof.
  rewrite in_concat. split.
  - intros (x & Hx & Hn). apply in_map_iff in Hx as (s & <- & Hs). exists s. split; auto.
    destruct Hn as [<- |[<- |[]]]; auto.
  - intros (s & Hs & Hn). exists [se_1 s; se_2 s]. split; [apply in_map_iff; exists s; auto|].
    destruct Hn as [-> | ->]; [left|right; left]; reflexivity.
Qed.

Lemma names_known s : In s ss -> In (se_1 s) (sensors ix) /\ In (se_2 s) (sensors ix).
Proof.
  destruct Hix as (HF & _). intros Hs. clear - HF Hs. induction HF as [|x y l l' [H1 H2] HF IH]; [destruct Hs|].
  destruct Hs as [E|Hs]; [subst x|exact (IH Hs)]. split; eapply nth_error_In; eauto.
Qed.

Lemma set_covered k : same_set (map (p_sensor A) (concat (map plots_of (firstn k ss)))) (sensors ix) = true <->
  covered (sensors ix) (firstn k ss).
Proof.
  rewrite plotted_names, same_set_spec. split.
  - intros H n Hn. apply in_names. apply H. exact Hn.
  - intros H n. split; intros Hn.
    + apply in_names in Hn as (s & Hs & E).
      assert (Hin : In s ss) by (rewrite <- (firstn_skipn k ss); apply in_or_app; auto).
      destruct (names_known s Hin). destruct E; subst; auto.
    + apply in_names. apply H. exact Hn.
Qed.

Lemma loop_ok : forall fuel k, length ss - k < fuel -> k <= length ss ->
  (forall j, j < k -> ~ covered (sensors ix) (firstn j ss)) ->
  exists k', k <= k' /\ covered (sensors ix) (firstn k' ss) /\ (forall j, j < k' -> ~ covered (sensors ix) (firstn j ss)) /\
    compare_loop A fuel ix meas diff k (concat (map plots_of (firstn k ss))) = Ok (concat (map plots_of (firstn k' ss))).
Proof.
  induction fuel as [|fuel IH]; intros k Hf Hk Hmin; [lia|].
  cbn [compare_loop].
  destruct (same_set (map (p_sensor A) (concat (map plots_of (firstn k ss)))) (sensors ix)) eqn:E.
  - exists k. split; [lia|]. split; [apply set_covered; exact E|]. split; [exact Hmin|reflexivity].
  - assert (Hnc : ~ covered (sensors ix) (firstn k ss)).
    { intros Hc. apply set_covered in Hc. congruence. }
    assert (Hlt : k < length ss).
    { destruct (Nat.eq_dec k (length ss)) as [->|]; [|lia]. exfalso. apply Hnc. rewrite firstn_all. destruct Hix as (_ & _ & _ & H). exact H. }
    destruct (nth_error ss k) as [s|] eqn:Es; [|apply nth_error_None in Es; lia].
    rewrite (series_plots_ok k s Es). cbn [bind].
    assert (Efs : firstn (k + 1) ss = firstn k ss ++ [s]).
    { clear - Es. revert k Es. induction ss as [|x l IHl]; intros [|k] Es; cbn in *; try discriminate.
      - injection Es as <-. reflexivity.
      - f_equal. apply IHl. exact Es. }
    assert (Ec : concat (map plots_of (firstn k ss)) ++ plots_of s = concat (map plots_of (firstn (k + 1) ss))).
    { rewrite Efs, map_app, concat_app. cbn [map concat]. rewrite app_nil_r. reflexivity. }
    rewrite Ec. destruct (IH (k + 1)) as (k' & H1 & H2 & H3 & H4); [lia|lia| |].
    { intros j Hj. destruct (Nat.eq_dec j k) as [->|]; [exact Hnc|apply Hmin; lia]. }
    exists k'. split; [lia|]. auto.
Qed.

Theorem compare_plots_ok : exists k,
  covered (sensors ix) (firstn k ss) /\ (forall j, j < k -> ~ covered (sensors ix) (firstn j ss)) /\
  compare_plots A ix meas diff = Ok (concat (map plots_of (firstn k ss))).
Proof.
  assert (Hl : length (Im ix) = length ss).
  { destruct Hix as (HF & _). clear - HF. induction HF; cbn; auto. }
  destruct (loop_ok (length (Im ix) + 1) 0) as (k & _ & H1 & H2 & H3); [rewrite Hl; lia|lia|intros; lia|].
  exists k. auto.
Qed.
End Compare.

(** The index data of opened files describe the series of the files. *)
Lemma opened_indexes {A V} (ds : list (dataset V)) ix (m1 m2 : dataset V -> list (A * A)) :
  good_files ds -> get_idx V ds = Ok ix ->
  (forall d, In d ds -> length (m1 d) = d_M V d /\ length (m2 d) = d_M V d) ->
  indexes ix (map (fun d => mkSeries (d_s1 V d) (d_s2 V d) (m1 d) (m2 d)) ds).
Proof.
  intros Hg Hx Hm. destruct (get_idx_ok ds (proj1 Hg)) as (ix' & E & Hok). rewrite Hx in E. injection E as <-.
  split; [|split; [|split]].
  - pose proof (io_Im _ _ Hok) as H. pose proof (io_Imlen _ _ Hok) as Hl.
    generalize (Im ix) H Hl. clear - ds. induction ds as [|d ds IH]; intros [|p l] H Hl; try discriminate; [constructor|].
    cbn [map]. constructor.
    + destruct (H 0 d eq_refl) as (a & b & E & Ea & Eb). cbn in E. injection E as ->. auto.
    + apply IH; [|injection Hl; auto]. intros i d' Hd'. apply (H (S i) d' Hd').
  - rewrite (io_cNm _ _ Hok). f_equal. rewrite map_map. apply map_ext_in. intros d Hd. cbn [se_meas].
    symmetry. apply Hm. exact Hd.
  - intros s Hs. apply in_map_iff in Hs as (d & <- & Hd). cbn. destruct (Hm d Hd). congruence.
  - intros n Hn. apply (io_sens _ _ Hok) in Hn as (d & sd & Hd & <-).
    exists (mkSeries (d_s1 V d) (d_s2 V d) (m1 d) (m2 d)). split; [apply in_map_iff; exists d; auto|].
    destruct sd; cbn; auto.
Qed.

(** Scripts. *)
Lemma run_prefix ns does l : forall n r, (forall m, In m l -> exec ns does m = Ok tt) ->
  exec ns does n = Raise r -> forall rest, run_script ns does (l ++ n :: rest) = Raise r.
Proof.
  unfold run_script. induction l as [|a l IH]; intros n r Hl Hn rest; cbn [app foldM].
  - rewrite Hn. reflexivity.
  - rewrite (Hl a) by (left; reflexivity). apply IH; auto. intros m Hm. apply Hl. right. exact Hm.
Qed.
