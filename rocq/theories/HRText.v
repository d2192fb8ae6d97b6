(** * Text lemmas and the file-name rules.  Proofs only. *)
From Coq Require Import Permutation.
From Verif Require Import Base BaseLemmas ReaderModel HRModel HRSpec.

Lemma tx_app a b : tx (a ++ b)%string = tx a ++ tx b.
Proof. unfold tx. induction a as [|c a IH]; cbn; [reflexivity|]. rewrite IH. reflexivity. Qed.
Lemma tx_inj a b : tx a = tx b -> a = b.
Proof. intros H. rewrite <- (string_of_list_ascii_of_string a), <- (string_of_list_ascii_of_string b). unfold tx in H. congruence. Qed.
Lemma tx_of l : tx (string_of_list_ascii l) = l. Proof. apply list_ascii_of_string_of_list_ascii. Qed.
Lemma tx_len s : length (tx s) = String.length s.
Proof. unfold tx. induction s; cbn; auto. Qed.

Lemma starts_spec p s : starts p s = true <-> exists t, s = p ++ t.
Proof.
  revert s. induction p as [|a p IH]; intros s; cbn [starts app]; [split; eauto|].
  destruct s as [|b s]; [split; [discriminate|intros (t & H); discriminate]|].
  rewrite andb_true_iff, IH, Ascii.eqb_eq. split.
  - intros (-> & t & ->). eauto.
  - intros (t & H). injection H as <- ->. eauto.
Qed.
Lemma contains_spec sub s : contains sub s = true <-> exists a b, s = a ++ sub ++ b.
Proof.
  induction s as [|c s IH]; cbn [contains]; rewrite orb_true_iff, starts_spec.
  - split.
    + intros [(t & H)|H]; [|discriminate]. exists [], t. exact H.
    + intros (a & b & H). left. destruct a; [exists b; exact H|discriminate].
  - rewrite IH. split.
    + intros [(t & H)|(a & b & ->)]; [exists [], t; exact H|exists (c :: a), b; reflexivity].
    + intros (a & b & H). destruct a as [|x a]; [left; exists b; exact H|]. injection H as <- ->. right. eauto.
Qed.
Lemma first_line_spec s : exists t, s = first_line s ++ t /\ ~ In newline (first_line s) /\ (t = [] \/ exists t', t = newline :: t').
Proof.
  induction s as [|c s (t & E & N & H)]; cbn [first_line]; [exists []; auto|]. destruct (Ascii.eqb_spec c newline) as [->|Hc].
  - exists (newline :: s). split; [reflexivity|]. split; [intros []|eauto].
  - exists t. cbn [app]. split; [congruence|]. split; [intros [|]; congruence|auto].
Qed.
Lemma first_line_id s : ~ In newline s -> first_line s = s.
Proof. induction s as [|c s IH]; intros H; [reflexivity|]. cbn [first_line]. destruct (Ascii.eqb_spec c newline) as [->|Hc]; [destruct H; left; auto|]. rewrite IH; auto. intros Hn. apply H. right. auto. Qed.

(** [.*] *)
Lemma any_spec s s' : matches any s s' <-> exists a, s = a ++ s' /\ ~ In newline a.
Proof.
  cbn [matches any]. split.
  - intros H. induction H as [x|x y z (c & Hc & ->) _ (a & -> & Ha)]; [exists []; split; [auto|intros []]|].
    exists (c :: a). split; [reflexivity|]. intros [|]; congruence.
  - intros (a & -> & Ha). induction a as [|c a IH]; [constructor|]. apply (starS _ _ (a ++ s')); [exists c; split; [intros ->; apply Ha; left; auto|reflexivity]|].
    apply IH. intros H. apply Ha. right. auto.
Qed.
Lemma res_spec r s s' : matches (res_ r) s s' <-> exists t, s = tx "res" ++ t /\ matches r t s'.
Proof.
  cbn [matches res_]. split.
  - intros (t1 & -> & t2 & -> & t3 & -> & H). exists t3. auto.
  - intros (t & -> & H). eexists; split; [reflexivity|]. eexists; split; [reflexivity|]. eexists; split; [reflexivity|]. exact H.
Qed.
Lemma nc_spec s s' : matches dot_nc s s' <-> s = tx ".nc" ++ s'.
Proof.
  cbn [matches dot_nc]. split.
  - intros (t1 & -> & t2 & -> & ->). reflexivity.
  - intros ->. eexists; split; [reflexivity|]. eexists; split; reflexivity.
Qed.
Lemma harm_spec r s s' : matches (harm_ r) s s' <-> exists t, s = tx "harm" ++ t /\ matches r t s'.
Proof.
  cbn [matches harm_]. split.
  - intros (t1 & -> & t2 & -> & t3 & -> & t4 & -> & H). exists t4. auto.
  - intros (t & -> & H). eexists; split; [reflexivity|]. eexists; split; [reflexivity|]. eexists; split; [reflexivity|]. eexists; split; [reflexivity|]. exact H.
Qed.

(** Occurrences of a text without line break in the first line. *)
Lemma in_first_line sub s : ~ In newline sub -> (exists a b, first_line s = a ++ sub ++ b) <-> exists a b, s = a ++ sub ++ b /\ ~ In newline a.
Proof.
  intros Hs. destruct (first_line_spec s) as (t & E & N & Ht). split.
  - intros (a & b & H). exists a, (b ++ t). rewrite E, H, <- !app_assoc. split; [reflexivity|]. intros Hn. apply N. rewrite H. apply in_or_app. auto.
  - intros (a & b & H & Ha). revert H. clear E N Ht t. revert s. induction a as [|c a IH]; intros s H; cbn [app] in H; subst s.
    + exists []. induction sub as [|c sub IHs]; [exists (first_line b); reflexivity|]. cbn [app first_line].
      destruct (Ascii.eqb_spec c newline) as [->|Hc]; [destruct Hs; left; auto|]. destruct IHs as (b' & ->); [intros H; apply Hs; right; auto|]. exists b'. reflexivity.
    + cbn [first_line]. destruct (Ascii.eqb_spec c newline) as [->|Hc]; [destruct Ha; left; auto|].
      destruct (IH (fun H => Ha (or_intror H)) _ eq_refl) as (a' & b' & ->). exists (c :: a'), b'. reflexivity.
Qed.
Lemma has_res s : (exists t, matches (Seq any (res_ any)) s t) <-> exists a b, first_line s = a ++ tx "res" ++ b.
Proof.
  rewrite in_first_line by (cbn; intuition discriminate). split.
  - intros (t & u & H1 & H2). apply any_spec in H1. destruct H1 as (a & -> & Ha). apply res_spec in H2. destruct H2 as (v & -> & _). eauto.
  - intros (a & b & -> & Ha). exists b. exists (tx "res" ++ b). split; [apply any_spec; eauto|]. apply res_spec. exists b. split; [auto|]. apply any_spec. exists []. split; [auto|intros []].
Qed.
Lemma has_nc s : (exists t u, matches any s t /\ matches dot_nc t u) <-> exists a b, first_line s = a ++ tx ".nc" ++ b.
Proof.
  rewrite in_first_line by (cbn; intuition discriminate). split.
  - intros (t & u & H1 & H2). apply any_spec in H1. destruct H1 as (a & -> & Ha). apply nc_spec in H2. subst. eauto.
  - intros (a & b & -> & Ha). exists (tx ".nc" ++ b), b. split; [apply any_spec; eauto|apply nc_spec; auto].
Qed.

Lemma starts_harm s : starts (tx "harm") s = true <-> s = tx "harm" ++ skipn 4 s.
Proof.
  rewrite starts_spec. split; [intros (t & ->); reflexivity|eauto].
Qed.
Lemma output_iff name : is_output name = true <-> re_match output_rule name.
Proof.
  unfold is_output, re_match. rewrite !andb_true_iff, negb_true_iff, starts_harm. set (s := tx name). split.
  - intros ((H1 & H2) & H3). apply contains_spec, has_nc in H3. destruct H3 as (t & u & M1 & M2). exists u. apply harm_spec. exists (skipn 4 s). split; [auto|].
    exists t. split; [|auto]. exists (skipn 4 s). split; [|auto]. split; [auto|]. intros H. apply has_res, contains_spec in H. congruence.
  - intros (u & H). apply harm_spec in H. destruct H as (t & E & t2 & (t3 & (-> & N) & M1) & M2). rewrite E. split; [split; [reflexivity|]|].
    + destruct (contains _ _) eqn:C; [|auto]. destruct N. apply has_res, contains_spec. exact C.
    + apply contains_spec, has_nc. eauto.
Qed.
Lemma residual_iff name : is_residual name = true <-> re_match residual_rule name.
Proof.
  unfold is_residual, re_match. rewrite !andb_true_iff, starts_harm. set (s := tx name). split.
  - intros ((H1 & H2) & H3). apply contains_spec, has_nc in H3. destruct H3 as (t & u & M1 & M2). exists u. apply harm_spec. exists (skipn 4 s). split; [auto|].
    exists t. split; [|auto]. exists (skipn 4 s). split; [|auto]. split; [auto|]. apply has_res, contains_spec. auto.
  - intros (u & H). apply harm_spec in H. destruct H as (t & E & t2 & (t3 & (-> & N) & M1) & M2). rewrite E. split; [split; [reflexivity|]|].
    + apply contains_spec, has_res. exact N.
    + apply contains_spec, has_nc. eauto.
Qed.
Lemma not_both name : ~ (re_match output_rule name /\ re_match residual_rule name).
Proof.
  intros (H1 & H2). apply output_iff in H1. apply residual_iff in H2. unfold is_output, is_residual in *. rewrite !andb_true_iff, negb_true_iff in *.
  destruct H1 as ((_ & H) & _). destruct H2 as ((_ & H') & _). congruence.
Qed.

(** ** Names of saved files *)
Lemma last_dot_app s t i acc : last_dot (s ++ t) i acc = last_dot t (i + length s) (last_dot s i acc).
Proof. revert i acc. induction s as [|c s IH]; intros i acc; cbn [app last_dot length]; [rewrite Nat.add_0_r; auto|]. rewrite IH. f_equal. lia. Qed.
Lemma splitext_harm mid : splitext ("harm" ++ mid ++ ".nc")%string = (("harm" ++ mid)%string, ".nc"%string).
Proof.
  unfold splitext. rewrite !tx_app. rewrite app_assoc. set (p := tx "harm" ++ tx mid). rewrite last_dot_app. cbn [plus].
  change (last_dot (tx ".nc") (length p) (last_dot p 0 None)) with (Some (length p)). cbn iota beta. rewrite firstn_app, firstn_all, Nat.sub_diag. cbn [firstn]. rewrite app_nil_r.
  replace (forallb _ p) with false by reflexivity. rewrite skipn_app, skipn_all, Nat.sub_diag. cbn [skipn app]. f_equal.
  apply tx_inj. rewrite tx_of, tx_app. reflexivity.
Qed.
Lemma res_name_harm out s1 s2 mid : out = ("harm" ++ mid ++ ".nc")%string -> res_name out s1 s2 = ("harm" ++ mid ++ "_res_" ++ (s1 ++ "_" ++ s2) ++ ".nc")%string.
Proof.
  intros ->. unfold res_name. rewrite splitext_harm. cbn [fst snd]. apply tx_inj. rewrite !tx_app, <- !app_assoc. reflexivity.
Qed.
Lemma one_line_app a b : one_line (a ++ b)%string <-> one_line a /\ one_line b.
Proof. unfold one_line. rewrite tx_app, in_app_iff. tauto. Qed.
Lemma saved_output out : harm_name out -> is_output out = true.
Proof.
  intros (L & N & mid & ->). unfold is_output. rewrite !andb_true_iff, negb_true_iff, starts_harm.
  assert (E : skipn 4 (tx ("harm" ++ mid ++ ".nc")) = tx (mid ++ ".nc")) by (rewrite tx_app; reflexivity). rewrite E.
  apply one_line_app in L. destruct L as (_ & L). rewrite first_line_id by exact L. split; [split; [rewrite tx_app; reflexivity|]|].
  - destruct (contains _ _) eqn:C; [|auto]. destruct N. apply contains_spec in C. destruct C as (a & b & C). exists ("harm" ++ string_of_list_ascii a)%string, (string_of_list_ascii b).
    apply tx_inj. rewrite !tx_app, !tx_of, <- app_assoc. rewrite tx_app in C. rewrite C. reflexivity.
  - apply contains_spec. exists (tx mid), []. rewrite tx_app, app_nil_r. reflexivity.
Qed.
Lemma saved_residual out s1 s2 : harm_name out -> one_line s1 -> one_line s2 -> is_residual (res_name out s1 s2) = true.
Proof.
  intros (L & N & mid & E) L1 L2. rewrite (res_name_harm _ _ _ mid E). unfold is_residual. rewrite !andb_true_iff, starts_harm.
  assert (Es : skipn 4 (tx ("harm" ++ mid ++ "_res_" ++ (s1 ++ "_" ++ s2) ++ ".nc")) = tx (mid ++ "_res_" ++ (s1 ++ "_" ++ s2) ++ ".nc")) by (rewrite tx_app; reflexivity). rewrite Es.
  subst out. apply one_line_app in L. destruct L as (_ & L). apply one_line_app in L. destruct L as (L & _).
  assert (C : forall s, forallb (fun c => negb (Ascii.eqb c newline)) (tx s) = true -> one_line s).
  { intros s H Hn. rewrite forallb_forall in H. specialize (H _ Hn). rewrite Ascii.eqb_refl in H. discriminate. }
  rewrite first_line_id.
  2:{ change (one_line (mid ++ "_res_" ++ (s1 ++ "_" ++ s2) ++ ".nc")). repeat (apply one_line_app; split; auto); apply C; reflexivity. }
  split; [split; [rewrite tx_app; reflexivity|]|]; apply contains_spec.
  - exists (tx (mid ++ "_")), (tx ("_" ++ (s1 ++ "_" ++ s2) ++ ".nc")). rewrite !tx_app, <- !app_assoc. reflexivity.
  - exists (tx (mid ++ "_res_" ++ (s1 ++ "_" ++ s2))), []. rewrite !tx_app, <- !app_assoc, app_nil_r. reflexivity.
Qed.
Lemma res_name_inj out s1 s2 t1 t2 : harm_name out -> res_name out s1 s2 = res_name out t1 t2 -> (s1 ++ "_" ++ s2 = t1 ++ "_" ++ t2)%string.
Proof.
  intros (_ & _ & mid & E) H. rewrite !(res_name_harm _ _ _ mid E) in H. apply (f_equal tx) in H. rewrite !(tx_app "harm"), !(tx_app mid), !(tx_app "_res_"), (tx_app (s1 ++ "_" ++ s2)), (tx_app (t1 ++ "_" ++ t2)) in H.
  apply app_inv_head in H. apply app_inv_head in H. apply app_inv_head in H. apply app_inv_tail in H. apply tx_inj. exact H.
Qed.

(** ** Labels *)
Lemma blank_iff c : is_blank c = true <-> blank c.
Proof.
  unfold is_blank, blank, mem. rewrite existsb_exists. split.
  - intros (x & Hx & E). apply Nat.eqb_eq in E. subst. auto.
  - intros H. eexists. split; [exact H|apply Nat.eqb_refl].
Qed.
Lemma lstrip_blank n s : lstrip (repeat " "%char n ++ s) = lstrip s.
Proof. induction n; cbn [repeat app lstrip]; auto. Qed.
Lemma lstrip_id s : (forall c t, s = c :: t -> ~ blank c) -> lstrip s = s.
Proof. intros H. destruct s as [|c s]; [reflexivity|]. cbn [lstrip]. destruct (is_blank c) eqn:E; [|auto]. destruct (H c s eq_refl). apply blank_iff. auto. Qed.
Lemma repeat_rev {X} (x : X) n : rev (repeat x n) = repeat x n.
Proof. induction n as [|n IH]; [reflexivity|]. cbn [repeat rev]. rewrite IH, <- repeat_cons. reflexivity. Qed.
Lemma strip_pad s : (forall c t, s = c :: t -> ~ blank c) -> (forall c t, s = t ++ [c] -> ~ blank c) -> forall n, strip (s ++ repeat " "%char n) = s.
Proof.
  intros H1 H2 n. unfold strip. destruct s as [|c s].
  - cbn [app]. pose proof (lstrip_blank n []) as E. rewrite app_nil_r in E. rewrite E. reflexivity.
  - rewrite (lstrip_id ((c :: s) ++ _)). 2:{ cbn [app]. intros c' t E. injection E as <- _. eapply H1. reflexivity. }
    rewrite rev_app_distr, repeat_rev, lstrip_blank, lstrip_id, rev_involutive; auto.
    intros c' t E. apply (H2 c' (rev t)). rewrite <- (rev_involutive (c :: s)), E. reflexivity.
Qed.
Lemma drop_nul_id s : (forall c t, s = c :: t -> is_nul c = false) -> drop_nul s = s.
Proof. intros H. destruct s as [|c s]; [reflexivity|]. cbn [drop_nul]. rewrite (H c s eq_refl). reflexivity. Qed.
Lemma nul_iff c : is_nul c = true -> c = ascii_of_nat 0.
Proof. unfold is_nul. intros H. apply Nat.eqb_eq in H. rewrite <- (ascii_nat_embedding c), H. reflexivity. Qed.
Lemma label_ok l : clean_label l -> length (pad (tx l)) = 80 /\ string_of_list_ascii (strip (rstrip_nul (pad (tx l)))) = l.
Proof.
  intros (L & N & H1 & H2). rewrite <- tx_len in L. unfold pad. split; [rewrite app_length, repeat_length; unfold max_l_name; lia|].
  assert (E : rstrip_nul (tx l ++ repeat " "%char (max_l_name - length (tx l))) = tx l ++ repeat " "%char (max_l_name - length (tx l))).
  { unfold rstrip_nul. rewrite drop_nul_id; [apply rev_involutive|]. intros c t E. destruct (is_nul c) eqn:En; [|auto]. apply nul_iff in En. exfalso.
    assert (Hin : In c (tx l ++ repeat " "%char (max_l_name - length (tx l)))). { apply in_rev. rewrite E. left. auto. }
    apply in_app_or in Hin. destruct Hin as [Hin|Hin]; [subst; auto|]. apply repeat_spec in Hin. subst c. discriminate. }
  rewrite E, strip_pad by auto. apply string_of_list_ascii_of_string.
Qed.
Lemma labels_roundtrip ls : (forall l, In l ls -> clean_label l) -> exists rows, write_labels ls = Ok rows /\ read_labels rows = ls.
Proof.
  intros H. unfold write_labels. replace (forallb _ _) with true.
  - eexists. split; [reflexivity|]. unfold read_labels. rewrite map_map. rewrite (map_ext_in _ (fun l => l)); [apply map_id|]. intros l Hl. apply label_ok; auto.
  - symmetry. apply forallb_forall. intros r Hr. apply in_map_iff in Hr. destruct Hr as (l & <- & Hl). apply Nat.eqb_eq. apply label_ok; auto.
Qed.
