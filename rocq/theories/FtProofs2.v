(** Proofs: the calendar is unambiguous; the names of the datasets. *)
From Verif Require Import Base FtModel FtSpec FtProofs.
From Coq Require Import QArith Qround.
Open Scope string_scope.
Open Scope nat_scope.
Open Scope list_scope.

(** ** Unambiguity of the calendar *)
Lemma days_range : forall y m, (28 <= days_in_month y m <= 31)%Z.
Proof.
  intros y m. unfold days_in_month.
  repeat match goal with |- context [if ?b then _ else _] => destruct b end; lia.
Qed.

Lemma next_valid : forall d, valid_date d -> valid_date (next_date d).
Proof.
  intros [y m d] [H1 H2]. cbn [d_year d_month d_day] in *. unfold next_date. cbn [d_year d_month d_day].
  destruct (d <? days_in_month y m)%Z eqn:E; [apply Z.ltb_lt in E|apply Z.ltb_ge in E].
  - split; cbn [d_year d_month d_day]; lia.
  - destruct (m <? 12)%Z eqn:F; [apply Z.ltb_lt in F|apply Z.ltb_ge in F];
      split; cbn [d_year d_month d_day]; try lia.
    + pose proof (days_range y (m + 1)). lia.
    + pose proof (days_range (y + 1) 1). lia.
Qed.

Lemma next_inj : forall d d', valid_date d -> valid_date d' -> next_date d = next_date d' -> d = d'.
Proof.
  intros [y m d] [y' m' d'] [H1 H2] [H3 H4] E. cbn [d_year d_month d_day] in *.
  unfold next_date in E. cbn [d_year d_month d_day] in E.
  destruct (d <? days_in_month y m)%Z eqn:A; destruct (d' <? days_in_month y' m')%Z eqn:B;
    rewrite ?Z.ltb_lt, ?Z.ltb_ge in *.
  - injection E as E1 E2 E3. f_equal; lia.
  - destruct (m' <? 12)%Z; injection E as E1 E2 E3; lia.
  - destruct (m <? 12)%Z; injection E as E1 E2 E3; lia.
  - destruct (m <? 12)%Z eqn:F; destruct (m' <? 12)%Z eqn:G; rewrite ?Z.ltb_lt, ?Z.ltb_ge in *;
      injection E; intros; try lia.
    + assert (y = y') by lia. assert (m = m') by lia. subst y' m'. f_equal. lia.
    + assert (y = y') by lia. assert (m = m') by lia. subst y' m'. f_equal. lia.
Qed.

Lemma later_valid : forall n d, valid_date d -> valid_date (later n d).
Proof. induction n as [|n IH]; intros d H; cbn [later]; [exact H|]. apply next_valid. now apply IH. Qed.
Lemma later_inj : forall n d d', valid_date d -> valid_date d' -> later n d = later n d' -> d = d'.
Proof.
  induction n as [|n IH]; intros d d' H H' E; cbn [later] in E; [exact E|].
  apply (IH d d' H H'). apply next_inj; [now apply later_valid..|exact E].
Qed.

Lemma falls_on_unique : forall n d d', falls_on n d -> falls_on n d' -> d = d'.
Proof.
  intros n d d' (V & P & N) (V' & P' & N'). destruct (Z_lt_le_dec n 0) as [H|H].
  - apply (later_inj (Z.to_nat (- n)) d d' V V'). now rewrite (N H), (N' H).
  - now rewrite <- (P H), <- (P' H).
Qed.

(** ** Texts *)
Definition bl := " "%char.
Definition pad (s : fstr) : fstr := s ++ repeat bl (path_len - length s).

Lemma ltrim_repeat : forall k s, ltrim (repeat bl k ++ s) = ltrim s.
Proof. induction k as [|k IH]; intro s; [reflexivity|]. cbn [repeat app ltrim]. apply IH. Qed.

Lemma rev_repeat : forall (A : Type) (x : A) k, rev (repeat x k) = repeat x k.
Proof.
  induction k as [|k IH]; [reflexivity|]. cbn [repeat rev]. rewrite IH.
  clear. induction k as [|k IH]; [reflexivity|]. cbn. now rewrite IH.
Qed.

Lemma trim_pad : forall s k, trim (s ++ repeat bl k) = trim s.
Proof. intros s k. unfold trim. now rewrite rev_app_distr, rev_repeat, ltrim_repeat. Qed.

Lemma ltrim_head : forall s, (forall s', s <> bl :: s') -> ltrim s = s.
Proof.
  intros [|c s] H; [reflexivity|]. cbn [ltrim]. destruct (Ascii.eqb c " ") eqn:E; [|reflexivity].
  apply Ascii.eqb_eq in E. subst c. exfalso. now apply (H s).
Qed.

Lemma ltrim_not_blank : forall s s', ltrim s <> bl :: s'.
Proof.
  induction s as [|c s IH]; intros s' E; [discriminate|]. cbn [ltrim] in E.
  destruct (Ascii.eqb c " ") eqn:F; [now apply (IH s')|].
  injection E as -> E. now rewrite (proj2 (Ascii.eqb_eq _ _) eq_refl) in F.
Qed.

Lemma trim_fixed : forall s, no_trailing_blank s -> trim s = s.
Proof.
  intros s H. unfold trim. rewrite ltrim_head; [apply rev_involutive|].
  intros s' E. apply (H (rev s')). rewrite <- (rev_involutive s), E. reflexivity.
Qed.

Lemma trim_clean : forall s, no_trailing_blank (trim s).
Proof.
  intros s s' E. unfold trim in E. apply (f_equal (@rev ascii)) in E.
  rewrite rev_involutive, rev_app_distr in E. cbn in E. now apply (ltrim_not_blank (rev s) (rev s')).
Qed.

Lemma fassign_fits : forall s, length s <= path_len -> fassign path_len s = pad s.
Proof.
  intros s H. unfold fassign, pad. apply firstn_all2. rewrite app_length, repeat_length. lia.
Qed.

Lemma clean_app : forall a b, b <> [] -> no_trailing_blank b -> no_trailing_blank (a ++ b).
Proof.
  intros a b Hb H s' E. destruct (exists_last Hb) as (b' & x & ->).
  rewrite app_assoc in E. apply app_inj_tail in E. destruct E as [_ ->]. now apply (H b').
Qed.

Lemma clean_nil : no_trailing_blank [].
Proof. intros s' E. now apply app_cons_not_nil in E. Qed.
Lemma clean_cons : forall c s, no_trailing_blank s -> c <> bl -> no_trailing_blank (c :: s).
Proof.
  intros c [|x s] H Hc.
  - intros s' E. apply (app_inj_tail [] s' c bl) in E. destruct E as [_ E]. now apply Hc.
  - apply (clean_app [c] (x :: s)); [discriminate|exact H].
Qed.

Lemma extend_pad : forall a p, no_trailing_blank a -> length a + 1 + length (trim p) <= path_len ->
  extend (pad a) p = pad (a ++ "_"%char :: trim p).
Proof.
  intros a p H L. unfold extend. unfold pad at 1. rewrite trim_pad, (trim_fixed a H).
  apply fassign_fits. rewrite app_length. cbn [length]. lia.
Qed.

Lemma extend_clean : forall a p, no_trailing_blank (a ++ "_"%char :: trim p).
Proof.
  intros a p. apply clean_app; [discriminate|]. apply clean_cons; [apply trim_clean|discriminate].
Qed.

Definition tails (parts : list fstr) : fstr := concat (map (fun p => "_"%char :: trim p) parts).

Lemma extend_all : forall parts a, no_trailing_blank a -> length a + length (tails parts) <= path_len ->
  fold_left extend parts (pad a) = pad (a ++ tails parts) /\ no_trailing_blank (a ++ tails parts).
Proof.
  induction parts as [|p parts IH]; intros a H L.
  - unfold tails. cbn [map concat fold_left]. now rewrite app_nil_r.
  - unfold tails in *. cbn [map concat fold_left] in *. rewrite app_length in L. cbn [length] in L.
    rewrite extend_pad by (try exact H; lia).
    rewrite (app_assoc a). apply IH; [apply extend_clean|].
    rewrite app_length. cbn [length]. lia.
Qed.

Lemma underscored_tails : forall parts a, underscored (a :: map trim parts) = a ++ tails parts.
Proof.
  induction parts as [|p parts IH]; intro a.
  - unfold tails. cbn. now rewrite app_nil_r.
  - cbn [map]. change (underscored (a :: trim p :: map trim parts))
      with (a ++ "_"%char :: underscored (trim p :: map trim parts)).
    rewrite IH. unfold tails. cbn [map concat]. reflexivity.
Qed.

Definition stem_parts (c : names) (b e : fstr) : list fstr :=
  [n_software c; n_version c; n_tag c; n_job c; n_dataset c; b; e].

Lemma harm_clean : no_trailing_blank (fs "harm").
Proof. intros s' E. cbn in E. apply (app_inj_tail ["h";"a";"r"]%char s' "m"%char) in E. now destruct E. Qed.

Lemma stem_spec : forall c b e, length (underscored (fs "harm" :: map trim (stem_parts c b e))) <= path_len ->
  default_stem c b e = pad (underscored (fs "harm" :: map trim (stem_parts c b e)))
  /\ no_trailing_blank (underscored (fs "harm" :: map trim (stem_parts c b e))).
Proof.
  intros c b e L. rewrite underscored_tails in *. unfold default_stem.
  rewrite (fassign_fits (fs "harm")) by (unfold path_len; cbn; lia).
  apply extend_all; [apply harm_clean|]. rewrite app_length in L. lia.
Qed.

Lemma holds_pad : forall s, holds path_len (pad s) s.
Proof. reflexivity. Qed.

Lemma parameter_name : forall c ext b e,
  length (n_parameter c) = path_len ->
  length (underscored (fs "harm" :: map trim (stem_parts c b e)) ++ trim ext) <= path_len ->
  holds path_len (get_parameter_dataset_name c ext b e)
    (underscored (fs "harm" :: map trim (stem_parts c b e)) ++ trim ext).
Proof.
  intros c ext b e Hl L. unfold get_parameter_dataset_name. rewrite Hl.
  change (0 <? path_len) with true. cbn [negb].
  destruct (stem_spec c b e) as [E C]; [rewrite app_length in L; lia|].
  rewrite E. unfold pad at 1. rewrite trim_pad, (trim_fixed _ C). now rewrite fassign_fits by exact L.
Qed.

Lemma parameter_name_ignored : forall c p ext b e,
  length (n_parameter c) = path_len -> length p = path_len ->
  get_parameter_dataset_name (mkNames p (n_residuals c) (n_software c) (n_version c) (n_tag c) (n_job c) (n_dataset c)) ext b e
  = get_parameter_dataset_name c ext b e.
Proof.
  intros c p ext b e H1 H2. unfold get_parameter_dataset_name. cbn [n_parameter]. rewrite H1, H2. reflexivity.
Qed.

Lemma residuals_name : forall c ext b e si sj,
  trim (n_residuals c) = [] ->
  length (underscored (fs "harm" :: map trim (stem_parts c b e ++ [fs "res"; si; sj])) ++ trim ext) <= path_len ->
  holds path_len (get_residuals_dataset_name c ext b e si sj)
    (underscored (fs "harm" :: map trim (stem_parts c b e ++ [fs "res"; si; sj])) ++ trim ext).
Proof.
  intros c ext b e si sj Hc L. unfold get_residuals_dataset_name, feq. rewrite Hc.
  destruct (list_eq_dec ascii_dec [] (trim [])) as [_|N]; [|now exfalso; apply N].
  rewrite underscored_tails in *.
  assert (S1 : extend (extend (extend (default_stem c b e) (fs "res")) si) sj
             = fold_left extend (stem_parts c b e ++ [fs "res"; si; sj]) (fassign path_len (fs "harm"))).
  { rewrite fold_left_app. reflexivity. }
  rewrite S1. clear S1. rewrite !app_length in L.
  rewrite (fassign_fits (fs "harm")) by (unfold path_len; cbn; lia).
  destruct (extend_all (stem_parts c b e ++ [fs "res"; si; sj]) (fs "harm") harm_clean ltac:(lia)) as [E C].
  rewrite E. unfold pad at 1. rewrite trim_pad, (trim_fixed _ C).
  rewrite fassign_fits by (rewrite !app_length; lia). reflexivity.
Qed.

Lemma residuals_name_configured : forall c ext b e si sj,
  length (n_residuals c) = path_len -> trim (n_residuals c) <> [] ->
  get_residuals_dataset_name c ext b e si sj = n_residuals c.
Proof.
  intros c ext b e si sj L H. unfold get_residuals_dataset_name, feq.
  destruct (list_eq_dec ascii_dec (trim (n_residuals c)) (trim [])) as [E|_]; [now exfalso; apply H|].
  unfold fassign. rewrite <- app_assoc, firstn_app, L, Nat.sub_diag, firstn_O, app_nil_r.
  apply firstn_all2. lia.
Qed.

(** Names of different pairs. *)
Lemma tails_app : forall a b, tails (a ++ b) = tails a ++ tails b.
Proof. intros a b. unfold tails. now rewrite map_app, concat_app. Qed.

Lemma split_first : forall a a' b b' : fstr, ~ In "_"%char a -> ~ In "_"%char a' ->
  a ++ "_"%char :: b = a' ++ "_"%char :: b' -> a = a' /\ b = b'.
Proof.
  induction a as [|x a IH]; intros [|x' a'] b b' H H' E; cbn in E.
  - injection E as E. now split.
  - injection E as E _. exfalso. apply H'. left. now symmetry.
  - injection E as E _. exfalso. apply H. now left.
  - injection E as E1 E2. subst x'.
    destruct (IH a' b b' (fun h => H (or_intror h)) (fun h => H' (or_intror h)) E2) as [-> ->].
    now split.
Qed.

Lemma holds_inj : forall n v s s', holds n v s -> holds n v s' ->
  no_trailing_blank s -> no_trailing_blank s' -> s = s'.
Proof.
  intros n v s s' H H' C C'. unfold holds in *. rewrite <- (trim_fixed s C), <- (trim_fixed s' C').
  rewrite <- (trim_pad s (n - length s)), <- (trim_pad s' (n - length s')).
  unfold bl. now rewrite <- H, <- H'.
Qed.

Lemma residuals_distinct : forall c ext b e si sj si' sj',
  trim (n_residuals c) = [] -> trim ext <> [] ->
  length (underscored (fs "harm" :: map trim (stem_parts c b e ++ [fs "res"; si; sj])) ++ trim ext) <= path_len ->
  length (underscored (fs "harm" :: map trim (stem_parts c b e ++ [fs "res"; si'; sj'])) ++ trim ext) <= path_len ->
  ~ In "_"%char (trim si) -> ~ In "_"%char (trim si') ->
  get_residuals_dataset_name c ext b e si sj = get_residuals_dataset_name c ext b e si' sj' ->
  trim si = trim si' /\ trim sj = trim sj'.
Proof.
  intros c ext b e si sj si' sj' Hc Hx L L' U U' E.
  pose proof (residuals_name c ext b e si sj Hc L) as H.
  pose proof (residuals_name c ext b e si' sj' Hc L') as H'. rewrite E in H.
  assert (Q := holds_inj _ _ _ _ H H'
    (clean_app _ _ Hx (trim_clean ext)) (clean_app _ _ Hx (trim_clean ext))).
  apply app_inv_tail in Q. rewrite !underscored_tails, !tails_app in Q.
  apply app_inv_head in Q. apply app_inv_head in Q.
  unfold tails in Q. cbn [map concat] in Q.
  apply (app_inv_head ("_"%char :: trim (fs "res"))) in Q.
  rewrite !app_nil_r in Q. cbn [app] in Q. injection Q as Q.
  exact (split_first _ _ _ _ U U' Q).
Qed.

(** ** Units *)
Lemma units_given : forall time_unit u v, trim u <> [] ->
  residuals_units time_unit u v
  = match v with
    | V_t => Some time_unit
    | V_k_res_weights => None
    | V_k_res_unc => Some (fs "1 / " ++ u)
    | _ => Some u
    end.
Proof.
  intros time_unit u v H. unfold residuals_units, feq.
  destruct (list_eq_dec ascii_dec (trim u) (trim [])) as [E|_]; [now exfalso; apply H|].
  destruct v; reflexivity.
Qed.
