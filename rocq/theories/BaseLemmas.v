(** Lemmas about the list / array helpers of Base.v. *)
From Verif Require Import Base.

Lemma foldM_app {S A} (f : S -> A -> res S) l1 l2 s :
  foldM f (l1 ++ l2) s = (do s' <- foldM f l1 s;; foldM f l2 s').
Proof.
  revert s; induction l1 as [|a l1 IH]; intros s; cbn; [reflexivity|].
  destruct (f s a); cbn; [apply IH|reflexivity].
Qed.

Lemma foldM_flat_map {S A B} (f : S -> B -> res S) (g : A -> list B) l s :
  foldM (fun s a => foldM f (g a) s) l s = foldM f (flat_map g l) s.
Proof.
  revert s; induction l as [|a l IH]; intros s; cbn; [reflexivity|].
  rewrite foldM_app; unfold bind. destruct (foldM f (g a) s); [apply IH|reflexivity].
Qed.

Lemma foldM_ext_in {S A} (f g : S -> A -> res S) l s :
  (forall s a, In a l -> f s a = g s a) -> foldM f l s = foldM g l s.
Proof.
  revert s; induction l as [|a l IH]; intros s H; cbn; [reflexivity|].
  rewrite (H s a) by (left; reflexivity).
  destruct (g s a); [|reflexivity]. apply IH; intros; apply H; right; assumption.
Qed.

Lemma foldM_map {S A B} (f : S -> B -> res S) (g : A -> B) l s :
  foldM f (map g l) s = foldM (fun s a => f s (g a)) l s.
Proof.
  revert s; induction l as [|a l IH]; intros s; cbn; [reflexivity|].
  destruct (f s (g a)); [apply IH|reflexivity].
Qed.

(** Invariant rule for loops that never raise. *)
Lemma foldM_inv {S A} (f : S -> A -> res S) (P : list A -> S -> Prop) l s :
  P [] s ->
  (forall done a rest s, l = done ++ a :: rest -> P done s ->
     exists s', f s a = Ok s' /\ P (done ++ [a]) s') ->
  exists s', foldM f l s = Ok s' /\ P l s'.
Proof.
  intros H0 Hs.
  assert (G : forall rest done s, l = done ++ rest -> P done s ->
              exists s', foldM f rest s = Ok s' /\ P l s').
  { induction rest as [|a rest IH]; intros done s1 Hl HP; cbn.
    - exists s1. rewrite app_nil_r in Hl. subst. auto.
    - destruct (Hs done a rest s1 Hl HP) as (s' & E & HP'). rewrite E.
      apply (IH (done ++ [a])); [rewrite <- app_assoc; exact Hl|exact HP']. }
  apply (G l [] s); auto.
Qed.

Lemma mapM_Ok_map {A B} (f : A -> res B) (g : A -> B) l :
  (forall a, In a l -> f a = Ok (g a)) -> mapM f l = Ok (map g l).
Proof.
  induction l as [|a l IH]; intros H; cbn; [reflexivity|].
  rewrite (H a) by (left; reflexivity). rewrite IH; [reflexivity|].
  intros; apply H; right; assumption.
Qed.

Lemma mapM_length {A B} (f : A -> res B) l r : mapM f l = Ok r -> length r = length l.
Proof.
  revert r; induction l as [|a l IH]; cbn; intros r H; [injection H as <-; reflexivity|].
  destruct (f a); [|discriminate]. destruct (mapM f l); [|discriminate].
  injection H as <-. cbn. rewrite (IH _ eq_refl). reflexivity.
Qed.

Lemma mapM_nth {A B} (f : A -> res B) l r i a :
  mapM f l = Ok r -> nth_error l i = Some a ->
  exists b, f a = Ok b /\ nth_error r i = Some b.
Proof.
  revert r i; induction l as [|x l IH]; intros r i H Hi; [destruct i; discriminate|].
  cbn in H. destruct (f x) as [b|] eqn:E; [|discriminate].
  destruct (mapM f l) as [bs|]; [|discriminate]. injection H as <-.
  destruct i; cbn in *; [injection Hi as <-; exists b; auto|apply IH; auto].
Qed.

Lemma mapM_ok_ex {A B} (f : A -> res B) l :
  (forall a, In a l -> exists b, f a = Ok b) -> exists r, mapM f l = Ok r.
Proof.
  induction l as [|x l IH]; intros H; [exists []; reflexivity|]. cbn.
  destruct (H x (or_introl eq_refl)) as (b & ->).
  destruct IH as (r & ->); [intros; apply H; right; assumption|]. eauto.
Qed.

(** ** enumerate *)
Lemma enumerate_from_nth {A} (l : list A) k i :
  nth_error (combine (seq k (length l)) l) i =
  option_map (fun a => (k + i, a)) (nth_error l i).
Proof.
  revert k i; induction l as [|a l IH]; intros k i; cbn; [destruct i; reflexivity|].
  destruct i; cbn; [rewrite Nat.add_0_r; reflexivity|].
  rewrite IH. replace (S k + i) with (k + S i) by lia. reflexivity.
Qed.
Lemma enumerate_nth {A} (l : list A) i :
  nth_error (enumerate l) i = option_map (fun a => (i, a)) (nth_error l i).
Proof. apply enumerate_from_nth. Qed.
Lemma in_enumerate {A} (l : list A) i a :
  In (i, a) (enumerate l) <-> nth_error l i = Some a.
Proof.
  split.
  - intros H. apply In_nth_error in H as (j & Hj). rewrite enumerate_nth in Hj.
    destruct (nth_error l j) as [b|] eqn:E; cbn in Hj; [|discriminate].
    injection Hj as -> ->. exact E.
  - intros H. apply nth_error_In with i. rewrite enumerate_nth, H. reflexivity.
Qed.
Lemma enumerate_length {A} (l : list A) : length (enumerate l) = length l.
Proof. unfold enumerate. rewrite combine_length, seq_length. lia. Qed.
Lemma enumerate_map_fst {A} (l : list A) : map fst (enumerate l) = seq 0 (length l).
Proof.
  unfold enumerate. generalize 0. induction l as [|a l IH]; intros k; cbn; [reflexivity|].
  rewrite IH; reflexivity.
Qed.
Lemma enumerate_map_snd {A} (l : list A) : map snd (enumerate l) = l.
Proof.
  unfold enumerate. generalize 0. induction l as [|a l IH]; intros k; cbn; [reflexivity|].
  rewrite IH; reflexivity.
Qed.

(** ** get / upd *)
Lemma get_ok {A} (l : list A) i a : get l i = Ok a <-> nth_error l i = Some a.
Proof. unfold get; destruct (nth_error l i); split; intros H; try discriminate; congruence. Qed.

Lemma pyget_nonneg {A} (l : list A) i : (0 <= i)%Z -> pyget l i = get l (Z.to_nat i).
Proof. intros H. unfold pyget. destruct (Z.leb_spec 0 i); [reflexivity|lia]. Qed.
Lemma pyget_of_nat {A} (l : list A) i : pyget l (Z.of_nat i) = get l i.
Proof. rewrite pyget_nonneg by lia. rewrite Nat2Z.id. reflexivity. Qed.
Lemma pylast_app {A} (l : list A) a : pylast (l ++ [a]) = Ok a.
Proof.
  unfold pylast, pyget. cbn [Z.leb Z.compare].
  rewrite app_length; cbn [length].
  destruct (Z.leb_spec 0 (Z.of_nat (length l + 1) + -1)); [|lia].
  replace (Z.to_nat (Z.of_nat (length l + 1) + -1)) with (length l) by lia.
  unfold get. rewrite nth_error_app2 by lia. rewrite Nat.sub_diag. reflexivity.
Qed.

Lemma upd_length {A} i (v : A) l : length (upd i v l) = length l.
Proof. revert i; induction l as [|a l IH]; intros [|i]; cbn; auto. Qed.
Lemma upd_nth_same {A} i (v : A) l : i < length l -> nth_error (upd i v l) i = Some v.
Proof.
  revert i; induction l as [|a l IH]; intros [|i] H; cbn in *; try lia; [reflexivity|].
  apply IH; lia.
Qed.
Lemma upd_nth_other {A} i j (v : A) l : i <> j -> nth_error (upd i v l) j = nth_error l j.
Proof.
  revert i j; induction l as [|a l IH]; intros [|i] [|j] H; cbn; try reflexivity; try lia.
  apply IH; lia.
Qed.
Lemma upd_map {A B} (f : A -> B) i v l : map f (upd i v l) = upd i (f v) (map f l).
Proof. revert i; induction l as [|a l IH]; intros [|i]; cbn; try reflexivity. rewrite IH; reflexivity. Qed.
Lemma upd_same {A} i (v : A) l : nth_error l i = Some v -> upd i v l = l.
Proof.
  revert i; induction l as [|a l IH]; intros [|i] H; cbn in *; try discriminate.
  - injection H as ->; reflexivity.
  - rewrite IH; auto.
Qed.
Lemma upd_split {A} i (v : A) l : i < length l -> upd i v l = firstn i l ++ v :: skipn (S i) l.
Proof.
  revert i; induction l as [|a l IH]; intros [|i] H; cbn in *; try lia; [reflexivity|].
  rewrite IH by lia. reflexivity.
Qed.

(** ** index *)
Section Index.
Context {A : Type} (eqb : A -> A -> bool)
  (eqb_spec : forall x y, eqb x y = true <-> x = y).

Lemma index_from_ok x l k j :
  index_from eqb x l k = Ok j ->
  exists i, j = k + i /\ nth_error l i = Some x /\ (forall i', i' < i -> nth_error l i' <> Some x).
Proof.
  revert k j; induction l as [|a l IH]; intros k j H; cbn in H; [discriminate|].
  destruct (eqb a x) eqn:E.
  - injection H as <-. exists 0. apply eqb_spec in E; subst.
    repeat split; [lia|]. intros i' Hi; lia.
  - apply IH in H as (i & -> & Hi & Hlt). exists (S i). repeat split; [lia|exact Hi|].
    intros [|i'] Hi'; cbn.
    + intros Heq; injection Heq as ->. rewrite (proj2 (eqb_spec x x) eq_refl) in E; discriminate.
    + apply Hlt; lia.
Qed.
Lemma index_ok x l j :
  index eqb x l = Ok j ->
  nth_error l j = Some x /\ (forall i', i' < j -> nth_error l i' <> Some x).
Proof. intros H; apply index_from_ok in H as (i & -> & H1 & H2); auto. Qed.

Lemma index_from_in x l k : In x l -> exists j, index_from eqb x l k = Ok j.
Proof.
  revert k; induction l as [|a l IH]; intros k H; [destruct H|]. cbn.
  destruct (eqb a x) eqn:E; [eauto|].
  destruct H as [->|H]; [rewrite (proj2 (eqb_spec x x) eq_refl) in E; discriminate|].
  apply IH; exact H.
Qed.
Lemma index_in x l : In x l -> exists j, index eqb x l = Ok j.
Proof. apply index_from_in. Qed.

Lemma index_from_notin x l k : ~ In x l -> index_from eqb x l k = Raise ValueError.
Proof.
  revert k; induction l as [|a l IH]; intros k H; [reflexivity|]. cbn.
  destruct (eqb a x) eqn:E; [apply eqb_spec in E; subst; exfalso; apply H; left; reflexivity|].
  apply IH; intros H'; apply H; right; exact H'.
Qed.
Lemma index_notin x l : ~ In x l -> index eqb x l = Raise ValueError.
Proof. apply index_from_notin. Qed.

Lemma index_NoDup x l j : NoDup l -> nth_error l j = Some x -> index eqb x l = Ok j.
Proof.
  intros Hnd Hj. destruct (index_in x l (nth_error_In _ _ Hj)) as (i & Hi).
  rewrite Hi. f_equal. apply index_ok in Hi as (Hi & _).
  assert (Hl : i < length l) by (apply nth_error_Some; congruence).
  eapply NoDup_nth_error; eauto. congruence.
Qed.

Lemma mem_in x l : mem eqb x l = true <-> In x l.
Proof.
  unfold mem. rewrite existsb_exists. split.
  - intros (a & H1 & H2). apply eqb_spec in H2; subst; exact H1.
  - intros H; exists x; split; [exact H|apply eqb_spec; reflexivity].
Qed.
Lemma mem_notin x l : mem eqb x l = false <-> ~ In x l.
Proof. rewrite <- mem_in. destruct (mem eqb x l); split; intros; congruence. Qed.
End Index.

Lemma eqb3_spec x y : eqb3 x y = true <-> x = y.
Proof.
  destruct x as [[a b] c], y as [[a' b'] c']; cbn.
  rewrite !andb_true_iff, !Nat.eqb_eq. split; [intros [[-> ->] ->]; reflexivity|].
  intros H; injection H as -> -> ->; auto.
Qed.
Lemma eqb2_spec x y : eqb2 x y = true <-> x = y.
Proof.
  destruct x as [a b], y as [a' b']; unfold eqb2; cbn.
  rewrite !andb_true_iff, !Nat.eqb_eq. split; [intros [-> ->]; reflexivity|].
  intros H; injection H as -> ->; auto.
Qed.

(** ** cumul *)
Lemma cumul_length t ns : length (cumul t ns) = S (length ns).
Proof. revert t; induction ns as [|n ns IH]; intros t; cbn; auto. Qed.
Lemma cumul_nth t ns i :
  i <= length ns -> nth_error (cumul t ns) i = Some (t + list_sum (firstn i ns)).
Proof.
  revert t i; induction ns as [|n ns IH]; intros t [|i] H; cbn in *; try lia;
    try (f_equal; lia).
  rewrite IH by lia. f_equal; unfold list_sum; cbn; lia.
Qed.
Lemma cumul_last t ns : pylast (cumul t ns) = Ok (t + list_sum ns).
Proof.
  unfold pylast, pyget. cbn [Z.leb Z.compare]. rewrite cumul_length.
  destruct (Z.leb_spec 0 (Z.of_nat (S (length ns)) + -1)); [|lia].
  replace (Z.to_nat (Z.of_nat (S (length ns)) + -1)) with (length ns) by lia.
  unfold get. rewrite cumul_nth by lia. rewrite firstn_all. reflexivity.
Qed.
Lemma list_sum_firstn_S ns i n :
  nth_error ns i = Some n -> list_sum (firstn (S i) ns) = list_sum (firstn i ns) + n.
Proof.
  revert i; induction ns as [|x ns IH]; intros [|i] H; cbn in *; try discriminate.
  - injection H as ->; unfold list_sum; cbn; lia.
  - unfold list_sum in *; cbn in *. rewrite (IH i H). cbn. lia.
Qed.

(** ** concat of blocks *)
Lemma concat_length {A} (bs : list (list A)) : length (concat bs) = list_sum (map (@length A) bs).
Proof. induction bs as [|b bs IH]; cbn; [reflexivity|]. rewrite app_length, IH. reflexivity. Qed.
Lemma firstn_concat {A} (bs : list (list A)) i :
  firstn (list_sum (firstn i (map (@length A) bs))) (concat bs) = concat (firstn i bs).
Proof.
  revert i; induction bs as [|b bs IH]; intros [|i]; cbn; try reflexivity.
  change (fold_right Nat.add 0) with list_sum.
  rewrite firstn_app_2. rewrite IH. reflexivity.
Qed.
Lemma skipn_concat {A} (bs : list (list A)) i :
  skipn (list_sum (firstn i (map (@length A) bs))) (concat bs) = concat (skipn i bs).
Proof.
  revert i; induction bs as [|b bs IH]; intros [|i]; cbn; try reflexivity.
  change (fold_right Nat.add 0) with list_sum.
  rewrite skipn_app. rewrite skipn_all2 by lia. cbn.
  replace (length b + list_sum (firstn i (map (@length A) bs)) - length b)
    with (list_sum (firstn i (map (@length A) bs))) by lia.
  apply IH.
Qed.
Lemma skipn_nth_cons {A} (l : list A) i x : nth_error l i = Some x -> skipn i l = x :: skipn (S i) l.
Proof.
  revert i; induction l as [|a l IH]; intros [|i] H; cbn in *; try discriminate.
  - injection H as ->; reflexivity.
  - apply IH; exact H.
Qed.

Lemma nth_error_map' {A B} (f : A -> B) l i :
  nth_error (map f l) i = option_map f (nth_error l i).
Proof. revert i; induction l as [|a l IH]; intros [|i]; cbn; auto. Qed.

Lemma slice_concat {A} (bs : list (list A)) b x :
  nth_error bs b = Some x ->
  slice (list_sum (firstn b (map (@length A) bs)))
        (list_sum (firstn (S b) (map (@length A) bs))) (concat bs) = x.
Proof.
  intros H. unfold slice. rewrite skipn_concat.
  rewrite (list_sum_firstn_S _ _ (length x)) by (rewrite nth_error_map', H; reflexivity).
  rewrite (skipn_nth_cons _ _ _ H). cbn [concat].
  match goal with |- firstn ?n _ = _ => replace n with (length x + 0) by lia end.
  rewrite firstn_app_2. cbn. apply app_nil_r.
Qed.

Lemma assign_concat {A} (bs : list (list A)) b old v :
  nth_error bs b = Some old -> length v = length old ->
  assign (list_sum (firstn b (map (@length A) bs)))
         (list_sum (firstn (S b) (map (@length A) bs))) v (concat bs)
  = Ok (concat (upd b v bs)).
Proof.
  intros H Hl. unfold assign. rewrite (slice_concat _ _ _ H).
  rewrite Hl, Nat.eqb_refl. f_equal.
  rewrite <- Hl.
  rewrite firstn_concat. 
  replace (list_sum (firstn b (map (@length A) bs)) + length v)
    with (list_sum (firstn (S b) (map (@length A) bs)))
    by (rewrite (list_sum_firstn_S _ _ (length old)) by (rewrite nth_error_map', H; reflexivity); lia).
  rewrite skipn_concat.
  rewrite upd_split by (apply nth_error_Some; congruence).
  rewrite concat_app. cbn [concat]. reflexivity.
Qed.

(** Broadcasting a scalar over a block. *)
Lemma assign_concat_scalar {A} (bs : list (list A)) b old (x : A) :
  nth_error bs b = Some old ->
  assign (list_sum (firstn b (map (@length A) bs)))
         (list_sum (firstn (S b) (map (@length A) bs))) [x] (concat bs)
  = Ok (concat (upd b (repeat x (length old)) bs)).
Proof.
  intros H.
  destruct (Nat.eq_dec (length old) 1) as [E|E].
  - rewrite E. apply assign_concat with old; auto.
  - unfold assign. rewrite (slice_concat _ _ _ H).
    destruct (Nat.eqb_spec (length [x]) (length old)) as [E'|_]; [cbn in E'; lia|].
    f_equal.
    rewrite firstn_concat.
    replace (list_sum (firstn b (map (@length A) bs)) + length old)
      with (list_sum (firstn (S b) (map (@length A) bs)))
      by (rewrite (list_sum_firstn_S _ _ (length old)) by (rewrite nth_error_map', H; reflexivity); lia).
    rewrite skipn_concat.
    rewrite upd_split by (apply nth_error_Some; congruence).
    rewrite concat_app. cbn [concat]. reflexivity.
Qed.

Lemma repeat_concat {A} (z : A) ns :
  repeat z (list_sum ns) = concat (map (fun n => repeat z n) ns).
Proof.
  induction ns as [|n ns IH]; cbn; [reflexivity|].
  change (fold_right Nat.add 0 ns) with (list_sum ns).
  rewrite repeat_app, IH. reflexivity.
Qed.

Lemma slice_length {A} s e (l : list A) : length (slice s e l) = min (e - s) (length l - s).
Proof. unfold slice. rewrite firstn_length, skipn_length. reflexivity. Qed.

Lemma upd_app {A} (l1 l2 : list A) i v :
  length l1 <= i -> upd i v (l1 ++ l2) = l1 ++ upd (i - length l1) v l2.
Proof.
  revert i; induction l1 as [|a l1 IH]; intros i H; cbn in *; [rewrite Nat.sub_0_r; reflexivity|].
  destruct i; [lia|]. cbn. rewrite IH by lia. reflexivity.
Qed.

Lemma nth_nth_error {A} (l : list A) i d x : nth_error l i = Some x -> nth i l d = x.
Proof. intros; apply nth_error_nth; assumption. Qed.

Lemma map_eq_nth_error {A B C} (f : A -> C) (g : B -> C) l1 l2 i a :
  map f l1 = map g l2 -> nth_error l1 i = Some a ->
  exists b, nth_error l2 i = Some b /\ f a = g b.
Proof.
  intros H Ha. assert (E : nth_error (map f l1) i = Some (f a)) by (rewrite nth_error_map', Ha; reflexivity).
  rewrite H, nth_error_map' in E. destruct (nth_error l2 i) as [b|]; [|discriminate].
  injection E as E. eauto.
Qed.

Lemma nth_error_ext {A} (l1 l2 : list A) :
  (forall i, nth_error l1 i = nth_error l2 i) -> l1 = l2.
Proof.
  revert l2; induction l1 as [|a l1 IH]; intros [|b l2] H; auto.
  - specialize (H 0); discriminate.
  - specialize (H 0); discriminate.
  - f_equal; [specialize (H 0); cbn in H; congruence|]. apply IH. intros i; apply (H (S i)).
Qed.

Lemma NoDup_snoc {A} (l : list A) x : NoDup l -> ~ In x l -> NoDup (l ++ [x]).
Proof.
  induction l as [|a l IH]; intros Hnd Hx; cbn; [constructor; [auto|constructor]|].
  inversion Hnd; subst. constructor.
  - rewrite in_app_iff. intros [?|[->|[]]]; [auto|]. apply Hx; left; auto.
  - apply IH; auto. intros ?; apply Hx; right; auto.
Qed.
