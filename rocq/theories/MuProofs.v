From Coq Require Import Permutation.
From Verif Require Import Base BaseLemmas ReaderModel UncModel UncProofs UncProofs2 MuModel SampleSpec.
Open Scope nat_scope.

Lemma pylast_cumul t ns : pylast (cumul t ns) = Ok (t + list_sum ns).
Proof. apply cumul_last. Qed.

Lemma fill_from {A X} (z : A) (F : nat * X -> res (list A)) ns xs k vs pre :
  length pre = list_sum (firstn k ns) -> k + length xs = length ns ->
  mapM F (combine (seq k (length xs)) xs) = Ok vs -> map (@length A) vs = skipn k ns ->
  foldM (fun arr p =>
    do s <- get (cumul 0 ns) (fst p);;
    do e <- get (cumul 0 ns) (fst p + 1);;
    do v <- F p;;
    assign s e v arr) (combine (seq k (length xs)) xs) (pre ++ repeat z (list_sum (skipn k ns)))
  = Ok (pre ++ concat vs).
Proof.
  revert k vs pre. induction xs as [|x xs IH]; intros k vs pre Hp Hk Hm Hl.
  - cbn in *. injection Hm as <-. cbn in Hl. rewrite <- Hl. cbn. reflexivity.
  - cbn [length seq combine mapM] in Hm. cbn [length] in Hk.
    destruct (F (k, x)) as [v|] eqn:EF; [|discriminate].
    destruct (mapM F _) as [vs'|] eqn:Em; [|discriminate]. injection Hm as <-.
    cbn [map] in Hl.
    destruct (nth_error ns k) as [n|] eqn:En; [|apply nth_error_None in En; lia].
    rewrite (skipn_nth_cons _ _ _ En) in Hl |- *. injection Hl as Hv Hl.
    cbn [length seq combine foldM fst].
    rewrite (proj2 (get_ok _ k (list_sum (firstn k ns)))) by (apply cumul_nth; lia).
    rewrite (proj2 (get_ok _ (k + 1) (list_sum (firstn (k + 1) ns)))) by (apply cumul_nth; lia).
    cbn [bind]. rewrite EF. cbn [bind].
    replace (k + 1) with (S k) by lia. rewrite (list_sum_firstn_S _ _ _ En). rewrite <- Hp.
    change (list_sum (n :: skipn (S k) ns)) with (n + list_sum (skipn (S k) ns)).
    rewrite repeat_app.
    pose proof (assign_app pre (repeat z n) (repeat z (list_sum (skipn (S k) ns))) v) as Ea.
    rewrite repeat_length in Ea. rewrite Ea by auto.
    specialize (IH (S k) vs' (pre ++ v)). rewrite <- !app_assoc in IH. cbn [concat].
    apply IH; auto; [|lia].
    rewrite app_length, (list_sum_firstn_S _ _ _ En). lia.
Qed.

Lemma fill_ok {A X} (z : A) (F : nat * X -> res (list A)) ns xs vs :
  mapM F (enumerate xs) = Ok vs -> map (@length A) vs = ns ->
  fill z (cumul 0 ns) F xs = Ok (concat vs).
Proof.
  intros Hm Hl. unfold fill. rewrite pylast_cumul. cbn [bind].
  assert (Hlen : length xs = length ns).
  { rewrite <- Hl, map_length. pose proof (mapM_length _ _ _ Hm) as H. rewrite enumerate_length in H. auto. }
  exact (fill_from z F ns xs 0 vs [] eq_refl Hlen Hm Hl).
Qed.

Lemma foldM_each {S A B} (f : S -> A -> res S) (F : A -> res B) l s s' :
  (forall s a s', f s a = Ok s' -> exists v, F a = Ok v) -> foldM f l s = Ok s' ->
  exists vs, mapM F l = Ok vs.
Proof.
  intros H. revert s. induction l as [|a l IH]; cbn; intros s E; [eauto|].
  destruct (f s a) as [s1|] eqn:Ef; [|discriminate].
  destruct (H _ _ _ Ef) as (v & ->). destruct (IH _ E) as (vs & ->). eauto.
Qed.

Lemma fill_inv {A X} (z : A) (F : nat * X -> res (list A)) ns xs r :
  fill z (cumul 0 ns) F xs = Ok r -> length xs = length ns ->
  (forall i x v, nth_error xs i = Some x -> F (i, x) = Ok v -> nth_error ns i = Some (length v)) ->
  exists vs, mapM F (enumerate xs) = Ok vs /\ map (@length A) vs = ns /\ r = concat vs.
Proof.
  intros E Hlen HF. pose proof E as E0. unfold fill in E. rewrite pylast_cumul in E. cbn [bind] in E.
  assert (Hm : exists vs, mapM F (enumerate xs) = Ok vs).
  { refine (foldM_each _ F _ _ _ _ E). intros s a s' H.
    destruct (get (cumul 0 ns) (fst a)); cbn [bind] in H; [|discriminate].
    destruct (get (cumul 0 ns) (fst a + 1)); cbn [bind] in H; [|discriminate].
    destruct (F a) as [v|]; [eauto|discriminate]. }
  destruct Hm as (vs & Hm).
  assert (Hl : map (@length A) vs = ns).
  { apply nth_error_ext. intros i. rewrite nth_error_map'.
    destruct (nth_error xs i) as [x|] eqn:Ex.
    - assert (He : nth_error (enumerate xs) i = Some (i, x)) by (rewrite enumerate_nth, Ex; reflexivity).
      destruct (mapM_nth _ _ _ _ _ Hm He) as (v & Hv & Hn). rewrite Hn. cbn. symmetry. eapply HF; eauto.
    - assert (length vs = length xs) by (rewrite (mapM_length _ _ _ Hm), enumerate_length; auto).
      apply nth_error_None in Ex. rewrite (proj2 (nth_error_None vs i)) by lia.
      symmetry. apply nth_error_None. lia. }
  exists vs. split; [auto|]. split; [auto|].
  rewrite (fill_ok z F ns xs vs Hm Hl) in E0. injection E0 as <-. reflexivity.
Qed.

(** ** Blocks *)
Lemma is_block_concat {A} (vs : list (list A)) b v :
  nth_error vs b = Some v -> is_block (cumul 0 (map (@length A) vs)) (concat vs) b v.
Proof.
  intros H. assert (Hl : b < length vs) by (apply nth_error_Some; congruence).
  exists (list_sum (firstn b (map (@length A) vs))), (list_sum (firstn (b + 1) (map (@length A) vs))).
  split; [apply cumul_nth; rewrite map_length; lia|].
  split; [apply cumul_nth; rewrite map_length; lia|].
  split.
  - replace (b + 1) with (S b) by lia.
    rewrite (list_sum_firstn_S _ b (length v)) by (rewrite nth_error_map', H; reflexivity).
    split; [lia|].
    rewrite concat_length.
    pose proof (list_sum_firstn_S (map (@length A) vs) b (length v)) as E.
    rewrite <- E by (rewrite nth_error_map', H; reflexivity).
    rewrite <- (firstn_skipn (S b) (map (@length A) vs)) at 2. rewrite list_sum_app. lia.
  - symmetry. replace (b + 1) with (S b) by lia. apply slice_concat. auto.
Qed.

(** An array is the concatenation of its blocks. *)
Fixpoint chop {A} (ns : list nat) (l : list A) : list (list A) :=
  match ns with [] => [] | n :: ns' => firstn n l :: chop ns' (skipn n l) end.
Lemma chop_spec {A} ns (l : list A) : length l = list_sum ns ->
  concat (chop ns l) = l /\ map (@length A) (chop ns l) = ns.
Proof.
  revert l. induction ns as [|n ns IH]; cbn; intros l H.
  - destruct l; [auto|discriminate].
  - change (fold_right Nat.add 0 ns) with (list_sum ns) in H.
    destruct (IH (skipn n l)) as (E1 & E2); [rewrite skipn_length; lia|].
    rewrite E1, E2, firstn_skipn, firstn_length. split; [auto|]. f_equal. lia.
Qed.

Lemma is_block_fun {A} ix (arr : list A) b v v' : is_block ix arr b v -> is_block ix arr b v' -> v = v'.
Proof. intros (lo & hi & H1 & H2 & _ & ->) (lo' & hi' & H1' & H2' & _ & ->). congruence. Qed.

Lemma block_exists {A} ns (arr : list A) b n : length arr = list_sum ns -> nth_error ns b = Some n ->
  exists v, is_block (cumul 0 ns) arr b v /\ length v = n.
Proof.
  intros Hl Hn. destruct (chop_spec ns arr Hl) as (E1 & E2).
  destruct (nth_error (chop ns arr) b) as [v|] eqn:Ev.
  - exists v. split.
    + pose proof (is_block_concat _ _ _ Ev) as H. rewrite E1, E2 in H. exact H.
    + rewrite <- E2, nth_error_map', Ev in Hn. cbn in Hn. congruence.
  - apply nth_error_None in Ev. assert (b < length ns) by (apply nth_error_Some; congruence).
    rewrite <- E2, map_length in H. lia.
Qed.

Lemma block_len {A} ns (arr : list A) b v : length arr = list_sum ns ->
  is_block (cumul 0 ns) arr b v -> nth_error ns b = Some (length v).
Proof.
  intros Hl Hb. destruct (nth_error ns b) as [n|] eqn:En.
  - destruct (block_exists ns arr b n Hl En) as (v' & Hv' & Hlen). rewrite (is_block_fun _ _ _ _ _ Hb Hv'). congruence.
  - destruct Hb as (lo & hi & _ & H2 & _). apply nth_error_None in En.
    assert (b + 1 < length (cumul 0 ns)) by (apply nth_error_Some; congruence).
    rewrite cumul_length in H. lia.
Qed.

Lemma take_picks {A} (l : list A) s v : take l s = Ok v <-> picks l s v.
Proof.
  unfold take, picks. split.
  - intros H. split; [apply (mapM_length _ _ _ H)|]. intros j i Hi.
    destruct (mapM_nth _ _ _ _ _ H Hi) as (x & Hx & Hn). apply get_ok in Hx. eauto.
  - revert v. induction s as [|i s IH]; intros v (Hl & H); cbn.
    + destruct v; [auto|discriminate].
    + destruct v as [|x v]; [discriminate|].
      destruct (H 0 i eq_refl) as (y & Hy & Hz). cbn in Hz. injection Hz as <-.
      rewrite (proj2 (get_ok _ _ _) Hy). rewrite (IH v); [auto|].
      split; [cbn in Hl; lia|]. intros j k Hj. apply (H (S j) k Hj).
Qed.
