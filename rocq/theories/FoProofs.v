(** Proofs: banded matrices from compressed row storage. *)
From Verif Require Import Base FoModel FoSpec.
From Coq Require Import QArith Qabs Sorting.Sorted.
Open Scope nat_scope.
Open Scope list_scope.

(** ** Arrays *)
Lemma fget_of_nat : forall (A : Type) (l : list A) t, fget l (Z.of_nat t + 1) = get l t.
Proof.
  intros A l t. unfold fget. replace (1 <=? Z.of_nat t + 1)%Z with true by (symmetry; apply Z.leb_le; lia).
  f_equal. lia.
Qed.
Lemma fget_of_nat' : forall (A : Type) (l : list A) z t, z = (Z.of_nat t + 1)%Z -> fget l z = get l t.
Proof. intros A l z t ->. apply fget_of_nat. Qed.

Lemma get_app_mid : forall (A : Type) (p q r : list A) t x, nth_error q t = Some x ->
  get (p ++ q ++ r) (length p + t) = Ok x.
Proof.
  intros A p q r t x H. unfold get. rewrite nth_error_app2 by lia.
  replace (length p + t - length p) with t by lia.
  rewrite nth_error_app1; [now rewrite H|]. apply nth_error_Some. congruence.
Qed.

Lemma upd_mid : forall (A : Type) (p : list A) x q v, upd (length p) v (p ++ x :: q) = p ++ v :: q.
Proof. induction p as [|y p IH]; intros; cbn; [reflexivity|]. now rewrite IH. Qed.
Lemma fset_mid : forall (A : Type) (p : list A) x q v z, z = (Z.of_nat (length p) + 1)%Z ->
  fset (p ++ x :: q) z v = Ok (p ++ v :: q).
Proof.
  intros A p x q v z ->. unfold fset, setitem.
  replace (1 <=? Z.of_nat (length p) + 1)%Z with true by (symmetry; apply Z.leb_le; lia).
  replace (Z.to_nat (Z.of_nat (length p) + 1 - 1)) with (length p) by lia.
  rewrite app_length. cbn [length]. replace (length p <? length p + S (length q)) with true
    by (symmetry; apply Nat.ltb_lt; lia). now rewrite upd_mid.
Qed.

Lemma upd_length : forall (A : Type) (l : list A) i v, length (upd i v l) = length l.
Proof. induction l as [|a l IH]; intros [|i] v; cbn; try reflexivity. now rewrite IH. Qed.
Lemma upd_app_mid : forall (A : Type) (p q r : list A) c v, c < length q ->
  upd (length p + c) v (p ++ q ++ r) = p ++ upd c v q ++ r.
Proof.
  induction p as [|x p IH]; intros q r c v H; cbn.
  - revert c H. induction q as [|y q IHq]; intros [|c] H; cbn in *; try lia; [reflexivity|].
    rewrite IHq by lia. reflexivity.
  - now rewrite IH.
Qed.
Lemma nth_upd_same : forall (A : Type) (l : list A) c v, c < length l -> nth_error (upd c v l) c = Some v.
Proof. induction l as [|a l IH]; intros [|c] v H; cbn in *; try lia; [reflexivity|]. apply IH. lia. Qed.
Lemma nth_upd_other : forall (A : Type) (l : list A) c d v, c <> d -> nth_error (upd c v l) d = nth_error l d.
Proof.
  induction l as [|a l IH]; intros [|c] [|d] v H; cbn; try reflexivity; try lia. apply IH. lia.
Qed.

Lemma foldM_map : forall (A B T : Type) (f : T -> B -> res T) (g : A -> B) l s,
  foldM f (map g l) s = foldM (fun s a => f s (g a)) l s.
Proof.
  induction l as [|a l IH]; intro s; cbn; [reflexivity|]. destruct (f s (g a)); [apply IH|reflexivity].
Qed.

Lemma steps_pos : forall m s, 0 < s ->
  steps m s = Ok (map (fun t => (1 + Z.of_nat t * Z.of_nat s)%Z) (seq 0 ((m + s - 1) / s))).
Proof. intros m [|s] H; [lia|reflexivity]. Qed.
Lemma steps_count : forall m s t, 0 < s -> (t < (m + s - 1) / s <-> t * s < m).
Proof.
  intros m s t H. pose proof (Nat.div_mod (m + s - 1) s ltac:(lia)) as D.
  pose proof (Nat.mod_upper_bound (m + s - 1) s ltac:(lia)) as B.
  set (q := (m + s - 1) / s) in *. set (r := (m + s - 1) mod s) in *. clearbody q r. split; intro Ht.
  - assert (S t * s <= q * s) by (apply Nat.mul_le_mono_r; lia). lia.
  - destruct (le_lt_dec q t) as [L|L]; [|exact L]. assert (q * s <= t * s) by (apply Nat.mul_le_mono_r; lia). lia.
Qed.

(** ** Rows *)
Definition first_col (r : srow) : Z := fst (nth 0 r (0%Z, zero)).
Definition last_col (r : srow) : Z := fst (nth (length r - 1) r (0%Z, zero)).
(** The first and the last column stored are the extreme ones. *)
Definition spans (r : srow) : Prop :=
  NoDup (map fst r) /\
  forall c, In c (map fst r) ->
    (Z.min (first_col r) (last_col r) <= c <= Z.max (first_col r) (last_col r))%Z.
Definition width (r : srow) : nat :=
  match r with [] => 0 | _ => Z.to_nat (Z.abs (last_col r - first_col r) + 1) end.
Definition jmin (r : srow) : Z :=
  match r with [] => 0%Z | _ => Z.min (first_col r) (last_col r) end.

Lemma sorted_nodup_lt : forall l, StronglySorted Z.lt l -> NoDup l.
Proof.
  induction 1 as [|a l H IH F]; constructor; [|exact IH]. intro Hi.
  rewrite Forall_forall in F. specialize (F a Hi). lia.
Qed.
Lemma sorted_nodup_gt : forall l, StronglySorted Z.gt l -> NoDup l.
Proof.
  induction 1 as [|a l H IH F]; constructor; [|exact IH]. intro Hi.
  rewrite Forall_forall in F. specialize (F a Hi). lia.
Qed.
Lemma sorted_nth : forall (P : Z -> Z -> Prop) l, StronglySorted P l ->
  forall i k x y, i < k -> nth_error l i = Some x -> nth_error l k = Some y -> P x y.
Proof.
  induction 1 as [|a l H IH F]; intros i k x y Hik Hx Hy; [destruct i; discriminate|].
  destruct i as [|i]; destruct k as [|k]; try lia; cbn in Hx, Hy.
  - injection Hx as <-. rewrite Forall_forall in F. apply F. now apply nth_error_In with k.
  - apply (IH i k); [lia|exact Hx|exact Hy].
Qed.

Lemma map_fst_nth : forall (r : srow) i, i < length r ->
  nth_error (map fst r) i = Some (fst (nth i r (0%Z, zero))).
Proof. intros r i H. rewrite nth_error_map, (nth_error_nth' r (0%Z, zero) H). reflexivity. Qed.

Lemma ordered_spans : forall r, ordered_row r -> spans r.
Proof.
  intros r Ho. split.
  - destruct Ho as [Ho|Ho]; [now apply sorted_nodup_lt|now apply sorted_nodup_gt].
  - intros c Hc. apply In_nth_error in Hc. destruct Hc as [i Hi].
    assert (L : i < length r). { rewrite <- (map_length fst). apply nth_error_Some. congruence. }
    pose proof (map_fst_nth r 0 ltac:(lia)) as H0.
    pose proof (map_fst_nth r (length r - 1) ltac:(lia)) as H1.
    fold (first_col r) in H0. fold (last_col r) in H1.
    assert (E0 : i = 0 \/ 0 < i) by lia. assert (E1 : i = length r - 1 \/ i < length r - 1) by lia.
    destruct Ho as [Ho|Ho].
    + assert (A : (first_col r <= c)%Z).
      { destruct E0 as [->|E0]; [|pose proof (sorted_nth _ _ Ho _ _ _ _ E0 H0 Hi); lia].
        assert (first_col r = c) by congruence. lia. }
      assert (B : (c <= last_col r)%Z).
      { destruct E1 as [->|E1]; [|pose proof (sorted_nth _ _ Ho _ _ _ _ E1 Hi H1); lia].
        assert (last_col r = c) by congruence. lia. }
      lia.
    + assert (A : (c <= first_col r)%Z).
      { destruct E0 as [->|E0]; [|pose proof (sorted_nth _ _ Ho _ _ _ _ E0 H0 Hi); lia].
        assert (first_col r = c) by congruence. lia. }
      assert (B : (last_col r <= c)%Z).
      { destruct E1 as [->|E1]; [|pose proof (sorted_nth _ _ Ho _ _ _ _ E1 Hi H1); lia].
        assert (last_col r = c) by congruence. lia. }
      lia.
Qed.

Lemma spans_offset : forall r c, spans r -> In c (map fst r) -> r <> [] ->
  (0 <= c - jmin r)%Z /\ Z.to_nat (c - jmin r) < width r.
Proof.
  intros r c [_ H] Hc Hr. specialize (H c Hc). destruct r as [|e r]; [congruence|].
  unfold jmin, width. lia.
Qed.

(** ** Scatter *)
Definition overwrite (jm : Z) (r : srow) (seg : list fnum) : list fnum :=
  fold_left (fun b e => upd (Z.to_nat (fst e - jm)) (snd e) b) r seg.

Lemma overwrite_length : forall jm r seg, length (overwrite jm r seg) = length seg.
Proof.
  intros jm. induction r as [|e r IH]; intro seg; cbn; [reflexivity|].
  unfold overwrite in IH. now rewrite IH, upd_length.
Qed.

Lemma overwrite_other : forall jm r seg c, (forall j, In j (map fst r) -> (0 <= j - jm)%Z) ->
  ~ In (jm + Z.of_nat c)%Z (map fst r) ->
  nth_error (overwrite jm r seg) c = nth_error seg c.
Proof.
  intros jm. induction r as [|e r IH]; intros seg c Hp H; [reflexivity|].
  cbn [overwrite fold_left]. fold (overwrite jm r (upd (Z.to_nat (fst e - jm)) (snd e) seg)).
  rewrite IH.
  - apply nth_upd_other. intro E. apply H. left. specialize (Hp (fst e) (or_introl eq_refl)). lia.
  - intros j Hj. apply Hp. now right.
  - intro Hi. apply H. now right.
Qed.

Lemma overwrite_in : forall jm r seg j v, NoDup (map fst r) -> In (j, v) r ->
  (forall j, In j (map fst r) -> (0 <= j - jm)%Z /\ Z.to_nat (j - jm) < length seg) ->
  nth_error (overwrite jm r seg) (Z.to_nat (j - jm)) = Some v.
Proof.
  intros jm. induction r as [|e r IH]; intros seg j v N Hi Hb; [destruct Hi|].
  cbn [map] in N. inversion N as [|x l N1 N2]. subst x l.
  cbn [overwrite fold_left]. fold (overwrite jm r (upd (Z.to_nat (fst e - jm)) (snd e) seg)).
  destruct Hi as [E|Hi].
  - subst e. cbn [fst snd] in *. destruct (Hb j (or_introl eq_refl)) as [B1 B2].
    rewrite overwrite_other.
    + now apply nth_upd_same.
    + intros j' Hj'. now apply Hb; right.
    + rewrite Z2Nat.id by lia. now replace (jm + (j - jm))%Z with j by lia.
  - apply IH; [exact N2|exact Hi|]. intros j' Hj'. rewrite upd_length. apply Hb. now right.
Qed.

(** The positions of the elements of a row in the whole arrays. *)
Definition at_row (ja : list Z) (a : list fnum) (off : nat) (r : srow) : Prop :=
  forall t e, nth_error r t = Some e -> get ja (off + t) = Ok (fst e) /\ get a (off + t) = Ok (snd e).

Lemma scatter_row : forall ja a jm k p post n r seg off,
  at_row ja a off r -> n = length r -> k = (Z.of_nat (length p) + 1)%Z ->
  (forall j, In j (map fst r) -> (0 <= j - jm)%Z /\ Z.to_nat (j - jm) < length seg) ->
  foldM (fun b t =>
    do j <- fget ja (Z.of_nat off + 1 + Z.of_nat t)%Z;;
    do v <- fget a (Z.of_nat off + 1 + Z.of_nat t)%Z;;
    fset b (j - jm + k)%Z v) (seq 0 n) (p ++ seg ++ post)
  = Ok (p ++ overwrite jm r seg ++ post).
Proof.
  intros ja a jm k p post n r seg off Ha -> -> Hb.
  enough (G : forall r' n0 seg, r' = skipn n0 r -> 
    (forall j, In j (map fst r') -> (0 <= j - jm)%Z /\ Z.to_nat (j - jm) < length seg) ->
    foldM (fun b t =>
      do j <- fget ja (Z.of_nat off + 1 + Z.of_nat t)%Z;;
      do v <- fget a (Z.of_nat off + 1 + Z.of_nat t)%Z;;
      fset b (j - jm + (Z.of_nat (length p) + 1))%Z v) (seq n0 (length r')) (p ++ seg ++ post)
    = Ok (p ++ overwrite jm r' seg ++ post)) by (apply (G r 0 seg eq_refl Hb)).
  clear seg Hb. induction r' as [|e r' IH]; intros n0 seg E Hb; [reflexivity|].
  assert (Hn : nth_error r n0 = Some e).
  { clear - E. revert r E. induction n0 as [|n0 IHn]; intros [|x r] E; cbn in *; try discriminate.
    - injection E as -> _. reflexivity.
    - now apply IHn. }
  assert (Hs : r' = skipn (S n0) r).
  { clear - E. revert r E. induction n0 as [|n0 IHn]; intros [|x r] E; cbn in *; try discriminate.
    - now injection E as _ ->.
    - now apply IHn. }
  destruct (Ha n0 e Hn) as [G1 G2]. cbn [length seq foldM].
  rewrite !(fget_of_nat' _ _ (Z.of_nat off + 1 + Z.of_nat n0) (off + n0)) by lia.
  rewrite G1, G2. cbn [bind].
  destruct (Hb (fst e) (or_introl eq_refl)) as [B1 B2].
  assert (F : fset (p ++ seg ++ post) (fst e - jm + (Z.of_nat (length p) + 1)) (snd e)
    = Ok (p ++ upd (Z.to_nat (fst e - jm)) (snd e) seg ++ post)).
  { unfold fset, setitem.
    replace (1 <=? fst e - jm + (Z.of_nat (length p) + 1))%Z with true by (symmetry; apply Z.leb_le; lia).
    replace (Z.to_nat (fst e - jm + (Z.of_nat (length p) + 1) - 1))
      with (length p + Z.to_nat (fst e - jm)) by lia.
    rewrite !app_length.
    replace (length p + Z.to_nat (fst e - jm) <? length p + (length seg + length post)) with true
      by (symmetry; apply Nat.ltb_lt; lia).
    now rewrite upd_app_mid. }
  rewrite F. cbn [overwrite fold_left].
  apply (IH (S n0) (upd (Z.to_nat (fst e - jm)) (snd e) seg) Hs).
  intros j Hj. rewrite upd_length. apply Hb. now right.
Qed.

(** ** Compressed row storage *)
Lemma pointers_get : forall rows base i, i <= length rows ->
  get (row_pointers base rows) i = Ok (base + Z.of_nat (length (concat (firstn i rows))))%Z.
Proof.
  induction rows as [|r rows IH]; intros base i H; cbn in H.
  - assert (i = 0) by lia. subst i. cbn. f_equal. lia.
  - destruct i as [|i]; [cbn; f_equal; lia|].
    change (get (row_pointers base (r :: rows)) (S i))
      with (get (row_pointers (base + Z.of_nat (length r)) rows) i).
    rewrite IH by lia. cbn [firstn concat]. rewrite app_length. f_equal. lia.
Qed.

Lemma concat_split : forall (rows : list srow) i r, nth_error rows i = Some r ->
  concat rows = concat (firstn i rows) ++ r ++ concat (skipn (S i) rows).
Proof.
  induction rows as [|x rows IH]; intros [|i] r H; cbn in H; try discriminate.
  - injection H as ->. reflexivity.
  - cbn [firstn concat skipn]. rewrite (IH i r H) at 1. now rewrite app_assoc.
Qed.

Lemma firstn_S_length : forall (rows : list srow) i r, nth_error rows i = Some r ->
  length (concat (firstn (S i) rows)) = length (concat (firstn i rows)) + length r.
Proof.
  induction rows as [|x rows IH]; intros [|i] r H; cbn in H; try discriminate.
  - injection H as ->. cbn. rewrite app_nil_r. reflexivity.
  - rewrite firstn_cons. cbn [concat]. rewrite app_length, (IH i r H). cbn [firstn concat].
    rewrite app_length. lia.
Qed.

Definition ja1 (rows : list srow) : list Z := map fst (concat rows).

Lemma col_indices_1 : forall rows, col_indices 1 rows = ja1 rows.
Proof. intro rows. unfold col_indices, ja1. apply map_ext. intro e. lia. Qed.

Lemma rows_at : forall rows i r, nth_error rows i = Some r ->
  at_row (ja1 rows) (elements rows) (length (concat (firstn i rows))) r.
Proof.
  intros rows i r H t e He. unfold ja1, elements. rewrite (concat_split rows i r H), !map_app.
  split.
  - rewrite <- (map_length fst (concat (firstn i rows))).
    apply get_app_mid; rewrite nth_error_map, He; reflexivity.
  - rewrite <- (map_length snd (concat (firstn i rows))).
    apply get_app_mid; rewrite nth_error_map, He; reflexivity.
Qed.

Section Fill.
Variable rows : list srow.
Let ia := row_pointers 1 rows.
Let ja := ja1 rows.
Let a := elements rows.

Lemma row_bounds : forall i r z, nth_error rows i = Some r -> z = (1 + Z.of_nat i)%Z ->
  fget ia (z + 1) = Ok (1 + Z.of_nat (length (concat (firstn i rows))) + Z.of_nat (length r))%Z /\
  fget ia z = Ok (1 + Z.of_nat (length (concat (firstn i rows))))%Z.
Proof.
  intros i r z H ->. assert (L : i < length rows) by (apply nth_error_Some; congruence).
  rewrite (fget_of_nat' _ _ _ (S i)) by lia. rewrite (fget_of_nat' _ _ (1 + Z.of_nat i) i) by lia.
  unfold ia. rewrite !pointers_get by lia. rewrite (firstn_S_length rows i r H). split; f_equal; lia.
Qed.

Lemma row_ends : forall i r, nth_error rows i = Some r -> r <> [] ->
  fget ja (1 + Z.of_nat (length (concat (firstn i rows)))) = Ok (first_col r) /\
  fget ja (1 + Z.of_nat (length (concat (firstn i rows))) + Z.of_nat (length r) - 1) = Ok (last_col r).
Proof.
  intros i r H Hr. pose proof (rows_at rows i r H) as A.
  assert (L : 0 < length r) by (destruct r; [congruence|cbn; lia]).
  set (off := length (concat (firstn i rows))) in *.
  rewrite (fget_of_nat' _ _ (1 + Z.of_nat off) (off + 0)) by lia.
  rewrite (fget_of_nat' _ _ (1 + Z.of_nat off + Z.of_nat (length r) - 1) (off + (length r - 1))) by lia.
  split.
  - apply (A 0 (nth 0 r (0%Z, zero))). apply nth_error_nth'. exact L.
  - apply (A (length r - 1) (nth (length r - 1) r (0%Z, zero))). apply nth_error_nth'. lia.
Qed.

Lemma width_abs : forall r, r <> [] -> Z.of_nat (width r) = (Z.abs (last_col r - first_col r) + 1)%Z.
Proof. intros [|e r] H; [congruence|]. unfold width. lia. Qed.

Definition dense (r : srow) : list fnum :=
  overwrite (jmin r) r (overwrite (jmin r) r (repeat (Fin 0) (width r))).

Lemma dense_length : forall r, length (dense r) = width r.
Proof. intro r. unfold dense. now rewrite !overwrite_length, repeat_length. Qed.

Lemma fill_row_spec : forall i r z ibp x ibq jbp jbq p q,
  nth_error rows i = Some r -> spans r -> z = (1 + Z.of_nat i)%Z ->
  length ibp = length jbp ->
  fill_row ia ja a (mkFill (Z.of_nat (length p) + 1) (length jbp) (ibp ++ x :: ibq) (jbp ++ 0%Z :: jbq)
                      (p ++ repeat (Fin 0) (width r) ++ q)) z
  = Ok (mkFill (Z.of_nat (length (p ++ dense r)) + 1) (S (length jbp))
          (ibp ++ (Z.of_nat (length p) + 1)%Z :: ibq) (jbp ++ jmin r :: jbq) (p ++ dense r ++ q)).
Proof.
  intros i r z ibp x ibq jbp jbq p q H Hs Hz Hl. unfold fill_row. cbn [f_k f_l f_ib f_jb f_b].
  rewrite (fset_mid _ ibp x ibq) by (rewrite Hl; lia). cbn [bind].
  destruct (row_bounds i r z H Hz) as [E1 E2]. rewrite E1, E2. cbn [bind].
  set (off := length (concat (firstn i rows))) in *.
  destruct r as [|e0 r0] eqn:Er.
  - replace (1 + Z.of_nat off <? 1 + Z.of_nat off + Z.of_nat (length (@nil (Z * fnum))))%Z with false
      by (symmetry; apply Z.ltb_ge; cbn; lia).
    cbn [jmin dense width]. cbn. rewrite app_nil_r. reflexivity.
  - rewrite <- Er in *. assert (Hr : r <> []) by (rewrite Er; discriminate).
    assert (L : 0 < length r) by (rewrite Er; cbn; lia). clear Er.
    replace (1 + Z.of_nat off <? 1 + Z.of_nat off + Z.of_nat (length r))%Z with true
      by (symmetry; apply Z.ltb_lt; lia).
    destruct (row_ends i r H Hr) as [F1 F2]. fold off in F1, F2. rewrite F1, F2. cbn [bind].
    assert (J : Z.min (first_col r) (last_col r) = jmin r) by (destruct r; [congruence|reflexivity]).
    rewrite J. rewrite (fset_mid _ jbp 0%Z jbq) by reflexivity. cbn [bind].
    assert (S1 : forall seg, length seg = width r ->
      scatter ja a (jmin r) (Z.of_nat (length p) + 1) (1 + Z.of_nat off)
        (1 + Z.of_nat off + Z.of_nat (length r) - 1) (p ++ seg ++ q)
      = Ok (p ++ overwrite (jmin r) r seg ++ q)).
    { intros seg Hseg. unfold scatter.
      replace (Z.to_nat (1 + Z.of_nat off + Z.of_nat (length r) - 1 - (1 + Z.of_nat off) + 1))
        with (length r) by lia.
      rewrite <- (scatter_row ja a (jmin r) (Z.of_nat (length p) + 1) p q (length r) r seg off).
      - replace (1 + Z.of_nat off)%Z with (Z.of_nat off + 1)%Z by lia. reflexivity.
      - apply (rows_at rows i r H).
      - reflexivity.
      - reflexivity.
      - intros j Hj. rewrite Hseg. now apply spans_offset. }
    rewrite S1 by apply repeat_length. cbn [bind].
    rewrite S1 by (rewrite overwrite_length; apply repeat_length). cbn [bind].
    f_equal. f_equal. rewrite app_length, dense_length. rewrite Nat2Z.inj_add, (width_abs r Hr). lia.
Qed.

Variable s : nat.
Hypothesis Hs : 0 < s.
Hypothesis Hspan : forall r, In r rows -> spans r.

Definition pick (t : nat) : srow := nth (t * s) rows [].
Definition chosen (n : nat) : list srow := map pick (seq 0 n).

Lemma chosen_S : forall n, chosen (S n) = chosen n ++ [pick n].
Proof. intro n. unfold chosen. rewrite seq_S, map_app. reflexivity. Qed.

Lemma pick_nth : forall t, t * s < length rows -> nth_error rows (t * s) = Some (pick t).
Proof. intros t H. now apply nth_error_nth'. Qed.

Definition total (l : list srow) : nat := list_sum (map width l).
Lemma total_app : forall x y, total (x ++ y) = total x + total y.
Proof. intros x y. unfold total. now rewrite map_app, list_sum_app. Qed.

Lemma foldM_snoc : forall (A T : Type) (f : T -> A -> res T) l x s,
  foldM f (l ++ [x]) s = do s' <- foldM f l s;; f s' x.
Proof.
  induction l as [|y l IH]; intros x t; cbn.
  - destruct (f t x); reflexivity.
  - destruct (f t y); [apply IH|reflexivity].
Qed.

Lemma count_spec : forall n, (forall t, t < n -> t * s < length rows) ->
  count_banded (map (fun t => (1 + Z.of_nat t * Z.of_nat s)%Z) (seq 0 n)) ia ja
  = Ok (Z.of_nat (total (chosen n)), n).
Proof.
  intros n Hn. unfold count_banded. rewrite foldM_map. induction n as [|n IH]; [reflexivity|].
  rewrite seq_S. cbn [plus]. rewrite foldM_snoc, IH by (intros; apply Hn; lia). cbn [bind].
  pose proof (pick_nth n (Hn n ltac:(lia))) as H.
  destruct (row_bounds (n * s) (pick n) (1 + Z.of_nat n * Z.of_nat s) H ltac:(lia)) as [E1 E2].
  rewrite E1, E2. cbn [bind]. rewrite chosen_S, total_app.
  set (off := length (concat (firstn (n * s) rows))) in *.
  destruct (pick n) as [|e0 r0] eqn:Er.
  - replace (1 + Z.of_nat off <? 1 + Z.of_nat off + Z.of_nat (length (@nil (Z * fnum))))%Z with false
      by (symmetry; apply Z.ltb_ge; cbn; lia).
    cbn [bind]. unfold total at 3. cbn. do 2 f_equal. lia.
  - rewrite <- Er in *. assert (Hr : pick n <> []) by (rewrite Er; discriminate).
    assert (L : 0 < length (pick n)) by (rewrite Er; cbn; lia). clear Er.
    replace (1 + Z.of_nat off <? 1 + Z.of_nat off + Z.of_nat (length (pick n)))%Z with true
      by (symmetry; apply Z.ltb_lt; lia).
    destruct (row_ends (n * s) (pick n) H Hr) as [F1 F2]. fold off in F1, F2. rewrite F1, F2. cbn [bind].
    do 2 f_equal. unfold total at 3. cbn [map list_sum fold_right]. pose proof (width_abs (pick n) Hr). lia.
Qed.

Fixpoint starts (k : Z) (l : list srow) : list Z :=
  match l with [] => [] | r :: l' => k :: starts (k + Z.of_nat (width r)) l' end.
Lemma starts_app : forall x y k, starts k (x ++ y) = starts k x ++ starts (k + Z.of_nat (total x)) y.
Proof.
  induction x as [|r x IH]; intros y k.
  - cbn. now rewrite Z.add_0_r.
  - cbn [app starts]. rewrite IH. unfold total. cbn [map list_sum fold_right]. f_equal. f_equal. f_equal. unfold list_sum; lia.
Qed.
Lemma starts_length : forall l k, length (starts k l) = length l.
Proof. induction l as [|r l IH]; intro k; cbn; [reflexivity|]. now rewrite IH. Qed.

Lemma chosen_length : forall n, length (chosen n) = n.
Proof. intro n. unfold chosen. now rewrite map_length, seq_length. Qed.
Lemma dense_total : forall l, length (concat (map dense l)) = total l.
Proof.
  induction l as [|r l IH]; [reflexivity|]. cbn [map concat]. rewrite app_length, dense_length, IH. reflexivity.
Qed.

Lemma fill_spec : forall n m k, (forall t, t < n -> t * s < length rows) ->
  k = total (chosen n) + m ->
  forall rest,
  foldM (fill_row ia ja a) (map (fun t => (1 + Z.of_nat t * Z.of_nat s)%Z) (seq 0 n))
    (mkFill 1 0 (repeat 0%Z (n + S rest)) (repeat 0%Z (n + rest)) (repeat (Fin 0) k))
  = Ok (mkFill (Z.of_nat (total (chosen n)) + 1) n
          (starts 1 (chosen n) ++ repeat 0%Z (S rest)) (map jmin (chosen n) ++ repeat 0%Z rest)
          (concat (map dense (chosen n)) ++ repeat (Fin 0) m)).
Proof.
  induction n as [|n IH]; intros m k Hn Hk rest.
  - cbn in Hk. subst m. reflexivity.
  - replace (S n + S rest) with (n + S (S rest)) by lia. replace (S n + rest) with (n + S rest) by lia.
    rewrite seq_S, map_app. change (0 + n) with n. cbn [map]. rewrite foldM_snoc.
    rewrite chosen_S, total_app in Hk.
    rewrite (IH (width (pick n) + m) k (fun t Ht => Hn t (Nat.lt_trans _ _ _ Ht (Nat.lt_succ_diag_r n)))).
    2: { rewrite Hk. unfold total at 2. cbn. lia. }
    cbn [bind].
    pose proof (pick_nth n (Hn n ltac:(lia))) as H.
    rewrite repeat_app. change (repeat 0%Z (S (S rest))) with (0%Z :: repeat 0%Z (S rest)).
    change (repeat 0%Z (S rest)) with (0%Z :: repeat 0%Z rest) at 2.
    rewrite <- (dense_total (chosen n)).
    assert (Ln : n = length (map jmin (chosen n))) by now rewrite map_length, chosen_length.
    pose proof (fill_row_spec (n * s) (pick n) (1 + Z.of_nat n * Z.of_nat s)
      (starts 1 (chosen n)) 0%Z (repeat 0%Z (S rest)) (map jmin (chosen n)) (repeat 0%Z rest)
      (concat (map dense (chosen n))) (repeat (Fin 0) m) H
      (Hspan _ (nth_error_In _ _ H)) ltac:(lia)) as F.
    rewrite starts_length, map_length in F. specialize (F eq_refl).
    rewrite !chosen_length in F. rewrite F.
    rewrite chosen_S, starts_app, !map_app, concat_app. cbn [map concat starts app].
    rewrite !app_nil_r, <- !app_assoc. cbn [app].
    f_equal. rewrite dense_total.
    assert (T : length (concat (map dense (chosen n)) ++ dense (pick n)) = total (chosen n ++ [pick n])).
    { rewrite app_length, dense_total, dense_length, total_app. unfold total at 3. cbn. lia. }
    rewrite T. rewrite (Z.add_comm 1). reflexivity.
Qed.

Lemma banded_spec : forall n,
  new_banded_matrix (length rows) s n ia ja a
  = let L := (length rows + s - 1) / s in
    Ok (mkBanded L n (starts 1 (chosen L) ++ [Z.of_nat (total (chosen L)) + 1])%Z
          (map jmin (chosen L)) (concat (map dense (chosen L)))).
Proof.
  intro n. unfold new_banded_matrix. rewrite steps_pos by exact Hs. cbn [bind].
  set (L := (length rows + s - 1) / s).
  assert (HL : forall t, t < L -> t * s < length rows) by (intros t; apply steps_count, Hs).
  rewrite (count_spec L HL). cbn [bind]. rewrite Nat2Z.id.
  pose proof (fill_spec L 0 (total (chosen L)) HL ltac:(lia) 0) as F.
  replace (L + 0) with L in F by lia. rewrite F. cbn [bind f_k f_l f_ib f_jb f_b].
  cbn [repeat]. rewrite fset_mid by (now rewrite starts_length, chosen_length). cbn [bind].
  now rewrite !app_nil_r.
Qed.

Lemma starts_nth : forall l k t, t <= length l ->
  nth_error (starts k l ++ [k + Z.of_nat (total l)]%Z) t = Some (k + Z.of_nat (total (firstn t l)))%Z.
Proof.
  induction l as [|r l IH]; intros k t H; cbn in H.
  - assert (t = 0) by lia. subst t. reflexivity.
  - destruct t as [|t]; [cbn; f_equal; lia|].
    change (nth_error (starts (k + Z.of_nat (width r)) l ++ [k + Z.of_nat (total (r :: l))]%Z) t
            = Some (k + Z.of_nat (total (r :: firstn t l)))%Z).
    replace (k + Z.of_nat (total (r :: l)))%Z with (k + Z.of_nat (width r) + Z.of_nat (total l))%Z
      by (unfold total; cbn [map list_sum fold_right]; unfold list_sum; lia).
    rewrite IH by lia. f_equal. unfold total. cbn [map list_sum fold_right]. unfold list_sum. lia.
Qed.

Lemma dense_concat_nth : forall l t r c, nth_error l t = Some r -> c < width r ->
  nth_error (concat (map dense l)) (total (firstn t l) + c) = nth_error (dense r) c.
Proof.
  induction l as [|x l IH]; intros [|t] r c H Hc; cbn in H; try discriminate.
  - injection H as ->. cbn [firstn map concat total]. unfold total. cbn [map list_sum fold_right plus].
    rewrite nth_error_app1 by (rewrite dense_length; exact Hc). reflexivity.
  - cbn [firstn map concat]. unfold total. cbn [map list_sum fold_right].
    rewrite nth_error_app2 by (rewrite dense_length; unfold list_sum; lia).
    rewrite dense_length. rewrite <- (IH t r c H Hc). f_equal. unfold total, list_sum. lia.
Qed.

Lemma dense_elements : forall r j v, r <> [] -> spans r -> row_element r j v ->
  (jmin r <= j < jmin r + Z.of_nat (width r))%Z ->
  nth_error (dense r) (Z.to_nat (j - jmin r)) = Some v.
Proof.
  intros r j v Hr Hsp He Hj. unfold dense.
  assert (B : forall seg : list fnum, length seg = width r -> forall c, In c (map fst r) ->
    (0 <= c - jmin r)%Z /\ Z.to_nat (c - jmin r) < length seg).
  { intros seg E c Hc. rewrite E. now apply spans_offset. }
  assert (L1 : length (repeat (Fin 0) (width r)) = width r) by apply repeat_length.
  destruct He as [Hi|[Hn ->]].
  - apply overwrite_in; [apply Hsp|exact Hi|]. apply B. now rewrite overwrite_length.
  - assert (P : forall c, In c (map fst r) -> (0 <= c - jmin r)%Z).
    { intros c Hc. now apply (B _ L1 c Hc). }
    rewrite !overwrite_other.
    + rewrite nth_error_repeat by lia. reflexivity.
    + exact P.
    + rewrite Z2Nat.id by lia. now replace (jmin r + (j - jmin r))%Z with j by lia.
    + exact P.
    + rewrite Z2Nat.id by lia. now replace (jmin r + (j - jmin r))%Z with j by lia.
Qed.

Lemma banded_subsampled : forall n, exists b,
  new_banded_matrix (length rows) s n ia ja a = Ok b /\ b_n b = n /\ subsampled rows s b.
Proof.
  intro n. rewrite banded_spec. cbv zeta. set (L := (length rows + s - 1) / s).
  eexists. split; [reflexivity|]. split; [reflexivity|]. split; cbn [b_m].
  { intro t. apply steps_count, Hs. }
  intros t r Hr j v He.
  assert (Ht : t < L). { apply steps_count; [exact Hs|]. apply nth_error_Some. congruence. }
  assert (Hp : nth_error (chosen L) t = Some r).
  { unfold chosen. rewrite nth_error_map.
    rewrite (nth_error_nth' (seq 0 L) 0) by (rewrite seq_length; exact Ht). rewrite seq_nth by exact Ht.
    cbn. f_equal. pose proof (pick_nth t) as P. rewrite P in Hr; [congruence|]. now apply steps_count. }
  unfold banded_element. cbn [b_ia b_ja b_a].
  replace (t + 1 - 1) with t by lia.
  exists (1 + Z.of_nat (total (firstn t (chosen L))))%Z,
    (1 + Z.of_nat (total (firstn (t + 1) (chosen L))))%Z, (jmin r).
  rewrite (Z.add_comm (Z.of_nat (total (chosen L))) 1).
  rewrite !starts_nth by (rewrite chosen_length; lia).
  split; [reflexivity|]. split; [reflexivity|].
  split; [rewrite nth_error_map, Hp; reflexivity|].
  assert (W : total (firstn (t + 1) (chosen L)) = total (firstn t (chosen L)) + width r).
  { clear - Hp. revert t Hp. induction (chosen L) as [|x l IH]; intros [|t] Hp; cbn in Hp; try discriminate.
    - injection Hp as ->. unfold total. cbn. lia.
    - specialize (IH t Hp). cbn [plus firstn]. unfold total in *. cbn [map list_sum fold_right].
      unfold list_sum in *. lia. }
  rewrite W. set (T := total (firstn t (chosen L))) in *.
  assert (Hsp : spans r) by (apply Hspan; now apply nth_error_In with (t * s)).
  destruct (Z_le_dec (jmin r) j) as [A|A]; [destruct (Z_lt_dec j (jmin r + Z.of_nat (width r))) as [B|B]|].
  - left. split; [lia|]. split; [lia|].
    replace (Z.to_nat (1 + Z.of_nat T + (j - jmin r) - 1)) with (T + Z.to_nat (j - jmin r)) by lia.
    unfold T. rewrite (dense_concat_nth (chosen L) t r (Z.to_nat (j - jmin r)) Hp) by lia.
    apply dense_elements; [|exact Hsp|exact He|lia]. intro E. subst r. cbn in B, A. lia.
  - right. split; [lia|]. destruct He as [Hi|[_ He]]; [|exact He]. exfalso.
    assert (Hr0 : r <> []) by (intro E; subst r; destruct Hi).
    destruct (spans_offset r j Hsp (in_map fst r (j, v) Hi) Hr0). lia.
  - right. split; [lia|]. destruct He as [Hi|[_ He]]; [|exact He]. exfalso.
    assert (Hr0 : r <> []) by (intro E; subst r; destruct Hi).
    destruct (spans_offset r j Hsp (in_map fst r (j, v) Hi) Hr0). lia.
Qed.
End Fill.
