(** Proofs: the stores of matrices. *)
From Verif Require Import Base FoModel FoSpec FoProofs.
From Coq Require Import QArith Qabs Sorting.Sorted.
Open Scope nat_scope.
Open Scope list_scope.

Lemma add_to_room : forall (A : Type) c (x : A) l, length l < c ->
  add_to c x l = (l ++ [x], Z.of_nat (length l) + 1)%Z.
Proof. intros A c x l H. unfold add_to. apply Nat.ltb_lt in H. now rewrite H. Qed.
Lemma add_to_full : forall (A : Type) c (x : A) l, c <= length l -> add_to c x l = (l, 0%Z).
Proof. intros A c x l H. unfold add_to. apply Nat.ltb_ge in H. now rewrite H. Qed.

Lemma section_app : forall (A : Type) (p q r : list A) b e,
  b = (Z.of_nat (length p) + 1)%Z -> e = (Z.of_nat (length p) + Z.of_nat (length q))%Z ->
  section (p ++ q ++ r) b e = Ok q.
Proof.
  intros A p q r b e -> ->. unfold section.
  replace (Z.to_nat (Z.of_nat (length p) + Z.of_nat (length q) - (Z.of_nat (length p) + 1) + 1))
    with (length q) by lia.
  revert p. induction q as [|x q IH]; intro p; [reflexivity|].
  cbn [length seq mapM].
  rewrite (fget_of_nat' _ _ _ (length p + 0)) by lia.
  rewrite (get_app_mid _ p (x :: q) r 0 x eq_refl).
  specialize (IH (p ++ [x])). rewrite <- app_assoc in IH. cbn [app] in IH.
  rewrite <- seq_shift.
  assert (E : forall l, mapM (fun t => fget (p ++ (x :: q) ++ r) (Z.of_nat (length p) + 1 + Z.of_nat t)) (map S l)
    = mapM (fun t => fget (p ++ x :: q ++ r) (Z.of_nat (length (p ++ [x])) + 1 + Z.of_nat t)) l).
  { induction l as [|t l IHl]; [reflexivity|]. cbn [map mapM]. rewrite IHl.
    rewrite app_length. cbn [length].
    replace (Z.of_nat (length p) + 1 + Z.of_nat (S t))%Z with (Z.of_nat (length p + 1) + 1 + Z.of_nat t)%Z by lia.
    reflexivity. }
  rewrite E, IH. reflexivity.
Qed.

Lemma add_v_all : forall big vs st0 p q, length (st_v st0) + length vs <= st_capacity st0 ->
  foldM (fun acc mk =>
    let '(st, is, m_final) := acc in
    do rows <- section (p ++ concat vs ++ q) (m_final + 1) (m_final + Z.of_nat mk);;
    let '(st, i) := add_v_matrix big st rows in
    Ok (st, is ++ [i], m_final + Z.of_nat mk)%Z) (map (@length fnum) vs) (st0, [], Z.of_nat (length p))
  = Ok (mkStore (st_capacity st0) (st_b st0) (st_d st0) (st_v st0 ++ map (map (sq big)) vs) (st_w st0),
        idx_from (length (st_v st0)) (length vs), Z.of_nat (length (p ++ concat vs))).
Proof.
  intros big vs st0 p q. 
  enough (G : forall is0, length (st_v st0) + length vs <= st_capacity st0 ->
    foldM (fun acc mk =>
    let '(st, is, m_final) := acc in
    do rows <- section (p ++ concat vs ++ q) (m_final + 1) (m_final + Z.of_nat mk);;
    let '(st, i) := add_v_matrix big st rows in
    Ok (st, is ++ [i], m_final + Z.of_nat mk)%Z) (map (@length fnum) vs) (st0, is0, Z.of_nat (length p))
    = Ok (mkStore (st_capacity st0) (st_b st0) (st_d st0) (st_v st0 ++ map (map (sq big)) vs) (st_w st0),
        is0 ++ idx_from (length (st_v st0)) (length vs), Z.of_nat (length (p ++ concat vs))))
    by apply (G []).
  revert st0 p. induction vs as [|v vs IH]; intros st0 p is0 H.
  - cbn. rewrite !app_nil_r. now destruct st0.
  - cbn [map foldM concat]. rewrite <- (app_assoc v).
    rewrite (section_app _ p v (concat vs ++ q)) by lia. cbn [bind].
    unfold add_v_matrix at 1. rewrite add_to_room by (cbn in H; lia). cbv beta iota.
    specialize (IH (mkStore (st_capacity st0) (st_b st0) (st_d st0) (st_v st0 ++ [map (sq big) v]) (st_w st0))
      (p ++ v) (is0 ++ [Z.of_nat (length (st_v st0)) + 1]%Z)).
    cbn [st_capacity st_b st_d st_v st_w] in IH. rewrite !app_length in IH. cbn [length] in IH.
    rewrite <- (app_assoc p v (concat vs ++ q)) in IH. rewrite Nat2Z.inj_add in IH. rewrite IH by (cbn in H; lia).
    f_equal. f_equal; [f_equal|].
    + f_equal. rewrite <- (app_assoc (st_v st0)). reflexivity.
    + unfold idx_from. cbn [seq map length]. rewrite <- (app_assoc is0). cbn [app].
      do 2 f_equal. now rewrite Nat.add_1_r.
    + rewrite !app_length. lia.
Qed.

Lemma add_v_storage : forall big st vs, length (st_v st) + length vs <= st_capacity st ->
  add_v_matrices big st (map (@length fnum) vs) (concat vs)
  = Ok (mkStore (st_capacity st) (st_b st) (st_d st) (st_v st ++ map (map (sq big)) vs) (st_w st),
        idx_from (length (st_v st)) (length vs)).
Proof.
  intros big st vs H. unfold add_v_matrices.
  pose proof (add_v_all big vs st [] [] H) as E. cbn [app length] in E. rewrite app_nil_r in E.
  change (Z.of_nat 0) with 0%Z in E. rewrite E. reflexivity.
Qed.

(** ** W matrices *)
Lemma mapM_all : forall (A B : Type) (f : A -> res B) g l, (forall x, In x l -> f x = Ok (g x)) ->
  mapM f l = Ok (map g l).
Proof.
  induction l as [|x l IH]; intro H; cbn; [reflexivity|].
  rewrite (H x (or_introl eq_refl)), IH by (intros; apply H; now right). reflexivity.
Qed.

Lemma firstn_all_length : forall (rows : list srow), firstn (length rows) rows = rows.
Proof. intro rows. apply firstn_all. Qed.

Lemma shift_pointers : forall rows base,
  map (fun x => x + 1)%Z (row_pointers base rows) = row_pointers (base + 1) rows.
Proof.
  induction rows as [|r rows IH]; intro base; cbn [row_pointers map]; [reflexivity|].
  rewrite IH. f_equal. f_equal. lia.
Qed.

Lemma crs_ok : forall mats m base, mats <> [] -> (forall rows, In rows mats -> length rows = m) ->
  base = 0%Z \/ base = 1%Z ->
  assert_fortran_crs_format m (map stored mats) (map (row_pointers base) mats)
    (concat (map (col_indices base) mats))
  = Ok (map (row_pointers 1) mats, concat (map (col_indices 1) mats)).
Proof.
  intros mats m base Hne Hm Hb. unfold assert_fortran_crs_format.
  rewrite (mapM_all _ _ _ (fun r => nth m r 0%Z)).
  2: { intros x Hx. apply in_map_iff in Hx. destruct Hx as (rows & <- & Hx).
       rewrite (fget_of_nat' _ _ _ m) by lia. pose proof (pointers_get rows base m ltac:(rewrite (Hm _ Hx); lia)) as P.
       rewrite P. unfold get in P. destruct (nth_error (row_pointers base rows) m) eqn:E; [|discriminate].
       injection P as P. rewrite (nth_error_nth _ _ _ E). now rewrite P. }
  cbn [bind].
  assert (S1 : map (fun p => (fst p - snd p)%Z)
     (combine (map (fun r => nth m r 0%Z) (map (row_pointers base) mats)) (map stored mats))
     = map (fun _ => base) mats).
  { clear Hne Hb. induction mats as [|rows mats IH]; [reflexivity|]. cbn [map combine fst snd].
    rewrite IH by (intros; apply Hm; now right). f_equal.
    pose proof (pointers_get rows base m ltac:(rewrite (Hm _ (or_introl eq_refl)); lia)) as P.
    unfold get in P. destruct (nth_error (row_pointers base rows) m) eqn:E; [|discriminate].
    injection P as P. rewrite (nth_error_nth _ _ _ E), P.
    rewrite <- (Hm rows (or_introl eq_refl)), firstn_all. unfold stored. lia. }
  rewrite S1. destruct mats as [|rows mats]; [congruence|].
  change (fget (map (fun _ => base) (rows :: mats)) 1) with (@Ok Z base). cbn [bind].
  assert (F : forallb (fun x => (x =? base)%Z) (map (fun _ : list srow => base) (rows :: mats)) = true).
  { apply forallb_forall. intros x Hx. apply in_map_iff in Hx. destruct Hx as (y & <- & _). apply Z.eqb_refl. }
  rewrite F. clear S1 F.
  destruct Hb as [-> | ->]; cbn [Z.eqb orb negb]; [|reflexivity].
  f_equal. f_equal.
  - rewrite map_map. apply map_ext. intro x. apply (shift_pointers x 0).
  - rewrite concat_map, map_map. f_equal. apply map_ext. intro x. unfold col_indices.
    rewrite map_map. apply map_ext. intro e. lia.
Qed.

Lemma fold_max_ge : forall l z, (z <= fold_left Z.max l z)%Z.
Proof. induction l as [|x l IH]; intro z; cbn; [lia|]. specialize (IH (Z.max z x)). lia. Qed.
Lemma fold_max_in : forall l z x, In x l -> (x <= fold_left Z.max l z)%Z.
Proof.
  induction l as [|y l IH]; intros z x H; [destruct H|]. cbn. destruct H as [->|H].
  - pose proof (fold_max_ge l (Z.max z x)). lia.
  - now apply IH.
Qed.
Lemma fold_max_or : forall l z, fold_left Z.max l z = z \/ In (fold_left Z.max l z) l.
Proof.
  induction l as [|y l IH]; intro z; cbn; [now left|].
  destruct (IH (Z.max z y)) as [E|H]; [|now right; right].
  rewrite E. destruct (Z.max_spec z y) as [[_ ->]|[_ ->]]; [right; now left|now left].
Qed.

Lemma maxval_last : forall rows, concat rows <> [] ->
  (forall c v, In (c, v) (concat rows) -> (1 <= c)%Z) ->
  last_column rows (maxval (ja1 rows)).
Proof.
  intros rows Hne Hp. unfold maxval, ja1, last_column. split.
  - intros c v H. apply fold_max_in. apply (in_map fst _ (c, v) H).
  - destruct (fold_max_or (map fst (concat rows)) (-2147483648)%Z) as [E|H].
    + exfalso. destruct (concat rows) as [|[c v] l] eqn:El; [congruence|].
      pose proof (Hp c v (or_introl eq_refl)).
      pose proof (fold_max_in (map fst ((c, v) :: l)) (-2147483648)%Z c (or_introl eq_refl)). lia.
    + apply in_map_iff in H. destruct H as ([c v] & <- & H). now exists v.
Qed.

Definition w_of (s : nat) (rows : list srow) (w : banded) : Prop :=
  subsampled rows s w /\ b_n w = maxval (ja1 rows).

Lemma add_w_all : forall s mats st0 is0 m pj pa, 0 < s ->
  (forall rows, In rows mats -> length rows = m /\ forall r, In r rows -> spans r) ->
  length (st_w st0) + length mats <= st_capacity st0 -> length pj = length pa ->
  exists ws, Forall2 (w_of s) mats ws /\
  foldM (fun acc p =>
    let '(st, is, n_final) := acc in
    let '(iak, nnzk) := p in
    do jak <- section (pj ++ concat (map (col_indices 1) mats)) (n_final + 1) (n_final + nnzk);;
    do ak <- section (pa ++ concat (map elements mats)) (n_final + 1) (n_final + nnzk);;
    do w <- new_banded_matrix m s (maxval jak) iak jak ak;;
    let '(st, i) := add_w_matrix st w in
    Ok (st, is ++ [i], n_final + nnzk)%Z) (combine (map (row_pointers 1) mats) (map stored mats))
      (st0, is0, Z.of_nat (length pj))
  = Ok (mkStore (st_capacity st0) (st_b st0) (st_d st0) (st_v st0) (st_w st0 ++ ws),
        is0 ++ idx_from (length (st_w st0)) (length mats),
        Z.of_nat (length (pj ++ concat (map (col_indices 1) mats)))).
Proof.
  intros s mats. induction mats as [|rows mats IH]; intros st0 is0 m pj pa Hs Hm Hc Hp.
  - exists []. split; [constructor|]. cbn. rewrite !app_nil_r. now destruct st0.
  - destruct (Hm rows (or_introl eq_refl)) as [Hl Hsp].
    destruct (banded_subsampled rows s Hs Hsp (maxval (ja1 rows))) as (w & Ew & En & Hw).
    assert (Lj : length (col_indices 1 rows) = length (concat rows)) by (unfold col_indices; apply map_length).
    assert (La : length (elements rows) = length (concat rows)) by (unfold elements; apply map_length).
    destruct (IH (mkStore (st_capacity st0) (st_b st0) (st_d st0) (st_v st0) (st_w st0 ++ [w]))
      (is0 ++ [Z.of_nat (length (st_w st0)) + 1]%Z) m (pj ++ col_indices 1 rows) (pa ++ elements rows) Hs
      (fun r h => Hm r (or_intror h))) as (ws & F & E).
    { cbn [st_w st_capacity]. rewrite app_length. cbn [length] in *. lia. }
    { rewrite !app_length. lia. }
    exists (w :: ws). split; [constructor; [now split|exact F]|].
    cbn [st_capacity st_b st_d st_v st_w] in E.
    cbn [map combine foldM concat].
    rewrite (section_app _ pj (col_indices 1 rows) (concat (map (col_indices 1) mats)))
      by (unfold stored; lia). cbn [bind].
    rewrite (section_app _ pa (elements rows) (concat (map elements mats))) by (unfold stored; lia). cbn [bind].
    rewrite (col_indices_1 rows) at 1 2. rewrite <- Hl, Ew. rewrite Hl. cbn [bind].
    unfold add_w_matrix at 1. rewrite add_to_room by (cbn [length] in Hc; lia). cbv beta iota.
    rewrite <- !app_assoc in E.
    replace (Z.of_nat (length pj) + stored rows)%Z with (Z.of_nat (length (pj ++ col_indices 1 rows)))
      by (rewrite app_length; unfold stored; lia).
    rewrite E. f_equal. f_equal. f_equal. f_equal.
    rewrite app_length. cbn [length app]. unfold idx_from. cbn [seq map].
    now rewrite Nat.add_1_r.
Qed.

Lemma add_w_storage : forall st m s base mats, 0 < s -> mats <> [] -> base = 0%Z \/ base = 1%Z ->
  (forall rows, In rows mats -> length rows = m /\ forall r, In r rows -> spans r) ->
  length (st_w st) + length mats <= st_capacity st ->
  exists ws, Forall2 (w_of s) mats ws /\
    add_w_matrices st m s (map stored mats) (map (row_pointers base) mats)
      (concat (map (col_indices base) mats)) (concat (map elements mats))
    = Ok (mkStore (st_capacity st) (st_b st) (st_d st) (st_v st) (st_w st ++ ws),
          idx_from (length (st_w st)) (length mats)).
Proof.
  intros st m s base mats Hs Hne Hb Hm Hc.
  destruct (add_w_all s mats st [] m [] [] Hs Hm Hc eq_refl) as (ws & F & E).
  exists ws. split; [exact F|]. unfold add_w_matrices.
  rewrite (crs_ok mats m base Hne (fun r h => proj1 (Hm r h)) Hb). cbn [bind].
  cbn [app length] in E. change (Z.of_nat 0) with 0%Z in E. rewrite E. reflexivity.
Qed.

Lemma w_of_matrix : forall s m rows w, sparse_matrix m rows -> w_of s rows w -> w_matrix s rows w.
Proof.
  intros s m rows w (_ & _ & Hc & Hn) [Hs En]. split; [exact Hs|]. rewrite En. now apply maxval_last.
Qed.

Lemma w_storage : forall st m s base mats, 0 < s -> mats <> [] -> base = 0%Z \/ base = 1%Z ->
  (forall rows, In rows mats -> sparse_matrix m rows) ->
  length (st_w st) + length mats <= st_capacity st ->
  exists ws, Forall2 (w_matrix s) mats ws /\
    add_w_matrices st m s (map stored mats) (map (row_pointers base) mats)
      (concat (map (col_indices base) mats)) (concat (map elements mats))
    = Ok (mkStore (st_capacity st) (st_b st) (st_d st) (st_v st) (st_w st ++ ws),
          idx_from (length (st_w st)) (length mats)).
Proof.
  intros st m s base mats Hs Hn Hb Hm Hc.
  destruct (add_w_storage st m s base mats Hs Hn Hb) as (ws & F & E); [|exact Hc|].
  - intros rows Hr. destruct (Hm _ Hr) as (L & O & _). split; [exact L|]. intros r Hi.
    apply ordered_spans. now apply O.
  - exists ws. split; [|exact E]. clear E Hn Hc. revert Hm. induction F as [|x y xs ys Hw F IH]; intro Hm; constructor.
    + apply (w_of_matrix s m); [apply Hm; now left|exact Hw].
    + apply IH. intros r Hr. apply Hm. now right.
Qed.

Lemma banded_of_rows : forall rows s, 0 < s -> (forall r, In r rows -> ordered_row r) ->
  forall n, exists b,
    new_banded_matrix (length rows) s n (row_pointers 1 rows) (col_indices 1 rows) (elements rows) = Ok b
    /\ b_n b = n /\ subsampled rows s b.
Proof.
  intros rows s Hs Ho n. rewrite col_indices_1.
  apply (banded_subsampled rows s Hs). intros r Hr. apply ordered_spans. now apply Ho.
Qed.
