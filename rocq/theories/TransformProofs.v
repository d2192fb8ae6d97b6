From Coq Require Import Reals Lra.
From Verif Require Import Base BaseLemmas ReaderModel UncModel UncProofs UncProofs2 MuModel MuProofs SampleSpec SampleProofs TransformModel TransformSpec.
Open Scope nat_scope.

(** ** lists *)
Lemma rsum_cons x l : rsum (x :: l) = (x + rsum l)%R.
Proof. reflexivity. Qed.
Lemma rsum_app l1 l2 : rsum (l1 ++ l2) = (rsum l1 + rsum l2)%R.
Proof. induction l1 as [|a l1 IH]; cbn [app]; [change (rsum []) with 0%R; lra|]. rewrite !rsum_cons, IH. lra. Qed.
Lemma rsum_partition {A} (p : A -> bool) (f : A -> R) l :
  rsum (map f l) = (rsum (map f (filter p l)) + rsum (map f (filter (fun a => negb (p a)) l)))%R.
Proof.
  induction l as [|a l IH]; cbn [map filter]; [change (rsum []) with 0%R; lra|]. rewrite rsum_cons, IH.
  destruct (p a); cbn [negb map]; rewrite rsum_cons; lra.
Qed.
Lemma rsum_ext {A} (f g : A -> R) l : (forall a, In a l -> f a = g a) -> rsum (map f l) = rsum (map g l).
Proof. intros H. f_equal. apply map_ext_in. auto. Qed.
Lemma rsum_scale {A} (f : A -> R) c l : rsum (map (fun a => (f a * c)%R) l) = (rsum (map f l) * c)%R.
Proof. induction l as [|a l IH]; cbn [map]; [change (rsum []) with 0%R; lra|]. rewrite !rsum_cons, IH. lra. Qed.

Lemma setitem_mid {A} (pre xs post : list A) c v : c < length xs ->
  setitem (length pre + c) v (pre ++ xs ++ post) = Ok (pre ++ upd c v xs ++ post).
Proof.
  intros H. unfold setitem. rewrite !app_length. destruct (Nat.ltb_spec (length pre + c) (length pre + (length xs + length post))); [|lia].
  f_equal. induction pre as [|a pre IH]; cbn.
  - clear - H. revert c H. induction xs as [|x xs IH]; intros [|c] H; cbn in *; try lia; [reflexivity|].
    f_equal. apply IH. lia.
  - f_equal. apply IH. cbn in *. lia.
Qed.
Lemma setitem_ok {A} (xs : list A) c v : c < length xs -> setitem c v xs = Ok (upd c v xs).
Proof. intros H. unfold setitem. rewrite (proj2 (Nat.ltb_lt _ _) H). reflexivity. Qed.
Lemma get_mid {A} (pre xs post : list A) c : c < length xs -> get (pre ++ xs ++ post) (length pre + c) = get xs c.
Proof.
  intros H. unfold get. rewrite nth_error_app2 by lia. replace (length pre + c - length pre) with c by lia.
  rewrite nth_error_app1 by auto. reflexivity.
Qed.
Lemma get_nth {A} (l : list A) c d : c < length l -> get l c = Ok (nth c l d).
Proof. intros H. apply get_ok. apply nth_error_nth'. auto. Qed.
Lemma nth_upd {A} c c' (v : A) l d : c < length l -> nth c' (upd c v l) d = if c =? c' then v else nth c' l d.
Proof.
  intros H. destruct (Nat.eqb_spec c c') as [->|Hn].
  - apply nth_nth_error. apply upd_nth_same. auto.
  - destruct (nth_error l c') as [x|] eqn:E.
    + rewrite (nth_nth_error _ _ _ _ E). apply nth_nth_error. rewrite upd_nth_other; auto.
    + rewrite (nth_overflow (upd c v l)), (nth_overflow l); auto; [apply nth_error_None; auto|].
      rewrite upd_length. apply nth_error_None; auto.
Qed.

(** ** entries of a row *)
Section Row.
Variables (w : csr R) (N nc : nat).
Hypothesis Sh : csr_shape w N nc.

Lemma row_bounds i : i < N -> exists p q, nth_error (c_indptr R w) i = Some p /\ nth_error (c_indptr R w) (i + 1) = Some q /\
  p <= q <= length (c_indices R w) /\ nth i (c_indptr R w) 0 = p /\ nth (i + 1) (c_indptr R w) 0 = q.
Proof.
  intros H. destruct Sh as (_ & _ & Hl & _ & Hp & _).
  destruct (nth_error (c_indptr R w) i) as [p|] eqn:E1; [|apply nth_error_None in E1; lia].
  destruct (nth_error (c_indptr R w) (i + 1)) as [q|] eqn:E2; [|apply nth_error_None in E2; lia].
  exists p, q. split; [auto|]. split; [auto|]. split; [eapply Hp; eauto|]. split; apply nth_nth_error; auto.
Qed.
Lemma combine_fst {A B} (l : list A) (l' : list B) : length l = length l' -> map fst (combine l l') = l.
Proof. revert l'; induction l; intros [|b l'] H; cbn in *; try discriminate; auto. f_equal. apply IHl. lia. Qed.
Lemma combine_snd {A B} (l : list A) (l' : list B) : length l = length l' -> map snd (combine l l') = l'.
Proof. revert l'; induction l; intros [|b l'] H; cbn in *; try discriminate; auto. f_equal. apply IHl. lia. Qed.
Lemma slice_length' {A} s e (l : list A) : s <= e <= length l -> length (slice s e l) = e - s.
Proof. intros H. unfold slice. rewrite firstn_length, skipn_length. lia. Qed.

Lemma row_cols_entries i p q : i < N -> nth_error (c_indptr R w) i = Some p -> nth_error (c_indptr R w) (i + 1) = Some q ->
  slice p q (c_indices R w) = map fst (row_entries w i) /\ slice p q (c_data R w) = map snd (row_entries w i).
Proof.
  intros Hi Hp Hq. destruct (row_bounds i Hi) as (p' & q' & H1 & H2 & H3 & H4 & H5).
  rewrite Hp in H1. injection H1 as ->. rewrite Hq in H2. injection H2 as ->.
  unfold row_entries. rewrite H4, H5. destruct Sh as (_ & _ & _ & Hd & _).
  assert (length (slice p' q' (c_indices R w)) = length (slice p' q' (c_data R w))).
  { rewrite !slice_length' by lia. reflexivity. }
  rewrite combine_fst, combine_snd by auto. auto.
Qed.
Lemma entry_col i c : i < N -> In c (map fst (row_entries w i)) -> c < nc.
Proof.
  intros Hi H. destruct (row_bounds i Hi) as (p & q & H1 & H2 & _).
  destruct (row_cols_entries i p q Hi H1 H2) as (E & _). rewrite <- E in H. apply in_slice in H as (k & _ & Hk).
  destruct Sh as (_ & _ & _ & _ & _ & Hc). apply Hc. eapply nth_error_In; eauto.
Qed.

Lemma used_before_S i c : used_before w (S i) c = used_before w i c || existsb (fun e => fst e =? c) (row_entries w i).
Proof. unfold used_before. rewrite seq_S. cbn [plus]. rewrite existsb_app. cbn. rewrite orb_false_r. reflexivity. Qed.
Lemma used_before_in r i c : r < i -> In c (map fst (row_entries w r)) -> used_before w i c = true.
Proof.
  intros H Hc. unfold used_before. apply existsb_exists. exists r. split; [apply in_seq; lia|].
  apply existsb_exists. apply in_map_iff in Hc as (e & <- & He). exists e. split; [auto|]. apply Nat.eqb_refl.
Qed.
End Row.

(** ** writing new columns *)
Section Solve.
Variables (w : csr R) (u : list R) (N : nat).
Hypothesis Sh : csr_shape w N (length u).
Hypothesis Sol : solvable w N.
Hypothesis Hu : nonzero u.
Variables (pre post : list R).

Definition write_col (value : R) (st : list R * list bool) (col : nat) : res (list R * list bool) :=
  do uc <- get u col;;
  do vals' <- setitem (length pre + col) (value / uc)%R (fst st);;
  do enc' <- setitem col true (snd st);;
  Ok (vals', enc').

Lemma write_fold value cs xs enc : length xs = length u -> length enc = length u -> (forall c, In c cs -> c < length u) ->
  exists xs' enc', foldM (write_col value) cs (pre ++ xs ++ post, enc) = Ok (pre ++ xs' ++ post, enc') /\
    length xs' = length u /\ length enc' = length u /\
    (forall c, nth c xs' 0%R = if existsb (Nat.eqb c) cs then (value / nth c u 0)%R else nth c xs 0%R) /\
    (forall c, c < length u -> nth c enc' false = nth c enc false || existsb (Nat.eqb c) cs).
Proof.
  revert xs enc. induction cs as [|c0 cs IH]; intros xs enc Hx He Hc.
  - exists xs, enc. cbn. repeat split; auto. intros. rewrite orb_false_r. auto.
  - assert (H0 : c0 < length u) by (apply Hc; left; auto).
    cbn [foldM]. unfold write_col at 1. rewrite (get_nth u c0 0%R H0). cbn [bind fst snd].
    rewrite setitem_mid by lia. cbn [bind]. rewrite setitem_ok by lia. cbn [bind].
    destruct (IH (upd c0 (value / nth c0 u 0)%R xs) (upd c0 true enc)) as (xs' & enc' & -> & L1 & L2 & P1 & P2).
    + rewrite upd_length; auto.
    + rewrite upd_length; auto.
    + intros; apply Hc; right; auto.
    + exists xs', enc'. split; [reflexivity|]. split; [auto|]. split; [auto|]. split.
      * intros c. rewrite P1. cbn [existsb]. destruct (existsb (Nat.eqb c) cs) eqn:Ex; [rewrite orb_true_r; auto|].
        rewrite orb_false_r. rewrite nth_upd by lia. rewrite (Nat.eqb_sym c c0).
        destruct (Nat.eqb_spec c0 c) as [->|]; auto.
      * intros c Hlt. rewrite P2 by auto. rewrite nth_upd by lia. cbn [existsb]. rewrite (Nat.eqb_sym c c0).
        destruct (Nat.eqb_spec c0 c) as [->|]; cbn; [destruct (nth c enc false); cbn; auto|auto].
Qed.

Lemma foldM_ext {S A} (f g : S -> A -> res S) l s : (forall s a, f s a = g s a) -> foldM f l s = foldM g l s.
Proof. intros H. apply foldM_ext_in. auto. Qed.

Lemma filter_combine_map {A} (es : list A) (f : A -> nat) (g : A -> bool) (k : nat) :
  filter (fun p => snd p) (combine (combine (seq k (length (map f es))) (map f es)) (map g es)) =
  map (fun p => (fst p, f (snd p), true)) (filter (fun p => g (snd p)) (combine (seq k (length es)) es)).
Proof.
  revert k. induction es as [|e es IH]; intros k; cbn; [reflexivity|]. specialize (IH (S k)). rewrite map_length in IH. rewrite map_length.
  destruct (g e) eqn:E; cbn; rewrite IH; reflexivity.
Qed.
Lemma filter_combine_map' {A} (es : list A) (f : A -> nat) (g : A -> bool) (k : nat) :
  filter (fun p => negb (snd p)) (combine (combine (seq k (length (map f es))) (map f es)) (map g es)) =
  map (fun p => (fst p, f (snd p), false)) (filter (fun p => negb (g (snd p))) (combine (seq k (length es)) es)).
Proof.
  revert k. induction es as [|e es IH]; intros k; cbn; [reflexivity|]. specialize (IH (S k)). rewrite map_length in IH. rewrite map_length.
  destruct (g e) eqn:E; cbn; rewrite IH; reflexivity.
Qed.
Lemma filter_snd {A} (es : list A) (g : A -> bool) k :
  map snd (filter (fun p => g (snd p)) (combine (seq k (length es)) es)) = filter g es.
Proof. revert k; induction es as [|e es IH]; intros k; cbn; [auto|]. destruct (g e); cbn; rewrite IH; auto. Qed.

Lemma filter_length_le' {A} (p : A -> bool) l : length (filter p l) <= length l.
Proof. induction l; cbn; auto. destruct (p a); cbn; lia. Qed.
Lemma filter_length_all {A} (p : A -> bool) l : length (filter p l) = length l -> filter p l = l.
Proof.
  induction l as [|a l IH]; cbn; intros H; [auto|]. destruct (p a); cbn in H.
  - f_equal. apply IH. lia.
  - pose proof (filter_length_le' p l). lia.
Qed.
Lemma filter_map_length {A B} (p : B -> bool) (f : A -> B) l : length (filter p (map f l)) = length (filter (fun a => p (f a)) l).
Proof. induction l; cbn; auto. destruct (p (f a)); cbn; auto. Qed.

Lemma solve_row_ok x xs enc i : i < N -> length xs = length u -> length enc = length u ->
  (forall c, c < length u -> nth c enc false = used_before w i c) ->
  exists xs' enc', solve_row w u (length pre) x (pre ++ xs ++ post, enc) i = Ok (pre ++ xs' ++ post, enc') /\
    length xs' = length u /\ length enc' = length u /\
    (forall c, c < length u -> nth c enc' false = used_before w (S i) c) /\
    row_apply w (fun c => (nth c u 0 * nth c xs' 0)%R) i = x /\
    (forall c, used_before w i c = true -> nth c xs' 0%R = nth c xs 0%R).
Proof.
  intros Hi Hx He Henc. destruct (row_bounds w N (length u) Sh i Hi) as (p & q & H1 & H2 & _).
  destruct (row_cols_entries w N (length u) Sh i p q Hi H1 H2) as (Ec & Ed).
  pose proof (entry_col w N (length u) Sh i) as Hcol.
  destruct (Sol i Hi) as (Hnd & Hnew & Hfull & Hpart).
  set (es := row_entries w i) in *. set (isnew := fun e : nat * R => negb (used_before w i (fst e))) in *.
  assert (Hes : forall e, In e es -> fst e < length u) by (intros e H; apply Hcol; auto; apply in_map; auto).
  unfold solve_row. rewrite (proj2 (get_ok _ _ _) H1), (proj2 (get_ok _ _ _) H2). cbn [bind]. rewrite Ec, Ed.
  assert (Em : mapM (get enc) (map fst es) = Ok (map (fun e => used_before w i (fst e)) es)).
  { rewrite <- (map_map fst (used_before w i)). apply mapM_Ok_map. intros c Hc. apply in_map_iff in Hc as (e & <- & H).
    rewrite (get_nth enc _ false) by (rewrite He; auto). rewrite Henc by auto. reflexivity. }
  rewrite Em. cbn [bind]. change (fun (value : R) (st : list R * list bool) (col : nat) =>
     do uc <- get u col;; do vals' <- setitem (length pre + col) (value / uc)%R (fst st);;
     do enc' <- setitem col true (snd st);; Ok (vals', enc')) with write_col.
  (* the effect of writing [value] to the new columns *)
  assert (Hin : forall c, In c (map fst (filter isnew es)) <-> In c (map fst es) /\ used_before w i c = false).
  { intros c. rewrite !in_map_iff. split.
    - intros (e & <- & H). apply filter_In in H as (H & E). unfold isnew in E. apply negb_true_iff in E. split; [exists e; auto|auto].
    - intros ((e & <- & H) & E). exists e. split; [auto|]. apply filter_In. split; [auto|]. unfold isnew. rewrite E. auto. }
  assert (Hmain : forall value,
    (rsum (map (fun e => snd e * (nth (fst e) u 0 * nth (fst e) xs 0))%R (filter (fun e => negb (isnew e)) es))
     + rsum (map snd (filter isnew es)) * value = x)%R ->
    exists xs' enc', foldM (write_col value) (map fst (filter isnew es)) (pre ++ xs ++ post, enc) = Ok (pre ++ xs' ++ post, enc') /\
    length xs' = length u /\ length enc' = length u /\
    (forall c, c < length u -> nth c enc' false = used_before w (S i) c) /\
    row_apply w (fun c => (nth c u 0 * nth c xs' 0)%R) i = x /\
    (forall c, used_before w i c = true -> nth c xs' 0%R = nth c xs 0%R)).
  { intros value Hval.
    destruct (write_fold value (map fst (filter isnew es)) xs enc Hx He) as (xs' & enc' & Ef & L1 & L2 & P1 & P2).
    { intros c Hc. apply Hin in Hc as (Hc & _). apply Hcol; auto. }
    exists xs', enc'. split; [auto|]. split; [auto|]. split; [auto|]. split; [|split].
    - intros c Hc. rewrite P2, Henc by auto. rewrite used_before_S. fold es.
      destruct (used_before w i c) eqn:Eu; [reflexivity|]. cbn [orb].
      apply Bool.eq_iff_eq_true. rewrite !existsb_exists. split.
      + intros (c' & Hc' & E). apply Nat.eqb_eq in E. subst c'. apply Hin in Hc' as (Hc' & _).
        apply in_map_iff in Hc' as (e & <- & H). exists e. split; [auto|apply Nat.eqb_refl].
      + intros (e & H & E). apply Nat.eqb_eq in E. subst c. exists (fst e). split; [|apply Nat.eqb_refl].
        apply Hin. split; [apply in_map; auto|auto].
    - unfold row_apply. fold es. change (fold_right Rplus 0%R) with rsum.
      rewrite (rsum_partition isnew). rewrite <- Hval, Rplus_comm. f_equal.
      + apply rsum_ext. intros e H. apply filter_In in H as (H & E). apply negb_true_iff in E. rewrite P1.
        replace (existsb (Nat.eqb (fst e)) (map fst (filter isnew es))) with false; [auto|]. symmetry.
        apply Bool.not_true_iff_false. intros Hc. apply existsb_exists in Hc as (c & Hc & E'). apply Nat.eqb_eq in E'. subst c.
        apply Hin in Hc as (_ & Hc). unfold isnew in E. rewrite Hc in E. discriminate.
      + rewrite <- rsum_scale. apply rsum_ext. intros e H. rewrite P1.
        replace (existsb (Nat.eqb (fst e)) (map fst (filter isnew es))) with true.
        * apply filter_In in H as (H & _). field. apply Hu. apply nth_In. auto.
        * symmetry. apply existsb_exists. exists (fst e). split; [apply in_map; auto|apply Nat.eqb_refl].
    - intros c Hc. rewrite P1. replace (existsb (Nat.eqb c) (map fst (filter isnew es))) with false; [auto|]. symmetry.
      apply Bool.not_true_iff_false. intros Hx'. apply existsb_exists in Hx' as (c' & Hc' & E'). apply Nat.eqb_eq in E'. subst c'.
      apply Hin in Hc' as (_ & Hc'). congruence. }
  rewrite filter_map_length, map_length. change (fun a => negb (used_before w i (fst a))) with isnew.
  destruct (Nat.eqb_spec (length (filter isnew es)) (length es)) as [Hall|Hall].
  - apply filter_length_all in Hall. destruct (Hmain x) as (xs' & enc' & Hm).
    + rewrite Hall. replace (filter (fun e => negb (isnew e)) es) with (@nil (nat * R)).
      * cbn [map]. change (rsum (map snd es)) with (fold_right Rplus 0%R (map snd es)). rewrite (Hfull Hall). cbn. lra.
      * symmetry. rewrite <- Hall at 1. clear. induction es as [|e es IH]; cbn; auto.
        destruct (isnew e) eqn:E; cbn; [rewrite E; cbn; auto|auto].
    + rewrite Hall in Hm. exists xs', enc'. exact Hm.
  - assert (Hpos : 0 < length (filter isnew es)) by (destruct (filter isnew es); [congruence|cbn; lia]).
    rewrite (proj2 (Nat.ltb_lt _ _) Hpos).
    unfold enumerate. rewrite (filter_combine_map es fst (fun e => used_before w i (fst e)) 0).
    rewrite (filter_combine_map' es fst (fun e => used_before w i (fst e)) 0).
    set (E1 := filter (fun p : nat * (nat * R) => used_before w i (fst (snd p))) (combine (seq 0 (length es)) es)).
    set (E2 := filter (fun p : nat * (nat * R) => negb (used_before w i (fst (snd p)))) (combine (seq 0 (length es)) es)).
    assert (S1 : map snd E1 = filter (fun e => negb (isnew e)) es).
    { unfold E1. rewrite (filter_snd es (fun e => used_before w i (fst e)) 0). apply filter_ext. intros e.
      unfold isnew. rewrite negb_involutive. auto. }
    assert (S2 : map snd E2 = filter isnew es) by (unfold E2; apply (filter_snd es isnew 0)).
    assert (Hk : forall k e, In (k, e) (combine (seq 0 (length es)) es) -> get (map snd es) k = Ok (snd e)).
    { intros k e H. apply get_ok. change (combine (seq 0 (length es)) es) with (enumerate es) in H.
      apply in_enumerate in H. rewrite nth_error_map'. rewrite H. reflexivity. }
    assert (T1 : mapM (fun p : nat * nat * bool =>
                  do wi <- get (map snd es) (fst (fst p));;
                  do v <- get (pre ++ xs ++ post) (length pre + snd (fst p));;
                  do uc <- get u (snd (fst p));;
                  Ok (wi * v * uc)%R) (map (fun p : nat * (nat * R) => (fst p, fst (snd p), true)) E1)
               = Ok (map (fun e => snd e * (nth (fst e) u 0 * nth (fst e) xs 0))%R (filter (fun e => negb (isnew e)) es))).
    { rewrite <- S1, map_map.
      rewrite (mapM_Ok_map _ (fun p : nat * nat * bool => nth (fst (fst p)) (map snd es) 0 * (nth (snd (fst p)) u 0 * nth (snd (fst p)) xs 0))%R).
      - f_equal. rewrite map_map. apply map_ext_in. intros [k e] H. cbn [fst snd].
        apply filter_In in H as (H & _). specialize (Hk k e H). apply get_ok in Hk. rewrite (nth_nth_error _ _ _ _ Hk). reflexivity.
      - intros [[k c] b] H. cbn [fst snd]. apply in_map_iff in H as ([k' e] & E & H). injection E as -> <- <-.
        apply filter_In in H as (H & _). pose proof (Hk k e H) as Hk'. rewrite Hk'. cbn [bind].
        assert (He' : In e es) by (eapply in_combine_r; eauto).
        rewrite get_mid by (rewrite Hx; auto). rewrite (get_nth xs _ 0%R) by (rewrite Hx; auto). cbn [bind].
        rewrite (get_nth u _ 0%R) by auto. cbn [bind]. apply get_ok in Hk'. rewrite (nth_nth_error _ _ _ _ Hk'). f_equal. cbn [fst snd]. ring. }
    rewrite T1. cbn [bind].
    assert (T2 : mapM (fun p : nat * nat * bool => get (map snd es) (fst (fst p))) (map (fun p : nat * (nat * R) => (fst p, fst (snd p), false)) E2)
               = Ok (map snd (filter isnew es))).
    { rewrite <- S2, map_map.
      rewrite (mapM_Ok_map _ (fun p : nat * nat * bool => nth (fst (fst p)) (map snd es) 0%R)).
      - f_equal. rewrite map_map. apply map_ext_in. intros [k e] H. cbn [fst snd].
        apply filter_In in H as (H & _). specialize (Hk k e H). apply get_ok in Hk. rewrite (nth_nth_error _ _ _ _ Hk). reflexivity.
      - intros [[k c] b] H. cbn [fst snd]. apply in_map_iff in H as ([k' e] & E & H). injection E as -> <- <-.
        apply filter_In in H as (H & _). pose proof (Hk k e H) as Hk'. rewrite Hk'. apply get_ok in Hk'. rewrite (nth_nth_error _ _ _ _ Hk'). reflexivity. }
    rewrite T2. cbn [bind].
    replace (map (fun p : nat * nat * bool => snd (fst p)) (map (fun p : nat * (nat * R) => (fst p, fst (snd p), false)) E2))
      with (map fst (filter isnew es)) by (rewrite <- S2, !map_map; reflexivity).
    apply Hmain. set (A := rsum (map (fun e => snd e * _)%R _)). set (B := rsum (map snd (filter isnew es))).
    assert (HB : B <> 0%R).
    { apply Hpart. intros E. apply Hall. rewrite E. auto. }
    field. auto.
Qed.

Lemma rows_ok (src : nat -> R) xs enc k n : k + n <= N -> length xs = length u -> length enc = length u ->
  (forall c, c < length u -> nth c enc false = used_before w k c) ->
  (forall r, r < k -> row_apply w (fun c => (nth c u 0 * nth c xs 0)%R) r = src r) ->
  exists xs' enc', foldM (fun st r => solve_row w u (length pre) (src r) st r) (seq k n) (pre ++ xs ++ post, enc)
      = Ok (pre ++ xs' ++ post, enc') /\ length xs' = length u /\
    (forall r, r < k + n -> row_apply w (fun c => (nth c u 0 * nth c xs' 0)%R) r = src r).
Proof.
  revert k xs enc. induction n as [|n IH]; intros k xs enc Hk Hx He Henc Hrows.
  - exists xs, enc. cbn. split; [auto|]. split; [auto|]. intros r Hr. apply Hrows. lia.
  - cbn [seq foldM]. destruct (solve_row_ok (src k) xs enc k ltac:(lia) Hx He Henc) as (xs1 & enc1 & -> & L1 & L2 & P1 & P2 & P3).
    destruct (IH (S k) xs1 enc1 ltac:(lia) L1 L2 P1) as (xs' & enc' & Ef & L & P).
    + intros r Hr. assert (Hr' : r = k \/ r < k) by lia. destruct Hr' as [->|Hr']; [auto|].
      rewrite <- (Hrows r Hr'). unfold row_apply. change (fold_right Rplus 0%R) with rsum. apply rsum_ext. intros e He'. rewrite P3; [auto|].
      eapply used_before_in; [exact Hr'|]. apply in_map; auto.
    + exists xs', enc'. split; [auto|]. split; [auto|]. intros r Hr. apply P. lia.
Qed.
End Solve.

Lemma solve_block_ok (w : csr R) (u : list R) N (pre post src : list R) istart :
  csr_shape w N (length u) -> solvable w N -> nonzero u -> istart + N <= length src ->
  exists xs, solve_block w u (length pre) istart (istart + N) src (pre ++ repeat 0%R (length u) ++ post) = Ok (pre ++ xs ++ post) /\
    length xs = length u /\
    forall r, r < N -> row_apply w (fun c => (nth c u 0 * nth c xs 0)%R) r = nth (istart + r) src 0%R.
Proof.
  intros Sh Sol Hu Hl. unfold solve_block. replace (istart + N - istart) with N by lia.
  assert (Hnc : c_ncols R w = length u) by apply Sh. rewrite Hnc.
  assert (Ee : enumerate (seq istart N) = map (fun r => (r, istart + r)) (seq 0 N)).
  { assert (G : forall N k, combine (seq k N) (seq (istart + k) N) = map (fun r => (r, istart + r)) (seq k N)).
    { clear. induction N as [|N IH]; intros k; cbn [seq combine map]; [auto|]. f_equal. rewrite <- IH. do 2 f_equal. lia. }
    unfold enumerate. rewrite seq_length. rewrite <- (G N 0). do 2 f_equal. lia. }
  rewrite Ee, foldM_map. cbn [fst snd].
  rewrite (foldM_ext_in _ (fun st r => solve_row w u (length pre) (nth (istart + r) src 0%R) st r)).
  2:{ intros st r Hr. apply in_seq in Hr. rewrite (get_nth src _ 0%R) by lia. reflexivity. }
  destruct (rows_ok w u N Sh Sol Hu pre post (fun r => nth (istart + r) src 0%R) (repeat 0%R (length u)) (repeat false (length u)) 0 N)
    as (xs & enc & -> & L & P).
  - lia.
  - apply repeat_length.
  - apply repeat_length.
  - intros c Hc. rewrite nth_repeat. reflexivity.
  - intros r Hr. lia.
  - cbn [bind fst]. exists xs. auto.
Qed.
