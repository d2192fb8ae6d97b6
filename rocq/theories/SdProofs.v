(** * Proofs for C148: rows of generated W matrices. *)
From Coq Require Import Reals Lra Sorted.
From Verif Require Import Base BaseLemmas ReaderModel UncModel UncSpec GNModel WModel WSpec WProofs WProofs2 WProofs3.
Open Scope nat_scope.

(** Every row has an entry, the first not right of the last. *)
Definition filled (W : csr R) : Prop :=
  forall i p q, nth_error (c_indptr R W) i = Some p -> nth_error (c_indptr R W) (i + 1) = Some q ->
    p < q /\ q <= length (c_indices R W) /\ forall lo hi, nth_error (c_indices R W) p = Some lo -> nth_error (c_indices R W) (q - 1) = Some hi -> lo <= hi.

Lemma rows_filled_csr nc (rows : list (list (nat * R))) :
  (forall r, In r rows -> r <> [] /\ forall a b, nth_error r 0 = Some a -> nth_error r (length r - 1) = Some b -> fst a <= fst b) -> filled (csr_of_rows nc rows).
Proof.
  intros H i p q Hp Hq. cbn [csr_of_rows c_indptr c_indices] in *. set (ls := map (@length (nat * R)) rows) in *.
  assert (Hi : i < length rows). { assert (i + 1 < length (cumul 0 ls)) by (apply nth_error_Some; congruence). rewrite cumul_length in H0. unfold ls in H0. rewrite map_length in H0. lia. }
  assert (Ll : length ls = length rows) by apply map_length. rewrite cumul_nth in Hp, Hq by lia. injection Hp as <-. injection Hq as <-. cbn [Nat.add].
  destruct (nth_error rows i) as [r|] eqn:Er; [|apply nth_error_None in Er; lia].
  assert (EL : nth_error ls i = Some (length r)) by (unfold ls; rewrite nth_error_map', Er; reflexivity).
  assert (S1 : list_sum (firstn (i + 1) ls) = list_sum (firstn i ls) + length r).
  { destruct (nth_error_split ls i EL) as (l1 & l2 & E1 & E2). rewrite E1, <- E2. rewrite (firstn_app (length l1)), Nat.sub_diag, firstn_all. cbn [firstn]. rewrite app_nil_r. replace (length l1 + 1) with (length (l1 ++ [length r])) by (rewrite app_length; reflexivity).
    replace (l1 ++ length r :: l2) with ((l1 ++ [length r]) ++ l2) by (rewrite <- app_assoc; reflexivity). rewrite firstn_app, Nat.sub_diag, firstn_all. cbn [firstn]. rewrite app_nil_r, list_sum_app. cbn. lia. }
  destruct (nth_error_split rows i Er) as (r1 & r2 & E1 & E2).
  assert (S0 : length (concat r1) = list_sum (firstn i ls)). { unfold ls. rewrite E1, map_app, <- E2, firstn_app, map_length, Nat.sub_diag, <- (map_length (@length (nat * R)) r1), firstn_all. cbn [firstn]. rewrite app_nil_r. clear. induction r1; cbn; [reflexivity|]. rewrite app_length, IHr1. reflexivity. }
  destruct (H r (nth_error_In _ _ Er)) as (NE & HO). assert (Lr : length r <> 0) by (destruct r; [congruence|discriminate]).
  assert (NT : forall k, k < length r -> nth_error (map fst (concat rows)) (list_sum (firstn i ls) + k) = option_map fst (nth_error r k)).
  { intros k Hk. rewrite nth_error_map'. f_equal. rewrite E1, concat_app. cbn [concat]. rewrite nth_error_app2 by lia. rewrite S0. replace (list_sum (firstn i ls) + k - list_sum (firstn i ls)) with k by lia. apply nth_error_app1. exact Hk. }
  split; [lia|]. split.
  - rewrite S1, map_length, E1, concat_app. cbn [concat]. rewrite !app_length, S0. lia.
  - intros lo hi Hlo Hhi. rewrite <- (Nat.add_0_r (list_sum (firstn i ls))), NT in Hlo by lia. replace (list_sum (firstn (i + 1) ls) - 1) with (list_sum (firstn i ls) + (length r - 1)) in Hhi by lia. rewrite NT in Hhi by lia.
    destruct (nth_error r 0) as [a|] eqn:E0; [|discriminate]. destruct (nth_error r (length r - 1)) as [b|] eqn:Eb; [|discriminate]. injection Hlo as <-. injection Hhi as <-. apply HO; reflexivity.
Qed.
Lemma filled_ordered W i p q : wf_csr W -> filled W -> nth_error (c_indptr R W) i = Some p -> nth_error (c_indptr R W) (i + 1) = Some q -> p <= q.
Proof. intros _ H Hp Hq. destruct (H i p q Hp Hq). lia. Qed.

Lemma renumber_sorted cols : StronglySorted lt cols -> NoDup cols -> forall row, StronglySorted lt (map fst row) -> StronglySorted lt (map fst (renumber cols row)) /\
  forall n, In n (map fst (renumber cols row)) -> exists c, In c (map fst row) /\ nth_error cols n = Some c.
Proof.
  intros Hs Hn. induction row as [|(c & x) row IH]; intros HR; [split; [constructor|intros n []]|]. cbn [map fst] in HR. inversion HR as [|? ? HR1 HR2]; subst. destruct (IH HR1) as (I1 & I2).
  cbn [renumber flat_map fst snd]. fold (renumber cols row). destruct (index_of c cols) as [k|] eqn:Ek; cbn [app map fst].
  - apply index_of_nth in Ek; auto. split.
    + constructor; [exact I1|]. apply Forall_forall. intros n0 Hi. rename n0 into n. destruct (I2 n Hi) as (c' & Hc' & E'). rewrite Forall_forall in HR2. specialize (HR2 c' Hc').
      destruct (Nat.lt_trichotomy k n) as [L|[L|L]]; [exact L| |].
      * rewrite <- L in E'. rewrite E' in Ek. injection Ek as <-. lia.
      * pose proof (sorted_nth cols Hs n k c' c L E' Ek). lia.
    + intros m Hm. destruct Hm as [E|Hi]; [subst m; exists c; split; [left; reflexivity|exact Ek]|]. destruct (I2 m Hi) as (c' & Hc' & E'). exists c'. split; [right; exact Hc'|exact E'].
  - split; [exact I1|]. intros m Hi. destruct (I2 m Hi) as (c' & Hc' & E'). exists c'. split; [right; exact Hc'|exact E'].
Qed.
Lemma renumber_in cols row c : NoDup cols -> In c cols -> In c (map fst row) -> renumber cols row <> [].
Proof.
  intros Hn Hc Hi E. apply in_map_iff in Hi. destruct Hi as ((c' & x) & Ec & Hi). cbn in Ec. subst c'. apply In_nth_error in Hc. destruct Hc as (n & Hc). apply (index_of_nth c cols n Hn) in Hc.
  assert (In (n, x) (renumber cols row)) by (unfold renumber; apply in_flat_map; exists (c, x); split; [exact Hi|]; cbn [fst snd]; rewrite Hc; left; reflexivity). rewrite E in H. destruct H.
Qed.
Lemma sorted_ends (l : list nat) a b : StronglySorted lt l -> nth_error l 0 = Some a -> nth_error l (length l - 1) = Some b -> a <= b.
Proof.
  intros H Ha Hb. destruct (Nat.eq_dec (length l - 1) 0) as [E|E]; [rewrite E in Hb; rewrite Ha in Hb; injection Hb as <-; lia|]. pose proof (sorted_nth l H 0 (length l - 1) a b ltac:(lia) Ha Hb). lia.
Qed.
Lemma seq_sorted a n : StronglySorted lt (seq a n).
Proof. pose proof (filter_sorted (fun _ => true) n a) as H. replace (filter (fun _ => true) (seq a n)) with (seq a n) in H; [exact H|]. clear H. induction (seq a n) as [|x l IH]; [reflexivity|]. cbn. f_equal. exact IH. Qed.
Lemma combine_fst {A B} : forall (a : list A) (b : list B), length a = length b -> map fst (combine a b) = a.
Proof. induction a as [|x a IH]; intros [|y b] E; try discriminate; [reflexivity|]. cbn. rewrite IH; auto. Qed.

Theorem gen_filled times dt ku wt ks ws x W u : kernel ku wt ks = Ok ws -> nth_error ws 0 = Some x -> x <> 0%R -> gen_w times dt ku wt ks = Ok (W, u) -> filled W.
Proof.
  intros Hk Hx Nx H. unfold gen_w in H. rewrite Hk in H. cbn [bind] in H. destruct (column_positions times dt) as [pos|] eqn:Ep; [|discriminate]. cbn [bind] in H.
  destruct (pymax _) as [mx|] eqn:Em in H; [|discriminate]. cbn [bind] in H.
  assert (HK : forall x, In x (repeat ws (length pos)) -> length x = length ws) by (intros y Hy; apply repeat_spec in Hy; subst; auto).
  rewrite flat_map_const, (kmat_new (length ws) pos (repeat ws (length pos)) (mx + 1) HK (repeat_length _ _)) in H. cbn [bind] in H. set (w := kmat (length ws) pos (repeat ws (length pos)) (mx + 1)) in *.
  assert (EW : W = csr_select w (nonzero_columns w)).
  { destruct ku; repeat (match type of H with bind ?x _ = _ => destruct x as [?|] eqn:?; cbn [bind] in H; [|discriminate] end); injection H as <- _; reflexivity. }
  rewrite EW. unfold csr_select. apply rows_filled_csr. intros r Hr. apply in_map_iff in Hr. destruct Hr as (i & <- & Hi). apply in_seq in Hi. change (c_nrows R w) with (length pos) in Hi.
  destruct (nth_error pos i) as [p|] eqn:Epi; [|apply nth_error_None in Epi; lia].
  assert (ER : csr_row w i = combine (seq p (length ws)) ws).
  { unfold csr_row, w, kmat. cbn [c_indptr c_indices c_data].
    assert (P : forall k, k <= length pos -> nth k (map (fun i => i * length ws) (seq 0 (length pos + 1))) 0 = k * length ws).
    { intros k Hk'. apply nth_error_nth. rewrite nth_error_map. rewrite (nth_error_nth' _ 0) by (rewrite seq_length; lia). rewrite seq_nth by lia. reflexivity. }
    rewrite !P by lia. rewrite (slice_blocks _ (length ws) pos i p) by (auto using seq_length). rewrite (slice_blocks' (length ws) _ i ws) by (auto; apply repeat_nth; lia). reflexivity. }
  rewrite ER. assert (LS : map fst (combine (seq p (length ws)) ws) = seq p (length ws)) by (apply combine_fst, seq_length).
  assert (W0 : 0 < length ws) by (apply nth_error_Some; congruence).
  destruct (renumber_sorted (nonzero_columns w) (filter_sorted _ _ _) (used_nodup w) (combine (seq p (length ws)) ws) ltac:(rewrite LS; apply seq_sorted)) as (RS & _).
  split.
  - apply (renumber_in _ _ p (used_nodup w)); [|rewrite LS; apply in_seq; lia]. apply used_iff. change (c_ncols R w) with (mx + 1). change (c_nrows R w) with (length pos). split.
    + assert (In p (flat_map (fun p => seq p (length ws)) pos)) by (apply in_flat_map; exists p; split; [eapply nth_error_In; eauto|apply in_seq; lia]). pose proof (pymax_le _ _ Em _ H0). lia.
    + exists i. split; [lia|]. unfold w. rewrite (kmat_entry (length ws) pos _ _ i p ws p HK Epi) by (apply repeat_nth; lia). unfold weight. rewrite Z.sub_diag. cbn. rewrite (nth_error_nth _ _ 0%R Hx). exact Nx.
  - intros a b Ha Hb. apply (sorted_ends _ _ _ RS); [apply map_nth_error; exact Ha|rewrite map_length; apply map_nth_error; exact Hb].
Qed.
