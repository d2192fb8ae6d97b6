(** * Proofs for C45: rounding and sparse matrices. *)
From Coq Require Import Reals Lra Sorting.Sorted.
From Verif Require Import Base BaseLemmas ReaderModel ReaderMain UncModel UncSpec TransformModel TransformProofs EvalModel GNModel SimModel SimProofs WModel WSpec.
Open Scope nat_scope.

(** ** Rounding *)
Lemma pround_nearest x : nearest x (pround x).
Proof.
  unfold nearest, pround. destruct (Rle_dec 0 x).
  - destruct (base_Int_part (x + / 2)) as (A & B). apply Rabs_le. lra.
  - destruct (base_Int_part (- x + / 2)) as (A & B). rewrite opp_IZR. apply Rabs_le. lra.
Qed.
Lemma nearest_unique x n m : (Rabs (x - IZR n) < / 2)%R -> nearest x m -> m = n.
Proof.
  unfold nearest. intros H1 H2. apply Rabs_def2 in H1. assert (H3 : (- / 2 <= x - IZR m <= / 2)%R) by (split; [apply Rabs_def2' || idtac|]; revert H2; unfold Rabs; destruct (Rcase_abs _); lra).
  assert (-1 < IZR (m - n) < 1)%R by (rewrite minus_IZR; lra). destruct H as (A & B). apply lt_IZR in A, B. lia.
Qed.
Lemma round2_near x : (Rabs (round2 x - x) <= / 200)%R.
Proof.
  unfold round2. pose proof (pround_nearest (x * 100)) as H. unfold nearest in H. assert (- / 2 <= x * 100 - IZR (pround (x * 100)) <= / 2)%R by (revert H; unfold Rabs; destruct (Rcase_abs _); lra).
  apply Rabs_le. lra.
Qed.
Lemma position_ok t0 dt i t z : (1 / 100 < dt)%R -> (i = 0 -> t = t0) -> scan_position t0 dt (i, t) = Ok z -> nearest ((t - t0) / dt)%R z.
Proof.
  intros Hd H0. unfold scan_position. destruct (Nat.eqb_spec i 0) as [->|_].
  - intros E. injection E as <-. rewrite H0 by auto. unfold nearest. replace ((t0 - t0) / dt - IZR 0)%R with 0%R by (field; lra). rewrite Rabs_R0. lra.
  - destruct (Req_EM_T dt 0) as [E|_]; [exfalso; lra|]. intros E. injection E as <-. set (n := pround ((t - t0) / dt)).
    replace (pround (round2 (dt * IZR n) / dt)) with n; [apply pround_nearest|]. symmetry. eapply nearest_unique; [|apply pround_nearest].
    pose proof (round2_near (dt * IZR n)) as H. replace (round2 (dt * IZR n) / dt - IZR n)%R with ((round2 (dt * IZR n) - dt * IZR n) * / dt)%R by (field; lra).
    rewrite Rabs_mult. assert (0 < / dt)%R by (apply Rinv_0_lt_compat; lra). rewrite (Rabs_right (/ dt)) by lra.
    assert (/ dt < 100)%R by (replace 100%R with (/ (1 / 100))%R by lra; apply Rinv_lt_contravar; [apply Rmult_lt_0_compat; lra|auto]).
    pose proof (Rabs_pos (round2 (dt * IZR n) - dt * IZR n)). apply Rle_lt_trans with (/ 200 * / dt)%R; [apply Rmult_le_compat_r; lra|]. lra.
Qed.

(** ** Entries of sparse matrices *)
Definition entry_of (row : list (nat * R)) (j : nat) : R := rsum (map snd (filter (fun p => fst p =? j) row)).
Lemma entry_row w i j : csr_entry w i j = entry_of (csr_row w i) j.
Proof. reflexivity. Qed.
Lemma slice_concat {A} (rows : list (list A)) i r : nth_error rows i = Some r -> slice (list_sum (firstn i (map (@length A) rows))) (list_sum (firstn (i + 1) (map (@length A) rows))) (concat rows) = r.
Proof.
  revert i. induction rows as [|a rows IH]; intros [|i] H; try discriminate.
  - cbn [nth_error] in H. injection H as ->. cbn [firstn map Nat.add concat]. change (list_sum []) with 0. cbn [list_sum fold_right]. unfold slice. cbn [skipn]. rewrite Nat.add_0_r, Nat.sub_0_r, firstn_app, Nat.sub_diag, firstn_all, firstn_O, app_nil_r. reflexivity.
  - cbn [nth_error] in H. cbn [firstn map Nat.add concat]. change (list_sum (length a :: ?l)) with (length a + list_sum l). specialize (IH i H). unfold slice in *. rewrite skipn_app, (skipn_all2 a) by lia. cbn [app]. replace (length a + _ - length a) with (list_sum (firstn i (map (@length A) rows))) by lia.
    replace (length a + list_sum (firstn (i + 1) (map (@length A) rows)) - (length a + list_sum (firstn i (map (@length A) rows)))) with (list_sum (firstn (i + 1) (map (@length A) rows)) - list_sum (firstn i (map (@length A) rows))) by lia. exact IH.
Qed.
Lemma slice_map' {A B} (g : A -> B) s e l : slice s e (map g l) = map g (slice s e l).
Proof. unfold slice. rewrite skipn_map, firstn_map. reflexivity. Qed.
Lemma combine_split' {A B} (l : list (A * B)) : combine (map fst l) (map snd l) = l.
Proof. induction l as [|[a b] l IH]; cbn; congruence. Qed.
Lemma row_of_rows nc rows i r : nth_error rows i = Some r -> csr_row (csr_of_rows nc rows) i = r.
Proof.
  intros H. assert (Hi : i < length rows) by (apply nth_error_Some; congruence). unfold csr_row, csr_of_rows. cbn [c_indptr c_indices c_data].
  assert (C : forall k, k <= length rows -> nth k (cumul 0 (map (@length _) rows)) 0 = list_sum (firstn k (map (@length _) rows))).
  { intros k Hk. apply nth_error_nth. rewrite cumul_nth by (rewrite map_length; lia). reflexivity. }
  rewrite !C by lia.
  rewrite !slice_map', combine_split'. apply slice_concat, H.
Qed.
Lemma index_of_nth c cols n : NoDup cols -> (index_of c cols = Some n <-> nth_error cols n = Some c).
Proof.
  revert n. induction cols as [|d cols IH]; intros n Hn; cbn [index_of]; [destruct n; split; discriminate|]. inversion Hn as [|? ? Hd Hn']. subst. destruct (Nat.eqb_spec d c) as [->|Hc].
  - split; [intros E; injection E as <-; reflexivity|]. destruct n as [|n]; [auto|]. cbn [nth_error]. intros E. exfalso. apply Hd. eapply nth_error_In; eauto.
  - destruct n as [|n]; [split; [destruct (index_of c cols); discriminate|cbn [nth_error]; intros E; injection E as ->; congruence]|]. cbn [nth_error]. rewrite <- IH by auto. destruct (index_of c cols); cbn [option_map]; split; congruence.
Qed.
Lemma index_of_in c cols n : NoDup cols -> index_of c cols = Some n -> n < length cols.
Proof. intros Hn H. apply index_of_nth in H; [|auto]. apply nth_error_Some. congruence. Qed.
Lemma entry_renumber cols row n c : NoDup cols -> nth_error cols n = Some c -> entry_of (renumber cols row) n = entry_of row c.
Proof.
  intros Hn Hc. unfold entry_of. induction row as [|[d x] row IH]; [reflexivity|]. cbn [renumber flat_map fst snd filter]. fold (renumber cols row). rewrite filter_app, map_app.
  destruct (Nat.eqb_spec d c) as [->|Hd].
  - rewrite (proj2 (index_of_nth c cols n Hn) Hc). cbn [filter fst map snd app]. rewrite Nat.eqb_refl. cbn [map snd app]. unfold rsum in *. cbn [fold_right]. f_equal. exact IH.
  - destruct (index_of d cols) as [m|] eqn:E; [|exact IH]. cbn [filter fst]. destruct (Nat.eqb_spec m n) as [->|]; [|exact IH]. exfalso. apply index_of_nth in E; [|auto]. congruence.
Qed.
Lemma select_entry w cols i n c : NoDup cols -> i < c_nrows R w -> nth_error cols n = Some c -> csr_entry (csr_select w cols) i n = csr_entry w i c.
Proof.
  intros Hn Hi Hc. rewrite !entry_row. unfold csr_select. rewrite (row_of_rows _ _ i (renumber cols (csr_row w i))); [apply entry_renumber; auto|].
  rewrite nth_error_map. replace (nth_error (seq 0 (c_nrows R w)) i) with (Some i); [reflexivity|]. symmetry. rewrite (nth_error_nth' _ 0) by (rewrite seq_length; auto). rewrite seq_nth; auto.
Qed.

(** ** The kernel matrix *)
Lemma slice_blocks {A B} (g : A -> list B) K l i a : (forall x, length (g x) = K) -> nth_error l i = Some a -> slice (i * K) ((i + 1) * K) (flat_map g l) = g a.
Proof.
  intros HK. revert i. induction l as [|x l IH]; intros [|i] H; try discriminate.
  - cbn [nth_error] in H. injection H as ->. cbn [flat_map Nat.mul Nat.add]. unfold slice. cbn [skipn]. rewrite Nat.add_0_r, Nat.sub_0_r, firstn_app, HK, Nat.sub_diag, firstn_O, app_nil_r. rewrite <- (HK a). apply firstn_all.
  - cbn [nth_error] in H. specialize (IH i H). cbn [flat_map]. unfold slice in *. replace (S i * K) with (K + i * K) by lia. rewrite skipn_app, (skipn_all2 (g x)) by (rewrite HK; lia). rewrite HK. replace (K + i * K - K) with (i * K) by lia. cbn [app].
    replace ((S i + 1) * K - (K + i * K)) with ((i + 1) * K - i * K) by lia. exact IH.
Qed.
Lemma slice_blocks' {B} K (rows : list (list B)) i r : (forall x, In x rows -> length x = K) -> nth_error rows i = Some r -> slice (i * K) ((i + 1) * K) (concat rows) = r.
Proof.
  intros HK. revert i. induction rows as [|x l IH]; intros [|i] H; try discriminate.
  - cbn [nth_error] in H. injection H as ->. cbn [concat Nat.mul Nat.add]. unfold slice. cbn [skipn]. rewrite Nat.add_0_r, Nat.sub_0_r, firstn_app, (HK r) by (left; auto). rewrite Nat.sub_diag, firstn_O, app_nil_r. rewrite <- (HK r) by (left; auto). apply firstn_all.
  - cbn [nth_error] in H. specialize (IH ltac:(intros; apply HK; right; auto) i H). cbn [concat]. unfold slice in *. replace (S i * K) with (K + i * K) by lia. rewrite skipn_app, (skipn_all2 x) by (rewrite HK by (left; auto); lia). rewrite HK by (left; auto). replace (K + i * K - K) with (i * K) by lia. cbn [app].
    replace ((S i + 1) * K - (K + i * K)) with ((i + 1) * K - i * K) by lia. exact IH.
Qed.
Lemma entry_kernel ws : forall p j, entry_of (combine (seq p (length ws)) ws) j = weight ws (Z.of_nat j - Z.of_nat p).
Proof.
  induction ws as [|a ws IH]; intros p j; [unfold entry_of, weight; cbn; destruct (_ <=? _)%Z; [destruct (Z.to_nat _)|]; reflexivity|].
  cbn [length seq combine]. unfold entry_of. cbn [filter fst]. specialize (IH (S p) j). unfold entry_of in IH. destruct (Nat.eqb_spec p j) as [->|Hj].
  - cbn [map snd]. unfold rsum in *. cbn [fold_right]. rewrite IH. unfold weight. replace (0 <=? Z.of_nat j - Z.of_nat (S j))%Z with false by (symmetry; apply Z.leb_gt; lia). replace (0 <=? Z.of_nat j - Z.of_nat j)%Z with true by (symmetry; apply Z.leb_le; lia).
    replace (Z.to_nat (Z.of_nat j - Z.of_nat j)) with 0 by lia. cbn [nth]. lra.
  - rewrite IH. unfold weight. destruct (0 <=? Z.of_nat j - Z.of_nat p)%Z eqn:E1.
    + apply Z.leb_le in E1. replace (0 <=? Z.of_nat j - Z.of_nat (S p))%Z with true by (symmetry; apply Z.leb_le; lia). replace (Z.to_nat (Z.of_nat j - Z.of_nat p)) with (S (Z.to_nat (Z.of_nat j - Z.of_nat (S p)))) by lia. reflexivity.
    + apply Z.leb_gt in E1. replace (0 <=? Z.of_nat j - Z.of_nat (S p))%Z with false by (symmetry; apply Z.leb_gt; lia). reflexivity.
Qed.
Definition kmat (K : nat) (pos : list nat) (rows : list (list R)) (nc : nat) : csr R :=
  mkCsr R (concat rows) (flat_map (fun p => seq p K) pos) (map (fun i => i * K) (seq 0 (length pos + 1))) (length pos) nc.
Lemma kmat_entry K pos rows nc i p r j : (forall x, In x rows -> length x = K) -> nth_error pos i = Some p -> nth_error rows i = Some r -> csr_entry (kmat K pos rows nc) i j = weight r (Z.of_nat j - Z.of_nat p).
Proof.
  intros HK Hp Hr. assert (Hi : i < length pos) by (apply nth_error_Some; congruence). rewrite entry_row. unfold csr_row, kmat. cbn [c_indptr c_indices c_data].
  assert (P : forall k, k <= length pos -> nth k (map (fun i => i * K) (seq 0 (length pos + 1))) 0 = k * K).
  { intros k Hk. apply nth_error_nth. rewrite nth_error_map. rewrite (nth_error_nth' _ 0) by (rewrite seq_length; lia). rewrite seq_nth by lia. reflexivity. }
  rewrite !P by lia. rewrite (slice_blocks _ K pos i p) by (auto using seq_length). rewrite (slice_blocks' K rows i r) by auto.
  rewrite <- (HK r) by (eapply nth_error_In; eauto). apply entry_kernel.
Qed.
Lemma flat_length {A B} (g : A -> list B) K l : (forall x, length (g x) = K) -> length (flat_map g l) = length l * K.
Proof. intros H. induction l; cbn; [reflexivity|]. rewrite app_length, H, IHl. reflexivity. Qed.
Lemma concat_len {B} K (rows : list (list B)) : (forall x, In x rows -> length x = K) -> length (concat rows) = length rows * K.
Proof. intros H. induction rows as [|r rows IH]; cbn; [reflexivity|]. rewrite app_length, H by (left; auto). rewrite IH by (intros; apply H; right; auto). reflexivity. Qed.
Lemma kmat_new K pos rows nc : (forall x, In x rows -> length x = K) -> length rows = length pos ->
  csr_new R (concat rows) (flat_map (fun p => seq p K) pos) (map (fun i => i * K) (seq 0 (length pos + 1))) (length pos) nc = Ok (kmat K pos rows nc).
Proof.
  intros HK HL. unfold csr_new. rewrite map_length, seq_length, Nat.eqb_refl, (flat_length _ K) by (intros; apply seq_length). rewrite (concat_len K) by auto. rewrite HL, Nat.eqb_refl.
  assert (L : last (map (fun i => i * K) (seq 0 (length pos + 1))) 0 = length pos * K).
  { replace (length pos + 1) with (S (length pos)) by lia. rewrite seq_S, map_app. cbn [map]. apply last_last. }
  rewrite L, Nat.leb_refl. replace (length pos + 1) with (S (length pos)) at 1 by lia. reflexivity.
Qed.
