(** * Matrices: block sums, quadratic forms, Cholesky factors.  Proofs only. *)
From Coq Require Import Reals Lra Psatz.
From Verif Require Import Base BaseLemmas ReaderModel UncModel MuModel MuProofs SampleSpec SampleProofs TransformModel TransformSpec TransformProofs TransformProofs2 TransformMain EvalModel GNModel GNSpec GNAlgebra GNTerms GNMain GNLoop GNTotal GNForward GNForward2 GNResidual GNOutput PCModel PCSpec.
Open Scope nat_scope.

(** Sums over 0..n-1. *)
Definition sm (n : nat) (f : nat -> R) : R := rsum (map f (seq 0 n)).
Lemma sm_S n f : sm (S n) f = (f 0%nat + sm n (fun i => f (S i)))%R.
Proof. unfold sm. cbn [seq map]. rewrite rsum_cons, <- seq_shift, map_map. reflexivity. Qed.
Lemma sm_ext n f g : (forall i, i < n -> f i = g i) -> sm n f = sm n g.
Proof. intros H. apply rsum_ext. intros i Hi. apply in_seq in Hi. apply H. lia. Qed.
Lemma sm_plus n f g : sm n (fun i => f i + g i)%R = (sm n f + sm n g)%R.
Proof. apply rsum_plus. Qed.
Lemma sm_scal n c f : sm n (fun i => c * f i)%R = (c * sm n f)%R.
Proof. apply rsum_scal_l. Qed.
Lemma sm_scal_r n c f : sm n (fun i => f i * c)%R = (sm n f * c)%R.
Proof. rewrite Rmult_comm, <- sm_scal. apply sm_ext. intros; ring. Qed.
Lemma sm_zero n f : (forall i, i < n -> f i = 0%R) -> sm n f = 0%R.
Proof. intros H. rewrite (sm_ext n f (fun _ => 0%R)) by auto. apply rsum_zero. Qed.
Lemma sm_swap n k (f : nat -> nat -> R) : sm n (fun i => sm k (f i)) = sm k (fun j => sm n (fun i => f i j)).
Proof. apply rsum_swap. Qed.
Lemma sm_nonneg n f : (forall i, i < n -> (0 <= f i)%R) -> (0 <= sm n f)%R.
Proof.
  revert f. induction n as [|n IH]; intros f H; [cbn; lra|]. rewrite sm_S. specialize (IH (fun i => f (S i)) (fun i Hi => H (S i) ltac:(lia))).
  specialize (H 0 ltac:(lia)). lra.
Qed.
Lemma sm_pos n f i : (forall i, i < n -> (0 <= f i)%R) -> i < n -> (0 < f i)%R -> (0 < sm n f)%R.
Proof.
  revert f i. induction n as [|n IH]; intros f i H Hi Hp; [lia|]. rewrite sm_S. destruct i as [|i].
  - pose proof (sm_nonneg n (fun i => f (S i)) (fun i Hi => H (S i) ltac:(lia))). lra.
  - specialize (IH (fun i => f (S i)) i (fun i Hi => H (S i) ltac:(lia)) ltac:(lia) Hp). specialize (H 0 ltac:(lia)). lra.
Qed.
Lemma sm_delta n k f : k < n -> sm n (fun i => if i =? k then f i else 0%R) = f k.
Proof.
  revert k f. induction n as [|n IH]; intros k f Hk; [lia|]. rewrite sm_S. destruct k as [|k]; cbn [Nat.eqb].
  - rewrite sm_zero; [lra|]. intros; reflexivity.
  - rewrite (IH k (fun i => f (S i))) by lia. lra.
Qed.
Lemma sm_app n k f : sm (n + k) f = (sm n f + sm k (fun i => f (n + i)%nat))%R.
Proof.
  revert f. induction n as [|n IH]; intros f; cbn [Nat.add]; [change (sm 0 f) with 0%R; rewrite Rplus_0_l; reflexivity|]. rewrite !sm_S, IH, Rplus_assoc. reflexivity.
Qed.
(** A window. *)
Lemma sm_win n s k f : s + k <= n -> (forall i, i < n -> ~ s <= i < s + k -> f i = 0%R) -> sm n f = sm k (fun i => f (s + i)).
Proof.
  intros H Hz. replace n with (s + (k + (n - s - k))) by lia. rewrite !sm_app.
  rewrite (sm_zero s) by (intros; apply Hz; lia). rewrite (sm_zero (n - s - k)) by (intros; apply Hz; lia). lra.
Qed.

Lemma inner_sm n x y : length x = n -> length y = n -> inner x y = sm n (fun i => nth i x 0 * nth i y 0)%R.
Proof. apply inner_nth. Qed.
(** Inner products with missing entries 0. *)
Lemma inner_sm' n x y : length x <= n -> inner x y = sm n (fun i => nth i x 0 * nth i y 0)%R.
Proof.
  revert x y. induction n as [|n IH]; intros x y H.
  - destruct x; [reflexivity|cbn in H; lia].
  - rewrite sm_S. destruct x as [|a x]; [|destruct y as [|b y]].
    + cbn [inner]. rewrite sm_zero; [cbn [nth]; lra|]. intros. cbn [nth]. destruct i; lra.
    + cbn [inner]. rewrite sm_zero; [cbn [nth]; lra|]. intros. cbn [nth]. destruct i; lra.
    + cbn [inner nth]. rewrite IH by (cbn in H; lia). reflexivity.
Qed.

(** Quadratic forms of a matrix given by its entries. *)
Definition qf (n : nat) (v : nat -> nat -> R) (x : nat -> R) : R := sm n (fun p => sm n (fun q => x p * v p q * x q)%R).
Lemma qf_ext n v v' x x' : (forall p q, p < n -> q < n -> v p q = v' p q) -> (forall p, p < n -> x p = x' p) -> qf n v x = qf n v' x'.
Proof. intros H Hx. apply sm_ext. intros p Hp. apply sm_ext. intros q Hq. rewrite H, !Hx by auto. auto. Qed.
Lemma qf_plus n v w x : qf n (fun p q => v p q + w p q)%R x = (qf n v x + qf n w x)%R.
Proof.
  unfold qf. rewrite <- sm_plus. apply sm_ext. intros p _. rewrite <- sm_plus. apply sm_ext. intros q _. ring.
Qed.
Lemma qf_eye n x : qf n (fun p q => if p =? q then 1%R else 0%R) x = sm n (fun p => x p * x p)%R.
Proof.
  apply sm_ext. intros p Hp. rewrite (sm_ext n _ (fun q => if q =? p then x p * x q else 0)%R).
  - apply sm_delta; auto.
  - intros q _. rewrite Nat.eqb_sym. destruct (q =? p); ring.
Qed.
Lemma qf_gram n k (A : nat -> nat -> R) x : qf n (fun p q => sm k (fun t => A t p * A t q)%R) x = sm k (fun t => let y := sm n (fun p => x p * A t p)%R in y * y)%R.
Proof.
  unfold qf. rewrite (sm_ext n _ (fun p => sm k (fun t => sm n (fun q => (x p * A t p) * (x q * A t q)))%R)).
  - rewrite sm_swap. apply sm_ext. intros t _. cbv zeta. rewrite <- sm_scal_r. apply sm_ext. intros p _. rewrite sm_scal. reflexivity.
  - intros p _. rewrite sm_swap. apply sm_ext. intros q _. rewrite <- sm_scal, <- sm_scal_r. apply sm_ext. intros t _. ring.
Qed.
Lemma qf_gram_nonneg n k A x : (0 <= qf n (fun p q => sm k (fun t => A t p * A t q)%R) x)%R.
Proof. rewrite qf_gram. apply sm_nonneg. intros t _. cbv zeta. nra. Qed.
Lemma qf_win n s k v x : s + k <= n ->
  qf n (fun p q => if (s <=? p) && (p <? s + k) && ((s <=? q) && (q <? s + k)) then v (p - s) (q - s) else 0%R) x = qf k v (fun i => x (s + i)).
Proof.
  intros H. unfold qf. rewrite (sm_win n s k) by (auto; intros p Hp Hn; apply sm_zero; intros q _;
    replace ((s <=? p) && (p <? s + k)) with false by (symmetry; apply andb_false_iff; rewrite Nat.leb_gt, Nat.ltb_ge; lia); cbn; ring).
  apply sm_ext. intros p Hp. rewrite (sm_win n s k).
  - apply sm_ext. intros q Hq.
    replace ((s <=? s + p) && (s + p <? s + k)) with true by (symmetry; apply andb_true_iff; rewrite Nat.leb_le, Nat.ltb_lt; lia).
    replace ((s <=? s + q) && (s + q <? s + k)) with true by (symmetry; apply andb_true_iff; rewrite Nat.leb_le, Nat.ltb_lt; lia).
    cbn [andb]. replace (s + p - s) with p by lia. replace (s + q - s) with q by lia. reflexivity.
  - auto.
  - intros q Hq Hn. replace ((s <=? q) && (q <? s + k)) with false by (symmetry; apply andb_false_iff; rewrite Nat.leb_gt, Nat.ltb_ge; lia).
    rewrite andb_false_r. ring.
Qed.

Lemma quad_qf M n x : square M n -> length x = n -> quad M x = qf n (entry M) (fun i => nth i x 0%R).
Proof.
  intros (L & Lr) Hx. unfold quad, mul_vec. rewrite (inner_sm n) by (rewrite ?map_length; auto). apply sm_ext. intros p Hp.
  rewrite (nth_indep (map (fun r => inner r x) M) 0%R (inner [] x)) by (rewrite map_length; lia). rewrite (map_nth (fun r => inner r x)).
  rewrite (inner_sm n) by (auto; apply Lr, nth_In; lia). rewrite <- sm_scal. apply sm_ext. intros q _. unfold entry. ring.
Qed.

(** ** entries of the constructed matrices *)
Lemma square_nth V n p : square V n -> p < n -> length (nth p V []) = n.
Proof. intros (L & Lr) H. apply Lr, nth_In. lia. Qed.

Lemma mapseq_square {n} (f : nat -> nat -> R) : square (map (fun i => map (f i) (seq 0 n)) (seq 0 n)) n.
Proof.
  split; [rewrite map_length, seq_length; auto|]. intros r Hr. apply in_map_iff in Hr. destruct Hr as (i & <- & _). rewrite map_length, seq_length. auto.
Qed.
Lemma mapseq_entry n (f : nat -> nat -> R) p q : p < n -> q < n -> entry (map (fun i => map (f i) (seq 0 n)) (seq 0 n)) p q = f p q.
Proof. intros Hp Hq. unfold entry. rewrite (map_seq_nth (fun i => map (f i) (seq 0 n)) n p []) by auto. apply map_seq_nth; auto. Qed.

Lemma eye_square n : square (eye n) n. Proof. apply mapseq_square. Qed.
Lemma eye_entry n p q : p < n -> q < n -> entry (eye n) p q = if p =? q then 1%R else 0%R.
Proof. intros. unfold eye. rewrite (mapseq_entry n (fun i j => if i =? j then 1%R else 0%R)) by auto. reflexivity. Qed.
Lemma col_gram_square n JT : square (col_gram n JT) n. Proof. apply mapseq_square. Qed.
Lemma col_gram_entry n JT p q : p < n -> q < n -> entry (col_gram n JT) p q = sm (length JT) (fun t => nth p (nth t JT []) 0 * nth q (nth t JT []) 0)%R.
Proof.
  intros. unfold col_gram. rewrite (mapseq_entry n (fun p q => rsum (map (fun c => nth p c 0 * nth q c 0)%R JT))) by auto.
  unfold sm. f_equal. clear. induction JT as [|c JT IH]; [reflexivity|]. cbn [length seq map nth]. f_equal. rewrite <- seq_shift, map_map. apply IH.
Qed.
Lemma mat_add_square A B n : square A n -> square B n -> square (mat_add A B) n.
Proof.
  intros (LA & RA) (LB & RB). split; [unfold mat_add; rewrite map_length, combine_length; lia|].
  intros r Hr. unfold mat_add in Hr. apply in_map_iff in Hr. destruct Hr as ((a, b) & <- & Hab). cbn [fst snd]. rewrite zip2_len, RA, RB; [lia| |].
  - eapply in_combine_r; eauto.
  - eapply in_combine_l; eauto.
Qed.
Lemma mat_add_entry A B n p q : square A n -> square B n -> p < n -> q < n -> entry (mat_add A B) p q = (entry A p q + entry B p q)%R.
Proof.
  intros SA SB Hp Hq. unfold entry, mat_add. rewrite (nth_indep _ [] (zip2 Rplus (fst (@nil R, @nil R)) (snd (@nil R, @nil R)))) by (rewrite map_length, combine_length; destruct SA, SB; lia).
  rewrite (map_nth (fun p => zip2 Rplus (fst p) (snd p))), combine_nth by (destruct SA, SB; lia). cbn [fst snd].
  assert (LA := square_nth A n p SA Hp). assert (LB := square_nth B n p SB Hp). apply zip2_nth; lia.
Qed.
Lemma gram_square A : square (gram A) (length A).
Proof.
  split; [apply map_length|]. intros r Hr. unfold gram in Hr. apply in_map_iff in Hr. destruct Hr as (a & <- & _). apply map_length.
Qed.
Lemma gram_entry A p q : p < length A -> q < length A -> entry (gram A) p q = inner (nth p A []) (nth q A []).
Proof.
  intros Hp Hq. unfold entry, gram. rewrite (nth_indep _ [] (map (dotp []) A)) by (rewrite map_length; auto).
  rewrite (map_nth (fun r => map (dotp r) A)). rewrite (nth_indep _ 0%R (dotp (nth p A []) [])) by (rewrite map_length; auto). rewrite map_nth.
  symmetry. apply inner_dotp.
Qed.
Lemma gram_entry_sm A k p q : (forall r, In r A -> length r <= k) -> p < length A -> q < length A ->
  entry (gram A) p q = sm k (fun t => nth t (nth p A []) 0 * nth t (nth q A []) 0)%R.
Proof. intros H Hp Hq. rewrite gram_entry by auto. apply inner_sm', H, nth_In. auto. Qed.
Lemma rows_bound (A : list (list R)) : exists k, forall r, In r A -> length r <= k.
Proof.
  induction A as [|a A (k & IH)]; [exists 0; intros r []|]. exists (Nat.max (length a) k). intros r [<-|Hr]; [lia|]. specialize (IH r Hr). lia.
Qed.
Lemma gram_nonneg A x : (0 <= qf (length A) (entry (gram A)) x)%R.
Proof.
  destruct (rows_bound A) as (k & Hk). rewrite (qf_ext _ _ (fun p q => sm k (fun t => nth t (nth p A []) 0 * nth t (nth q A []) 0)%R) x x); auto.
  - apply (qf_gram_nonneg (length A) k (fun t p => nth t (nth p A []) 0%R)).
  - intros. apply gram_entry_sm; auto.
Qed.
Lemma entry_sym_out V n : square V n -> (forall p q, p < n -> q < n -> entry V p q = entry V q p) -> symmetric V.
Proof.
  intros S H i j. assert (O : forall a b, ~ (a < n /\ b < n) -> entry V a b = 0%R).
  { intros a b Hn. unfold entry. destruct (Nat.lt_ge_cases a n).
    - apply nth_overflow. rewrite (square_nth V n) by auto. lia.
    - rewrite (nth_overflow V) by (destruct S; lia). destruct b; auto. }
  destruct (Nat.lt_ge_cases i n), (Nat.lt_ge_cases j n); [auto| | |]; rewrite !O by lia; auto.
Qed.

(** ** assignment of a block *)
Lemma add_slice_nth s e t A A' : length t = length (slice s e A) -> add_slice s e t A = Ok A' -> length A' = length A /\
  forall i, nth i A' 0%R = (nth i A 0 + if (s <=? i) && (i <? s + length t) then nth (i - s) t 0 else 0)%R.
Proof.
  intros L H. unfold add_slice in H. rewrite bop_eq in H by auto. cbn [bind] in H. unfold assign in H.
  rewrite (zip2_len Rplus), L, Nat.min_id, Nat.eqb_refl in H. injection H as <-. pose proof (slice_length s e A) as Ls.
  assert (Ez : length (zip2 Rplus (slice s e A) t) = length t) by (rewrite zip2_len; lia).
  destruct (Nat.le_gt_cases s (length A)) as [Hs|Hs].
  - split. { rewrite !app_length, Ez, firstn_length, skipn_length. lia. }
    intros i. destruct (Nat.leb_spec s i) as [H1|H1]; cbn [andb].
    + rewrite app_nth2 by (rewrite firstn_length; lia). rewrite firstn_length, Nat.min_l by lia.
      destruct (Nat.ltb_spec i (s + length t)).
      * rewrite app_nth1 by lia. rewrite zip2_nth by lia. rewrite nth_slice_R by lia.
        replace (s + (i - s)) with i by lia. reflexivity.
      * rewrite app_nth2 by lia. rewrite Ez, GNOutput.nth_skipn'. replace (s + length (slice s e A) + (i - s - length t)) with i by lia. lra.
    + rewrite app_nth1 by (rewrite firstn_length; lia). rewrite GNForward2.nth_firstn_R by lia. lra.
  - assert (length t = 0) by lia. destruct t; [|discriminate].
    assert (E : firstn s A ++ zip2 Rplus (slice s e A) [] ++ skipn (s + length (slice s e A)) A = A).
    { rewrite (firstn_all2 A) by lia. rewrite (skipn_all2 A) by lia. destruct (slice s e A); cbn; rewrite app_nil_r; auto. }
    rewrite E. split; [auto|]. intros i. cbn [length]. replace ((s <=? i) && (i <? s + 0)) with false; [lra|].
    symmetry. apply andb_false_iff. rewrite Nat.leb_gt, Nat.ltb_ge. lia.
Qed.
