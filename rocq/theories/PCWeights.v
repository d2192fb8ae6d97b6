(** * C57: the covariance of K the solver uses is the propagated uncertainty.  Proofs only. *)
From Coq Require Import Reals Lra.
From Verif Require Import Base BaseLemmas ReaderModel UncModel MuModel MuProofs SensorSpec SampleSpec SampleProofs TransformModel TransformSpec TransformProofs TransformProofs2 TransformMain TransformMain2 TransformMain3 EvalModel EvalSpec EvalProofs GNModel GNSpec GNAlgebra GNTerms GNAdjoint GNMain GNLoop GNTotal GNForward GNForward2 GNResidual GNOutput PCModel PCSpec PCAlgebra PCMatrix PCSide.
Open Scope nat_scope.

Lemma np_diag_entry v i j : i < length v -> j < length v -> nth j (nth i (np_diag v) []) 0%R = if i =? j then nth i v 0%R else 0%R.
Proof. intros. apply mapseq_entry; auto. Qed.

Lemma scal_nth s v i : nth i (scal s v) 0%R = (s * nth i v 0)%R.
Proof.
  unfold scal. destruct (Nat.lt_ge_cases i (length v)).
  - rewrite (nth_indep (map (Rmult s) v) 0%R (s * 0)%R) by (rewrite map_length; auto). rewrite map_nth. reflexivity.
  - rewrite !nth_overflow by (rewrite ?map_length; auto). lra.
Qed.

Lemma diag_prod_ok s v uR uK k : length v = k -> length uR = k -> length uK = k ->
  exists JK, diag_prod s v uR uK = Ok JK /\ square (gram JK) k /\
    forall i j, i < k -> j < k -> entry (gram JK) i j =
      if i =? j then ((s * nth i v 0 * nth i uR 0 / nth i uK 0) * (s * nth i v 0 * nth i uR 0 / nth i uK 0))%R else 0%R.
Proof.
  intros L1 L2 L3. unfold diag_prod.
  assert (Sq : square (np_diag v) k) by (rewrite <- L1; apply mapseq_square).
  destruct Sq as (Sq1 & Sq2).
  set (M1 := map (scal s) (np_diag v)). set (M2 := map (fun r => zip2 Rmult r uR) M1). set (M3 := map (fun r => zip2 Rdiv r uK) M2).
  assert (R1 : forall r, In r M1 -> length r = k). { intros r Hr. apply in_map_iff in Hr as (x & <- & Hx). rewrite scal_len. auto. }
  assert (R2 : forall r, In r M2 -> length r = k). { intros r Hr. apply in_map_iff in Hr as (x & <- & Hx). apply R1 in Hx. rewrite zip2_len. lia. }
  assert (E1 : mapM (fun r => bop Rmult r uR) M1 = Ok M2) by (apply mapM_Ok_map; intros r Hr; apply R1 in Hr; apply bop_eq; lia).
  assert (E2 : mapM (fun r => bop Rdiv r uK) M2 = Ok M3) by (apply mapM_Ok_map; intros r Hr; apply R2 in Hr; apply bop_eq; lia).
  rewrite E1. cbn [bind]. rewrite E2. exists M3. split; [reflexivity|].
  assert (LM : length M3 = k) by (unfold M3, M2, M1; rewrite !map_length; auto).
  assert (R3 : forall r, In r M3 -> length r = k). { intros r Hr. apply in_map_iff in Hr as (x & <- & Hx). apply R2 in Hx. rewrite zip2_len. lia. }
  split; [rewrite <- LM; apply gram_square|].
  assert (En : forall i t, i < k -> t < k -> nth t (nth i M3 []) 0%R = (s * (if i =? t then nth i v 0 else 0) * nth t uR 0 / nth t uK 0)%R).
  { intros i t Hi Ht. unfold M3, M2, M1. rewrite !map_map.
    rewrite (nth_indep _ [] (zip2 Rdiv (zip2 Rmult (scal s []) uR) uK)) by (rewrite map_length; lia).
    rewrite (map_nth (fun x => zip2 Rdiv (zip2 Rmult (scal s x) uR) uK)).
    assert (Lr : length (nth i (np_diag v) []) = k) by (apply Sq2, nth_In; lia).
    rewrite zip2_nth by (rewrite ?zip2_len, ?scal_len; lia). rewrite zip2_nth by (rewrite ?scal_len; lia). rewrite scal_nth, np_diag_entry by lia. reflexivity. }
  intros i j Hi Hj. rewrite (gram_entry_sm M3 k) by (try lia; intros r Hr; apply R3 in Hr; lia).
  destruct (Nat.eqb_spec i j) as [<-|Hn].
  - rewrite <- (sm_delta k i (fun t => (s * nth t v 0 * nth t uR 0 / nth t uK 0) * (s * nth t v 0 * nth t uR 0 / nth t uK 0))%R Hi).
    apply sm_ext. intros t Ht. rewrite En by auto. rewrite (Nat.eqb_sym t i). destruct (Nat.eqb_spec i t) as [<-|]; [reflexivity|]. unfold Rdiv. ring.
  - apply sm_zero. intros t Ht. rewrite !En by auto. destruct (Nat.eqb_spec i t), (Nat.eqb_spec j t); try (subst; congruence); unfold Rdiv; ring.
Qed.

(** State of the loops: a diagonal matrix and the columns. *)
Record inv (n ncol : nat) (VJ : list (list R) * list (list R)) (vd : nat -> R) (jc : nat -> nat -> R) : Prop := {
  iv_sq : square (fst VJ) n;
  iv_v : forall p q, p < n -> q < n -> entry (fst VJ) p q = if p =? q then vd p else 0%R;
  iv_l : length (snd VJ) = ncol;
  iv_c : forall c, In c (snd VJ) -> length c = n;
  iv_j : forall c p, c < ncol -> p < n -> nth p (nth c (snd VJ) []) 0%R = jc c p
}.

Lemma inv_ext n ncol VJ vd jc vd' jc' : inv n ncol VJ vd jc -> (forall p, p < n -> vd p = vd' p) -> (forall c p, c < ncol -> p < n -> jc c p = jc' c p) -> inv n ncol VJ vd' jc'.
Proof.
  intros [H1 H2 H3 H4 H5] E1 E2. constructor; auto.
  - intros p q Hp Hq. rewrite H2 by auto. rewrite E1 by auto. reflexivity.
  - intros c p Hc Hp. rewrite H5 by auto. auto.
Qed.

Lemma rand_step n ncol V JT vd jc w k sg v uR uK : inv n ncol (V, JT) vd jc -> w + k <= n -> length v = k -> length uR = k -> length uK = k ->
  exists JK V', diag_prod sg v uR uK = Ok JK /\ add_block w (w + k) (gram JK) V = Ok V' /\
    inv n ncol (V', JT) (fun p => vd p + if inw w k p then (sg * nth (p - w) v 0 * nth (p - w) uR 0 / nth (p - w) uK 0) * (sg * nth (p - w) v 0 * nth (p - w) uR 0 / nth (p - w) uK 0) else 0)%R jc.
Proof.
  intros [H1 H2 H3 H4 H5] Hw L1 L2 L3. destruct (diag_prod_ok sg v uR uK k L1 L2 L3) as (JK & E1 & Sq & En). cbn [fst snd] in *.
  destruct (add_block_ok w (w + k) (gram JK) V n H1 ltac:(lia)) as (V' & E2). { replace (w + k - w) with k by lia. auto. }
  exists JK, V'. split; [auto|]. split; [auto|].
  destruct (add_block_inv _ _ _ _ _ _ H1 E2) as (k' & Ek & _ & _ & Sq' & E'). replace k' with k in * by lia.
  constructor; cbn [fst snd]; auto. intros p q Hp Hq. rewrite E' by auto. rewrite H2 by auto. unfold block.
  destruct (inw w k p) eqn:Wp; cbn [andb].
  - apply inw_true in Wp. destruct (inw w k q) eqn:Wq.
    + apply inw_true in Wq. rewrite En by lia. destruct (Nat.eqb_spec p q) as [<-|Hn].
      * rewrite Nat.eqb_refl. reflexivity.
      * destruct (Nat.eqb_spec (p - w) (q - w)); [lia|]. lra.
    + apply inw_false in Wq. destruct (Nat.eqb_spec p q) as [<-|Hn]; [lia|lra].
  - destruct (p =? q); lra.
Qed.

Lemma col_step n ncol V JT vd jc w k c v : inv n ncol (V, JT) vd jc -> w + k <= n -> length v = k -> c < ncol ->
  exists JT', set_col (Z.of_nat c) w (w + k) v JT = Ok JT' /\
    inv n ncol (V, JT') vd (fun c' p => if (c' =? c) && inw w k p then nth (p - w) v 0%R else jc c' p).
Proof.
  intros [H1 H2 H3 H4 H5] Hw Lv Hc. cbn [fst snd] in *. unfold set_col.
  assert (Ec : nth_error JT c = Some (nth c JT [])) by (apply nth_error_nth'; lia).
  rewrite pyget_of_nat. rewrite (proj2 (get_ok _ _ _) Ec). cbn [bind].
  assert (Lc : length (nth c JT []) = n) by (apply H4, nth_In; lia).
  assert (Ls : length v = length (slice w (w + k) (nth c JT []))) by (rewrite slice_length; lia).
  destruct (assign w (w + k) v (nth c JT [])) as [col'|] eqn:Ea; [|unfold assign in Ea; rewrite Ls, Nat.eqb_refl in Ea; discriminate].
  cbn [bind]. destruct (nth_assign _ _ _ _ _ 0%R Ls Ea) as (L' & N').
  replace (0 <=? Z.of_nat c)%Z with true by (symmetry; apply Z.leb_le; lia). rewrite Nat2Z.id.
  unfold setitem. replace (c <? length JT) with true by (symmetry; apply Nat.ltb_lt; lia). rewrite upd_split by lia.
  eexists. split; [reflexivity|].
  assert (Nt : forall c', nth c' (firstn c JT ++ col' :: skipn (S c) JT) [] = if c' =? c then col' else nth c' JT []).
  { intros c'. destruct (Nat.eqb_spec c' c) as [->|Hn].
    - rewrite app_nth2 by (rewrite firstn_length; lia). rewrite firstn_length, Nat.min_l, Nat.sub_diag by lia. reflexivity.
    - destruct (Nat.lt_ge_cases c' c).
      + rewrite app_nth1 by (rewrite firstn_length; lia). rewrite <- (firstn_skipn c JT) at 2. rewrite app_nth1 by (rewrite firstn_length; lia). reflexivity.
      + rewrite app_nth2 by (rewrite firstn_length; lia). rewrite firstn_length, Nat.min_l by lia. replace (c' - c) with (S (c' - c - 1)) by lia. cbn [nth].
        rewrite nth_skipn'. f_equal. lia. }
  assert (LL : length (firstn c JT ++ col' :: skipn (S c) JT) = ncol) by (rewrite app_length, firstn_length; cbn [length]; rewrite skipn_length; lia).
  constructor; cbn [fst snd]; auto.
  - intros x Hx. apply (In_nth _ _ []) in Hx as (i & Hi & <-). rewrite Nt. destruct (i =? c); [lia|]. apply H4, nth_In. lia.
  - intros c' p Hc' Hp. rewrite Nt. destruct (Nat.eqb_spec c' c) as [->|]; cbn [andb]; [|apply H5; auto].
    rewrite N', Lv. destruct (inw w k p); [reflexivity|]. apply H5; auto.
Qed.
