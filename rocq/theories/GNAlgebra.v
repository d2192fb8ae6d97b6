From Coq Require Import Reals Lra.
From Verif Require Import Base BaseLemmas ReaderModel UncModel MuModel MuProofs SampleSpec TransformModel TransformSpec TransformProofs TransformProofs2 TransformMain EvalModel GNModel GNSpec.
Open Scope nat_scope.

(** ** sums *)
Lemma zip2_len f a b : length (zip2 f a b) = Nat.min (length a) (length b).
Proof. unfold zip2. rewrite map_length, combine_length. auto. Qed.
Lemma scal_len s v : length (scal s v) = length v.
Proof. apply map_length. Qed.
Lemma rsum_plus {A} (f g : A -> R) l : rsum (map (fun a => f a + g a)%R l) = (rsum (map f l) + rsum (map g l))%R.
Proof. induction l as [|a l IH]; cbn [map]; rewrite ?rsum_cons; [cbn; lra|]. rewrite IH. lra. Qed.
Lemma rsum_scal_l {A} (f : A -> R) c l : rsum (map (fun a => (c * f a)%R) l) = (c * rsum (map f l))%R.
Proof. induction l as [|a l IH]; cbn [map]; rewrite ?rsum_cons; [cbn; lra|]. rewrite IH. lra. Qed.
Lemma rsum_zero {A} (l : list A) : rsum (map (fun _ => 0%R) l) = 0%R.
Proof. induction l as [|a l IH]; cbn [map]; rewrite ?rsum_cons; [reflexivity|]. rewrite IH. lra. Qed.
Lemma rsum_swap {A B} (f : A -> B -> R) l k :
  rsum (map (fun a => rsum (map (f a) k)) l) = rsum (map (fun b => rsum (map (fun a => f a b) l)) k).
Proof.
  induction l as [|a l IH]; cbn [map]; [cbn [rsum fold_right]; symmetry; apply rsum_zero|].
  rewrite rsum_cons, IH, <- rsum_plus. reflexivity.
Qed.
Lemma dotp_sum a b N : length a = N -> length b = N -> dotp a b = rsum (map (fun i => nth i a 0 * nth i b 0)%R (seq 0 N)).
Proof.
  unfold dotp, zip2. revert a b. induction N as [|N IH]; intros [|x a] [|y b] Ha Hb; try discriminate; [reflexivity|].
  cbn [combine map seq fst snd]. rewrite !rsum_cons. cbn [nth]. f_equal. rewrite IH by (cbn in *; lia).
  rewrite <- seq_shift, map_map. reflexivity.
Qed.
Lemma dotp_comm a b : dotp a b = dotp b a.
Proof. unfold dotp. rewrite zip2_comm. reflexivity. Qed.
Lemma dotp_app a b c d : length a = length c -> dotp (a ++ b) (c ++ d) = (dotp a c + dotp b d)%R.
Proof.
  revert c. induction a as [|x a IH]; intros [|y c] H; try discriminate; unfold dotp, zip2 in *; cbn [app combine map fst snd].
  - cbn. lra.
  - rewrite !rsum_cons. rewrite IH by (cbn in H; lia). lra.
Qed.

Lemma inner_dotp a b : inner a b = dotp a b.
Proof.
  unfold dotp, zip2. revert b. induction a as [|x a IH]; intros [|y b]; cbn [inner combine map fst snd]; try reflexivity.
  rewrite rsum_cons, IH. reflexivity.
Qed.

(** ** lists cut in three *)
Lemma skipn_skipn' {A} a b (l : list A) : skipn a (skipn b l) = skipn (b + a) l.
Proof. revert l. induction b as [|b IH]; intros [|x l]; cbn; auto. apply skipn_nil. Qed.
Lemma cut3 {A} (l : list A) s e : s <= e <= length l ->
  l = firstn s l ++ slice s e l ++ skipn e l /\ length (firstn s l) = s /\ length (slice s e l) = e - s.
Proof.
  intros H. split; [|split; [apply firstn_length_le; lia|apply slice_length'; lia]].
  rewrite <- (firstn_skipn s l) at 1. f_equal. unfold slice. rewrite <- (firstn_skipn (e - s) (skipn s l)) at 1. f_equal.
  rewrite skipn_skipn'. f_equal. lia.
Qed.

Lemma add_slice_ok s e t A : s <= e <= length A -> length t = e - s ->
  exists A', add_slice s e t A = Ok A' /\ length A' = length A /\
    forall y, length y = length A -> dotp A' y = (dotp A y + dotp t (slice s e y))%R.
Proof.
  intros H Ht. destruct (cut3 A s e H) as (E & L1 & L2). unfold add_slice. rewrite bop_eq by lia. cbn [bind].
  set (p := firstn s A) in *. set (q := slice s e A) in *. set (r := skipn e A) in *.
  assert (Es : slice s e A = q) by reflexivity.
  exists (p ++ zip2 Rplus q t ++ r). split; [|split].
  - rewrite E. replace e with (length p + length q) by lia. rewrite <- L1 at 1. apply assign_mid. rewrite zip2_len. lia.
  - rewrite E, !app_length, zip2_len. lia.
  - intros y Hy. destruct (cut3 y s e ltac:(lia)) as (Ey & M1 & M2). rewrite E, Ey.
    replace (slice s e (firstn s y ++ slice s e y ++ skipn e y)) with (slice s e y) by (rewrite <- Ey; reflexivity).
    set (p' := firstn s y) in *. set (q' := slice s e y) in *. set (r' := skipn e y) in *.
    rewrite !dotp_app by (rewrite ?zip2_len; lia).
    assert (D : dotp (zip2 Rplus q t) q' = (dotp q q' + dotp t q')%R).
    { rewrite !(dotp_sum _ _ (e - s)) by (rewrite ?zip2_len; lia). rewrite <- rsum_plus. apply rsum_ext. intros i Hi. apply in_seq in Hi.
      rewrite zip2_nth by lia. lra. }
    rewrite D. lra.
Qed.

Lemma dotp_cons a b x y : dotp (a :: x) (b :: y) = (a * b + dotp x y)%R.
Proof. unfold dotp, zip2. cbn [combine map fst snd]. apply rsum_cons. Qed.
Lemma dotp_upd x B i c : i < length B -> length x = length B -> dotp x (upd i (nth i B 0 + c)%R B) = (dotp x B + nth i x 0 * c)%R.
Proof.
  revert x i. induction B as [|b B IH]; intros [|a x] [|i] Hi Hx; cbn in Hi, Hx; try lia; cbn [upd nth]; rewrite !dotp_cons; [lra|].
  rewrite IH by lia. lra.
Qed.
Lemma add_item_ok i c B k : i = Z.of_nat k -> k < length B ->
  exists B', add_item i c B = Ok B' /\ length B' = length B /\ forall x, length x = length B -> dotp x B' = (dotp x B + nth k x 0 * c)%R.
Proof.
  intros -> Hk. unfold add_item. rewrite pyget_of_nat, (get_nth _ _ 0%R) by auto. cbn [bind].
  replace (0 <=? Z.of_nat k)%Z with true by (symmetry; apply Z.leb_le; lia). rewrite Nat2Z.id.
  rewrite setitem_ok by auto. eexists. split; [reflexivity|]. split; [apply upd_length|]. intros x Hx. apply dotp_upd; auto.
Qed.

(** ** pairs of a forward step and its adjoint *)
Definition adj (n1 n2 : nat) (f g : list R -> list R -> res (list R)) : Prop :=
  exists t : list R -> list R -> R,
    (forall x A, length x = n1 -> length A = n2 -> exists A', f x A = Ok A' /\ length A' = n2 /\
       forall y, length y = n2 -> dotp A' y = (dotp A y + t x y)%R) /\
    (forall y B, length y = n2 -> length B = n1 -> exists B', g y B = Ok B' /\ length B' = n1 /\
       forall x, length x = n1 -> dotp x B' = (dotp x B + t x y)%R).

Lemma adj_comp n1 n2 f g f' g' : adj n1 n2 f g -> adj n1 n2 f' g' ->
  adj n1 n2 (fun x A => do A1 <- f x A;; f' x A1) (fun y B => do B1 <- g y B;; g' y B1).
Proof.
  intros (t & F & G) (t' & F' & G'). exists (fun x y => t x y + t' x y)%R. split.
  - intros x A Hx HA. destruct (F x A Hx HA) as (A1 & E1 & L1 & D1). rewrite E1. cbn [bind].
    destruct (F' x A1 Hx L1) as (A2 & E2 & L2 & D2). exists A2. split; [auto|]. split; [auto|]. intros y Hy. rewrite D2, D1 by auto. lra.
  - intros y B Hy HB. destruct (G y B Hy HB) as (B1 & E1 & L1 & D1). rewrite E1. cbn [bind].
    destruct (G' y B1 Hy L1) as (B2 & E2 & L2 & D2). exists B2. split; [auto|]. split; [auto|]. intros x Hx. rewrite D2, D1 by auto. lra.
Qed.

Lemma adj_fold {K} n1 n2 (f g : K -> list R -> list R -> res (list R)) l : (forall k, In k l -> adj n1 n2 (f k) (g k)) ->
  adj n1 n2 (fun x A => foldM (fun A k => f k x A) l A) (fun y B => foldM (fun B k => g k y B) l B).
Proof.
  induction l as [|k l IH]; intros H.
  - exists (fun _ _ => 0%R). split; intros; eexists; cbn [foldM]; (split; [reflexivity|]); (split; [auto|]); intros; lra.
  - cbn [foldM].
    assert (A : adj n1 n2 (fun x A => do A1 <- f k x A;; foldM (fun A k => f k x A) l A1) (fun y B => do B1 <- g k y B;; foldM (fun B k => g k y B) l B1)).
    { apply adj_comp; [apply H; left; auto|apply IH; intros; apply H; right; auto]. }
    exact A.
Qed.

Lemma adj_ext n1 n2 f g f' g' : adj n1 n2 f g ->
  (forall x A, length x = n1 -> length A = n2 -> f' x A = f x A) -> (forall y B, length y = n2 -> length B = n1 -> g' y B = g y B) -> adj n1 n2 f' g'.
Proof.
  intros (t & F & G) Ef Eg. exists t. split; intros; [rewrite Ef by auto|rewrite Eg by auto]; auto.
Qed.

(** increments on slices *)
Lemma adj_slices n1 n2 s1 e1 s2 e2 (h k : list R -> list R) : s1 <= e1 <= n1 -> s2 <= e2 <= n2 ->
  (forall x, length x = n1 -> length (h x) = e2 - s2) -> (forall y, length y = n2 -> length (k y) = e1 - s1) ->
  (forall x y, length x = n1 -> length y = n2 -> dotp (h x) (slice s2 e2 y) = dotp (slice s1 e1 x) (k y)) ->
  adj n1 n2 (fun x A => add_slice s2 e2 (h x) A) (fun y B => add_slice s1 e1 (k y) B).
Proof.
  intros H1 H2 Lh Lk E. exists (fun x y => dotp (h x) (slice s2 e2 y)). split.
  - intros x A Hx HA. destruct (add_slice_ok s2 e2 (h x) A) as (A' & E' & L' & D'); [lia|rewrite Lh; auto|].
    exists A'. split; [auto|]. split; [lia|]. intros y Hy. apply D'. lia.
  - intros y B Hy HB. destruct (add_slice_ok s1 e1 (k y) B) as (B' & E' & L' & D'); [lia|rewrite Lk; auto|].
    exists B'. split; [auto|]. split; [lia|]. intros x Hx. rewrite dotp_comm, D' by lia. rewrite (dotp_comm B), E by auto. f_equal. apply dotp_comm.
Qed.

(** a slice of the result against a single element of the argument *)
Lemma adj_item n1 n2 i k s2 e2 (v : list R) : i = Z.of_nat k -> k < n1 -> s2 <= e2 <= n2 -> length v = e2 - s2 ->
  adj n1 n2 (fun x A => do xi <- pyget x i;; add_slice s2 e2 (map (fun c => c * xi)%R v) A)
            (fun y B => add_item i (dotp v (slice s2 e2 y)) B).
Proof.
  intros Hi Hk H2 Lv. exists (fun x y => nth k x 0 * dotp v (slice s2 e2 y))%R. split.
  - intros x A Hx HA. rewrite Hi, pyget_of_nat, (get_nth _ _ 0%R) by lia. cbn [bind].
    destruct (add_slice_ok s2 e2 (map (fun c => c * nth k x 0)%R v) A) as (A' & E' & L' & D'); [lia|rewrite map_length; auto|].
    exists A'. split; [auto|]. split; [lia|]. intros y Hy. rewrite D' by lia.
    assert (Lsl : length (slice s2 e2 y) = e2 - s2) by (apply slice_length'; lia).
    f_equal. rewrite !(dotp_sum _ _ (e2 - s2)) by (rewrite ?map_length; lia). rewrite <- rsum_scal_l. apply rsum_ext.
    intros j Hj. apply in_seq in Hj. rewrite (nth_indep _ _ (0 * nth k x 0)%R) by (rewrite map_length; lia).
    rewrite (map_nth (fun c => c * nth k x 0)%R). ring.
  - intros y B Hy HB. destruct (add_item_ok i (dotp v (slice s2 e2 y)) B k Hi ltac:(lia)) as (B' & E' & L' & D').
    exists B'. split; [auto|]. split; [lia|]. intros x Hx. apply D'. lia.
Qed.
