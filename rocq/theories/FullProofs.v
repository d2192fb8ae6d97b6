(** Proofs for C117: the index arrays of an opened object. *)
From Coq Require Import Reals.
From Verif Require Import Base BaseLemmas ReaderModel ReaderSpec ReaderProofs ReaderMain UncModel MuModel SampleSpec SensorProofs TransformModel TransformSpec EvalModel EvalSpec GNModel GNSpec.
Open Scope nat_scope.

Lemma list_max_in l x : In x l -> x <= list_max l.
Proof. intros H. assert (F : Forall (fun k => k <= list_max l) l) by (apply list_max_le; lia). rewrite Forall_forall in F. auto. Qed.
Lemma nth_le_max l i : nth i l 0 <= list_max l.
Proof. destruct (Nat.lt_ge_cases i (length l)) as [H|H]; [apply list_max_in, nth_In; auto|rewrite nth_overflow by lia; lia]. Qed.

(** Filtering positions is filtering elements. *)
Lemma filter_positions {A B} (p : A -> bool) (g : A -> B) (d : A) l : forall k,
  map (fun b => g (nth (b - k) l d)) (filter (fun b => p (nth (b - k) l d)) (seq k (length l))) = map g (filter p l).
Proof.
  induction l as [|x l IH]; intros k; [reflexivity|]. cbn [length seq filter map]. replace (nth (k - k) (x :: l) d) with x by (rewrite Nat.sub_diag; reflexivity).
  assert (E : map (fun b => g (nth (b - k) (x :: l) d)) (filter (fun b => p (nth (b - k) (x :: l) d)) (seq (S k) (length l))) = map g (filter p l)).
  { rewrite <- (IH (S k)). rewrite (filter_ext_in _ (fun b => p (nth (b - S k) l d))).
    - apply map_ext_in. intros b Hb. apply filter_In in Hb. destruct Hb as (Hb & _). apply in_seq in Hb. replace (b - k) with (S (b - S k)) by lia. reflexivity.
    - intros b Hb. apply in_seq in Hb. replace (b - k) with (S (b - S k)) by lia. reflexivity. }
  destruct (p x); cbn [map]; [|exact E]. replace (nth (k - k) (x :: l) d) with x by (rewrite Nat.sub_diag; reflexivity). rewrite E. reflexivity.
Qed.
Lemma filter_positions0 {A B} (p : A -> bool) (g : A -> B) (d : A) l :
  map (fun b => g (nth b l d)) (filter (fun b => p (nth b l d)) (seq 0 (length l))) = map g (filter p l).
Proof.
  rewrite <- (filter_positions p g d l 0). rewrite (filter_ext (fun b => p (nth b l d)) (fun b => p (nth (b - 0) l d))) by (intros b; rewrite Nat.sub_0_r; reflexivity).
  apply map_ext. intros b. rewrite Nat.sub_0_r. reflexivity.
Qed.

Lemma flat_map_one {A B} (f : A -> list B) l i x : nth_error l i = Some x -> (forall j y, nth_error l j = Some y -> j <> i -> f y = []) -> flat_map f l = f x.
Proof.
  revert i. induction l as [|a l IH]; intros i H Hn; [destruct i; discriminate|]. cbn [flat_map]. destruct i as [|i].
  - injection H as ->. rewrite (flat_map_nil' f l); [apply app_nil_r|]. intros y Hy. apply In_nth_error in Hy. destruct Hy as (j & Hj). apply (Hn (S j)); [exact Hj|lia].
  - rewrite (Hn 0 a eq_refl) by lia. cbn [app]. apply (IH i); [exact H|]. intros j y Hj Hne. apply (Hn (S j)); [exact Hj|lia].
Qed.

Lemma enumerate_nth' {A} (l : list A) j ip : nth_error (enumerate l) j = Some ip -> fst ip = j /\ nth_error l j = Some (snd ip).
Proof.
  intros H. assert (E1 : nth_error (map fst (enumerate l)) j = Some (fst ip)) by (rewrite nth_error_map', H; reflexivity).
  assert (E2 : nth_error (map snd (enumerate l)) j = Some (snd ip)) by (rewrite nth_error_map', H; reflexivity).
  rewrite enumerate_map_fst in E1. rewrite enumerate_map_snd in E2. split; [|exact E2].
  assert (L : j < length l) by (apply nth_error_Some; congruence).
  rewrite (nth_error_nth' _ 0) in E1 by (rewrite seq_length; exact L). injection E1 as E1. rewrite seq_nth in E1 by exact L. lia.
Qed.
Lemma enumerate_at {A} (l : list A) j x : nth_error l j = Some x -> nth_error (enumerate l) j = Some (j, x).
Proof.
  intros H. destruct (nth_error (enumerate l) j) as [(a & b)|] eqn:E.
  - destruct (enumerate_nth' _ _ _ E) as (E1 & E2). cbn in E1, E2. subst a. congruence.
  - exfalso. apply nth_error_None in E. assert (L : length (enumerate l) = length l) by (rewrite <- (map_length snd), enumerate_map_snd; reflexivity).
    assert (j < length l) by (apply nth_error_Some; congruence). lia.
Qed.

Definition of_pair (s n : nat) (t : nat * nat * nat) : bool := (fst (fst t) =? s) && (snd (fst t) =? n).

Lemma blocks_at_pair Im ms s n p c : nth_error Im n = Some p -> fst p <> snd p -> s = fst p \/ s = snd p ->
  filter (of_pair s (n + 1)) (blocks_at Im ms c) = if c <=? nth s ms 0 then [(s, n + 1, c)] else [].
Proof.
  intros Hp Hne Hs. unfold blocks_at. rewrite filter_flat_map.
  rewrite (flat_map_one _ _ n (n, p)).
  - cbn [fst snd filter map]. destruct p as (a & b). cbn [fst snd] in *.
    assert (F : forall x, of_pair s (n + 1) (x, n + 1, c) = (x =? s)) by (intros x; unfold of_pair; cbn; rewrite Nat.eqb_refl, Bool.andb_true_r; reflexivity).
    destruct (c <=? nth a ms 0) eqn:Ea; destruct (c <=? nth b ms 0) eqn:Eb; cbn [map filter]; rewrite ?F; destruct Hs as [E|E]; subst s;
      rewrite ?Nat.eqb_refl, ?Ea, ?Eb, ?(proj2 (Nat.eqb_neq b a) (not_eq_sym Hne)), ?(proj2 (Nat.eqb_neq a b) Hne); reflexivity.
  - apply enumerate_at. exact Hp.
  - intros j (i & q) Hj Hji. destruct (enumerate_nth' _ _ _ Hj) as (E & _). cbn in E. subst i. cbn [fst snd].
    assert (F : forall x, of_pair s (n + 1) (x, j + 1, c) = false) by (intros x; unfold of_pair; cbn; rewrite (proj2 (Nat.eqb_neq (j + 1) (n + 1))) by lia; apply Bool.andb_false_r).
    cbn [filter map]. destruct (c <=? nth (fst q) ms 0); destruct (c <=? nth (snd q) ms 0); cbn [map filter]; rewrite ?F; reflexivity.
Qed.

Lemma flat_map_upto {B} (g : nat -> B) k : forall n a, a + n = S k -> forall m, k <= m ->
  flat_map (fun c => if c <=? k then [g c] else []) (seq a (m + 1 - a)) = map g (seq a n).
Proof.
  induction n as [|n IH]; intros a E m Hm.
  - cbn [seq map]. apply flat_map_nil'. intros c Hc. apply in_seq in Hc. rewrite (proj2 (Nat.leb_gt c k)) by lia. reflexivity.
  - replace (m + 1 - a) with (S (m + 1 - S a)) by lia. cbn [seq flat_map map]. rewrite (proj2 (Nat.leb_le a k)) by lia. cbn [app]. f_equal. apply IH; lia.
Qed.

Lemma blocks_pair Im ms s n p : nth_error Im n = Some p -> fst p <> snd p -> s = fst p \/ s = snd p ->
  filter (of_pair s (n + 1)) (blocks Im ms) = map (fun c => (s, n + 1, c)) (seq 1 (nth s ms 0)).
Proof.
  intros Hp Hne Hs. unfold blocks. rewrite filter_flat_map. unfold range1.
  rewrite (flat_map_ext _ (fun c => if c <=? nth s ms 0 then [(s, n + 1, c)] else [])) by (intros c; apply (blocks_at_pair Im ms s n p c); auto).
  pose proof (nth_le_max ms s) as L. replace (list_max ms) with (list_max ms + 1 - 1) by lia.
  apply (flat_map_upto (fun c => (s, n + 1, c)) (nth s ms 0) (nth s ms 0) 1); lia.
Qed.

Lemma last_flat_map {A B} (f : A -> list B) l x d : f x <> [] -> last (flat_map f (l ++ [x])) d = last (f x) d.
Proof.
  intros H. rewrite flat_map_app. cbn [flat_map]. rewrite app_nil_r. destruct (exists_last H) as (l' & y & ->). rewrite app_assoc, !last_last. reflexivity.
Qed.
Lemma last_blocks Im ms s n p : nth_error Im n = Some p -> s = fst p \/ s = snd p -> nth s ms 0 = list_max ms -> 1 <= list_max ms ->
  last (map snd (blocks Im ms)) 0 = list_max ms.
Proof.
  intros Hp Hs Hm H1. unfold blocks, range1. destruct (list_max ms) as [|k] eqn:E; [lia|].
  rewrite seq_S. cbn [plus]. rewrite map_flat_map.
  assert (NE : map snd (blocks_at Im ms (S k)) <> []).
  { intros Z. apply map_eq_nil in Z. assert (I : In (s, n + 1, S k) (blocks_at Im ms (S k))).
    { unfold blocks_at. apply in_flat_map. exists (n, p). split; [apply in_enumerate; exact Hp|]. cbn [fst snd]. apply in_map_iff. exists s. split; [reflexivity|].
      apply filter_In. split; [cbn; destruct Hs as [Q|Q]; auto|]. apply Nat.leb_le. lia. }
    rewrite Z in I. exact I. }
  rewrite (last_flat_map (fun a => map snd (blocks_at Im ms a)) _ _ _ NE).
  assert (A : forall x, In x (map snd (blocks_at Im ms (S k))) -> x = S k).
  { intros x Hx. apply in_map_iff in Hx. destruct Hx as (t & <- & Ht). unfold blocks_at in Ht. apply in_flat_map in Ht. destruct Ht as (ip & _ & Ht).
    apply in_map_iff in Ht. destruct Ht as (s' & <- & _). reflexivity. }
  apply A. destruct (exists_last NE) as (l' & y & ->). rewrite last_last. apply in_or_app. right. left. reflexivity.
Qed.

Section Idx.
Context {V : Type} (ds : list (dataset V)) (ix : idx_t).
Hypothesis (IO : idx_ok ds ix) (GF : good_files ds) (POS : forall d sd, In d ds -> 1 <= sm d sd).

Lemma pair_ne n p : nth_error (Im ix) n = Some p -> fst p <> snd p.
Proof. intros H. destruct p as (a & b). apply (Im_ne ds ix IO); [intros d Hd; apply GF; exact Hd|]. exact (nth_error_In _ _ H). Qed.
Lemma pair_file n p : nth_error (Im ix) n = Some p -> exists d, nth_error ds n = Some d /\ forall sd, nth_error (sensors ix) (sidx p sd) = Some (sname d sd).
Proof.
  intros H. assert (L : n < length ds) by (rewrite <- (io_Imlen _ _ IO); apply nth_error_Some; congruence).
  destruct (nth_error ds n) as [d|] eqn:E; [|apply nth_error_None in E; lia]. exists d. split; [reflexivity|].
  destruct (io_Im_sd _ _ _ _ IO E) as (p' & Ep & Hp). rewrite H in Ep. injection Ep as <-. exact Hp.
Qed.
Lemma pair_ms n p d sd : nth_error (Im ix) n = Some p -> nth_error ds n = Some d -> nth_error (sensor_ms ix) (sidx p sd) = Some (sm d sd).
Proof.
  intros H Hd. destruct (pair_file n p H) as (d' & Hd' & Hs). rewrite Hd in Hd'. injection Hd' as <-.
  pose proof (ms_first _ _ _ _ IO (Hs sd)) as E. rewrite (first_same _ _ _ _ sd GF Hd eq_refl) in E. injection E as E.
  assert (L : sidx p sd < length (sensor_ms ix)) by (rewrite (io_mslen _ _ IO); apply nth_error_Some; rewrite Hs; discriminate).
  rewrite (nth_error_nth' _ 0 L), <- E. reflexivity.
Qed.
Lemma side_of_pair p s : s = fst p \/ s = snd p -> exists sd, s = sidx p sd.
Proof. intros [E|E]; [exists Side1|exists Side2]; exact E. Qed.

Lemma ix_lens : length (n_mu ix) = length (N_var ix) /\ length (n_sensor ix) = length (N_var ix) /\ length (n_cov ix) = length (N_var ix) /\
  length (N_var ix) = length (blocks (Im ix) (sensor_ms ix)).
Proof. rewrite (io_nm _ _ IO), (io_ns _ _ IO), (io_nc _ _ IO), (io_nv _ _ IO), !map_length. auto. Qed.

Lemma ix_blocks_nodup : NoDup (get_block_idxs ix).
Proof. rewrite (idx_ok_block_idxs _ _ IO). apply NoDup_blocks. apply (Im_ne ds ix IO). intros d Hd. apply GF. exact Hd. Qed.

Lemma ix_block_of b t : nth_error (blocks (Im ix) (sensor_ms ix)) b = Some t ->
  nth_error (n_sensor ix) b = Some (fst (fst t)) /\ nth_error (n_mu ix) b = Some (snd (fst t)) /\ nth_error (n_cov ix) b = Some (snd t) /\
  nth_error (N_var ix) b = Some (nth (snd (fst t) - 1) (Nm ix) 0).
Proof. intros H. rewrite (io_ns _ _ IO), (io_nm _ _ IO), (io_nc _ _ IO), (io_nv _ _ IO), !nth_error_map', H. auto. Qed.

Lemma ix_series b n : nth_error (n_mu ix) b = Some n -> 1 <= n /\ exists d, nth_error ds (n - 1) = Some d /\ nth_error (Nm ix) (n - 1) = Some (d_M V d) /\ nth_error (N_var ix) b = Some (d_M V d).
Proof.
  intros H. rewrite (io_nm _ _ IO), nth_error_map' in H. destruct (nth_error (blocks _ _) b) as [[[s mu] c]|] eqn:E; [|discriminate]. cbn in H. injection H as <-.
  pose proof (nth_error_In _ _ E) as I. apply in_blocks in I. destruct I as (i & a & b' & Hi & -> & _). split; [lia|].
  destruct (pair_file _ _ Hi) as (d & Hd & _). replace (i + 1 - 1) with i by lia. exists d. split; [exact Hd|].
  assert (En : nth_error (Nm ix) i = Some (d_M V d)) by (rewrite (io_Nm _ _ IO), nth_error_map', Hd; reflexivity). split; [exact En|].
  destruct (ix_block_of _ _ E) as (_ & _ & _ & ->). cbn [fst snd]. replace (i + 1 - 1) with i by lia. rewrite (nth_nth_error _ _ 0 _ En). reflexivity.
Qed.
Lemma ix_all n : 1 <= n <= length (Nm ix) -> In n (n_mu ix).
Proof.
  intros H. rewrite (io_Nm _ _ IO), map_length in H. destruct (nth_error (Im ix) (n - 1)) as [p|] eqn:E; [|apply nth_error_None in E; rewrite (io_Imlen _ _ IO) in E; lia].
  destruct (pair_file _ _ E) as (d & Hd & Hs). rewrite (io_nm _ _ IO). apply in_map_iff. exists (fst p, n, 1). split; [reflexivity|]. apply in_blocks. exists (n - 1), (fst p), (snd p).
  split; [rewrite E; destruct p; reflexivity|]. split; [lia|]. split; [auto|]. pose proof (pair_ms _ _ d Side1 E Hd) as Em. cbn [sidx] in Em. rewrite (nth_nth_error _ _ 0 _ Em).
  pose proof (POS d Side1 (nth_error_In _ _ Hd)). lia.
Qed.

Lemma blocks_of_triples s n : map (fun b => nth b (n_cov ix) 0) (blocks_of ix s n) = map snd (filter (of_pair s n) (blocks (Im ix) (sensor_ms ix))).
Proof.
  unfold blocks_of. set (L := blocks (Im ix) (sensor_ms ix)). rewrite <- (filter_positions0 (of_pair s n) snd (0, 0, 0) L).
  rewrite (io_nm _ _ IO). fold L. rewrite map_length. rewrite (io_ns _ _ IO), (io_nc _ _ IO). fold L.
  assert (E : forall {B} (g : nat * nat * nat -> B) b, b < length L -> nth b (map g L) (g (0, 0, 0)) = g (nth b L (0, 0, 0))) by (intros B g b _; apply map_nth).
  rewrite (filter_ext_in _ (fun b => of_pair s n (nth b L (0, 0, 0)))).
  - apply map_ext_in. intros b Hb. apply filter_In in Hb. destruct Hb as (Hb & _). apply in_seq in Hb. exact (E _ snd b ltac:(lia)).
  - intros b Hb. apply in_seq in Hb. unfold of_pair. rewrite <- (E _ (fun t => fst (fst t)) b), <- (E _ (fun t => snd (fst t)) b) by lia. reflexivity.
Qed.
Lemma ix_covs n p s : nth_error (Im ix) n = Some p -> s = fst p \/ s = snd p ->
  exists ms, nth_error (sensor_ms ix) s = Some ms /\ 1 <= ms /\ map (fun b => nth b (n_cov ix) 0) (blocks_of ix s (n + 1)) = seq 1 ms.
Proof.
  intros Hp Hs. destruct (side_of_pair _ _ Hs) as (sd & ->). destruct (pair_file _ _ Hp) as (d & Hd & _). pose proof (pair_ms _ _ d sd Hp Hd) as Em.
  exists (sm d sd). split; [exact Em|]. split; [apply POS; exact (nth_error_In _ _ Hd)|].
  rewrite blocks_of_triples, (blocks_pair _ _ _ _ p Hp (pair_ne _ _ Hp)) by (destruct sd; auto). rewrite map_map. cbn [snd]. rewrite map_id, (nth_nth_error _ _ 0 _ Em). reflexivity.
Qed.
Lemma ix_ncov : exists d sd, In d ds /\ last (n_cov ix) 0 = sm d sd /\ forall d' sd', In d' ds -> sm d' sd' <= sm d sd.
Proof.
  assert (NE : ds <> []) by apply GF. destruct ds as [|d0 ds'] eqn:Ed; [congruence|]. rewrite <- Ed in *. clear NE.
  assert (Hd0 : nth_error ds 0 = Some d0) by (rewrite Ed; reflexivity).
  destruct (nth_error (Im ix) 0) as [p0|] eqn:E0; [|apply nth_error_None in E0; rewrite (io_Imlen _ _ IO), Ed in E0; cbn in E0; lia].
  assert (All : forall d sd, In d ds -> exists n p, nth_error (Im ix) n = Some p /\ nth_error ds n = Some d /\ nth_error (sensor_ms ix) (sidx p sd) = Some (sm d sd)).
  { intros d sd Hd. apply In_nth_error in Hd. destruct Hd as (n & Hn).
    destruct (nth_error (Im ix) n) as [p|] eqn:E; [|apply nth_error_None in E; rewrite (io_Imlen _ _ IO) in E; assert (n < length ds) by (apply nth_error_Some; congruence); lia].
    exists n, p. split; [exact E|]. split; [exact Hn|]. exact (pair_ms _ _ d sd E Hn). }
  assert (M : exists d sd, In d ds /\ sm d sd = list_max (sensor_ms ix)).
  { assert (I : In (list_max (sensor_ms ix)) (sensor_ms ix)).
    { assert (N : sensor_ms ix <> []) by (destruct (All d0 Side1 (nth_error_In _ _ Hd0)) as (n & p & _ & _ & E); intros Z; rewrite Z in E; destruct (sidx p Side1); discriminate).
      clear - N. induction (sensor_ms ix) as [|x l IH]; [congruence|]. cbn [list_max fold_right]. destruct l as [|y l]; [cbn; lia|]. change (fold_right max 0 (y :: l)) with (list_max (y :: l)).
      destruct (Nat.max_spec x (list_max (y :: l))) as [(_ & E)|(_ & E)]; rewrite E; [right; apply IH; discriminate|left; reflexivity]. }
    apply In_nth_error in I. destruct I as (i & Hi). assert (L : i < length (sensors ix)) by (rewrite <- (io_mslen _ _ IO); apply nth_error_Some; congruence).
    destruct (nth_error (sensors ix) i) as [s|] eqn:Es; [|apply nth_error_None in Es; lia]. destruct (io_ms _ _ IO _ _ Es) as (d & sd & Hd & _ & E & _). exists d, sd. split; [exact Hd|]. congruence. }
  destruct M as (d & sd & Hd & Em). exists d, sd. split; [exact Hd|]. destruct (All d sd Hd) as (n & p & Hp & Hn & E).
  split.
  - rewrite (io_nc _ _ IO), Em. apply (last_blocks _ _ (sidx p sd) n p Hp); [destruct sd; auto|rewrite (nth_nth_error _ _ 0 _ E); exact Em|]. rewrite <- Em. apply POS. exact Hd.
  - intros d' sd' Hd'. destruct (All d' sd' Hd') as (n' & p' & _ & _ & E'). rewrite Em. apply list_max_in. exact (nth_error_In _ _ E').
Qed.
End Idx.
