(** * Proofs for C39, C67: binning. *)
From Coq Require Import Reals Lra Permutation.
From Verif Require Import Base BaseLemmas ReaderModel UncModel MuModel MuProofs TransformModel SimModel SimSpec SimProofs.
Open Scope nat_scope.

(** ** Selection *)
Fixpoint pick {A} (c : A -> bool) (X : list A) (Y : list R) : list R :=
  match X, Y with x :: X', y :: Y' => if c x then y :: pick c X' Y' else pick c X' Y' | _, _ => [] end.
Lemma take_where {A} (c : A -> bool) X Y : length X <= length Y -> take Y (where_idx c X) = Ok (pick c X Y).
Proof.
  intros H. unfold take, where_idx, enumerate.
  assert (G : forall X Y pre, length X <= length Y ->
    mapM (get (pre ++ Y)) (flat_map (fun p => if c (snd p) then [fst p] else []) (combine (seq (length pre) (length X)) X)) = Ok (pick c X Y)).
  { clear. induction X as [|x X IH]; intros Y pre H; [reflexivity|]. destruct Y as [|y Y]; cbn [length] in H; [lia|].
    cbn [length seq combine flat_map pick fst snd].
    specialize (IH Y (pre ++ [y]) ltac:(lia)). rewrite app_length in IH. cbn [length] in IH. rewrite <- app_assoc in IH. cbn [app] in IH. rewrite Nat.add_1_r in IH.
    destruct (c x); cbn [app mapM]; [|exact IH].
    unfold get at 1. rewrite nth_error_app2, Nat.sub_diag by lia. cbn [nth_error]. rewrite IH. reflexivity. }
  exact (G X Y [] H).
Qed.
Lemma pick_between lo hi X Y : pick (fun x => rle lo x && rlt x hi) X Y = between lo hi X Y.
Proof.
  revert Y; induction X as [|x X IH]; intros [|y Y]; cbn [pick between]; auto. unfold rle, rlt at 1. destruct (Rle_dec lo x); cbn [andb]; [|apply IH].
  destruct (Rlt_dec x hi); rewrite IH; auto.
Qed.
Lemma pick_inside lo hi X Y : pick (fun t => (lo <? t)%Z && (t <? hi)%Z) X Y = strictly_inside lo hi X Y.
Proof. revert Y; induction X as [|x X IH]; intros [|y Y]; cbn [pick strictly_inside]; auto. rewrite IH. auto. Qed.

Lemma INR_len_pos {A} (l : list A) : l <> [] -> (0 < INR (length l))%R.
Proof. destruct l; [congruence|intros _]. apply lt_0_INR. cbn; lia. Qed.
Lemma average_mean l : is_mean l (average l).
Proof.
  destruct l as [|x l]; [reflexivity|]. unfold average, is_mean. split; [discriminate|].
  pose proof (INR_len_pos (x :: l) ltac:(discriminate)). change (tot (x :: l)) with (rsum (x :: l)). field. lra.
Qed.
Lemma rsum_sq_nonneg (f : R -> R) l : (0 <= rsum (map (fun x => f x * f x) l))%R.
Proof. induction l as [|x l IH]; cbn [map rsum fold_right]; [lra|]. fold (rsum (map (fun x => f x * f x)%R l)). pose proof (Rle_0_sqr (f x)) as H. unfold Rsqr in H. lra. Qed.
Lemma std_std l : is_std l (std l).
Proof.
  destruct l as [|x l]; [reflexivity|]. unfold std, is_std. split; [discriminate|].
  pose proof (INR_len_pos (x :: l) ltac:(discriminate)) as HL. split; [apply sqrt_pos|].
  exists (rsum (x :: l) / INR (length (x :: l)))%R. split; [split; [discriminate|change (tot (x :: l)) with (rsum (x :: l)); field; lra]|].
  rewrite sqrt_sqrt; [|apply Rmult_le_pos; [apply (rsum_sq_nonneg (fun x0 => x0 - rsum (x :: l) / INR (length (x :: l))))%R|left; apply Rinv_0_lt_compat; auto]].
  set (l0 := x :: l) in *. change (tot (map (fun x0 => (x0 - rsum l0 / INR (length l0)) * (x0 - rsum l0 / INR (length l0)))%R l0)) with (rsum (map (fun x0 => (x0 - rsum l0 / INR (length l0)) * (x0 - rsum l0 / INR (length l0)))%R l0)).
  field. lra.
Qed.

(** ** Edges *)
Lemma consecutive {A} (f : nat -> A) n k :
  combine (removelast (map f (seq k (n + 1)))) (tl (map f (seq k (n + 1)))) = map (fun i => (f i, f (S i))) (seq k n).
Proof.
  revert k; induction n as [|n IH]; intros k; [reflexivity|]. cbn [Nat.add seq map tl]. specialize (IH (S k)).
  destruct (n + 1) as [|m] eqn:E; [lia|]. cbn [seq map tl] in *.
  change (removelast (f k :: f (S k) :: map f (seq (S (S k)) m))) with (f k :: removelast (f (S k) :: map f (seq (S (S k)) m))).
  cbn [combine]. f_equal. exact IH.
Qed.
Lemma edge_step lo hi bins k : edge lo hi bins (S k) = (edge lo hi bins k + (hi - lo) / INR bins)%R.
Proof. unfold edge. rewrite S_INR. lra. Qed.
Lemma edge_mono lo hi bins i j : (lo < hi)%R -> 0 < bins -> i <= j -> (edge lo hi bins i <= edge lo hi bins j)%R.
Proof.
  intros H Hb Hij. unfold edge. assert (0 < INR bins)%R by (apply lt_0_INR; lia).
  assert (0 < (hi - lo) / INR bins)%R by (apply Rmult_lt_0_compat; [lra|apply Rinv_0_lt_compat; auto]).
  apply Rplus_le_compat_l, Rmult_le_compat_r; [lra|]. apply le_INR. auto.
Qed.
Lemma edge_0 lo hi bins : edge lo hi bins 0 = lo.
Proof. unfold edge. cbn. lra. Qed.
Lemma edge_last lo hi bins : 0 < bins -> edge lo hi bins bins = hi.
Proof. intros H. unfold edge. assert (0 < INR bins)%R by (apply lt_0_INR; lia). field. lra. Qed.

Theorem bin_partition lo hi bins x : (lo < hi)%R -> 0 < bins -> (lo <= x < hi)%R ->
  exists k, k < bins /\ (edge lo hi bins k <= x < edge lo hi bins (k + 1))%R /\
    forall j, j < bins -> (edge lo hi bins j <= x < edge lo hi bins (j + 1))%R -> j = k.
Proof.
  intros H Hb Hx.
  assert (G : forall n, (x < edge lo hi bins n)%R -> exists k, k < n /\ (edge lo hi bins k <= x < edge lo hi bins (k + 1))%R).
  { induction n as [|n IH]; intros Hn; [rewrite edge_0 in Hn; exfalso; lra|].
    destruct (Rlt_dec x (edge lo hi bins n)) as [Hl|Hl]; [destruct (IH Hl) as (k & A & B); exists k; split; [lia|auto]|].
    exists n. split; [lia|]. rewrite Nat.add_1_r. apply Rnot_lt_le in Hl. split; auto. }
  destruct (G bins) as (k & A & B); [rewrite edge_last by auto; lra|]. exists k. do 2 (split; [auto|]). intros j Hj Hjx.
  destruct (Nat.lt_trichotomy j k) as [L|[E|L]]; [|auto|].
  - pose proof (edge_mono lo hi bins (j + 1) k H Hb ltac:(lia)). exfalso; lra.
  - pose proof (edge_mono lo hi bins (k + 1) j H Hb ltac:(lia)). exfalso; lra.
Qed.

Lemma bin_ranges_ok lo hi bins : 0 < bins -> bin_ranges lo hi bins = Ok (map (edge lo hi bins) (seq 0 (bins + 1))).
Proof.
  intros H. unfold bin_ranges. destruct (Nat.eqb_spec bins 0); [lia|]. f_equal. apply map_ext. intros i. unfold edge. assert (0 < INR bins)%R by (apply lt_0_INR; lia). field. lra.
Qed.
Theorem bins_ok Y X bins rng lo hi : length X = length Y -> 0 < bins -> bin_range X rng = Ok (lo, hi) ->
  exists av sd cs, stats_bin Y X bins rng = Ok (av, sd, cs) /\ length av = bins /\ length sd = bins /\ length cs = bins /\
    forall k, k < bins -> exists a s, nth_error av k = Some a /\ nth_error sd k = Some s /\
      is_mean (between (edge lo hi bins k) (edge lo hi bins (k + 1)) X Y) a /\
      is_std (between (edge lo hi bins k) (edge lo hi bins (k + 1)) X Y) s /\
      nth_error cs k = Some ((edge lo hi bins k + edge lo hi bins (k + 1)) / 2)%R.
Proof.
  intros HL Hb HR. unfold stats_bin. rewrite HR. cbn [bind]. rewrite bin_ranges_ok by auto. cbn [bind]. rewrite consecutive.
  set (g := fun e : R * R => (average (between (fst e) (snd e) X Y), std (between (fst e) (snd e) X Y))).
  rewrite (mapM_Ok_map _ g).
  2:{ intros e _. rewrite take_where by lia. cbn [bind]. rewrite pick_between. reflexivity. }
  cbn [bind]. do 3 eexists. split; [reflexivity|]. rewrite !map_length, seq_length. do 3 (split; [reflexivity|]).
  intros k Hk. rewrite !nth_error_map. rewrite (nth_error_nth' _ 0) by (rewrite seq_length; auto). rewrite seq_nth by auto. cbn [Nat.add option_map g fst snd].
  eexists. eexists. split; [reflexivity|]. split; [reflexivity|]. rewrite Nat.add_1_r. split; [apply average_mean|]. split; [apply std_std|]. f_equal. lra.
Qed.

(** All Y values in range are in some bin, once. *)
Lemma flat_map_ext' {A B} (f g : A -> list B) l : (forall a, In a l -> f a = g a) -> flat_map f l = flat_map g l.
Proof. induction l as [|a l IH]; intros H; cbn [flat_map]; [auto|]. rewrite (H a (or_introl eq_refl)), IH; [auto|]. intros; apply H; right; auto. Qed.
Lemma flat_map_insert {B} (y : B) (g : nat -> list B) n k : k < n ->
  Permutation (flat_map (fun i => if i =? k then y :: g i else g i) (seq 0 n)) (y :: flat_map g (seq 0 n)).
Proof.
  intros H. replace n with (k + S (n - k - 1)) by lia. rewrite seq_app, !flat_map_app. cbn [Nat.add seq flat_map]. rewrite Nat.eqb_refl.
  rewrite (flat_map_ext' _ g (seq 0 k)) by (intros a Ha; apply in_seq in Ha; destruct (Nat.eqb_spec a k); [lia|auto]).
  rewrite (flat_map_ext' _ g (seq (S k) _)) by (intros a Ha; apply in_seq in Ha; destruct (Nat.eqb_spec a k); [lia|auto]).
  cbn [app]. symmetry. apply Permutation_middle.
Qed.
Lemma flat_nil {A B} (l : list A) : flat_map (fun _ => @nil B) l = [].
Proof. induction l; cbn; auto. Qed.
Theorem bins_exhaust lo hi bins X Y : (lo < hi)%R -> 0 < bins ->
  Permutation (flat_map (fun k => between (edge lo hi bins k) (edge lo hi bins (k + 1)) X Y) (seq 0 bins)) (between lo hi X Y).
Proof.
  intros H Hb. revert Y; induction X as [|x X IH]; intros Y.
  { cbn [between]. rewrite flat_nil. constructor. }
  destruct Y as [|y Y].
  { cbn [between]. rewrite flat_nil. constructor. }
  cbn [between]. destruct (Rle_dec lo x) as [H1|H1]; [destruct (Rlt_dec x hi) as [H2|H2]|].
  - destruct (bin_partition lo hi bins x H Hb (conj H1 H2)) as (k & Hk & Hx & U).
    eapply perm_trans; [|apply perm_skip, IH]. eapply perm_trans; [|apply (flat_map_insert y _ bins k Hk)].
    match goal with |- Permutation (flat_map ?f _) (flat_map ?g _) => rewrite (flat_map_ext' f g); [apply Permutation_refl|] end.
    intros i Hi. apply in_seq in Hi. cbn beta. destruct (Nat.eqb_spec i k) as [->|N].
    + destruct (Rle_dec _ _); [|lra]. destruct (Rlt_dec _ _); [auto|lra].
    + destruct (Rle_dec _ _); [|auto]. destruct (Rlt_dec _ _); [|auto]. exfalso. apply N, U; [lia|lra].
  - eapply perm_trans; [|apply IH]. match goal with |- Permutation (flat_map ?f _) (flat_map ?g _) => rewrite (flat_map_ext' f g); [apply Permutation_refl|] end.
    intros i Hi. apply in_seq in Hi. cbn beta. destruct (Rle_dec _ _); [|auto]. destruct (Rlt_dec _ _); [|auto]. exfalso.
    pose proof (edge_mono lo hi bins (i + 1) bins H Hb ltac:(lia)) as M. rewrite edge_last in M by auto. lra.
  - eapply perm_trans; [|apply IH]. match goal with |- Permutation (flat_map ?f _) (flat_map ?g _) => rewrite (flat_map_ext' f g); [apply Permutation_refl|] end.
    intros i Hi. apply in_seq in Hi. cbn beta. destruct (Rle_dec _ _); [|auto]. exfalso.
    pose proof (edge_mono lo hi bins 0 i H Hb ltac:(lia)) as M. rewrite edge_0 in M. lra.
Qed.

(** ** Time averages *)
Lemma fold_zmin l x : let r := fold_left Z.min l x in (r = x \/ In r l) /\ (r <= x)%Z /\ forall y, In y l -> (r <= y)%Z.
Proof.
  revert x; induction l as [|a l IH]; intros x; cbv zeta; cbn [fold_left]; [split; [auto|]; split; [lia|intros y []]|].
  destruct (IH (Z.min x a)) as (A & B & C). split; [|split].
  - destruct A as [A|A]; [|right; right; exact A]. destruct (Z.le_gt_cases x a); [rewrite Z.min_l in A by lia; rewrite Z.min_l by lia; auto|rewrite Z.min_r in A by lia; rewrite Z.min_r by lia; right; left; auto].
  - lia.
  - intros y [<-|H]; [lia|auto].
Qed.
Lemma fold_zmax l x : let r := fold_left Z.max l x in (r = x \/ In r l) /\ (x <= r)%Z /\ forall y, In y l -> (y <= r)%Z.
Proof.
  revert x; induction l as [|a l IH]; intros x; cbv zeta; cbn [fold_left]; [split; [auto|]; split; [lia|intros y []]|].
  destruct (IH (Z.max x a)) as (A & B & C). split; [|split].
  - destruct A as [A|A]; [|right; right; exact A]. destruct (Z.le_gt_cases a x); [rewrite Z.max_l in A by lia; rewrite Z.max_l by lia; auto|rewrite Z.max_r in A by lia; rewrite Z.max_r by lia; right; left; auto].
  - lia.
  - intros y [<-|H]; [lia|auto].
Qed.
Lemma start_mono period start i j : calendar period start -> (i <= j)%Z -> (start i <= start j)%Z.
Proof.
  intros (H & _) Hij. replace j with (i + Z.of_nat (Z.to_nat (j - i)))%Z by lia. induction (Z.to_nat (j - i)) as [|n IH]; [rewrite Z.add_0_r; lia|].
  rewrite Nat2Z.inj_succ. replace (i + Z.succ (Z.of_nat n))%Z with (i + Z.of_nat n + 1)%Z by lia. specialize (H (i + Z.of_nat n)%Z). lia.
Qed.
Lemma period_mono period start t u : calendar period start -> (t <= u)%Z -> (period t <= period u)%Z.
Proof.
  intros C H. destruct (Z.le_gt_cases (period t) (period u)) as [?|G]; [auto|]. exfalso.
  pose proof (start_mono period start (period u + 1) (period t) C ltac:(lia)). destruct C as (_ & C). pose proof (C t). pose proof (C u). lia.
Qed.
Lemma period_unique period start t k : calendar period start -> (start k <= t < start (k + 1))%Z -> k = period t.
Proof.
  intros C H. pose proof (proj2 C t) as Ht. destruct (Z.lt_trichotomy k (period t)) as [L|[E|L]]; [|auto|]; exfalso.
  - pose proof (start_mono period start (k + 1) (period t) C ltac:(lia)). lia.
  - pose proof (start_mono period start (period t + 1) k C ltac:(lia)). lia.
Qed.
Theorem time_average_ok period start data times : calendar period start -> times <> [] -> length times = length data ->
  exists first n av ts, time_average period start data times = Ok (av, ts) /\ length av = n /\ length ts = n /\
    (exists t, In t times /\ first = period t) /\ (exists t, In t times /\ (first + Z.of_nat n - 1)%Z = period t) /\
    (forall t, In t times -> first <= period t < first + Z.of_nat n)%Z /\
    forall i, i < n -> exists a, nth_error av i = Some a /\ nth_error ts i = Some (start (first + Z.of_nat i)%Z) /\
      is_mean (strictly_inside (start (first + Z.of_nat i)%Z) (start (first + Z.of_nat i + 1)%Z) times data) a.
Proof.
  intros C Ht HL. destruct times as [|t0 ts0]; [congruence|]. unfold time_average, zmin, zmax. cbn [bind].
  destruct (fold_zmin ts0 t0) as (A1 & B1 & C1). destruct (fold_zmax ts0 t0) as (A2 & B2 & C2). cbv zeta in *.
  set (lo := fold_left Z.min ts0 t0) in *. set (hi := fold_left Z.max ts0 t0) in *.
  assert (I1 : In lo (t0 :: ts0)) by (destruct A1 as [->|A1]; [left|right]; auto).
  assert (I2 : In hi (t0 :: ts0)) by (destruct A2 as [->|A2]; [left|right]; auto).
  assert (Hlh : (period lo <= period hi)%Z) by (apply (period_mono period start); auto; lia).
  exists (period lo), (Z.to_nat (period hi - period lo + 1)).
  rewrite (mapM_Ok_map _ (fun k => average (strictly_inside (start k) (start (k + 1)%Z) (t0 :: ts0) data))).
  2:{ intros k _. rewrite take_where by lia. cbn [bind]. rewrite pick_inside. auto. }
  cbn [bind]. do 2 eexists. split; [reflexivity|]. rewrite !map_length, seq_length. do 2 (split; [reflexivity|]).
  split; [exists lo; auto|]. split; [exists hi; split; [auto|lia]|]. split.
  - intros t Hti. assert (lo <= t <= hi)%Z by (destruct Hti as [<-|Hti]; [lia|specialize (C1 t Hti); specialize (C2 t Hti); lia]).
    pose proof (period_mono period start lo t C ltac:(lia)). pose proof (period_mono period start t hi C ltac:(lia)). lia.
  - intros i Hi. rewrite !nth_error_map. rewrite (nth_error_nth' _ 0) by (rewrite seq_length; auto). rewrite seq_nth by auto. cbn [Nat.add option_map].
    eexists. split; [reflexivity|]. split; [reflexivity|]. apply average_mean.
Qed.

(** ** C67 *)
Lemma between_none lo hi X Y : (forall x, In x X -> ~ (lo <= x < hi)%R) -> between lo hi X Y = [].
Proof.
  revert Y; induction X as [|x X IH]; intros [|y Y] H; cbn [between]; auto. pose proof (H x (or_introl eq_refl)).
  destruct (Rle_dec lo x); [destruct (Rlt_dec x hi); [exfalso; lra|]|]; apply IH; intros z Hz; apply H; right; auto.
Qed.
Lemma inside_none lo hi X Y : (forall x, In x X -> ~ (lo < x < hi)%Z) -> strictly_inside lo hi X Y = [].
Proof.
  revert Y; induction X as [|x X IH]; intros [|y Y] H; cbn [strictly_inside]; auto. pose proof (H x (or_introl eq_refl)).
  destruct (Z.ltb_spec lo x); [destruct (Z.ltb_spec x hi); [exfalso; lia|]|]; cbn [andb]; apply IH; intros z Hz; apply H; right; auto.
Qed.
Lemma default_range X : X <> [] -> exists lo hi, bin_range X None = Ok (lo, hi) /\ In lo X /\ In hi X /\ forall x, In x X -> (lo <= x <= hi)%R.
Proof.
  intros H. destruct (rmin_ok X H) as (lo & E1 & I1 & L1). destruct (rmax_ok X H) as (hi & E2 & I2 & L2). exists lo, hi.
  unfold bin_range. rewrite E1. cbn [bind]. rewrite E2. cbn [bind]. do 3 (split; [auto|]). intros x Hx. split; auto.
Qed.
Theorem default_loses_max X bins : 0 < bins -> X <> [] ->
  exists lo hi, bin_range X None = Ok (lo, hi) /\ In hi X /\ (forall x, In x X -> (x <= hi)%R) /\
    forall k, k < bins -> ~ (edge lo hi bins k <= hi < edge lo hi bins (k + 1))%R.
Proof.
  intros Hb HX. destruct (default_range X HX) as (lo & hi & E & A & B & C). exists lo, hi. do 2 (split; [auto|]). split; [intros x Hx; apply C; auto|].
  intros k Hk (H1 & H2). pose proof (C hi B) as CC. pose proof (C lo A) as CA.
  destruct (Rle_lt_or_eq_dec lo hi) as [L|L]; [lra| |].
  - pose proof (edge_mono lo hi bins (k + 1) bins L Hb ltac:(lia)) as M. rewrite edge_last in M by auto. lra.
  - subst hi. unfold edge in H2. replace ((lo - lo) / INR bins)%R with 0%R in H2 by (field; apply not_0_INR; lia). lra.
Qed.
