(** * Proofs for the binned plots, C136. *)
From Coq Require Import Reals Sorted Lra Lia.
From Verif Require Import Base BaseLemmas ReaderModel ReaderSpec ReaderProofs ReaderMain UncModel MuModel MuProofs TransformModel SimModel SimSpec SimProofs SimProofs2 DirModel MvModel MvSpec MvProofs.
Open Scope nat_scope.

Lemma sapp_assoc (a b c : string) : ((a ++ b) ++ c = a ++ (b ++ c))%string.
Proof. induction a as [|x a IH]; cbn; congruence. Qed.
Lemma pymax_is l m : In m l -> (forall x, In x l -> x <= m) -> pymax l = Ok m.
Proof.
  intros Hi Hm. unfold pymax. destruct l as [|x l]; [destruct Hi|]. f_equal.
  apply Nat.le_antisymm; [apply list_max_le, Forall_forall; auto|].
  pose proof (proj1 (list_max_le (x :: l) (list_max (x :: l))) (le_n _)) as H. rewrite Forall_forall in H. auto.
Qed.

(** ** one line *)
Lemma keep_filter {A B} (f : B -> option R) (g : B -> A) (c : B -> bool) l :
  (forall k, In k l -> is_num (f k) = c k) -> keep (map f l) (map g l) = map g (filter c l).
Proof.
  intros H. unfold keep. induction l as [|b l IH]; [reflexivity|]. cbn [map combine filter].
  cbn [fst]. rewrite (H b (or_introl eq_refl)). destruct (c b); cbn [map snd]; rewrite IH by (intros; apply H; right; auto); reflexivity.
Qed.
Lemma map_of_nth {A} (l : list A) n (d : A) : length l = n -> l = map (fun k => nth k l d) (seq 0 n).
Proof.
  intros <-. apply nth_error_ext. intros i. rewrite nth_error_map'. destruct (Nat.lt_ge_cases i (length l)) as [Hi|Hi].
  - rewrite (nth_error_nth' (seq 0 (length l)) 0) by (rewrite seq_length; auto). rewrite seq_nth by auto. cbn. apply nth_error_nth'; auto.
  - rewrite (proj2 (nth_error_None (seq 0 (length l)) i)) by (rewrite seq_length; auto). apply nth_error_None. auto.
Qed.
Lemma drop_nan_twice l : length (snd (fst l)) = length (fst (fst l)) -> length (snd l) = length (fst (fst l)) -> drop_nan (drop_nan l) = drop_nan l.
Proof.
  destruct l as [[x y] e]. cbn [fst snd]. intros L1 L2.
  assert (G : forall (y : list (option R)) {A} (l : list A), length y = length l -> keep (keep y y) (keep y l) = keep y l).
  { clear. intros y A. induction y as [|o y IH]; intros [|a l] HL; cbn in HL; try discriminate; [reflexivity|].
    unfold keep in *. cbn. destruct o; cbn; [|apply IH; lia]. f_equal. apply IH. lia. }
  cbn. rewrite !G; auto; congruence.
Qed.
Lemma bin50_ok Y X lo hi : length X = length Y -> exists l, bin50 Y X (Some lo) (Some hi) = Ok l /\ binned_line Y X lo hi (drop_nan l) /\ drop_nan (drop_nan l) = drop_nan l.
Proof.
  intros HL. unfold bin50. destruct (bins_ok Y X 50 (Some (lo, hi)) lo hi HL ltac:(lia) eq_refl) as (av & sd & cs & E & L1 & L2 & L3 & H).
  rewrite E. cbn [bind]. eexists. split; [reflexivity|]. split; [|apply drop_nan_twice; cbn; congruence]. cbn [drop_nan].
  assert (Hn : forall k, k < 50 -> is_num (nth k av None) = has_points Y X lo hi k).
  { intros k Hk. destruct (H k Hk) as (a & s & Ea & Es & Ma & Ms & Ec). rewrite (nth_nth_error _ _ None _ Ea).
    unfold has_points, bin_values. destruct a as [a|]; cbn in Ma |- *.
    - destruct Ma as (Ma & _). destruct (between _ _ X Y); [congruence|reflexivity].
    - rewrite Ma. reflexivity. }
  assert (Hs : forall k, In k (seq 0 50) -> is_num (nth k av None) = has_points Y X lo hi k) by (intros k Hk; apply in_seq in Hk; apply Hn; lia).
  assert (E1 : keep av cs = map (fun k => nth k cs 0%R) (filter (has_points Y X lo hi) (seq 0 50))).
  { rewrite (map_of_nth av 50 None L1) at 1. rewrite (map_of_nth cs 50 0%R L3) at 1. apply keep_filter. exact Hs. }
  assert (E2 : keep av av = map (fun k => nth k av None) (filter (has_points Y X lo hi) (seq 0 50))).
  { rewrite (map_of_nth av 50 None L1) at 1 2. apply keep_filter. exact Hs. }
  assert (E3 : keep av sd = map (fun k => nth k sd None) (filter (has_points Y X lo hi) (seq 0 50))).
  { rewrite (map_of_nth av 50 None L1) at 1. rewrite (map_of_nth sd 50 None L2) at 1. apply keep_filter. exact Hs. }
  unfold binned_line. rewrite E1, E2, E3.
  assert (Hf : forall k, In k (filter (has_points Y X lo hi) (seq 0 50)) -> k < 50) by (intros k Hk; apply filter_In in Hk as (Hk & _); apply in_seq in Hk; lia).
  revert Hf. generalize (filter (has_points Y X lo hi) (seq 0 50)). intros ks Hf.
  split; [|split].
  - apply map_ext_in. intros k Hk. destruct (H k (Hf k Hk)) as (a & s & Ea & Es & Ma & Ms & Ec). apply nth_nth_error. exact Ec.
  - induction ks as [|k ks IH]; constructor; [|apply IH; intros; apply Hf; right; auto].
    destruct (H k (Hf k (or_introl eq_refl))) as (a & s & Ea & Es & Ma & Ms & Ec). rewrite (nth_nth_error _ _ None _ Ea). exact Ma.
  - induction ks as [|k ks IH]; constructor; [|apply IH; intros; apply Hf; right; auto].
    destruct (H k (Hf k (or_introl eq_refl))) as (a & s & Ea & Es & Ma & Ms & Ec). rewrite (nth_nth_error _ _ None _ Es). exact Ms.
Qed.
(** the extremes are distinct: some bin has a point *)
Lemma first_bin Y X lo hi : length X = length Y -> In lo X -> (lo < hi)%R -> has_points Y X lo hi 0 = true.
Proof.
  intros HL Hi Hlt. unfold has_points, bin_values.
  assert (He : edge lo hi 50 0 = lo) by (unfold edge; cbn [INR]; lra).
  assert (He1 : (lo < edge lo hi 50 1)%R).
  { unfold edge. cbn [INR]. assert (0 < (hi - lo) / INR 50)%R by (apply Rdiv_lt_0_compat; [lra|apply lt_0_INR; lia]). cbn [INR] in *. lra. }
  cbn [plus]. rewrite He. revert Y HL Hi. induction X as [|x X IH]; intros [|y Y] HL Hi; cbn in HL; try discriminate; [destruct Hi|].
  cbn [between]. destruct Hi as [-> | Hi].
  - destruct (Rle_dec lo lo); [|lra]. destruct (Rlt_dec lo (edge lo hi 50 1)); [reflexivity|lra].
  - specialize (IH Y ltac:(lia) Hi). destruct (Rle_dec lo x); auto. destruct (Rlt_dec x (edge lo hi 50 1)); auto.
Qed.
Lemma filter_first (c : nat -> bool) a n : c a = true -> exists r, filter c (seq a (S n)) = a :: r.
Proof. intros H. cbn [seq filter]. rewrite H. eauto. Qed.
Lemma plot_one_ok path xl yl Y X lo hi l : length X = length Y -> In lo X -> (lo < hi)%R -> binned_line Y X lo hi (drop_nan l) ->
  plot_one path xl yl l = Ok (mkPlot path xl yl [drop_nan l] ["__nolegend__"%string]).
Proof.
  intros HL Hi Hlt Hb. unfold plot_one. destruct (drop_nan l) as [[xs ys] es]. cbn [fst] in *. destruct Hb as (-> & _).
  pose proof (first_bin Y X lo hi HL Hi Hlt) as H0. destruct (filter_first (has_points Y X lo hi) 0 49 H0) as (r & Er). rewrite Er. reflexivity.
Qed.

Section Binned.
Context {T : Type} (zeroV nanV : R) (zeroT : T) (f32 i32 : R -> R) (todate : R -> T) (isfill : R -> bool).
Notation omu := (omu zeroV nanV zeroT f32 i32 todate isfill).
Notation file := (dataset R).
Variables (ord : list string -> list string) (ds : list file) (m : matchup R T) (mm : nat).
Hypothesis (Hg : good_files ds) (Eo : omu ord ds = Ok m).
Hypothesis (Hpos : 1 <= mm) (Hm : forall d, In d ds -> d_m2 R d = mm /\ d_m1 R d <= mm).
Hypothesis (Hfull : forall d, In d ds -> d_M R d <> 0).
Variables (directory title fname : string) (sd : vdata) (Ys : list (list R)).
Hypothesis (Hsd : forall d, In d ds -> named sd mm (d_s2 R d)).
Hypothesis (HY : Forall2 (fun d Y => length Y = d_M R d) ds Ys).
Notation ix := (mu_idx R T m).

Lemma good_readable : readable ds.
Proof. exact (proj2 (proj2 Hg)). Qed.
Lemma op : opened zeroV nanV f32 i32 todate isfill ord ds m.
Proof. exact (proj1 (omu_opened _ _ _ _ _ _ _ ord ds m good_readable Eo)). Qed.
Lemma op_ix : idx_ok ds ix.
Proof. exact (op_idx _ _ _ _ _ _ _ _ _ op). Qed.
Lemma ne : ds <> [].
Proof. exact (proj1 Hg). Qed.
Lemma sm_le' d s : In d ds -> sm d s <= mm.
Proof. intros Hd. destruct (Hm d Hd). destruct s; cbn; lia. Qed.
Lemma max_ms : pymax (sensor_ms ix) = Ok mm.
Proof.
  destruct (ne_in ds ne) as (d & Hd). apply pymax_is.
  - assert (Hs : In (d_s2 R d) (sensors ix)) by (apply (io_sens _ _ op_ix); exists d, Side2; auto).
    destruct (In_nth_error _ _ Hs) as (i & Hi). destruct (io_ms _ _ op_ix i _ Hi) as (d' & sd' & Hd' & En & Ems & _).
    assert (Emm : sm d' sd' = mm).
    { destruct Hg as (_ & Hsame & _). rewrite (Hsame d' d sd' Side2 Hd' Hd En). apply (Hm d Hd). }
    rewrite Emm in Ems. eapply nth_error_In; eauto.
  - intros x Hx. destruct (In_nth_error _ _ Hx) as (i & Hi).
    assert (Hl : i < length (sensors ix)) by (rewrite <- (io_mslen _ _ op_ix); apply nth_error_Some; congruence).
    destruct (nth_error (sensors ix) i) as [s|] eqn:Es; [|apply nth_error_None in Es; lia].
    destruct (io_ms _ _ op_ix i _ Es) as (d' & sd' & Hd' & En & Ems & _). rewrite Hi in Ems. injection Ems as ->. apply sm_le'; auto.
Qed.
Lemma sensor2_at i d : nth_error ds i = Some d ->
  exists b, sensor2 T m (S i) = Ok b /\ get (sensors ix) b = Ok (d_s2 R d) /\ get (sensor_ms ix) b = Ok mm.
Proof.
  intros Hd. destruct (io_Im _ _ op_ix i d Hd) as (a & b & E1 & E2 & E3). exists b.
  unfold sensor2. replace (Z.of_nat (S i) - 1)%Z with (Z.of_nat i) by lia. rewrite pyget_of_nat, (proj2 (get_ok _ _ _) E1). cbn [bind snd].
  split; [reflexivity|]. split; [apply get_ok; auto|]. apply get_ok.
  destruct (io_ms _ _ op_ix b _ E3) as (d' & sd' & Hd' & En & Ems & _). rewrite Ems. f_equal.
  destruct Hg as (_ & Hsame & _). assert (Hin : In d ds) by (eapply nth_error_In; eauto). rewrite (Hsame d' d sd' Side2 Hd' Hin En). apply (Hm d Hin).
Qed.
Lemma max_mu : pymax (n_mu ix) = Ok (length ds).
Proof.
  apply pymax_is.
  - rewrite (io_nm _ _ op_ix). apply in_map_iff.
    assert (Hl : length ds - 1 < length ds) by (pose proof ne; destruct ds; [congruence|cbn; lia]).
    destruct (nth_error ds (length ds - 1)) as [d|] eqn:Ed; [|apply nth_error_None in Ed; lia].
    destruct (io_Im _ _ op_ix _ d Ed) as (a & b & E1 & E2 & E3). destruct (sensor2_at _ d Ed) as (b' & S1 & S2 & S3).
    assert (Eb : b' = b).
    { unfold sensor2 in S1. replace (Z.of_nat (S (length ds - 1)) - 1)%Z with (Z.of_nat (length ds - 1)) in S1 by lia. rewrite pyget_of_nat, (proj2 (get_ok _ _ _) E1) in S1. cbn in S1. congruence. }
    subst b'. exists (b, length ds, 1). split; [reflexivity|]. apply in_blocks. exists (length ds - 1), a, b.
    apply get_ok in S3. rewrite (nth_nth_error _ _ 0 _ S3). repeat split; auto; lia.
  - intros x Hx. rewrite (io_nm _ _ op_ix) in Hx. apply in_map_iff in Hx as ([[s mu] c] & <- & Hin).
    apply in_blocks in Hin as (i & a & b & Hi & -> & _). cbn.
    assert (i < length (Im ix)) by (apply nth_error_Some; congruence). rewrite (io_Imlen _ _ op_ix) in H. lia.
Qed.

Lemma xcol_len cov d : In d ds -> length (xcol f32 cov d) = d_M R d.
Proof. intros Hd. unfold xcol. rewrite map_length. apply good_readable; auto. Qed.
Lemma var_at i d cov : nth_error ds i = Some d -> 1 <= cov <= mm -> getVariableData R T m cov (d_s2 R d) (Some (S i)) = Ok (xcol f32 cov d).
Proof.
  intros Hd Hc. assert (Hin : In d ds) by (eapply nth_error_In; eauto).
  destruct (columns_returned zeroV nanV zeroT f32 i32 todate isfill ord ds Hg) as (m' & E' & G & _).
  change (openMatchUp R T zeroV nanV zeroT f32 i32 todate isfill ord ds) with (omu ord ds) in E'. rewrite Eo in E'. injection E' as <-.
  destruct (G (d_s2 R d) (S i) cov d Side2) as (col & (Hc1 & Hc2) & Hget).
  { unfold file_has. replace (S i - 1) with i by lia. repeat split; auto; try lia. cbn. rewrite (proj1 (Hm d Hin)). lia. }
  rewrite Hget. f_equal. unfold xcol. rewrite <- (map_map (fun row => nth (cov - 1) row 0%R) f32). f_equal.
  apply nth_error_ext. intros r. cbn in Hc1, Hc2. destruct (Nat.lt_ge_cases r (length (d_X2 R d))) as [Hr|Hr].
  - rewrite nth_error_map'. destruct (nth_error (d_X2 R d) r) as [row|] eqn:Er; [|apply nth_error_None in Er; lia].
    rewrite (Hc2 r row Er). cbn. apply nth_error_nth'. pose proof (nth_error_In _ _ Er) as Hrow.
    destruct (good_readable d Hin) as ((_ & _ & _ & W & _) & _). rewrite (W row Hrow), (proj1 (Hm d Hin)). lia.
  - rewrite !(proj2 (nth_error_None _ _)); auto; rewrite ?map_length; lia.
Qed.
Lemma xcol_range cov d : In d ds -> 1 <= cov <= mm -> exists lo hi, rmin (xcol f32 cov d) = Ok lo /\ rmax (xcol f32 cov d) = Ok hi /\
  range_of (xcol f32 cov d) lo hi.
Proof.
  intros Hd Hc.
  assert (Hnil : xcol f32 cov d <> []) by (intros E; pose proof (xcol_len cov d Hd) as HL; rewrite E in HL; exact (Hfull d Hd (eq_sym HL))).
  destruct (rmin_ok _ Hnil) as (lo & E1 & I1 & M1). destruct (rmax_ok _ Hnil) as (hi & E2 & I2 & M2).
  exists lo, hi. split; auto. split; auto. split; [auto|split; [auto|intros z Hz; split; auto]].
Qed.

(** ** the overall limits *)
Definition suffix_at (l : list file) (k : nat) : Prop := forall i d, nth_error l i = Some d -> nth_error ds (k + i) = Some d.
Lemma suffix_tl d l k : suffix_at (d :: l) k -> nth_error ds k = Some d /\ suffix_at l (S k).
Proof.
  intros H. split; [replace k with (k + 0) by lia; apply H; reflexivity|]. intros i x Hi. replace (S k + i) with (k + S i) by lia. apply H. exact Hi.
Qed.
Lemma x_agg_from (agg : list R -> res R) (val : file -> R) cov l : 1 <= cov <= mm ->
  (forall d, In d ds -> agg (xcol f32 cov d) = Ok (val d)) -> forall k acc, suffix_at l k ->
  foldM (fun acc mu => do b <- sensor2 T m mu;;
           do name <- get (sensors ix) b;; do m2 <- get (sensor_ms ix) b;;
           if cov <=? m2 then do v <- getVariableDataAgg R T agg m cov name (Some mu);; Ok (acc ++ [v]) else Ok acc)
        (seq (S k) (length l)) acc = Ok (acc ++ map (fun d => Some (val d)) l).
Proof.
  intros Hc Hv. induction l as [|d l IH]; intros k acc Hs; [cbn; rewrite app_nil_r; reflexivity|].
  destruct (suffix_tl d l k Hs) as (Hd & Hs'). cbn [length seq foldM].
  destruct (sensor2_at k d Hd) as (b & S1 & S2 & S3). rewrite S1. cbn [bind]. rewrite S2. cbn [bind]. rewrite S3. cbn [bind].
  rewrite (proj2 (Nat.leb_le cov mm)) by lia.
  unfold getVariableDataAgg at 1. rewrite (var_at k d cov Hd Hc). cbn [bind]. rewrite (Hv d (nth_error_In _ _ Hd)). cbn [bind].
  rewrite (IH (S k) _ Hs'). cbn [map]. rewrite <- app_assoc. reflexivity.
Qed.
Lemma x_agg_ok agg val cov : 1 <= cov <= mm -> (forall d, In d ds -> agg (xcol f32 cov d) = Ok (val d)) ->
  x_agg T agg m (length ds) cov = Ok (map (fun d => Some (val d)) ds).
Proof. intros Hc Hv. exact (x_agg_from agg val cov ds Hc Hv 0 [] (fun i d H => H)). Qed.

Lemma fold_omax (val : file -> R) l x : exists y, fold_left omax (map (fun d => Some (val d)) l) (Some x) = Some y /\
  (y = x \/ exists d, In d l /\ y = val d) /\ (x <= y)%R /\ forall d, In d l -> (val d <= y)%R.
Proof.
  revert x. induction l as [|d l IH]; intros x; cbn [map fold_left].
  - exists x. split; [reflexivity|]. split; [auto|]. split; [lra|]. intros d [].
  - cbn [omax]. destruct (IH (Rmax x (val d))) as (y & E & Hy & Hle & Hall). exists y. split; auto.
    pose proof (Rmax_l x (val d)). pose proof (Rmax_r x (val d)).
    split; [|split; [lra|]].
    + destruct Hy as [Hy|(d' & Hd' & Hy)]; [|right; exists d'; split; [right|]; auto].
      destruct (Rmax_case x (val d) (fun z => z = x \/ z = val d)) as [Hz|Hz]; auto.
      * left; congruence.
      * right. exists d. split; [left; auto|congruence].
    + intros d' [-> | Hd']; [lra|auto].
Qed.
Lemma fold_omin (val : file -> R) l x : exists y, fold_left omin (map (fun d => Some (val d)) l) (Some x) = Some y /\
  (y = x \/ exists d, In d l /\ y = val d) /\ (y <= x)%R /\ forall d, In d l -> (y <= val d)%R.
Proof.
  revert x. induction l as [|d l IH]; intros x; cbn [map fold_left].
  - exists x. split; [reflexivity|]. split; [auto|]. split; [lra|]. intros d [].
  - cbn [omin]. destruct (IH (Rmin x (val d))) as (y & E & Hy & Hle & Hall). exists y. split; auto.
    pose proof (Rmin_l x (val d)). pose proof (Rmin_r x (val d)).
    split; [|split; [lra|]].
    + destruct Hy as [Hy|(d' & Hd' & Hy)]; [|right; exists d'; split; [right|]; auto].
      destruct (Rmin_case x (val d) (fun z => z = x \/ z = val d)) as [Hz|Hz]; auto.
      * left; congruence.
      * right. exists d. split; [left; auto|congruence].
    + intros d' [-> | Hd']; [lra|auto].
Qed.
Lemma fold1_max (val : file -> R) l : l <> [] -> exists y, fold1 omax (map (fun d => Some (val d)) l) = Ok (Some y) /\ (exists d, In d l /\ y = val d) /\ forall d, In d l -> (val d <= y)%R.
Proof.
  destruct l as [|d l]; [congruence|]. intros _. cbn [map fold1]. destruct (fold_omax val l (val d)) as (y & E & Hy & Hle & Hall).
  exists y. rewrite E. split; [reflexivity|]. split.
  - destruct Hy as [Hy|(d' & Hd' & Hy)]; [exists d; split; [left|]; auto|exists d'; split; [right|]; auto].
  - intros d' [-> | Hd']; auto.
Qed.
Lemma fold1_min (val : file -> R) l : l <> [] -> exists y, fold1 omin (map (fun d => Some (val d)) l) = Ok (Some y) /\ (exists d, In d l /\ y = val d) /\ forall d, In d l -> (y <= val d)%R.
Proof.
  destruct l as [|d l]; [congruence|]. intros _. cbn [map fold1]. destruct (fold_omin val l (val d)) as (y & E & Hy & Hle & Hall).
  exists y. rewrite E. split; [reflexivity|]. split.
  - destruct Hy as [Hy|(d' & Hd' & Hy)]; [exists d; split; [left|]; auto|exists d'; split; [right|]; auto].
  - intros d' [-> | Hd']; auto.
Qed.
Definition low cov (d : file) : R := match rmin (xcol f32 cov d) with Ok x => x | _ => 0%R end.
Definition high cov (d : file) : R := match rmax (xcol f32 cov d) with Ok x => x | _ => 0%R end.
Lemma low_high cov d : In d ds -> 1 <= cov <= mm -> rmin (xcol f32 cov d) = Ok (low cov d) /\ rmax (xcol f32 cov d) = Ok (high cov d) /\
  range_of (xcol f32 cov d) (low cov d) (high cov d).
Proof. intros Hd Hc. destruct (xcol_range cov d Hd Hc) as (lo & hi & E1 & E2 & H). unfold low, high. rewrite E1, E2. auto. Qed.
Lemma limits_cov cov : 1 <= cov <= mm -> exists lo hi,
  (do xa <- x_agg T rmax m (length ds) cov;; do ia <- x_agg T rmin m (length ds) cov;;
   do x <- fold1 omax xa;; do i <- fold1 omin ia;; Ok (x, i)) = Ok (Some hi, Some lo) /\
  range_of (concat (map (xcol f32 cov) ds)) lo hi.
Proof.
  intros Hc. rewrite (x_agg_ok rmax (high cov) cov Hc) by (intros d Hd; apply low_high; auto).
  cbn [bind]. rewrite (x_agg_ok rmin (low cov) cov Hc) by (intros d Hd; apply low_high; auto).
  cbn [bind]. destruct (fold1_max (high cov) ds ne) as (hi & E1 & (d1 & Hd1 & Ed1) & M1).
  destruct (fold1_min (low cov) ds ne) as (lo & E2 & (d2 & Hd2 & Ed2) & M2). rewrite E1. cbn [bind]. rewrite E2. cbn [bind].
  exists lo, hi. split; [reflexivity|].
  destruct (low_high cov d1 Hd1 Hc) as (_ & _ & (A1 & A2 & A3)). destruct (low_high cov d2 Hd2 Hc) as (_ & _ & (B1 & B2 & B3)).
  pose proof (M2 d1 Hd1). split; [|split].
  - apply in_concat. exists (xcol f32 cov d2). split; [apply in_map; auto|congruence].
  - apply in_concat. exists (xcol f32 cov d1). split; [apply in_map; auto|congruence].
  - intros x Hx. apply in_concat in Hx as (c & Hcin & Hx). apply in_map_iff in Hcin as (d & <- & Hd).
    destruct (low_high cov d Hd Hc) as (_ & _ & (C1 & C2 & C3)). specialize (C3 x Hx). pose proof (M1 d Hd). pose proof (M2 d Hd). lra.
Qed.
Lemma limits_ok : exists his los, set_Xmax_Xmin T m = Ok (his, los) /\
  forall cov, 1 <= cov <= mm -> exists lo hi, get los (cov - 1) = Ok (Some lo) /\ get his (cov - 1) = Ok (Some hi) /\
    range_of (concat (map (xcol f32 cov) ds)) lo hi.
Proof.
  unfold set_Xmax_Xmin. rewrite max_ms. cbn [bind]. rewrite max_mu. cbn [bind].
  set (F := fun cov => do xa <- x_agg T rmax m (length ds) cov;; _).
  destruct (mapM_ok_ex F (seq 1 mm)) as (l & El).
  { intros cov Hc. apply in_seq in Hc. destruct (limits_cov cov ltac:(lia)) as (lo & hi & E & _). exists (Some hi, Some lo). exact E. }
  rewrite El. cbn [bind]. do 2 eexists. split; [reflexivity|]. intros cov Hc.
  destruct (limits_cov cov Hc) as (lo & hi & E & HR). exists lo, hi.
  assert (Hs : nth_error (seq 1 mm) (cov - 1) = Some cov) by (rewrite (nth_error_nth' _ 0) by (rewrite seq_length; lia); rewrite seq_nth by lia; f_equal; lia).
  destruct (mapM_nth _ _ _ _ _ El Hs) as (p & Ep & Hp). unfold F in Ep. rewrite E in Ep. injection Ep as <-.
  split; [|split; [|exact HR]]; apply get_ok; rewrite nth_error_map', Hp; reflexivity.
Qed.

(** ** the loops *)
Notation labels := (map (both " - ") ds).
Notation suffix := (map (both "_") ds).
Notation Y := (concat Ys).
Lemma low_lt cov d : In d ds -> 1 <= cov <= mm -> varies f32 cov d -> (low cov d < high cov d)%R.
Proof.
  intros Hd Hc (x & y & Hx & Hy & Hne). destruct (low_high cov d Hd Hc) as (_ & _ & (_ & _ & C3)). pose proof (C3 x Hx). pose proof (C3 y Hy).
  destruct (Rtotal_order x y) as [|[|]]; [lra|contradiction|lra].
Qed.
Lemma lens_Y : map (@length R) Ys = map (d_M R) ds.
Proof.
  revert HY. generalize Ys ds. intros yl l H. induction H as [|d y l yl H HF IH]; [reflexivity|]. cbn [map]. rewrite H, IH. reflexivity.
Qed.
Lemma Y_at k d Yk : nth_error ds k = Some d -> nth_error Ys k = Some Yk ->
  exists i1 i2, pyget (cNm ix) (Z.of_nat (S k) - 1) = Ok i1 /\ pyget (cNm ix) (Z.of_nat (S k)) = Ok i2 /\ slice i1 i2 Y = Yk /\ length Yk = d_M R d.
Proof.
  intros Hd HYk. assert (Hl : k < length ds) by (apply nth_error_Some; congruence).
  replace (Z.of_nat (S k) - 1)%Z with (Z.of_nat k) by lia. rewrite !pyget_of_nat, (io_cNm _ _ op_ix).
  rewrite (proj2 (get_ok _ _ _) (cumul_nth 0 (map (d_M R) ds) k ltac:(rewrite map_length; lia))).
  rewrite (proj2 (get_ok _ _ _) (cumul_nth 0 (map (d_M R) ds) (S k) ltac:(rewrite map_length; lia))).
  do 2 eexists. split; [reflexivity|]. split; [reflexivity|]. cbn [plus]. rewrite <- lens_Y. split; [apply slice_concat; auto|].
  assert (E : nth_error (map (@length R) Ys) k = Some (d_M R d)) by (rewrite lens_Y, nth_error_map', Hd; reflexivity).
  rewrite nth_error_map', HYk in E. injection E as E. exact E.
Qed.
Lemma label_ok cov d : In d ds -> 1 <= cov <= mm -> get_X_label sd cov (d_s2 R d) = Ok (var_label sd cov (d_s2 R d)) /\ get_X_name sd cov (d_s2 R d) = Ok (var_name sd cov (d_s2 R d)).
Proof.
  intros Hd Hc. destruct (Hsd d Hd) as (lab & nam & E & H1 & H2). unfold get_X_label, get_X_name, var_label, var_name. rewrite E.
  split.
  - destruct lab as [l|]; [|reflexivity]. specialize (H1 l eq_refl). apply get_ok. apply nth_error_nth'. lia.
  - destruct nam as [l|]; [|reflexivity]. specialize (H2 l eq_refl). apply get_ok. apply nth_error_nth'. lia.
Qed.
Definition last_of cov (d : file) : option (string * string) := Some (var_name sd cov (d_s2 R d), ("$" ++ var_label sd cov (d_s2 R d) ++ "$ (Binned)")%string).
Lemma binned_mu_lab cov lo hi i k dl d Yk st : nth_error ds i = Some dl -> nth_error ds k = Some d -> nth_error Ys k = Some Yk -> 1 <= cov <= mm -> varies f32 cov d ->
  exists pl l, binned_mu T directory title fname sd m Y labels suffix (Some lo) (Some hi) cov st (i, S k) =
    Ok (mkB (b_plots st ++ [pl]) (b_lines st ++ [l]) (last_of cov d)) /\
    labelled_plot f32 directory title fname sd dl cov d Yk pl /\ binned_line Yk (xcol f32 cov d) lo hi l /\ drop_nan l = l.
Proof.
  intros Hi Hd HYk Hc Hv. assert (Hin : In d ds) by (eapply nth_error_In; eauto).
  destruct (Y_at k d Yk Hd HYk) as (i1 & i2 & C1 & C2 & ES & HL).
  destruct (sensor2_at k d Hd) as (b & S1 & S2 & S3). destruct (label_ok cov d Hin Hc) as (L1 & L2).
  destruct (low_high cov d Hin Hc) as (R1 & R2 & R3). pose proof (low_lt cov d Hin Hc Hv) as R4.
  assert (HLX : length (xcol f32 cov d) = length Yk) by (rewrite xcol_len; auto).
  destruct (bin50_ok Yk (xcol f32 cov d) (low cov d) (high cov d) HLX) as (l1 & B1 & B2 & _).
  destruct (bin50_ok Yk (xcol f32 cov d) lo hi HLX) as (l2 & B3 & B4 & B5).
  assert (Esuf : pyget suffix (Z.of_nat (S k) - 1) = Ok (both "_" d)).
  { replace (Z.of_nat (S k) - 1)%Z with (Z.of_nat k) by lia. rewrite pyget_of_nat. apply get_ok. rewrite nth_error_map', Hd. reflexivity. }
  assert (Elab : get labels i = Ok (both " - " dl)) by (apply get_ok; rewrite nth_error_map', Hi; reflexivity).
  do 2 eexists. split.
  - unfold binned_mu. rewrite C1. cbn [bind]. rewrite C2. cbn [bind]. rewrite S1. cbn [bind]. rewrite S2. cbn [bind].
    rewrite L2. cbn [bind]. rewrite L1. cbn [bind]. rewrite Esuf. cbn [bind]. rewrite S3. cbn [bind].
    rewrite (proj2 (Nat.leb_le cov mm)) by lia. rewrite (var_at k d cov Hd Hc). cbn [bind]. rewrite R1. cbn [bind]. rewrite R2. cbn [bind].
    rewrite ES, B1. cbn [bind]. rewrite Elab. cbn [bind].
    rewrite (plot_one_ok _ _ _ Yk (xcol f32 cov d) (low cov d) (high cov d) l1 HLX (proj1 R3) R4 B2). cbn [bind].
    rewrite B3. cbn [bind]. reflexivity.
  - split; [|split; [exact B4|exact B5]]. split; [|reflexivity]. unfold own_plot. cbn [pl_path pl_xlbl pl_ylbl pl_lines].
    split; [reflexivity|]. split; [rewrite !sapp_assoc; reflexivity|]. split; [reflexivity|].
    exists (low cov d), (high cov d), (drop_nan l1). auto.
Qed.
Lemma binned_mu_ok cov lo hi k d Yk st : nth_error ds k = Some d -> nth_error Ys k = Some Yk -> 1 <= cov <= mm -> varies f32 cov d ->
  exists pl l, binned_mu T directory title fname sd m Y labels suffix (Some lo) (Some hi) cov st (k, S k) =
    Ok (mkB (b_plots st ++ [pl]) (b_lines st ++ [l]) (last_of cov d)) /\
    own_plot f32 directory title fname sd cov d Yk pl /\ binned_line Yk (xcol f32 cov d) lo hi l /\ drop_nan l = l.
Proof.
  intros Hd HYk Hc Hv. destruct (binned_mu_lab cov lo hi k k d d Yk st Hd Hd HYk Hc Hv) as (pl & l & E & (H1 & H2) & H3).
  exists pl, l. split; [exact E|]. split; [|exact H3]. rewrite <- H2 in H1. destruct pl. exact H1.
Qed.
(** A variable with a single value: all 50 bins are empty. *)
Lemma between_same lo Xs Ysx : between lo lo Xs Ysx = [].
Proof.
  revert Ysx. induction Xs as [|x Xs IH]; intros [|y Ysx]; cbn; auto. destruct (Rle_dec lo x); auto. destruct (Rlt_dec x lo); auto. lra.
Qed.
Lemma binned_mu_const cov lo hi k d Yk c st : nth_error ds k = Some d -> nth_error Ys k = Some Yk -> 1 <= cov <= mm ->
  (forall x, In x (xcol f32 cov d) -> x = c) ->
  binned_mu T directory title fname sd m Y labels suffix (Some lo) (Some hi) cov st (k, S k) = Raise IndexError.
Proof.
  intros Hd HYk Hc Hconst. assert (Hin : In d ds) by (eapply nth_error_In; eauto).
  destruct (Y_at k d Yk Hd HYk) as (i1 & i2 & C1 & C2 & ES & HL).
  destruct (sensor2_at k d Hd) as (b & S1 & S2 & S3). destruct (label_ok cov d Hin Hc) as (L1 & L2).
  destruct (low_high cov d Hin Hc) as (R1 & R2 & R3).
  assert (El : low cov d = c) by (apply Hconst; apply R3). assert (Eh : high cov d = c) by (apply Hconst; apply R3).
  assert (HLX : length (xcol f32 cov d) = length Yk) by (rewrite xcol_len; auto).
  destruct (bin50_ok Yk (xcol f32 cov d) (low cov d) (high cov d) HLX) as (l1 & B1 & B2 & _).
  assert (Esuf : pyget suffix (Z.of_nat (S k) - 1) = Ok (both "_" d)).
  { replace (Z.of_nat (S k) - 1)%Z with (Z.of_nat k) by lia. rewrite pyget_of_nat. apply get_ok. rewrite nth_error_map', Hd. reflexivity. }
  assert (Elab : get labels k = Ok (both " - " d)) by (apply get_ok; rewrite nth_error_map', Hd; reflexivity).
  unfold binned_mu. rewrite C1. cbn [bind]. rewrite C2. cbn [bind]. rewrite S1. cbn [bind]. rewrite S2. cbn [bind].
  rewrite L2. cbn [bind]. rewrite L1. cbn [bind]. rewrite Esuf. cbn [bind]. rewrite S3. cbn [bind].
  rewrite (proj2 (Nat.leb_le cov mm)) by lia. rewrite (var_at k d cov Hd Hc). cbn [bind]. rewrite R1. cbn [bind]. rewrite R2. cbn [bind].
  rewrite ES, B1. cbn [bind]. rewrite Elab. cbn [bind]. unfold plot_one.
  destruct (drop_nan l1) as [[xs ys] es]. cbn [fst]. unfold binned_line in B2. destruct B2 as (-> & _).
  assert (Enone : forall l, filter (has_points Yk (xcol f32 cov d) (low cov d) (high cov d)) l = []).
  { assert (G : forall j, has_points Yk (xcol f32 cov d) (low cov d) (high cov d) j = false).
    { intros j. unfold has_points, bin_values. rewrite El, Eh.
      assert (Ee : forall q, edge c c 50 q = c) by (intros q; unfold edge; unfold Rminus; rewrite Rplus_opp_r; unfold Rdiv; ring).
      rewrite !Ee, between_same. reflexivity. }
    induction l as [|j l IH]; cbn; [reflexivity|]. rewrite G. exact IH. }
  rewrite Enone. reflexivity.
Qed.
Definition loop_result cov lo hi (l : list file) (yl : list (list R)) (own : list plot) (lines : list line) : Prop :=
  length own = length l /\ length lines = length l /\
  (forall k d Yk p, nth_error l k = Some d -> nth_error yl k = Some Yk -> nth_error own k = Some p -> own_plot f32 directory title fname sd cov d Yk p) /\
  (forall k d Yk x, nth_error l k = Some d -> nth_error yl k = Some Yk -> nth_error lines k = Some x -> binned_line Yk (xcol f32 cov d) lo hi x /\ drop_nan x = x).
Lemma mu_loop cov lo hi (Hc : 1 <= cov <= mm) (Hv : forall d, In d ds -> varies f32 cov d) l yl : Forall2 (fun d y => length y = d_M R d) l yl -> forall k st, suffix_at l k ->
  (forall i y, nth_error yl i = Some y -> nth_error Ys (k + i) = Some y) ->
  exists own lines st', foldM (binned_mu T directory title fname sd m Y labels suffix (Some lo) (Some hi) cov) (combine (seq k (length l)) (seq (S k) (length l))) st = Ok st' /\
    b_plots st' = b_plots st ++ own /\ b_lines st' = b_lines st ++ lines /\
    (l <> [] -> exists d, In d l /\ b_last st' = last_of cov d) /\ loop_result cov lo hi l yl own lines.
Proof.
  induction 1 as [|d y l yl Hy HF IH]; intros k st Hs HYs.
  - exists [], [], st. cbn. rewrite !app_nil_r. split; [reflexivity|]. split; [reflexivity|]. split; [reflexivity|]. split; [congruence|].
    split; [reflexivity|]. split; [reflexivity|]. split; intros [|] ? ? ? E; discriminate.
  - destruct (suffix_tl d l k Hs) as (Hd & Hs').
    assert (Hyk : nth_error Ys k = Some y) by (replace k with (k + 0) by lia; apply HYs; reflexivity).
    destruct (binned_mu_ok cov lo hi k d y st Hd Hyk Hc (Hv d (nth_error_In _ _ Hd))) as (pl & x & E & Hown & Hbin & Hdn).
    cbn [length seq combine foldM]. rewrite E. cbn [bind].
    destruct (IH (S k) (mkB (b_plots st ++ [pl]) (b_lines st ++ [x]) (last_of cov d)) Hs') as (own & lines & st' & E' & P1 & P2 & P3 & (Q1 & Q2 & Q3 & Q4)).
    { intros i z Hz. replace (S k + i) with (k + S i) by lia. apply HYs. exact Hz. }
    cbn [b_plots b_lines] in P1, P2.
    exists (pl :: own), (x :: lines), st'. split; [exact E'|]. rewrite P1, P2, <- !app_assoc. split; [reflexivity|]. split; [reflexivity|]. split.
    + intros _. destruct l as [|d2 l]; [|destruct P3 as (d3 & Hd3 & E3); [discriminate|]; exists d3; split; [right|]; auto].
      exists d. split; [left; auto|]. cbn in E'. injection E' as <-. reflexivity.
    + split; [cbn; congruence|]. split; [cbn; congruence|]. split.
      * intros [|i] d0 Yk p H1 H2 H3; cbn in H1, H2, H3; [|eapply Q3; eauto]. congruence.
      * intros [|i] d0 Yk p H1 H2 H3; cbn in H1, H2, H3; [|eapply Q4; eauto]. injection H1 as <-. injection H2 as <-. injection H3 as <-. auto.
Qed.
Lemma cov_step his los st cov : (forall cov, 1 <= cov <= mm -> exists lo hi, get los (cov - 1) = Ok (Some lo) /\ get his (cov - 1) = Ok (Some hi) /\
    range_of (concat (map (xcol f32 cov) ds)) lo hi) -> 1 <= cov <= mm -> (forall d, In d ds -> varies f32 cov d) ->
  exists ps st', binned_cov T directory title fname sd m Y labels suffix (seq 1 (length ds)) (his, los) st cov = Ok st' /\
    b_plots st' = b_plots st ++ ps /\ variable_plots f32 directory title fname sd ds Ys cov ps.
Proof.
  intros Hlim Hc Hv. destruct (Hlim cov Hc) as (lo & hi & G1 & G2 & HR). unfold binned_cov. cbn [fst snd].
  rewrite G1. cbn [bind]. rewrite G2. cbn [bind].
  assert (Een : enumerate (seq 1 (length ds)) = combine (seq 0 (length ds)) (seq 1 (length ds))) by (unfold enumerate; rewrite seq_length; reflexivity).
  rewrite Een.
  destruct (mu_loop cov lo hi Hc Hv ds Ys HY 0 (mkB (b_plots st) [] (b_last st)) (fun i d H => H) (fun i y H => H)) as (own & lines & st' & E & P1 & P2 & P3 & (Q1 & Q2 & Q3 & Q4)).
  rewrite E. cbn [bind]. destruct (P3 ne) as (dl & Hdl & El). rewrite El. unfold last_of. cbv iota beta.
  cbn [b_plots b_lines app] in P1, P2. rewrite P2.
  assert (Hpl : forall path xl, plot_lines path xl title lines labels = Ok (mkPlot path xl title lines labels)).
  { intros path xl. unfold plot_lines. destruct lines as [|x0 lines0] eqn:Elines; [pose proof ne; destruct ds; [congruence|discriminate]|].
    rewrite <- Elines in *. rewrite map_length, Q2. rewrite (proj2 (Nat.ltb_ge _ _)) by lia. f_equal. f_equal.
    rewrite <- (map_id lines) at 2. apply map_ext_in. intros x Hx. destruct (In_nth_error _ _ Hx) as (i & Hi).
    assert (Hil : i < length ds) by (rewrite <- Q2; apply nth_error_Some; congruence).
    destruct (nth_error ds i) as [d|] eqn:Ed; [|apply nth_error_None in Ed; lia].
    destruct (forall2_at _ _ _ HY i d Ed) as (y & Ey & _). exact (proj2 (Q4 i d y x Ed Ey Hi)). }
  rewrite Hpl. cbn [bind]. do 2 eexists. split; [reflexivity|]. cbn [b_plots]. rewrite P1, <- app_assoc. split; [reflexivity|].
  exists own. eexists. split; [reflexivity|]. split; [exact Q1|]. split.
  - split; [exists dl; split; [exact Hdl|]; cbn [pl_path pl_xlbl]; split; [reflexivity|rewrite !sapp_assoc; reflexivity]|].
    cbn [pl_ylbl pl_legend pl_lines]. split; [reflexivity|]. split; [reflexivity|]. split; [exact Q2|].
    exists lo, hi. split; [exact HR|]. intros k d y x H1 H2 H3. exact (proj1 (Q4 k d y x H1 H2 H3)).
  - exact Q3.
Qed.
Theorem binned_plots : (forall d cov, In d ds -> 1 <= cov <= mm -> varies f32 cov d) -> exists groups, plot_Y_X_binned_line T directory title fname sd m Y None = Ok (concat groups) /\
  length groups = mm /\ forall cov ps, 1 <= cov -> nth_error groups (cov - 1) = Some ps -> variable_plots f32 directory title fname sd ds Ys cov ps.
Proof.
  intros Hvary. unfold plot_Y_X_binned_line. unfold get_mu_labels, get_mu_fname_suffix.
  rewrite !(pair_names_ok zeroV nanV zeroT f32 i32 todate isfill ord ds m good_readable Eo). cbn [bind].
  rewrite max_mu. cbn [bind]. rewrite max_ms. cbn [bind]. destruct limits_ok as (his & los & E & Hlim). rewrite E. cbn [bind].
  assert (G : forall n k st, 1 <= k -> k + n <= S mm -> exists groups st',
    foldM (binned_cov T directory title fname sd m Y labels suffix (seq 1 (length ds)) (his, los)) (seq k n) st = Ok st' /\
    b_plots st' = b_plots st ++ concat groups /\ length groups = n /\
    forall i ps, nth_error groups i = Some ps -> variable_plots f32 directory title fname sd ds Ys (k + i) ps).
  { induction n as [|n IH]; intros k st Hk Hn.
    - exists [], st. cbn. rewrite app_nil_r. repeat split; auto. intros [|] ? Ei; discriminate.
    - cbn [seq foldM]. destruct (cov_step his los st k Hlim ltac:(lia) (fun d Hd => Hvary d k Hd ltac:(lia))) as (ps & st1 & E1 & P1 & V1). rewrite E1. cbn [bind].
      destruct (IH (S k) st1 ltac:(lia) ltac:(lia)) as (gs & st' & E2 & P2 & L2 & V2).
      exists (ps :: gs), st'. split; [exact E2|]. rewrite P2, P1. cbn [concat]. rewrite <- app_assoc. split; [reflexivity|]. split; [cbn; congruence|].
      intros [|i] qs Hi; cbn in Hi; [injection Hi as <-; rewrite Nat.add_0_r; exact V1|]. replace (k + S i) with (S k + i) by lia. apply V2. exact Hi. }
  destruct (G mm 1 (mkB [] [] None) ltac:(lia) ltac:(lia)) as (gs & st' & E2 & P2 & L2 & V2). rewrite E2. cbn [bind]. exists gs.
  rewrite P2. split; [reflexivity|]. split; [exact L2|]. intros cov ps Hc Hi. replace cov with (1 + (cov - 1)) by lia. apply V2. exact Hi.
Qed.

(** A selection of one file: its plots are labelled with the sensors of the first file. *)
Theorem selected k d Yk d0 : nth_error ds k = Some d -> nth_error Ys k = Some Yk -> nth_error ds 0 = Some d0 ->
  (forall cov, 1 <= cov <= mm -> varies f32 cov d) -> exists groups,
  plot_Y_X_binned_line T directory title fname sd m Y (Some [S k]) = Ok (concat groups) /\ length groups = mm /\
  forall cov ps, 1 <= cov -> nth_error groups (cov - 1) = Some ps -> exists own joint, ps = [own; joint] /\ labelled_plot f32 directory title fname sd d0 cov d Yk own /\
    (exists lo hi l, pl_lines joint = [l] /\ binned_line Yk (xcol f32 cov d) lo hi l) /\ pl_legend joint = labels.
Proof.
  intros Hd HYk H0 Hvary. unfold plot_Y_X_binned_line. unfold get_mu_labels, get_mu_fname_suffix.
  rewrite !(pair_names_ok zeroV nanV zeroT f32 i32 todate isfill ord ds m good_readable Eo). cbn [bind].
  rewrite max_mu. cbn [bind]. rewrite max_ms. cbn [bind]. destruct limits_ok as (his & los & E & Hlim). rewrite E. cbn [bind].
  assert (Hl1 : 1 <= length ds) by (pose proof ne; destruct ds; [congruence|cbn; lia]).
  assert (Hstep : forall cov st, 1 <= cov <= mm -> exists own joint st',
    binned_cov T directory title fname sd m Y labels suffix [S k] (his, los) st cov = Ok st' /\ b_plots st' = b_plots st ++ [own; joint] /\
    labelled_plot f32 directory title fname sd d0 cov d Yk own /\ (exists lo hi l, pl_lines joint = [l] /\ binned_line Yk (xcol f32 cov d) lo hi l) /\ pl_legend joint = labels).
  { intros cov st Hc. destruct (Hlim cov Hc) as (lo & hi & G1 & G2 & HR).
    destruct (binned_mu_lab cov lo hi 0 k d0 d Yk (mkB (b_plots st) [] (b_last st)) H0 Hd HYk Hc (Hvary cov Hc)) as (pl & l & E1 & HL & HB & HD).
    unfold binned_cov. cbn [fst snd]. rewrite G1. cbn [bind]. rewrite G2. cbn [bind].
    change (enumerate [S k]) with [(0, S k)]. cbn [foldM]. rewrite E1. cbn [bind b_last b_lines b_plots]. unfold last_of. cbv iota beta.
    cbn [app]. unfold plot_lines. rewrite map_length. cbn [length]. rewrite (proj2 (Nat.ltb_ge _ _)) by lia. cbn [bind map]. rewrite HD.
    do 3 eexists. split; [reflexivity|]. cbn [b_plots]. rewrite <- app_assoc. split; [reflexivity|]. split; [exact HL|]. cbn [pl_lines pl_legend].
    split; [|reflexivity]. exists lo, hi, l. auto. }
  assert (G : forall n c st, 1 <= c -> c + n <= S mm -> exists groups st',
    foldM (binned_cov T directory title fname sd m Y labels suffix [S k] (his, los)) (seq c n) st = Ok st' /\
    b_plots st' = b_plots st ++ concat groups /\ length groups = n /\
    forall i ps, nth_error groups i = Some ps -> exists own joint, ps = [own; joint] /\ labelled_plot f32 directory title fname sd d0 (c + i) d Yk own /\
      (exists lo hi l, pl_lines joint = [l] /\ binned_line Yk (xcol f32 (c + i) d) lo hi l) /\ pl_legend joint = labels).
  { induction n as [|n IH]; intros c st Hk Hn.
    - exists [], st. cbn. rewrite app_nil_r. repeat split; auto. intros [|] ? Ei; discriminate.
    - cbn [seq foldM]. destruct (Hstep c st ltac:(lia)) as (own & joint & st1 & E1 & P1 & V1). rewrite E1. cbn [bind].
      destruct (IH (S c) st1 ltac:(lia) ltac:(lia)) as (gs & st' & E2 & P2 & L2 & V2).
      exists ([own; joint] :: gs), st'. split; [exact E2|]. rewrite P2, P1. cbn [concat]. rewrite <- app_assoc. split; [reflexivity|]. split; [cbn; congruence|].
      intros [|i] qs Hi; cbn in Hi; [injection Hi as <-; rewrite Nat.add_0_r; exists own, joint; auto|]. replace (c + S i) with (S c + i) by lia. apply V2. exact Hi. }
  destruct (G mm 1 (mkB [] [] None) ltac:(lia) ltac:(lia)) as (gs & st' & E2 & P2 & L2 & V2). rewrite E2. cbn [bind]. exists gs.
  rewrite P2. split; [reflexivity|]. split; [exact L2|]. intros cov ps Hc Hi. replace cov with (1 + (cov - 1)) by lia. apply V2. exact Hi.
Qed.
(** A constant variable in the first file: no plot at all. *)
Theorem constant_fails d0 c : nth_error ds 0 = Some d0 -> (forall x, In x (xcol f32 1 d0) -> x = c) ->
  plot_Y_X_binned_line T directory title fname sd m Y None = Raise IndexError.
Proof.
  intros H0 Hconst. unfold plot_Y_X_binned_line. unfold get_mu_labels, get_mu_fname_suffix.
  rewrite !(pair_names_ok zeroV nanV zeroT f32 i32 todate isfill ord ds m good_readable Eo). cbn [bind].
  rewrite max_mu. cbn [bind]. rewrite max_ms. cbn [bind]. destruct limits_ok as (his & los & E & Hlim). rewrite E. cbn [bind].
  destruct (Hlim 1 ltac:(lia)) as (lo & hi & G1 & G2 & HR).
  destruct (forall2_at _ _ _ HY 0 d0 H0) as (Y0 & EY & _).
  destruct mm as [|q] eqn:Emm; [lia|]. rewrite <- Emm in *. replace (seq 1 mm) with (1 :: seq 2 q) by (rewrite Emm; reflexivity). cbn [foldM].
  assert (Hl : exists n, length ds = S n) by (destruct (length ds) eqn:El; [destruct ds; [discriminate|discriminate]|eauto]).
  destruct Hl as (n & Hl). unfold binned_cov at 1. cbn [fst snd]. rewrite G1. cbn [bind]. rewrite G2. cbn [bind].
  rewrite Hl. unfold enumerate. rewrite seq_length. cbn [seq combine foldM].
  rewrite (binned_mu_const 1 lo hi 0 d0 Y0 c _ H0 EY ltac:(lia) Hconst). reflexivity.
Qed.
End Binned.
