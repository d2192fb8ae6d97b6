(** * Simulated match-ups and binning statistics: C38, C39, C67. *)
From Coq Require Import Reals Lra Permutation.
From Verif Require Import Base BaseLemmas ReaderModel UncModel MuModel SampleSpec TransformModel SimModel SimSpec SimProofs SimProofs2 PropertiesTransform.
Open Scope nat_scope.

(** ** C38 *)
Theorem C38_simulation_fills_ranges : forall (T : Type) (m : mobj R T) n, wf_mobj m ->
  (forall N, In N (Nm (m_idx R T m)) -> N <> 0) ->
  exists m', simulate T m n = Ok m' /\ same_series (m_idx R T m) (m_idx R T m') n /\ m_ps R T m' = m_ps R T m /\
    cNm (m_idx R T m') = cumul 0 (Nm (m_idx R T m')) /\ idxs (m_idx R T m') = cumul 0 (N_var (m_idx R T m')) /\
    fills_ranges (idxs (m_idx R T m)) (m_values R T m) (idxs (m_idx R T m')) (m_values R T m') n /\
    fills_ranges (cNm (m_idx R T m)) (m_ks R T m) (cNm (m_idx R T m')) (m_ks R T m') n.
Proof. intros T. exact (@simulate_fills T). Qed.
(** A series without match-ups cannot be simulated. *)
Theorem C38_empty_series_rejected : forall (T : Type) (m : mobj R T) n, wf_mobj m -> In 0 (Nm (m_idx R T m)) ->
  simulate T m n = Raise ValueError.
Proof. intros T. exact (@simulate_empty T). Qed.
Print Assumptions C38_simulation_fills_ranges.
Print Assumptions C38_empty_series_rejected.

(** ** C39 *)
Theorem C39_bin_statistics : forall Y X bins X_range lo hi, length X = length Y -> 0 < bins -> bin_range X X_range = Ok (lo, hi) ->
  exists av sd cs, stats_bin Y X bins X_range = Ok (av, sd, cs) /\ length av = bins /\ length sd = bins /\ length cs = bins /\
    forall k, k < bins -> exists a s, nth_error av k = Some a /\ nth_error sd k = Some s /\
      is_mean (between (edge lo hi bins k) (edge lo hi bins (k + 1)) X Y) a /\
      is_std (between (edge lo hi bins k) (edge lo hi bins (k + 1)) X Y) s /\
      nth_error cs k = Some ((edge lo hi bins k + edge lo hi bins (k + 1)) / 2)%R.
Proof. exact bins_ok. Qed.
Theorem C39_exactly_one_bin : forall lo hi bins x, (lo < hi)%R -> 0 < bins -> (lo <= x < hi)%R ->
  exists k, k < bins /\ (edge lo hi bins k <= x < edge lo hi bins (k + 1))%R /\
    forall j, j < bins -> (edge lo hi bins j <= x < edge lo hi bins (j + 1))%R -> j = k.
Proof. exact bin_partition. Qed.
Theorem C39_bins_exhaust_range : forall lo hi bins X Y, (lo < hi)%R -> 0 < bins ->
  Permutation (flat_map (fun k => between (edge lo hi bins k) (edge lo hi bins (k + 1)) X Y) (seq 0 bins)) (between lo hi X Y).
Proof. exact bins_exhaust. Qed.
Theorem C39_time_average : forall period start data times, calendar period start -> times <> [] -> length times = length data ->
  exists first n av ts, time_average period start data times = Ok (av, ts) /\ length av = n /\ length ts = n /\
    (exists t, In t times /\ first = period t) /\ (exists t, In t times /\ (first + Z.of_nat n - 1)%Z = period t) /\
    (forall t, In t times -> first <= period t < first + Z.of_nat n)%Z /\
    forall i, i < n -> exists a, nth_error av i = Some a /\ nth_error ts i = Some (start (first + Z.of_nat i)%Z) /\
      is_mean (strictly_inside (start (first + Z.of_nat i)%Z) (start (first + Z.of_nat i + 1)%Z) times data) a.
Proof. exact time_average_ok. Qed.
Print Assumptions C39_bin_statistics.
Print Assumptions C39_exactly_one_bin.
Print Assumptions C39_bins_exhaust_range.
Print Assumptions C39_time_average.

(** ** C67 *)
(** With the default range the largest X is in no bin. *)
Theorem C67_maximum_lost_refuted : forall X bins, 0 < bins -> X <> [] ->
  exists lo hi, bin_range X None = Ok (lo, hi) /\ In hi X /\ (forall x, In x X -> (x <= hi)%R) /\
    forall k, k < bins -> ~ (edge lo hi bins k <= hi < edge lo hi bins (k + 1))%R.
Proof. exact default_loses_max. Qed.
(** Equal X: every bin is empty, all data are lost. *)
Theorem C67_constant_lost_refuted : forall Y n x bins, length Y = S n -> 0 < bins ->
  exists sd cs, stats_bin Y (repeat x (S n)) bins None = Ok (repeat None bins, sd, cs).
Proof.
  intros Y n x bins HY Hb. destruct (default_range (repeat x (S n)) ltac:(discriminate)) as (lo & hi & E & A & B & C).
  apply repeat_spec in A. apply repeat_spec in B. subst lo hi.
  destruct (bins_ok Y (repeat x (S n)) bins None x x) as (av & sd & cs & ES & L1 & L2 & L3 & H); [rewrite repeat_length; auto|auto|auto|].
  exists sd, cs. rewrite ES. f_equal. f_equal. f_equal. apply nth_error_ext. intros i. destruct (Nat.lt_ge_cases i bins) as [Hi|Hi].
  - destruct (H i Hi) as (a & s & Ha & _ & M & _). rewrite Ha. rewrite (nth_error_nth' _ None) by (rewrite repeat_length; auto). rewrite nth_repeat. f_equal.
    rewrite between_none in M.
    + destruct a; [destruct M as (M & _); congruence|auto].
    + intros y Hy. apply repeat_spec in Hy. subst y. unfold edge. replace ((x - x) / INR bins)%R with 0%R by (field; apply not_0_INR; lia). lra.
  - rewrite !(proj2 (nth_error_None _ _)); auto; [rewrite repeat_length; auto|lia].
Qed.
(** A time on a period boundary is in no period; if all times are, no data are averaged. *)
Theorem C67_boundary_times_lost_refuted : forall period start data times, calendar period start -> times <> [] -> length times = length data ->
  (forall t, In t times -> t = start (period t)) ->
  exists n ts, time_average period start data times = Ok (repeat None n, ts) /\ 0 < n.
Proof.
  intros period start data times C Ht HL Hs. destruct (time_average_ok period start data times C Ht HL) as (f & n & av & ts & E & L1 & L2 & _ & _ & F & H).
  exists n, ts. split.
  - rewrite E. f_equal. f_equal. apply nth_error_ext. intros i. destruct (Nat.lt_ge_cases i n) as [Hi|Hi].
    + destruct (H i Hi) as (a & Ha & _ & M). rewrite Ha. rewrite (nth_error_nth' _ None) by (rewrite repeat_length; auto). rewrite nth_repeat. f_equal.
      rewrite inside_none in M; [destruct a; [destruct M as (M & _); congruence|auto]|].
      intros t Hti Hin. assert (f + Z.of_nat i = period t)%Z by (apply (period_unique period start); [auto|lia]). rewrite H0 in Hin. rewrite <- (Hs t Hti) in Hin. lia.
    + rewrite !(proj2 (nth_error_None _ _)); auto; [rewrite repeat_length; auto|lia].
  - destruct times as [|t ?]; [congruence|]. specialize (F t (or_introl eq_refl)). lia.
Qed.
Print Assumptions C67_maximum_lost_refuted.
Print Assumptions C67_constant_lost_refuted.
Print Assumptions C67_boundary_times_lost_refuted.

(** ** Non-vacuity *)
Example C39_case : calendar (fun t => (t / 24)%Z) (fun k => (24 * k)%Z) /\ bin_range [1; 4; 2]%R None = Ok (Rmin (Rmin 1 4) 2, Rmax (Rmax 1 4) 2) /\
  edge 0 10 5 2 = 4%R /\ between 0 2 [1; 4; 2]%R [7; 8; 9]%R = [7]%R.
Proof.
  split; [split; [intros k; lia|intros t; pose proof (Z.div_mod t 24); pose proof (Z.mod_pos_bound t 24); lia]|]. split; [reflexivity|].
  split; [unfold edge; cbn; field|]. cbn [between]. repeat (match goal with |- context [Rle_dec ?a ?b] => destruct (Rle_dec a b); [|lra] | |- context [Rlt_dec ?a ?b] => destruct (Rlt_dec a b); [try lra|try lra] end); reflexivity.
Qed.
Example C38_case : wf_mobj txm /\ (forall N, In N (Nm (m_idx R nat txm)) -> N <> 0) /\
  space_filling [3; 1; 9]%R [1; 5; 9]%R 3.
Proof.
  split; [exact txm_wf|]. split; [intros N HN; cbn in HN; repeat (destruct HN as [<-|HN]; [discriminate|]); destruct HN|].
  split; [reflexivity|]. exists 1%R, 9%R. split; [cbn; auto|]. split; [cbn; auto|].
  split; [intros x [<-|[<-|[<-|[]]]]; lra|]. split; [intros x [<-|[<-|[<-|[]]]]; lra|]. split; [auto|]. split; [auto|].
  intros [|[|[|i]]] x y Hx Hy; cbn in Hx, Hy; [injection Hx as <-; injection Hy as <-; cbn; lra|injection Hx as <-; injection Hy as <-; cbn; lra|discriminate|destruct i; discriminate].
Qed.
