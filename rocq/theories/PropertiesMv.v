(** * Plots of match-up data: C132-C139. *)
From Coq Require Import Reals Sorted Lra Lia.
From Verif Require Import Base BaseLemmas ReaderModel ReaderSpec ReaderProofs ReaderMain UncModel MuModel TransformModel EvalModel HistModel SimModel SimSpec VisModel VisSpec DirModel MvModel MvSpec MvProofs MvProofs2 MvProofs3 PropertiesTransform PropertiesEval PropertiesVis.
Open Scope nat_scope.

Section Props.
Context {T : Type} (zeroV nanV : R) (zeroT : T) (f32 i32 : R -> R) (todate : R -> T) (isfill : R -> bool) (ord : list string -> list string).
Hypothesis (Hord : forall l x, In x (ord l) <-> In x l).
Notation openMatchUp := (openMatchUp R T zeroV nanV zeroT f32 i32 todate isfill ord).
Notation file := (dataset R).

(** C132: one choice of match-ups serves all quantities, in every order of asking. *)
Theorem C132_points_of_same_matchups : forall ds m rnd, readable ds -> (forall d, In d ds -> has_nominal isfill d) ->
  openMatchUp ds = Ok m -> random_numbers rnd ->
  exists Is, choice ds Is /\ forall qs, length (asks T rnd m (new_mv T) qs) = length qs /\
    forall pre q post, qs = pre ++ q :: post ->
      exists a, nth_error (asks T rnd m (new_mv T) qs) (length pre) = Some a /\ answers_choice todate ds Is pre q a.
Proof. intros ds m rnd Hr Hn Eo Hrnd. exact (one_choice zeroV nanV zeroT f32 i32 todate isfill ord rnd ds m Hord Hr Hn Eo Hrnd). Qed.

(** C133: up to 10000 match-ups, all are plotted; above, each file gets its share of 10000. *)
Theorem C133_small_datasets_complete : forall ds m rnd qs, readable ds -> (forall d, In d ds -> has_nominal isfill d) ->
  openMatchUp ds = Ok m -> random_numbers rnd -> (Z.of_nat (all_matchups ds) <= 10000)%Z ->
  Forall2 (answers_all todate ds) qs (asks T rnd m (new_mv T) qs).
Proof. intros ds m rnd qs Hr Hn Eo Hrnd. exact (small_all zeroV nanV zeroT f32 i32 todate isfill ord rnd ds m Hord Hr Hn Eo qs Hrnd). Qed.
Theorem C133_large_datasets_shares : forall ds m rnd qs i q a, readable ds -> (forall d, In d ds -> has_nominal isfill d) ->
  openMatchUp ds = Ok m -> random_numbers rnd -> (10000 < Z.of_nat (all_matchups ds))%Z ->
  nth_error qs i = Some q -> nth_error (asks T rnd m (new_mv T) qs) i = Some a -> draws q = true ->
  points a = Some (map (share ds) ds) /\ list_sum (map (share ds) ds) <= Z.to_nat 10000.
Proof.
  intros ds m rnd qs i q a Hr Hn Eo Hrnd Hl Hq Ha Hd. split; [|apply shares_fit; lia].
  exact (large_shares zeroV nanV zeroT f32 i32 todate isfill ord rnd ds m Hord Hr Hn Eo qs i q a Hrnd Hl Hq Ha Hd).
Qed.

(** C134: a file with less than a ten-thousandth of a large data set has no points in any plot. *)
Theorem C134_small_files_dropped_refuted : forall ds m rnd qs i q a k d, readable ds -> (forall d, In d ds -> has_nominal isfill d) ->
  openMatchUp ds = Ok m -> random_numbers rnd -> (10000 < Z.of_nat (all_matchups ds))%Z ->
  nth_error ds k = Some d -> (Z.of_nat (d_M R d) * 10000 < Z.of_nat (all_matchups ds))%Z ->
  nth_error qs i = Some q -> nth_error (asks T rnd m (new_mv T) qs) i = Some a -> draws q = true ->
  exists ns, points a = Some ns /\ nth_error ns k = Some 0.
Proof.
  intros ds m rnd qs i q a k d Hr Hn Eo Hrnd Hl Hk Hs Hq Ha Hd.
  destruct (C133_large_datasets_shares ds m rnd qs i q a Hr Hn Eo Hrnd Hl Hq Ha Hd) as (Hp & _).
  exists (map (share ds) ds). split; [exact Hp|]. rewrite nth_error_map', Hk. cbn. f_equal. unfold share. rewrite Z.div_small by lia. reflexivity.
Qed.

(** C135: the labels and the suffixes of file names are the sensors of the files, in order. *)
Theorem C135_labels : forall ds m, readable ds -> openMatchUp ds = Ok m ->
  get_mu_labels T m = Ok (map (both " - ") ds) /\ get_mu_fname_suffix T m = Ok (map (both "_") ds).
Proof. intros ds m Hr Eo. split; exact (pair_names_ok zeroV nanV zeroT f32 i32 todate isfill ord ds m Hr Eo _). Qed.

(** C136: the binned plots. *)
Theorem C136_binned_plots : forall ds m mm directory title fname sd Ys, good_files ds -> openMatchUp ds = Ok m ->
  1 <= mm -> (forall d, In d ds -> d_m2 R d = mm /\ d_m1 R d <= mm) -> (forall d, In d ds -> d_M R d <> 0) ->
  (forall d, In d ds -> named sd mm (d_s2 R d)) -> Forall2 (fun d Y => length Y = d_M R d) ds Ys ->
  (forall d cov, In d ds -> 1 <= cov <= mm -> varies f32 cov d) ->
  exists groups, plot_Y_X_binned_line T directory title fname sd m (concat Ys) None = Ok (concat groups) /\ length groups = mm /\
    forall cov ps, 1 <= cov -> nth_error groups (cov - 1) = Some ps -> variable_plots f32 directory title fname sd ds Ys cov ps.
Proof.
  intros ds m mm directory title fname sd Ys Hg Eo H1 H2 H3 H4 H5 H6.
  exact (binned_plots zeroV nanV zeroT f32 i32 todate isfill ord ds m mm Hg Eo H1 H2 H3 directory title fname sd Ys H4 H5 H6).
Qed.

(** C137: when only one file is selected, its plots are labelled with the sensors of the first file, and so is its
    line in the plot of all. *)
Theorem C137_selection_mislabelled_refuted : forall ds m mm directory title fname sd Ys k d Yk d0, good_files ds -> openMatchUp ds = Ok m ->
  1 <= mm -> (forall d, In d ds -> d_m2 R d = mm /\ d_m1 R d <= mm) -> (forall d, In d ds -> d_M R d <> 0) ->
  (forall d, In d ds -> named sd mm (d_s2 R d)) -> Forall2 (fun d Y => length Y = d_M R d) ds Ys ->
  nth_error ds k = Some d -> nth_error Ys k = Some Yk -> nth_error ds 0 = Some d0 -> (forall cov, 1 <= cov <= mm -> varies f32 cov d) ->
  exists groups, plot_Y_X_binned_line T directory title fname sd m (concat Ys) (Some [S k]) = Ok (concat groups) /\ length groups = mm /\
    forall cov ps, 1 <= cov -> nth_error groups (cov - 1) = Some ps ->
    exists own joint, ps = [own; joint] /\ labelled_plot f32 directory title fname sd d0 cov d Yk own /\
      (exists lo hi l, pl_lines joint = [l] /\ binned_line Yk (xcol f32 cov d) lo hi l) /\ pl_legend joint = map (both " - ") ds.
Proof.
  intros ds m mm directory title fname sd Ys k d Yk d0 Hg Eo H1 H2 H3 H4 H5 H6 H7 H8 H9.
  exact (selected zeroV nanV zeroT f32 i32 todate isfill ord ds m mm Hg Eo H1 H2 H3 directory title fname sd Ys H4 H5 k d Yk d0 H6 H7 H8 H9).
Qed.
(** C137: a variable with a single value in the first file stops the plotting. *)
Theorem C137_constant_variable_refuted : forall ds m mm directory title fname sd Ys d0 c, good_files ds -> openMatchUp ds = Ok m ->
  1 <= mm -> (forall d, In d ds -> d_m2 R d = mm /\ d_m1 R d <= mm) -> (forall d, In d ds -> d_M R d <> 0) ->
  (forall d, In d ds -> named sd mm (d_s2 R d)) -> Forall2 (fun d Y => length Y = d_M R d) ds Ys ->
  nth_error ds 0 = Some d0 -> (forall x, In x (xcol f32 1 d0) -> x = c) ->
  plot_Y_X_binned_line T directory title fname sd m (concat Ys) None = Raise IndexError.
Proof.
  intros ds m mm directory title fname sd Ys d0 c Hg Eo H1 H2 H3 H4 H5 H6 H7.
  exact (constant_fails zeroV nanV zeroT f32 i32 todate isfill ord ds m mm Hg Eo H1 H2 H3 directory title fname sd Ys H4 H5 d0 c H6 H7).
Qed.

(** C138: the comparison of calibrations ends; it plots both sensors of the first files, each with its own columns,
    up to the first file after which every sensor has been plotted. *)
Theorem C138_comparison_plots_every_sensor : forall ds m n m1 diff u, readable ds -> openMatchUp ds = Ok m ->
  exists j, j <= length ds /\
    compare_calibration (return_simulation_idx (mu_idx R T m) n) m1 diff u = Ok (compare_plots n m1 diff u 0 (firstn j ds)) /\
    all_sensors_in ds (firstn j ds) /\ forall i, i < j -> ~ all_sensors_in ds (firstn i ds).
Proof. intros ds m n m1 diff u Hr Eo. exact (compare_ok zeroV nanV zeroT f32 i32 todate isfill ord ds m Hr Eo n m1 diff u). Qed.

(** C139: asked for the harmonised K residual first (as the plotting tool does), every later "harmonised" quantity is
    the one of the nominal parameters. *)
Theorem C139_plots_of_nominal_parameters_refuted : forall (m : mobj R T) (sd : sdat T) par labels nominal2 N1 N2 cs,
  evaluate_adjusted_measurand T m sd SelAll = Ok (N1, N2) ->
  Forall2 (harmonised_answer N1 N2 (m_ks R T m) nominal2) (CKhh :: cs) (snd (calls T par labels nominal2 (new_vis T m sd) (CKhh :: cs))).
Proof. intros m sd par labels nominal2 N1 N2 cs E. apply first_kres. exact E. Qed.
End Props.
Print Assumptions C132_points_of_same_matchups.
Print Assumptions C133_small_datasets_complete.
Print Assumptions C133_large_datasets_shares.
Print Assumptions C134_small_files_dropped_refuted.
Print Assumptions C135_labels.
Print Assumptions C136_binned_plots.
Print Assumptions C137_selection_mislabelled_refuted.
Print Assumptions C137_constant_variable_refuted.
Print Assumptions C138_comparison_plots_every_sensor.
Print Assumptions C139_plots_of_nominal_parameters_refuted.

(** ** Concrete cases *)
Local Open Scope R_scope.
(** A file of [n] match-ups between two sensors with one variable each. *)
Definition mvfile (s1 s2 : string) (xs : list R) (n : nat) : dataset R :=
  mkDataset R n 1 1 s1 s2 (repeat [0] n) (map (fun x => [x]) xs) (repeat 0 n) (repeat 0 n) (repeat 0 n)
    [("nominal_measurand1"%string, repeat 0 n); ("nominal_measurand2"%string, repeat 0 n)].
Definition mvopen (ds : list (dataset R)) : res (matchup R R) := openMatchUp R R 0 0 0 (fun x => x) (fun x => x) (fun x => x) (fun _ => false) (fun l => l) ds.
Local Open Scope nat_scope.
Lemma mvfile_wf s1 s2 xs n : length xs = n -> s1 <> s2 -> wf_dataset (mvfile s1 s2 xs n) /\ distinct_sensors (mvfile s1 s2 xs n).
Proof.
  intros Hl Hs. split; [|exact Hs]. unfold wf_dataset, mvfile. cbn [d_M d_m1 d_m2 d_X1 d_X2 d_K d_time1 d_time2 d_vars].
  rewrite !repeat_length, map_length. repeat split; auto.
  - intros r Hr. apply repeat_spec in Hr. subst r. reflexivity.
  - intros r Hr. apply in_map_iff in Hr as (x & <- & _). reflexivity.
  - intros nm v [E|[E|[]]]; injection E as <- <-; apply repeat_length.
Qed.
Lemma mvfile_nominal s1 s2 xs n : has_nominal (fun _ => false) (mvfile s1 s2 xs n).
Proof. split; exists (repeat 0%R n); split; reflexivity. Qed.
Lemma mvfiles_good l : l <> [] -> (forall p, In p l -> length (snd p) = snd (fst p) /\ fst (fst (fst p)) <> snd (fst (fst p))) ->
  good_files (map (fun p : string * string * nat * list R => mvfile (fst (fst (fst p))) (snd (fst (fst p))) (snd p) (snd (fst p))) l).
Proof.
  intros Hne Hl. split; [destruct l; [congruence|discriminate]|]. split.
  - intros d d' sd sd' Hd Hd' _. apply in_map_iff in Hd as (p & <- & _). apply in_map_iff in Hd' as (p' & <- & _). destruct sd, sd'; reflexivity.
  - intros d Hd. apply in_map_iff in Hd as (p & <- & Hp). apply mvfile_wf; apply (Hl p Hp).
Qed.
Lemma mvopen_ok ds : good_files ds -> exists m, mvopen ds = Ok m.
Proof. intros Hg. destruct (readable_good ds Hg) as (H1 & H2 & H3). destruct (omu_ok 0%R 0%R 0%R (fun x => x) (fun x => x) (fun x => x) (fun _ => false) (fun l => l) ds H1 H2 H3) as (m & E & _). exists m. exact E. Qed.

(** Two files of three match-ups: the hypotheses of C132, C133, C135, C136, C138 hold. *)
Definition mvsmall : list (dataset R) := [mvfile "A" "B" [1; 2; 3]%R 3; mvfile "A" "C" [4; 5; 4]%R 3].
Lemma mvsmall_good : good_files mvsmall.
Proof.
  refine (mvfiles_good [("A", "B", 3, [1; 2; 3]%R); ("A", "C", 3, [4; 5; 4]%R)]%string _ _); [discriminate|].
  intros p [E|[E|[]]]; subst p; (split; [reflexivity|discriminate]).
Qed.
Definition mvsd : vdata := [("B", (Some ["C_E"], None)); ("C", (None, Some ["T"]))]%string.
Example C132_case : readable mvsmall /\ (forall d, In d mvsmall -> has_nominal (fun _ => false) d) /\ (exists m, mvopen mvsmall = Ok m) /\
  random_numbers (fun _ n => repeat 0%R n) /\ (Z.of_nat (all_matchups mvsmall) <= 10000)%Z.
Proof.
  split; [exact (proj2 (proj2 mvsmall_good))|]. split; [intros d [<- |[<- |[]]]; apply mvfile_nominal|]. split; [apply mvopen_ok, mvsmall_good|]. split; [|cbn; lia].
  intros i n. split; [apply repeat_length|]. intros u Hu. apply repeat_spec in Hu. subst u. lra.
Qed.
Example C136_case : (forall d, In d mvsmall -> d_m2 R d = 1 /\ d_m1 R d <= 1) /\ (forall d, In d mvsmall -> d_M R d <> 0) /\
  (forall d, In d mvsmall -> named mvsd 1 (d_s2 R d)) /\ Forall2 (fun d Y => length Y = d_M R d) mvsmall [[1; 2; 3]; [4; 5; 6]]%R /\
  (forall d cov, In d mvsmall -> 1 <= cov <= 1 -> varies (fun x => x) cov d).
Proof.
  split; [intros d [<- |[<- |[]]]; cbn; lia|]. split; [intros d [<- |[<- |[]]]; cbn; lia|].
  split; [|split; [repeat constructor|]].
  - intros d [<- |[<- |[]]]; cbn.
    + exists (Some ["C_E"%string]), None. split; [reflexivity|]. split; [intros l [= <-]; cbn; lia|discriminate].
    + exists None, (Some ["T"%string]). split; [reflexivity|]. split; [discriminate|intros l [= <-]; cbn; lia].
  - intros d cov Hd Hc. replace cov with 1 by lia. destruct Hd as [<- |[<- |[]]].
    + exists 1%R, 2%R. cbn. split; [auto|]. split; [auto|lra].
    + exists 4%R, 5%R. cbn. split; [auto|]. split; [auto|lra].
Qed.

(** A large data set with a small file, and the random numbers 0, 0, ...: *)
Definition big : nat := Z.to_nat 10001.
Definition mvlarge : list (dataset R) := [mvfile "A" "B" (repeat 0%R big) big; mvfile "A" "C" [4%R] 1].
Lemma mvlarge_good : good_files mvlarge.
Proof.
  refine (mvfiles_good [("A", "B", big, repeat 0%R big); ("A", "C", 1, [4%R])]%string _ _); [discriminate|].
  intros p [E|[E|[]]]; subst p; cbn [fst snd]; (split; [try reflexivity; apply repeat_length|discriminate]).
Qed.
Lemma mvlarge_total : Z.of_nat (all_matchups mvlarge) = 10002%Z.
Proof.
  unfold all_matchups, mvlarge. cbn [map mvfile d_M]. change (list_sum [big; 1]) with (big + (1 + 0)). unfold big.
  rewrite Nat2Z.inj_add, Z2Nat.id by lia. reflexivity.
Qed.
Example C134_case : readable mvlarge /\ (forall d, In d mvlarge -> has_nominal (fun _ => false) d) /\ (exists m, mvopen mvlarge = Ok m) /\
  (10000 < Z.of_nat (all_matchups mvlarge))%Z /\ exists d, nth_error mvlarge 1 = Some d /\ d_M R d = 1 /\ (Z.of_nat (d_M R d) * 10000 < Z.of_nat (all_matchups mvlarge))%Z.
Proof.
  rewrite mvlarge_total. split; [exact (proj2 (proj2 mvlarge_good))|]. split; [intros d [<- |[<- |[]]]; apply mvfile_nominal|]. split; [apply mvopen_ok, mvlarge_good|].
  split; [lia|]. eexists. split; [reflexivity|]. split; [reflexivity|]. cbn. lia.
Qed.
Lemma draw_zero (m : matchup R R) k Is : draw_samples R (fun _ n => repeat 0%R n) m = Ok Is -> get_kres_nom_nom R m = Ok k ->
  (10000 < Z.of_nat (length k))%Z -> forall I i, In I Is -> In i I -> i = 0.
Proof.
  unfold draw_samples. intros Ed Ek Hk I i HI Hi. rewrite Ek in Ed. cbn [bind] in Ed. injection Ed as Ed. unfold MAX_SCATTER_SAMPLES in Ed. rewrite (proj2 (Z.ltb_lt _ _) Hk) in Ed.
  rewrite <- Ed in HI. apply in_map_iff in HI as ([i0 [a b]] & EI & _). subst I.
  apply in_sort, in_map_iff in Hi as (u & <- & Hu). apply repeat_spec in Hu. subst u. unfold to_index. rewrite Rmult_0_r.
  replace (Int_part 0) with 0%Z; [reflexivity|]. destruct (base_Int_part 0) as (A & B).
  assert (Hlo : (-1 < Int_part 0)%Z) by (apply lt_IZR; lra). assert (Hhi : (Int_part 0 <= 0)%Z) by (apply le_IZR; lra). lia.
Qed.
(** C134: the points of a large data set need not be of different match-ups. *)
Theorem C134_points_repeated_refuted : exists rnd m Is I, random_numbers rnd /\ mvopen mvlarge = Ok m /\
  draw_samples R rnd m = Ok Is /\ nth_error Is 0 = Some I /\ ~ NoDup I.
Proof.
  destruct (mvopen_ok mvlarge mvlarge_good) as (m & Em). exists (fun _ n => repeat 0%R n).
  assert (Hrnd : random_numbers (fun _ n => repeat 0%R n)) by (apply C132_case).
  exists m. destruct (draw_ok 0%R 0%R 0%R (fun x => x) (fun x => x) (fun x => x) (fun _ => false) (fun l => l) (fun _ n => repeat 0%R n) mvlarge m
    (fun l x => conj (fun H => H) (fun H => H)) (proj1 C134_case) (proj1 (proj2 C134_case)) Em Hrnd) as (Is & Ed & Hc & HF).
  destruct (forall2_at _ _ _ HF 0 (mvfile "A" "B" (repeat 0%R big) big) eq_refl) as (I & EI & HL & _).
  exists Is, I. split; [exact Hrnd|]. split; [exact Em|]. split; [exact Ed|]. split; [exact EI|]. intros Hnd.
  assert (Hz : forall i, In i I -> i = 0).
  { intros i Hi. apply (draw_zero m (concat (map residual mvlarge)) Is) with (I := I); auto; [| |exact (nth_error_In _ _ EI)].
    - exact (kres_all 0%R 0%R 0%R (fun x => x) (fun x => x) (fun x => x) (fun _ => false) (fun l => l) (fun _ n => repeat 0%R n) mvlarge m
        (fun l x => conj (fun H => H) (fun H => H)) (proj1 C134_case) (proj1 (proj2 C134_case)) Em).
    - rewrite (concat_len residual) by (intros; apply residual_len). fold (all_matchups mvlarge). rewrite mvlarge_total. lia. }
  assert (Hlen : length I <= 1) by (apply (NoDup_incl_length Hnd (l' := [0])); intros i Hi; left; symmetry; auto).
  rewrite HL in Hlen. clear - Hlen. unfold chosen_size, share in Hlen. pose proof mvlarge_total as Et. remember (all_matchups mvlarge) as tt eqn:Ett. clear Ett. rewrite Et in Hlen.
  change (10000 <? 10002)%Z with true in Hlen. cbv iota in Hlen. cbn [mvfile d_M] in Hlen. unfold big in Hlen. rewrite Z2Nat.id in Hlen by lia.
  change (10001 * 10000 / 10002)%Z with 9999%Z in Hlen. lia.
Qed.
(** C139: the object of PropertiesEval: the residuals plotted as harmonised are nominal. *)
Example C139_case : exists N1 N2, evaluate_adjusted_measurand nat exm exsd SelAll = Ok (N1, N2).
Proof. eexists. eexists. vm_compute. reflexivity. Qed.
Print Assumptions C134_points_repeated_refuted.
(** C137: the two labels differ. *)
Example C137_case : exists d0 d1, nth_error mvsmall 0 = Some d0 /\ nth_error mvsmall 1 = Some d1 /\ both " - " d0 <> both " - " d1.
Proof. do 2 eexists. split; [reflexivity|]. split; [reflexivity|]. cbn. discriminate. Qed.
