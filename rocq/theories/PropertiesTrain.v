(** Property theorems C166-C171 (training lectures).  Vocabulary: TrainSpec.v.  Model: TrainModel.v. *)
From Verif Require Import Base BaseLemmas TransformModel TransformProofs TrainModel TrainSpec TrainProofs TrainProofs2 TrainProofs3.
From Coq Require Import Reals Lra.
Open Scope nat_scope.
Open Scope list_scope.

(** C166: the window and the rest divide the image, whatever the sizes and the centre, or IndexError is
    raised. *)
Theorem C166_divided : forall eqb data rows cols size0 size1 c0 c1,
  decides eqb -> shape data rows cols -> 0 < rows -> 0 < cols ->
  fits_wrapped rows size1 c1 -> fits_wrapped cols size0 c0 ->
  exists w m, scan eqb data size0 size1 c0 c1 = Ok (w, m) /\ shape w rows cols /\ shape m rows cols /\
    divided data w m (fun r c => taken rows size1 c1 r /\ taken cols size0 c0 c).
Proof. exact scan_ok. Qed.
Theorem C166_out_of_range : forall eqb data rows cols size0 size1 c0 c1,
  shape data rows cols -> 0 < rows -> 0 < size0 -> 0 < size1 ->
  ~ (fits_wrapped rows size1 c1 /\ fits_wrapped cols size0 c0) ->
  scan eqb data size0 size1 c0 c1 = Raise IndexError.
Proof.
  intros eqb data rows cols size0 size1 c0 c1 Hs Hn H0 H1 Hno. unfold scan.
  rewrite (window_bad data rows cols size0 size1 c0 c1 Hs Hn H0 H1 Hno). reflexivity.
Qed.

(** C167: the window is not centred on the centre: its last line is missing, and with a centre for which
    the centred window just fits at the beginning, the last line of the image is taken. *)
Theorem C167_centre_refuted : forall n k c, fits n (2 * k + 1) c ->
  (forall l, taken n (2 * k + 1) c l <-> centred k (c - 1) l) /\
  ~ (forall l, taken n (2 * k + 1) c l <-> centred k c l).
Proof.
  intros n k c F. pose proof F as (F1 & F2).
  assert (E : (2 * k + 1) / 2 = k).
  { symmetry. apply Nat.div_unique with (r := 1); lia. }
  assert (G : forall l, taken n (2 * k + 1) c l <-> centred k (c - 1) l).
  { intros l. rewrite (fits_taken n _ c l F). unfold first_line, centred.
    unfold first_taken in F1, F2 |- *. rewrite E in F1, F2 |- *. lia. }
  split; [exact G|]. intros H.
  unfold first_taken in F1, F2. rewrite E in F1, F2.
  specialize (H (Z.to_nat (c - Z.of_nat k - 1))). specialize (G (Z.to_nat (c - Z.of_nat k - 1))).
  unfold centred in H, G. assert (Ht := proj1 H (proj2 G ltac:(lia))). lia.
Qed.
Theorem C167_edge_refuted : forall n k, 2 * k + 1 < n ->
  (forall l, centred k (Z.of_nat k) l -> l < n) /\ taken n (2 * k + 1) (Z.of_nat k) (n - 1) /\
  ~ centred k (Z.of_nat k) (n - 1).
Proof.
  intros n k H.
  assert (E : (2 * k + 1) / 2 = k) by (symmetry; apply Nat.div_unique with (r := 1); lia).
  split; [unfold centred; lia|]. split; [|unfold centred; lia].
  exists 0. split; [lia|]. unfold first_taken. rewrite E.
  replace (Z.of_nat k - Z.of_nat k - 1 + Z.of_nat 0)%Z with (-1)%Z by lia.
  symmetry. apply Z.mod_unique with (q := (-1)%Z); [left; lia|lia].
Qed.

(** C168: the map shown: in the window the uncertainty of the average, elsewhere that of the pixel. *)
Theorem C168_map : forall eqb u rows cols p s x y, decides eqb -> usable_unc u rows cols -> 0 < s ->
  fits rows s y -> fits cols s x ->
  let sq := square (first_line s y) (first_line s x) s in
  exists im, shown_map eqb u p s x y false = Ok im /\
    forall r c, r < rows -> c < cols ->
      (In (r, c) sq -> pixel im r c =
         combination p (average_independent (values (independent u) sq)) (average_common (values (common u) sq))) /\
      (~ In (r, c) sq -> pixel im r c = combination p (pixel (independent u) r c) (pixel (common u) r c)).
Proof.
  intros eqb u rows cols p s x y He Hu H0 Fr Fc sq.
  destruct (shown_ok eqb u rows cols p s x y false He Hu H0 Fr Fc) as (im & E & H).
  exists im. split; [exact E|]. intros r c Lr Lc. destruct (H r c Lr Lc) as (A & B).
  unfold combination. cbn [flag] in A, B. split; intros Hi.
  - rewrite (A Hi). f_equal. unfold sq. lra.
  - rewrite (B Hi). f_equal. lra.
Qed.
(** Equal uncertainties: independent ones fall with the square root of the number, common ones do not
    fall. *)
Theorem C168_equal : forall n u, 0 < n -> (0 <= u)%R ->
  average_independent (repeat u n) = (u / sqrt (INR n))%R /\ average_common (repeat u n) = u.
Proof. intros n u Hn Hu. split; [apply average_independent_const|apply average_common_const]; assumption. Qed.

(** C169: with ShowStructured the map in the window does not depend on the structured uncertainties, but
    on the position of the window. *)
Theorem C169_structured_refuted : forall eqb u rows cols p s x y, decides eqb -> usable_unc u rows cols -> 0 < s ->
  fits rows s y -> fits cols s x ->
  let sq := square (first_line s y) (first_line s x) s in
  exists im, shown_map eqb u p s x y true = Ok im /\
    forall r c, r < rows -> c < cols -> In (r, c) sq -> pixel im r c =
      sqrt ((1 - p) * average_independent (values (independent u) sq) ^ 2 + p * average_common (values (common u) sq) ^ 2
            + 2 / INR (s ^ 2)%nat * rsum (map (fun q => INR (fst q + snd q)%nat) sq))%R.
Proof.
  intros eqb u rows cols p s x y He Hu H0 Fr Fc sq.
  destruct (shown_ok eqb u rows cols p s x y true He Hu H0 Fr Fc) as (im & E & H).
  exists im. split; [exact E|]. intros r c Lr Lc Hi. destruct (H r c Lr Lc) as (A & _).
  rewrite (A Hi). fold sq. f_equal. cbn [flag].
  assert (P : (0 <= 2 / INR (s ^ 2)%nat * rsum (map (fun q => INR (fst q + snd q)%nat) sq))%R).
  { apply Rmult_le_pos.
    - apply Rmult_le_pos; [lra|]. left. apply Rinv_0_lt_compat. apply lt_0_INR. destruct s; [lia|cbn; lia].
    - apply rsum_nonneg. intros q. apply pos_INR. }
  rewrite pow2_sqrt by exact P. lra.
Qed.

(** C170: the propagated uncertainty is the root mean square of the errors of the retrieval, for errors
    of the given uncertainties and correlation. *)
Theorem C170_propagation : forall es r b4 b5, es <> [] -> correlated es r ->
  surf_temp_unc (rms (map fst es)) (rms (map snd es)) sensitivity4 sensitivity5 r
  = rms (retrieval_errors surf_temp b4 b5 es).
Proof.
  intros es r b4 b5 H Hc. rewrite <- (linear_rms es r _ _ H Hc). f_equal. apply map_ext. intros e.
  unfold sensitivity4, sensitivity5, surf_temp. ring.
Qed.
(** In the exercise it is not: the sensitivities of the lecture's retrieval are used. *)
Theorem C170_exercise_refuted : exists es r, es <> [] /\ correlated es r /\ forall b4 b5,
  surf_temp_unc (rms (map fst es)) (rms (map snd es)) sensitivity4 sensitivity5 r
  <> rms (retrieval_errors surf_temp_exercise b4 b5 es).
Proof.
  exists [(1, 0)%R], 0%R. split; [discriminate|].
  assert (E1 : forall x, (0 <= x)%R -> rms [x] = x).
  { intros x Hx. unfold rms. cbn [map rsum fold_right length INR]. replace ((x ^ 2 + 0) / 1)%R with (x ^ 2)%R by field. apply sqrt_pow2. exact Hx. }
  split.
  - unfold correlated. cbn. lra.
  - intros b4 b5. cbn [map fst snd retrieval_errors]. rewrite !E1; try lra.
    + unfold surf_temp_unc, sensitivity4, sensitivity5, surf_temp_exercise.
      replace (2 ^ 2 * 1 ^ 2 + (-1) ^ 2 * 0 ^ 2 + 2 * 2 * -1 * 0 * 1 * 0)%R with (2 ^ 2)%R by ring.
      rewrite sqrt_pow2 by lra. lra.
    + unfold surf_temp_exercise. lra.
Qed.

(** C171: the total uncertainty is the root of the sum of squares only if the common part is 0 or 1. *)
Theorem C171_total_refuted : forall ui us uc, (0 <= uc)%R ->
  (total_unc ui us uc = root_sum_squares ui us uc <-> uc = 0%R \/ uc = 1%R).
Proof.
  intros ui us uc H. unfold total_unc, root_sum_squares. split.
  - intros E. apply sqrt_inj in E; [|nra|nra].
    assert (Z : (uc * (uc - 1) = 0)%R) by nra. apply Rmult_integral in Z as [Z|Z]; [left|right]; lra.
  - intros [-> | ->]; f_equal; ring.
Qed.

(** ** Concrete cases *)
(** A 3 x 3 image with equal uncertainties 1 and 2; the window of one pixel with centre (2, 2). *)
Definition tr_unc : three := mkThree [[1;1;1];[1;1;1];[1;1;1]]%R [[2;2;2];[2;2;2];[2;2;2]]%R [[0;0;0];[0;0;0];[0;0;0]]%R.
Example tr_usable : usable_unc tr_unc 3 3.
Proof.
  assert (T : forall a b c : list R, length a = 3 -> length b = 3 -> length c = 3 -> shape [a; b; c] 3 3).
  { intros a b c Ha Hb Hc. split; [reflexivity|]. intros l [<- |[<- |[<- |[]]]]; assumption. }
  split; [apply T; reflexivity|]. split; [apply T; reflexivity|]. split; [apply T; reflexivity|].
  intros r c Hr Hc. destruct r as [|[|[|r]]]; [| | |lia]; (destruct c as [|[|[|c]]]; [| | |lia]); cbn; lra.
Qed.
Example tr_fits : fits 3 1 2 /\ fits 3 2 2 /\ fits_wrapped 3 1 0 /\ ~ fits_wrapped 3 3 3.
Proof. unfold fits, fits_wrapped, first_taken. cbn. lia. Qed.
Example tr_correlated : correlated [(1, 1); (-1, -1)]%R 1%R.
Proof.
  assert (E : rms [1; -1]%R = 1%R).
  { unfold rms. cbn [map rsum fold_right length INR]. replace (((1 ^ 2 + ((-1) ^ 2 + 0)) / (1 + 1)))%R with (1 ^ 2)%R by field. apply sqrt_pow2. lra. }
  unfold correlated. cbn [map fst snd]. rewrite E. cbn. lra.
Qed.

Print Assumptions C166_divided.
Print Assumptions C166_out_of_range.
Print Assumptions C167_centre_refuted.
Print Assumptions C167_edge_refuted.
Print Assumptions C168_map.
Print Assumptions C168_equal.
Print Assumptions C169_structured_refuted.
Print Assumptions C170_propagation.
Print Assumptions C170_exercise_refuted.
Print Assumptions C171_total_refuted.
