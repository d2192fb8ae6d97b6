(** Proofs for TrainModel: the map shown; uncertainty propagation. *)
From Verif Require Import Base BaseLemmas TransformModel TransformProofs TrainModel TrainSpec TrainProofs TrainProofs2.
From Coq Require Import Reals Lra.
Open Scope nat_scope.
Open Scope list_scope.

Lemma fits_wraps n s c : fits n s c -> fits_wrapped n s c.
Proof. unfold fits, fits_wrapped. lia. Qed.
Lemma fits_taken n s c k : fits n s c -> (taken n s c k <-> first_line s c <= k < first_line s c + s).
Proof.
  intros (H1 & H2). unfold taken, first_line. split.
  - intros (i & Hi & E). rewrite Z.mod_small in E by lia. lia.
  - intros H. exists (k - Z.to_nat (first_taken s c)). split; [lia|]. rewrite Z.mod_small by lia. lia.
Qed.
Lemma fits_line n s c : fits n s c -> first_line s c + s <= n.
Proof. unfold fits, first_line. lia. Qed.

Lemma map3_shape f a b c rows cols : shape a rows cols -> shape b rows cols -> shape c rows cols ->
  shape (map3 f a b c) rows cols.
Proof.
  intros H1 H2 H3. split.
  - unfold map3. rewrite map_length, !combine_length, (proj1 H1), (proj1 H2), (proj1 H3). lia.
  - intros l Hl. apply in_map_iff in Hl as ((x & y & z) & <- & Hl). cbn [fst snd].
    pose proof (in_combine_l _ _ _ _ Hl) as Hx. pose proof (in_combine_r _ _ _ _ Hl) as Hyz.
    pose proof (in_combine_l _ _ _ _ Hyz) as Hy. pose proof (in_combine_r _ _ _ _ Hyz) as Hz.
    rewrite map_length, !combine_length, (proj2 H1 x Hx), (proj2 H2 y Hy), (proj2 H3 z Hz). lia.
Qed.
Lemma map3_pixel f a b c rows cols i j : shape a rows cols -> shape b rows cols -> shape c rows cols ->
  i < rows -> j < cols -> pixel (map3 f a b c) i j = f (pixel a i j) (pixel b i j) (pixel c i j).
Proof.
  intros H1 H2 H3 Hi Hj. unfold pixel, map3.
  set (g := fun p : list R * (list R * list R) => map (fun q : R * (R * R) => f (fst q) (fst (snd q)) (snd (snd q)))
                    (combine (fst p) (combine (fst (snd p)) (snd (snd p))))).
  rewrite (nth_indep _ [] (g ([], ([], [])))) by (rewrite map_length, !combine_length, (proj1 H1), (proj1 H2), (proj1 H3); lia).
  rewrite map_nth. rewrite combine_nth by (rewrite combine_length, (proj1 H1), (proj1 H2), (proj1 H3); lia).
  rewrite combine_nth by (rewrite (proj1 H2), (proj1 H3); lia).
  unfold g at 1. cbn [fst snd].
  set (h := fun q : R * (R * R) => f (fst q) (fst (snd q)) (snd (snd q))).
  assert (L1 : length (nth i a []) = cols) by (eapply shape_row; eauto).
  assert (L2 : length (nth i b []) = cols) by (eapply shape_row; eauto).
  assert (L3 : length (nth i c []) = cols) by (eapply shape_row; eauto).
  rewrite (nth_indep _ 0%R (h (0, (0, 0)))%R) by (rewrite map_length, !combine_length; lia).
  rewrite map_nth, combine_nth by (rewrite combine_length; lia). rewrite combine_nth by lia. reflexivity.
Qed.
Lemma add_pixel a b rows cols i j : shape a rows cols -> shape b rows cols -> i < rows -> j < cols ->
  pixel (add_images a b) i j = (pixel a i j + pixel b i j)%R.
Proof.
  intros H1 H2 Hi Hj. unfold pixel, add_images.
  set (g := fun p : list R * list R => map (fun q : R * R => (fst q + snd q)%R) (combine (fst p) (snd p))).
  rewrite (nth_indep _ [] (g ([], []))) by (rewrite map_length, combine_length, (proj1 H1), (proj1 H2); lia).
  rewrite map_nth. rewrite combine_nth by (rewrite (proj1 H1), (proj1 H2); reflexivity).
  unfold g at 1. cbn [fst snd].
  set (h := fun q : R * R => (fst q + snd q)%R).
  assert (L1 : length (nth i a []) = cols) by (eapply shape_row; eauto).
  assert (L2 : length (nth i b []) = cols) by (eapply shape_row; eauto).
  rewrite (nth_indep _ 0%R (h (0%R, 0%R))) by (rewrite map_length, combine_length; lia).
  rewrite map_nth, combine_nth by lia. reflexivity.
Qed.

Definition in_sq (s : nat) (x y : Z) (r c : nat) : bool :=
  ((first_line s y <=? r) && (r <? first_line s y + s)) && ((first_line s x <=? c) && (c <? first_line s x + s)).
Lemma in_sq_iff s x y r c : in_sq s x y r c = true <-> In (r, c) (square (first_line s y) (first_line s x) s).
Proof.
  unfold in_sq, square. rewrite in_prod_iff, !in_seq, !andb_true_iff, !Nat.leb_le, !Nat.ltb_lt. lia.
Qed.

Lemma scan_square eqb data rows cols s x y : decides eqb -> shape data rows cols -> 0 < rows -> 0 < cols ->
  fits rows s y -> fits cols s x ->
  exists w m, scan eqb data s s x y = Ok (w, m) /\ shape w rows cols /\ shape m rows cols /\
    (forall r c, r < rows -> c < cols -> pixel w r c = if in_sq s x y r c then pixel data r c else 0%R) /\
    (forall r c, r < rows -> c < cols -> pixel m r c = if in_sq s x y r c then 0%R else pixel data r c).
Proof.
  intros He Hs Hn Hm Hr Hc.
  destruct (scan_ok eqb data rows cols s s x y He Hs Hn Hm (fits_wraps _ _ _ Hr) (fits_wraps _ _ _ Hc))
    as (w & m & E & Hw & Hm' & Hd).
  exists w, m. split; [exact E|]. split; [exact Hw|]. split; [exact Hm'|].
  assert (Hn' : n_rows data = rows) by apply Hs. assert (Hc' : n_cols data = cols) by (eapply shape_cols; eauto).
  unfold divided in Hd. rewrite Hn', Hc' in Hd.
  assert (Q : forall r c, (taken rows s y r /\ taken cols s x c) <-> in_sq s x y r c = true).
  { intros r c. rewrite (fits_taken rows s y r Hr), (fits_taken cols s x c Hc). unfold in_sq.
    rewrite !andb_true_iff, !Nat.leb_le, !Nat.ltb_lt. lia. }
  split; intros r c Lr Lc; destruct (Hd r c Lr Lc) as (A & B); destruct (in_sq s x y r c) eqn:Ei.
  - apply A. apply Q. exact Ei.
  - apply B. intros H. apply Q in H. congruence.
  - apply A. apply Q. exact Ei.
  - apply B. intros H. apply Q in H. congruence.
Qed.

Lemma sqrt_0' x : x = 0%R -> sqrt x = 0%R.
Proof. intros ->. apply sqrt_0. Qed.

(** The map shown, with and without the structured part. *)
Lemma shown_ok eqb u rows cols p s x y show : decides eqb -> usable_unc u rows cols -> 0 < s ->
  fits rows s y -> fits cols s x ->
  let sq := square (first_line s y) (first_line s x) s in
  exists im, shown_map eqb u p s x y show = Ok im /\
    forall r c, r < rows -> c < cols ->
      (In (r, c) sq -> pixel im r c =
         sqrt ((1 - p) * average_independent (values (independent u) sq) ^ 2 + p * average_common (values (common u) sq) ^ 2
               + flag show * sqrt (2 / INR (s ^ 2)%nat * rsum (map (fun q => INR (fst q + snd q)%nat) sq)) ^ 2)%R) /\
      (~ In (r, c) sq -> pixel im r c =
         sqrt ((1 - p) * pixel (independent u) r c ^ 2 + p * pixel (common u) r c ^ 2
               + flag show * pixel (structured u) r c ^ 2)%R).
Proof.
  intros He (Hi & Hc & Hs & Hpos) H0 Fr Fc sq.
  assert (Hrows : 0 < rows) by (unfold fits in Fr; lia). assert (Hcols : 0 < cols) by (unfold fits in Fc; lia).
  destruct (scan_square eqb _ rows cols s x y He Hi Hrows Hcols Fr Fc) as (wi & bi & Ei & Swi & Sbi & Pwi & Pbi).
  destruct (scan_square eqb _ rows cols s x y He Hc Hrows Hcols Fr Fc) as (wc & bc & Ec & Swc & Sbc & Pwc & Pbc).
  destruct (scan_square eqb _ rows cols s x y He Hs Hrows Hcols Fr Fc) as (ws & bs & Es & Sws & Sbs & Pws & Pbs).
  unfold shown_map. rewrite Ei, Ec, Es. cbn [bind fst snd]. eexists. split; [reflexivity|].
  assert (Fr' := fits_line _ _ _ Fr). assert (Fc' := fits_line _ _ _ Fc).
  assert (I1 : idv_avg eqb wi (s ^ 2) = average_independent (values (independent u) sq)).
  { eapply idv_ok; eauto. }
  assert (I2 : cm_avg eqb wc = average_common (values (common u) sq)).
  { eapply cm_ok; eauto. intros r c Lr Lc. apply Hpos; assumption. }
  assert (I3 : str_avg eqb wi (s ^ 2) = sqrt (2 / INR (s ^ 2)%nat * rsum (map (fun q => INR (fst q + snd q)%nat) sq))%R).
  { eapply (str_found eqb (independent u)); eauto. intros r c Lr Lc. apply Hpos; assumption. }
  intros r c Lr Lc.
  rewrite (add_pixel _ _ rows cols); try assumption.
  2: apply map3_shape; assumption.
  2: apply map_shape; assumption.
  unfold combined_background. rewrite (map3_pixel _ _ _ _ rows cols) by assumption.
  unfold combined_window. cbn [independent common structured].
  rewrite (map_pixel _ bi rows cols) by assumption.
  rewrite Pbi, Pbc, Pbs by assumption. rewrite I1, I2, I3.
  split; intros H.
  - apply in_sq_iff in H. rewrite H. rewrite (proj2 (He 0%R 0%R) eq_refl).
    rewrite (sqrt_0' ((1 - p) * 0 ^ 2 + p * 0 ^ 2 + flag show * 0 ^ 2)%R) by (cbn; lra). lra.
  - assert (E : in_sq s x y r c = false) by (destruct (in_sq s x y r c) eqn:E; [apply in_sq_iff in E; contradiction|reflexivity]).
    rewrite E. destruct (eqb (pixel (independent u) r c) 0%R) eqn:E0; [|lra].
    apply He in E0. destruct (Hpos r c Lr Lc). lra.
Qed.

(** ** Averages of equal uncertainties *)
Lemma rsum_const {A} (x : R) (l : list A) : rsum (map (fun _ => x) l) = (INR (length l) * x)%R.
Proof. induction l as [|a l IH]; [cbn; lra|]. cbn [map length]. rewrite rsum_cons, S_INR, IH. lra. Qed.
Lemma average_independent_const n u : 0 < n -> (0 <= u)%R ->
  average_independent (repeat u n) = (u / sqrt (INR n))%R.
Proof.
  intros Hn Hu. unfold average_independent. rewrite repeat_length.
  assert (E : rsum (map (fun v => (v ^ 2)%R) (repeat u n)) = (INR n * u ^ 2)%R).
  { clear Hn. induction n as [|n IH]; [cbn; lra|]. cbn [repeat map]. rewrite rsum_cons, IH, S_INR. lra. }
  rewrite E. apply lt_0_INR in Hn. set (x := INR n) in *.
  assert (Hs : (0 < sqrt x)%R) by (apply sqrt_lt_R0; exact Hn).
  replace (x * u ^ 2 / x ^ 2)%R with ((u / sqrt x) ^ 2)%R.
  - apply sqrt_pow2. apply Rmult_le_pos; [exact Hu|]. left. apply Rinv_0_lt_compat. exact Hs.
  - assert (Q : (sqrt x * sqrt x = x)%R) by (apply sqrt_sqrt; lra).
    replace ((u / sqrt x) ^ 2)%R with (u ^ 2 / (sqrt x * sqrt x))%R by (field; lra). rewrite Q. field. lra.
Qed.
Lemma average_common_const n u : 0 < n -> average_common (repeat u n) = u.
Proof.
  intros Hn. unfold average_common. rewrite repeat_length.
  assert (E : rsum (repeat u n) = (INR n * u)%R).
  { clear Hn. induction n as [|n IH]; [cbn; lra|]. cbn [repeat]. rewrite rsum_cons, IH, S_INR. lra. }
  rewrite E. apply lt_0_INR in Hn. field. lra.
Qed.

(** ** Propagation *)
Lemma rsum_lin2 {A} (f g : A -> R) a b l :
  rsum (map (fun e => a * f e + b * g e)%R l) = (a * rsum (map f l) + b * rsum (map g l))%R.
Proof. induction l as [|e l IH]; [cbn; lra|]. cbn [map]. rewrite !rsum_cons, IH. lra. Qed.
Lemma rsum_nonneg {A} (f : A -> R) l : (forall e, 0 <= f e)%R -> (0 <= rsum (map f l))%R.
Proof. intros H. induction l as [|e l IH]; [cbn; lra|]. cbn [map]. rewrite rsum_cons. specialize (H e). lra. Qed.
Lemma rms_sq (es : list R) : es <> [] -> (rms es ^ 2 = rsum (map (fun e => e ^ 2) es) / INR (length es))%R.
Proof.
  intros H. unfold rms. assert (Hn : (0 < INR (length es))%R) by (apply lt_0_INR; destruct es; [congruence|cbn; lia]).
  assert (P : (0 <= rsum (map (fun e => e ^ 2) es) / INR (length es))%R).
  { apply Rmult_le_pos; [|left; apply Rinv_0_lt_compat; exact Hn]. apply rsum_nonneg. intros e. nra. }
  cbn [pow]. rewrite Rmult_1_r. apply sqrt_sqrt. exact P.
Qed.
Lemma linear_rms es r c1 c2 : es <> [] -> correlated es r ->
  rms (map (fun e => c1 * fst e + c2 * snd e)%R es) = surf_temp_unc (rms (map fst es)) (rms (map snd es)) c1 c2 r.
Proof.
  intros H Hc. unfold surf_temp_unc. unfold rms at 1. f_equal. rewrite map_map, map_length.
  assert (N1 : map fst es <> []) by (destruct es; [congruence|discriminate]).
  assert (N2 : map snd es <> []) by (destruct es; [congruence|discriminate]).
  rewrite (rms_sq _ N1), (rms_sq _ N2). unfold correlated in Hc.
  replace (2 * c1 * c2 * r * rms (map fst es) * rms (map snd es))%R
    with (2 * c1 * c2 * (r * rms (map fst es) * rms (map snd es)))%R by ring.
  rewrite <- Hc, !map_map, !map_length.
  rewrite (rsum_ext _ (fun e => 1 * (c1 ^ 2 * fst e ^ 2 + c2 ^ 2 * snd e ^ 2) + (2 * c1 * c2) * (fst e * snd e))%R)
    by (intros; ring).
  rewrite (rsum_lin2 (fun e => c1 ^ 2 * fst e ^ 2 + c2 ^ 2 * snd e ^ 2)%R (fun e => fst e * snd e)%R).
  rewrite (rsum_lin2 (fun e => fst e ^ 2)%R (fun e => snd e ^ 2)%R).
  unfold Rdiv. ring.
Qed.
