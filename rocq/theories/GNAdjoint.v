From Coq Require Import Reals Lra.
From Verif Require Import Base BaseLemmas ReaderModel ReaderProofs UncModel UncProofs UncProofs2 MuModel MuProofs SensorSpec SampleSpec SampleProofs SampleProofs2 TransformModel TransformSpec TransformProofs TransformProofs2 TransformMain TransformMain2 TransformMain3 EvalModel EvalSpec EvalProofs GNModel GNSpec GNAlgebra GNTerms.
Open Scope nat_scope.

(** ** parameters *)
Lemma lin_comb_len n cols xs : (forall c, In c cols -> length c = n) -> length (lin_comb n cols xs) = n.
Proof.
  intros H. unfold lin_comb. revert xs. induction cols as [|c cols IH]; intros [|x xs]; cbn [combine fold_right]; try apply repeat_length.
  rewrite zip2_len, map_length. cbn [fst]. rewrite (H c) by (left; auto).
  rewrite IH by (intros; apply H; right; auto). lia.
Qed.
Lemma dotp_zero n y : dotp (repeat 0%R n) y = 0%R.
Proof.
  revert y. induction n as [|n IH]; intros [|b y]; try reflexivity. cbn [repeat]. rewrite dotp_cons, IH. lra.
Qed.
Lemma lin_comb_dotp n cols xs y : (forall c, In c cols -> length c = n) -> length y = n ->
  dotp (lin_comb n cols xs) y = rsum (map (fun p => snd p * dotp (fst p) y)%R (combine cols xs)).
Proof.
  intros H Hy. unfold lin_comb. revert xs. induction cols as [|c cols IH]; intros [|x xs]; cbn [combine fold_right map];
    try (rewrite dotp_zero; reflexivity).
  rewrite rsum_cons. cbn [fst snd]. rewrite <- IH by (intros; apply H; right; auto).
  assert (Lc : length c = n) by (apply H; left; auto).
  pose proof (lin_comb_len n cols xs ltac:(intros; apply H; right; auto)) as Ll. unfold lin_comb in Ll.
  set (l := fold_right _ _ _) in *.
  rewrite !(dotp_sum _ _ n) by lens. rewrite <- rsum_scal_l, <- rsum_plus. apply rsum_ext. intros i Hi. apply in_seq in Hi. nths. ring.
Qed.

Lemma scatter_ok s pos c B : NoDup pos -> (forall i, In i pos -> i < length B) -> length c = length pos ->
  exists B', foldM (fun acc p => do a <- get B (fst p);; setitem (fst p) (a + s * snd p)%R acc) (combine pos c) B = Ok B' /\
    length B' = length B /\
    forall x, length x = length B -> dotp x B' = (dotp x B + rsum (map (fun p => nth (fst p) x 0 * (s * snd p))%R (combine pos c)))%R.
Proof.
  intros Nd Hin. 
  assert (G : forall acc, length acc = length B -> (forall i, In i pos -> nth i acc 0%R = nth i B 0%R) -> length c = length pos ->
    exists B', foldM (fun acc p => do a <- get B (fst p);; setitem (fst p) (a + s * snd p)%R acc) (combine pos c) acc = Ok B' /\
      length B' = length B /\
      forall x, length x = length B -> dotp x B' = (dotp x acc + rsum (map (fun p => nth (fst p) x 0 * (s * snd p))%R (combine pos c)))%R).
  { revert c. induction pos as [|i pos IH]; intros [|k c] acc La Ha Hc; try discriminate.
    - cbn. exists acc. split; [auto|]. split; [auto|]. intros. lra.
    - inversion Nd as [|? ? Hni Nd']; subst. cbn [combine foldM fst snd]. pose proof (Hin i (or_introl eq_refl)) as Hi.
      rewrite (get_nth B i 0%R) by auto. cbn [bind]. rewrite setitem_ok by lia.
      destruct (IH Nd' ltac:(intros; apply Hin; right; auto) c (upd i (nth i B 0 + s * k)%R acc)) as (B' & E & L & D).
      + rewrite upd_length. auto.
      + intros j Hj. rewrite nth_upd by lia. destruct (Nat.eqb_spec i j); [subst; contradiction|]. apply Ha. right; auto.
      + cbn in Hc. lia.
      + exists B'. split; [exact E|]. split; [auto|]. intros x Hx. rewrite D by auto.
        rewrite <- (Ha i (or_introl eq_refl)). rewrite dotp_upd by lia. cbn [map]. rewrite rsum_cons. cbn [fst snd]. lra. }
  intros Hc. apply G; auto.
Qed.

Section Par.
Context {T : Type}.
Variables (st : solver T) (n1 n2 N NV Ncov : nat) (s : R) (name : string) (ps : list string) (JB uK : list R) (J : list (list R)) (istart iend : nat).
Hypothesis HJB : length JB = N.
Hypothesis HuK : length uK = N.
Hypothesis Hk : iend = istart + N.
Hypothesis Hk2 : iend <= n2.
Hypothesis Hps : m_ps R T (g_m T st) = Some ps.
Hypothesis Hn1 : n1 = NV + length ps.
Hypothesis Hnp : 1 <= n_params ps name.
Hypothesis HJ : length J = Ncov + n_params ps name.
Hypothesis HJc : forall c, In c J -> length c = N.

Lemma param_pos_length : length (param_pos ps name NV) = n_params ps name.
Proof.
  unfold param_pos, n_params, enumerate. rewrite map_length. clear. generalize 0. induction ps as [|a l IH]; intros k; [reflexivity|].
  cbn [length seq combine filter snd]. rewrite (String.eqb_sym name a). destruct (String.eqb a name); cbn [length]; rewrite IH; reflexivity.
Qed.
Lemma param_pos_in i : In i (param_pos ps name NV) -> NV <= i < n1.
Proof.
  unfold param_pos. intros H. apply in_map_iff in H as ((k & l) & <- & H). apply filter_In in H as (H & _). cbn [fst].
  unfold enumerate in H. apply in_combine_l in H. apply in_seq in H. lia.
Qed.
Lemma param_pos_NoDup : NoDup (param_pos ps name NV).
Proof.
  unfold param_pos, enumerate. clear. generalize 0.
  induction ps as [|a l IH]; intros k; [constructor|]. cbn [length seq combine filter snd].
  destruct (String.eqb a name); [|apply IH]. cbn [map fst]. constructor; [|apply IH].
  intros H. apply in_map_iff in H as ((j & x) & E & H). apply filter_In in H as (H & _). apply in_combine_l in H. apply in_seq in H. cbn [fst] in E. lia.
Qed.
Lemma param_cols_ok : exists cols, param_cols J Ncov (length (param_pos ps name NV)) = Ok cols /\
  cols = skipn Ncov J /\ length cols = n_params ps name /\ forall c, In c cols -> length c = N.
Proof.
  unfold param_cols. rewrite param_pos_length. exists (slice Ncov (Ncov + n_params ps name) J).
  assert (L : length (slice Ncov (Ncov + n_params ps name) J) = n_params ps name) by (rewrite slice_length'; lia).
  rewrite L, Nat.eqb_refl. split; [auto|]. split; [|split; [auto|]].
  - unfold slice. replace (Ncov + n_params ps name - Ncov) with (length (skipn Ncov J)) by (rewrite skipn_length; lia). apply firstn_all.
  - intros c Hc. apply HJc. unfold slice in Hc. clear - Hc.
    assert (H1 : In c (skipn Ncov J)) by (rewrite <- (firstn_skipn (Ncov + n_params ps name - Ncov) (skipn Ncov J)); apply in_or_app; auto).
    rewrite <- (firstn_skipn Ncov J). apply in_or_app. auto.
Qed.

Lemma adj_param :
  adj n1 n2 (fun x A => param_term T false st NV Ncov s name JB x uK J istart iend A)
            (fun y B => param_term T true st NV Ncov s name JB y uK J istart iend B).
Proof.
  destruct param_cols_ok as (cols & Ec & _ & Lc & Hcols). pose proof param_pos_length as Lp. pose proof param_pos_NoDup as Nd.
  pose proof param_pos_in as Hin. set (pos := param_pos ps name NV) in *.
  assert (Hne : (length pos =? 0) = false) by (apply Nat.eqb_neq; lia).
  exists (fun x y => rsum (map (fun p => nth (fst p) x 0 * (s * dotp (zip2 Rmult JB (snd p)) (zip2 Rdiv (slice istart iend y) uK)))%R (combine pos cols))).
  split.
  - intros x A Hx HA. unfold param_term. rewrite Hps. cbn [bind]. fold pos. rewrite Ec, Hne. cbn [bind].
    rewrite bop_eq by lia. cbn [bind].
    rewrite (mapM_Ok_map _ (zip2 Rmult (zip2 Rdiv JB uK))) by (intros c Hc; apply bop_eq; rewrite zip2_len, (Hcols c Hc); lia). cbn [bind].
    rewrite (mapM_Ok_map _ (fun i => nth i x 0%R)) by (intros i Hi; apply get_nth; specialize (Hin i Hi); lia). cbn [bind].
    assert (LM : forall c, In c (map (zip2 Rmult (zip2 Rdiv JB uK)) cols) -> length c = N).
    { intros c Hc. apply in_map_iff in Hc as (c' & <- & Hc'). specialize (Hcols c' Hc'). lens. }
    assert (LJ : length (zip2 Rdiv JB uK) = N) by lens. rewrite LJ.
    destruct (add_slice_ok istart iend (scal s (lin_comb N (map (zip2 Rmult (zip2 Rdiv JB uK)) cols) (map (fun i => nth i x 0%R) pos))) A) as (A' & E & L & D);
      [lia|rewrite scal_len, lin_comb_len; auto; lia|].
    exists A'. split; [exact E|]. split; [lia|]. intros y Hy. rewrite D by lia. f_equal.
    assert (Lsl : length (slice istart iend y) = N) by (rewrite slice_length'; lia).
    pose proof (lin_comb_len N _ (map (fun i => nth i x 0%R) pos) LM) as Ll.
    assert (E1 : dotp (scal s (lin_comb N (map (zip2 Rmult (zip2 Rdiv JB uK)) cols) (map (fun i => nth i x 0%R) pos))) (slice istart iend y) =
       (s * dotp (lin_comb N (map (zip2 Rmult (zip2 Rdiv JB uK)) cols) (map (fun i => nth i x 0%R) pos)) (slice istart iend y))%R).
    { rewrite !(dotp_sum _ _ N) by (first [exact Ll|exact Lsl|rewrite scal_len; exact Ll]). rewrite <- rsum_scal_l. apply rsum_ext. intros i Hi. apply in_seq in Hi.
      rewrite nth_scal by lia. ring. }
    rewrite E1, lin_comb_dotp by auto. rewrite <- rsum_scal_l.
    clear E E1 D L Ll LM Ec Hne Nd Hin. clearbody pos. assert (Lpc : length pos = length cols) by lia. clear Lp Lc. revert pos Lpc. induction cols as [|c cols IH]; intros [|i pos] Lpc; try discriminate; [reflexivity|].
    cbn [map combine]. rewrite !rsum_cons. cbn [fst snd]. rewrite IH; [|intros; apply Hcols; right; auto|cbn in Lpc; lia].
    f_equal. assert (length c = N) by (apply Hcols; left; auto).
    rewrite !(dotp_sum _ _ N) by lens. rewrite <- !rsum_scal_l. apply rsum_ext. intros j Hj. apply in_seq in Hj. nths. unfold Rdiv. ring.
  - intros y B Hy HB. unfold param_term. rewrite Hps. cbn [bind]. fold pos. rewrite Ec, Hne. cbn [bind].
    assert (Lsl : length (slice istart iend y) = N) by (rewrite slice_length'; lia).
    rewrite (mapM_Ok_map _ (zip2 Rmult JB)) by (intros c Hc; apply bop_eq; rewrite (Hcols c Hc); lia). cbn [bind].
    rewrite bop_eq by lia. cbn [bind].
    rewrite (mapM_Ok_map _ (fun col => dotp col (zip2 Rdiv (slice istart iend y) uK))).
    2:{ intros c Hc. apply in_map_iff in Hc as (c' & <- & Hc'). unfold np_dot. rewrite !zip2_len, (Hcols c' Hc'), HJB, Lsl, HuK, !Nat.min_id, Nat.eqb_refl. reflexivity. }
    cbn [bind]. destruct (scatter_ok s pos (map (fun col => dotp col (zip2 Rdiv (slice istart iend y) uK)) (map (zip2 Rmult JB) cols)) B Nd) as (B' & E & L & D).
    + intros i Hi. specialize (Hin i Hi). lia.
    + rewrite !map_length. lia.
    + exists B'. split; [exact E|]. split; [lia|]. intros x Hx. rewrite D by lia. f_equal.
      clearbody pos. clear - HJB. rewrite map_map. revert pos. induction cols as [|c cols IH]; intros [|i pos]; cbn [combine map]; try reflexivity.
      rewrite !rsum_cons. cbn [fst snd]. rewrite IH. reflexivity.
Qed.
End Par.

(** ** the whole operator *)
Lemma zip3_nth_intro a b c i x y z : nth_error a i = Some x -> nth_error b i = Some y -> nth_error c i = Some z -> nth_error (zip3 a b c) i = Some (x, y, z).
Proof.
  unfold zip3. revert b c i. induction a as [|a0 a IH]; intros [|b0 b] [|c0 c] [|i] H1 H2 H3; cbn in *; try discriminate; [congruence|]. apply IH; auto.
Qed.

Section Op.
Context {T : Type}.
Variables (m : mobj R T) (st : solver T).
Hypothesis SF : solver_for m st.
Notation d := (g_m T st).
Notation sd := (g_sd T st).

Lemma sf_covs' n p s : nth_error (Im (m_idx R T m)) n = Some p -> s = fst p \/ s = snd p ->
  exists ms, nth_error (sensor_ms (m_idx R T m)) s = Some ms /\ 1 <= ms /\
        blocks_of (m_idx R T m) s (n + 1) <> [] /\
        forall c, 1 <= c <= ms -> In (s, n + 1, c) (get_block_idxs (m_idx R T m)).
Proof.
  intros Hp Hs. destruct (sf_covs _ _ SF n p s Hp Hs) as (ms & E & H1 & Hm). exists ms. split; [auto|]. split; [auto|].
  split; [intros H0; rewrite H0 in Hm; destruct ms; [lia|discriminate]|].
  intros c Hc. assert (Hin : In c (seq 1 ms)) by (apply in_seq; lia). rewrite <- Hm in Hin. apply in_map_iff in Hin as (b & Eb & Hb).
  unfold blocks_of in Hb. apply filter_In in Hb as (Hb1 & Hb2). apply in_seq in Hb1. apply andb_true_iff in Hb2 as (A1 & A2). apply Nat.eqb_eq in A1, A2.
  destruct (ev_len _ _ (sf_ev _ _ SF)) as (L1 & L2).
  assert (Lc : b < length (n_cov (m_idx R T m))).
  { destruct (Nat.lt_ge_cases b (length (n_cov (m_idx R T m)))) as [|G]; [auto|]. rewrite nth_overflow in Eb by auto. lia. }
  apply (nth_error_In _ b). unfold get_block_idxs.
  assert (B1 : nth_error (n_sensor (m_idx R T m)) b = Some s) by (rewrite (nth_error_nth' _ 0) by lia; congruence).
  assert (B2 : nth_error (n_mu (m_idx R T m)) b = Some (n + 1)) by (rewrite (nth_error_nth' _ 0) by lia; congruence).
  assert (B3 : nth_error (n_cov (m_idx R T m)) b = Some c) by (rewrite (nth_error_nth' _ 0) by lia; congruence).
  apply zip3_nth_intro; auto.
Qed.

Lemma solver_facts : exists nv ns, state_of m d nv ns /\ same_labels m d /\ n_vars st = list_sum nv + ns /\
  pylast (idxs (m_idx R T d)) = Ok (n_vars st) /\ n_uS (m_unc R T d) = Ok ns /\
  pylast (cNm (m_idx R T d)) = Ok (n_ks st) /\ m_ps R T d = m_ps R T m /\ m_ops R T d = m_ops R T m /\
  m_time1 R T d = None /\ m_time2 R T d = None /\ m_ks R T d = zip2 Rdiv (m_ks R T m) (concat (m_unck R T m)).
Proof.
  destruct SF as [W Sh Ho Hr]. destruct (run_state m W Sh Ho) as (d' & nv & ns & vs & E & St & _ & _ & Ek & _).
  rewrite Hr in E. injection E as <-. exists nv, ns. destruct (run_layout m d W Sh Hr) as (SL & _).
  assert (Hv : n_vars st = list_sum nv + ns) by apply (st_len _ _ _ _ St).
  split; [auto|]. split; [auto|]. split; [auto|]. split; [|split; [|split; [|split; [|split; [|split; [|split]]]]]].
  - rewrite (st_idxs _ _ _ _ St), add_last_pylast, Hv. reflexivity.
  - rewrite (st_unc _ _ _ _ St). apply (st_nus _ _ _ _ St).
  - destruct SL as (_ & _ & SN & SC & _). rewrite SC, (wf_cnm _ W), pylast_cumul. cbn [plus]. unfold n_ks. rewrite SN. reflexivity.
  - unfold tn_run in Hr. repeat (match type of Hr with bind ?x _ = _ => destruct x; cbn [bind] in Hr; [|discriminate] end). injection Hr as <-. reflexivity.
  - unfold tn_run in Hr. repeat (match type of Hr with bind ?x _ = _ => destruct x; cbn [bind] in Hr; [|discriminate] end). injection Hr as <-. reflexivity.
  - unfold tn_run in Hr. repeat (match type of Hr with bind ?x _ = _ => destruct x; cbn [bind] in Hr; [|discriminate] end). injection Hr as <-. reflexivity.
  - unfold tn_run in Hr. repeat (match type of Hr with bind ?x _ = _ => destruct x; cbn [bind] in Hr; [|discriminate] end). injection Hr as <-. reflexivity.
  - auto.
Qed.

Lemma getSensorX_same {B} (x1 x2 : option (list B)) n name : getSensorX x1 x2 (m_idx R T d) n name = getSensorX x1 x2 (m_idx R T m) n name.
Proof.
  destruct solver_facts as (nv & ns & _ & SL & _). destruct SL as (S1 & S2 & _ & S4 & _). unfold getSensorX. rewrite S1, S2, S4. reflexivity.
Qed.

Lemma labelled_length {B} name ps (vals : list B) : length vals = length ps -> length (labelled name ps vals) = n_params ps name.
Proof.
  unfold labelled, n_params. rewrite map_length. revert vals. induction ps as [|a ps IH]; intros [|v vals] H; try discriminate; [reflexivity|].
  cbn [combine filter fst]. rewrite (String.eqb_sym name a). destruct (String.eqb a name); cbn [length]; rewrite IH; cbn in H; auto.
Qed.

Lemma part_rows {B} n N (o v : option (list B)) : nth_error (Nm (m_idx R T m)) n = Some N ->
  (forall l, o = Some l -> length l = list_sum (Nm (m_idx R T m))) -> series_part m (n + 1) o v -> rows_are N v.
Proof.
  intros HN Hl H. destruct o as [l|], v as [w|]; cbn in *; auto; [|contradiction]. replace (n + 1 - 1) with n in H by lia.
  rewrite (ev_cnm _ _ (sf_ev _ _ SF)) in H. pose proof (block_len _ _ _ _ (Hl l eq_refl) H). congruence.
Qed.

(** inputs and outputs of one side *)
Record side_data (n s : nat) (N : nat) (f : smodel T) (b : amodel) (X : list (list R)) (a c : list R) (xt al : option (list R)) (t : option (list T))
  (r : list R) (J : option (list (list R))) (r' B : list R) : Prop := {
  sd_jac : side_jac T st s (n + 1) = Ok (B, J);
  sd_f : nth_error (sd_model T sd) s = Some f;
  sd_b : nth_error (sd_adj T sd) s = Some b;
  sd_X : unconvert_Xs T d (g_xyza T st) s (n + 1) = Ok X;
  sd_Xl : (exists ms, nth_error (sensor_ms (m_idx R T m)) s = Some ms /\ length X = ms) /\ forall col, In col X -> length col = N;
  sd_pa : exists name ps, nth_error (sensors (m_idx R T m)) s = Some name /\ m_ps R T m = Some ps /\
         a = labelled name ps (skipn (n_vars st) (g_xyza T st)) /\ c = labelled name (sd_cs T sd) (sd_c T sd);
  sd_ev : f X a c xt al t = Ok (r, J);
  sd_bv : b r = Ok (r', B);
  sd_len : length r = N /\ length r' = N /\ length B = N
}.

Lemma ks_len : length (concat (m_unck R T m)) = list_sum (Nm (m_idx R T m)) /\ length (m_ks R T d) = list_sum (Nm (m_idx R T m)).
Proof.
  destruct solver_facts as (nv & ns & _ & _ & _ & _ & _ & _ & _ & _ & _ & _ & Ek). destruct SF as [W Sh _ _ _ _ _ _ _ _ _ _].
  assert (E : length (concat (m_unck R T m)) = list_sum (Nm (m_idx R T m))).
  { rewrite concat_length. f_equal. apply nth_error_ext. intros i. rewrite nth_error_map'.
    destruct (nth_error (m_unck R T m) i) as [u|] eqn:E; [symmetry; apply (proj1 (proj2 Sh)); auto|].
    apply nth_error_None in E. rewrite (wf_unck _ W) in E. symmetry. apply nth_error_None; auto. }
  split; [auto|]. rewrite Ek, zip2_len, E, (wf_ks _ W). lia.
Qed.

Lemma reverse_vals x r : length x = n_vars st -> tn_reverse T (with_values d x) = Ok r ->
  m_idx R T r = m_idx R T m /\ length (m_values R T r) = list_sum (N_var (m_idx R T m)).
Proof.
  intros Hx E. destruct solver_facts as (nv & ns & St & _). destruct SF as [W Sh _ _ _ _ _ _ _ _ _ _].
  pose proof (state_with _ _ _ _ x St Hx) as St'. destruct (reverse_spec m (with_values d x) nv ns W Sh St') as (vs & E' & L & _); [apply ks_len|].
  rewrite E' in E. injection E as <-. cbn [m_idx m_values]. rewrite concat_length, L. auto.
Qed.

Lemma unconvert_cols s n N ms : nth_error (Nm (m_idx R T m)) n = Some N -> nth_error (sensor_ms (m_idx R T m)) s = Some ms -> 1 <= ms ->
  (forall c, 1 <= c <= ms -> In (s, n + 1, c) (get_block_idxs (m_idx R T m))) ->
  forall x, length x = n_vars st + n_pars st ->
  exists X, unconvert_Xs T d x s (n + 1) = Ok X /\ length X = ms /\ (forall col, In col X -> length col = N).
Proof.
  intros HN Hms H1 Hall x Hx. pose proof reverse_vals as RV. destruct SF as [W Sh Ho Hr Ev _ Nd _ _ _ _ _].
  destruct (unconvert_reverse m d (firstn (n_vars st) x) (skipn (n_vars st) x) W Sh Ho Hr) as (r & Er & Hu).
  { rewrite firstn_length_le by lia. reflexivity. }
  destruct (Hu s (n + 1) ms Hms H1 Hall Nd) as (cols & E & _ & L & P). rewrite firstn_skipn in E.
  exists cols. split; [exact E|]. split; [auto|]. intros col Hc. apply In_nth_error in Hc as (j & Hj).
  assert (Hjl : j < ms) by (rewrite <- L; apply nth_error_Some; congruence).
  pose proof (Hall (S j) ltac:(lia)) as Hin. apply In_nth_error in Hin as (b & Hb).
  specialize (P (S j) b col Hb ltac:(lia)). replace (S j - 1) with j in P by lia. specialize (P Hj).
  assert (Lf : length (firstn (n_vars st) x) = n_vars st) by (rewrite firstn_length_le; lia). destruct (RV _ _ Lf Er) as (Ei & Lv).
  rewrite Ei, (wf_idxs _ W) in P. apply block_len in P; [|auto].
  pose proof (zip3_nth _ _ _ _ _ _ _ Hb) as Hmu. destruct (wf_series _ W b (n + 1) Hmu) as (_ & N' & A1 & A2).
  replace (n + 1 - 1) with n in A1 by lia. congruence.
Qed.

Hypothesis FO : functions_ok m st.

Lemma side_ok n p s name N : nth_error (Im (m_idx R T m)) n = Some p -> s = fst p \/ s = snd p ->
  nth_error (sensors (m_idx R T m)) s = Some name -> nth_error (Nm (m_idx R T m)) n = Some N ->
  exists ps ms f b X a c xt al t r J r' B, side_data n s N f b X a c xt al t r J r' B /\ m_ps R T m = Some ps /\ length ps = n_pars st /\
    nth_error (sensor_ms (m_idx R T m)) s = Some ms /\ 
    rows_are N xt /\ rows_are N al /\ t = None /\
    (forall c, 1 <= c <= ms -> In (s, n + 1, c) (get_block_idxs (m_idx R T m))) /\
    match J with
    | None => exists b0 u, hd_error (blocks_of (m_idx R T m) s (n + 1)) = Some b0 /\ nth_error (m_unc R T m) b0 = Some u /\
                match u_kind R u with UK1 _ _ => True | UK2 _ _ _ => True | _ => False end
    | Some cols => ms = solver_ncov m /\ 1 <= n_params ps name /\ length cols = ms + n_params ps name /\ forall col, In col cols -> length col = N
    end.
Proof.
  intros Hp Hs Hname HN.
  destruct (sf_covs' n p s Hp Hs) as (ms & Hms & Hms1 & Hblk & Hall).
  destruct (sf_ps _ _ SF) as (ps & Eps & _ & Lps).
  destruct (ev_pair _ _ (sf_ev _ _ SF) n p Hp) as (Hne & Hin). destruct (Hin s Hs) as (H1 & H2 & H3 & _).
  destruct (nth_error (sd_model T sd) s) as [f|] eqn:Ef; [|apply nth_error_None in Ef; lia].
  destruct (nth_error (sd_adj T sd) s) as [b|] eqn:Eb; [|apply nth_error_None in Eb; lia].
  destruct (unconvert_cols s n N ms HN Hms Hms1 Hall (g_xyza T st) (sf_xyza _ _ SF)) as (X & EX & LX & LXc).
  destruct solver_facts as (nv & ns & St & SL & Hv & Hlast & Hnus & Hcn & Hmps & Hmops & Ht1 & Ht2 & _).
  assert (Hside : exists side, side < 2 /\ s = if side =? 0 then fst p else snd p).
  { destruct Hs as [->| ->]; [exists 0|exists 1]; auto. }
  destruct Hside as (side & Hside & Hs').
  assert (Hp' : nth_error (Im (m_idx R T m)) (n + 1 - 1) = Some p) by (replace (n + 1 - 1) with n by lia; auto).
  pose proof (sf_ev _ _ SF) as Ev.
  destruct (getX_side (m_across1 R T m) (m_across2 R T m) m sd (n + 1) p side s name Ev ltac:(lia) Hp' Hside Hs' Hname) as (xt & Ext & Sxt).
  { intros l [E|[E|[]]]; apply (ev_opt _ _ Ev); cbn; auto. }
  destruct (getX_side (m_along1 R T m) (m_along2 R T m) m sd (n + 1) p side s name Ev ltac:(lia) Hp' Hside Hs' Hname) as (al & Eal & Sal).
  { intros l [E|[E|[]]]; apply (ev_opt _ _ Ev); cbn; auto. }
  destruct (getX_side (@None (list T)) None m sd (n + 1) p side s name Ev ltac:(lia) Hp' Hside Hs' Hname) as (t & Et & Stt).
  { intros l [E|[E|[]]]; discriminate. }
  assert (Htn : t = None) by (destruct (side =? 0), t; cbn in Stt; auto; contradiction). subst t.
  assert (Rx : rows_are N xt). { apply (part_rows n N _ _ HN) in Sxt; auto. intros l El. apply (ev_opt _ _ Ev). destruct (side =? 0); rewrite El; cbn; auto. }
  assert (Ra : rows_are N al). { apply (part_rows n N _ _ HN) in Sal; auto. intros l El. apply (ev_opt _ _ Ev). destruct (side =? 0); rewrite El; cbn; auto. }
  assert (Hlen : length (skipn (n_vars st) (g_xyza T st)) = length ps) by (rewrite skipn_length, (sf_xyza _ _ SF); lia).
  destruct (proj2 FO n p s name ps ms N f b X (labelled name ps (skipn (n_vars st) (g_xyza T st))) (labelled name (sd_cs T sd) (sd_c T sd)) xt al None Hp Hs Hname Eps Hms HN Ef Eb LX LXc)
    as (r & J & r' & B & E1 & L1 & E2 & L2 & L3 & HJ); auto; [apply labelled_length; auto|exact I|].
  exists ps, ms, f, b, X, (labelled name ps (skipn (n_vars st) (g_xyza T st))), (labelled name (sd_cs T sd) (sd_c T sd)), xt, al, None, r, J, r', B.
  split.
  - constructor; auto; [| |].
    + unfold side_jac, calc_R, m_getAcross, m_getAlong, m_getTime. destruct SL as (S1 & S2 & S3 & S4 & S5 & S6 & S7 & S8 & S9 & S10 & S11 & S12 & S13 & S14 & S15 & S16).
      rewrite S1, (proj2 (get_ok _ _ _) Hname). cbn [bind]. rewrite !getSensorX_same, S13, S14, S15, S16, Ht1, Ht2, Ext, Eal, Et. cbn [bind].
      rewrite Hmps, Eps. cbn [bind]. rewrite EX. cbn [bind]. rewrite (proj2 (get_ok _ _ _) Ef). cbn [bind].
      assert (Esel : select ps (last_k (length ps) (g_xyza T st)) name = labelled name ps (skipn (n_vars st) (g_xyza T st))).
      { unfold last_k. destruct (Nat.eqb_spec (length ps) 0) as [E0|_].
        - destruct ps; [reflexivity|discriminate].
        - replace (length (g_xyza T st) - length ps) with (n_vars st) by (rewrite (sf_xyza _ _ SF); lia). reflexivity. }
      rewrite Esel. change (select (sd_cs T sd) (sd_c T sd) name) with (labelled name (sd_cs T sd) (sd_c T sd)). rewrite E1. cbn [bind fst snd].
      rewrite (proj2 (get_ok _ _ _) Eb). cbn [bind]. rewrite E2. reflexivity.
    + split; [exists ms; auto|auto].
    + exists name, ps. auto.
  - do 7 (split; [auto|]). exact HJ.
Qed.

Notation n1 := (n_vars st + n_pars st).
Notation n2 := (n_vars st + n_ks st).

Lemma pylast_last {A} (l : list A) dflt : l <> [] -> pylast l = Ok (last l dflt).
Proof.
  intros H. destruct (exists_last H) as (l' & x & ->). rewrite last_last. unfold pylast, pyget. cbn [Z.leb Z.compare].
  rewrite app_length. cbn [length]. replace (0 <=? Z.of_nat (length l' + 1) + -1)%Z with true by (symmetry; apply Z.leb_le; lia).
  replace (Z.to_nat (Z.of_nat (length l' + 1) + -1)) with (length l') by lia. apply get_ok. rewrite nth_error_app2, Nat.sub_diag by lia. reflexivity.
Qed.

Lemma ncov_ok : pylast (n_cov (m_idx R T d)) = Ok (solver_ncov m).
Proof.
  destruct solver_facts as (nv & ns & _ & SL & _). destruct SL as (_ & _ & _ & _ & _ & _ & _ & S8 & _). rewrite S8.
  apply pylast_last. destruct (Im (m_idx R T m)) as [|p l] eqn:E; [destruct (sf_some _ _ SF E)|].
  destruct (sf_covs' 0 p (fst p)) as (ms & _ & H1 & _ & Hall); [rewrite E; reflexivity|auto|].
  specialize (Hall 1 ltac:(lia)). intros E0. unfold get_block_idxs, zip3 in Hall. rewrite E0 in Hall.
  destruct (n_sensor (m_idx R T m)), (n_mu (m_idx R T m)); cbn in Hall; contradiction.
Qed.

(** a block of the transformed data *)
Lemma block_facts nv ns b u N : state_of m d nv ns -> nth_error (m_unc R T m) b = Some u -> nth_error (N_var (m_idx R T m)) b = Some N ->
  exists ib n', get (idxs (m_idx R T d)) b = Ok ib /\ get (N_var (m_idx R T d)) b = Ok n' /\ get (m_unc R T d) b = Ok u /\ ib + n' <= list_sum nv /\
   match u_kind R u with
    | UK1 _ r => length r = N /\ n' = N
    | UK2 _ r c => length r = N /\ length c = N /\ n' = N /\ exists k, u_sysi R u = Some k /\ 1 <= k <= ns
    | UK3 _ wi ui => exists w uv, nth_error (m_ws R T d) wi = Some w /\ nth_error (m_us R T d) ui = Some uv /\
                       csr_shape w N (length uv) /\ n' = length uv
    | UK4 _ wi ui _ => exists w uv k, nth_error (m_ws R T d) wi = Some w /\ nth_error (m_us R T d) ui = Some uv /\
                       csr_shape w N (length uv) /\ n' = length uv /\ u_sysi R u = Some k /\ 1 <= k <= ns
    end.
Proof.
  intros St Hu HN. destruct SF as [W Sh _ _ _ _ _ _ _ _ _ _].
  assert (Hbl : b < length nv) by (rewrite (st_nvl _ _ _ _ St); apply nth_error_Some; congruence).
  destruct (nth_error nv b) as [n'|] eqn:En; [|apply nth_error_None in En; lia].
  destruct (state_block m d nv ns St b n' En) as (ib & Eib & Hle & _).
  exists ib, n'. split; [auto|]. split; [rewrite (st_nv _ _ _ _ St); apply get_ok; auto|]. split; [rewrite (st_unc _ _ _ _ St); apply get_ok; auto|].
  split; [auto|]. pose proof (st_ts _ _ _ _ St b u N n' Hu HN En) as Hts. pose proof (proj2 (proj2 Sh) b u N Hu HN) as Hsh.
  pose proof (n_uS_ok m W Sh) as (ns' & E & Hsys & _). rewrite (st_nus _ _ _ _ St) in E. injection E as <-.
  assert (Hsys' : has_systematic u -> exists k, u_sysi R u = Some k /\ 1 <= k <= ns) by (apply Hsys; eapply nth_error_In; eauto).
  unfold transformed_size, has_systematic in *. rewrite (st_ws _ _ _ _ St), (st_us _ _ _ _ St).
  destruct (u_kind R u) as [r|r c|wi ui|wi ui c].
  - auto.
  - destruct Hsh as (A1 & A2 & _). auto.
  - destruct Hsh as (w & uv & A1 & A2 & A3). destruct Hts as (uv' & B1 & ->). assert (uv' = uv) by congruence. subst uv'. exists w, uv. auto.
  - destruct Hsh as ((w & uv & A1 & A2 & A3) & _). destruct Hts as (uv' & B1 & ->). assert (uv' = uv) by congruence. subst uv'.
    destruct (Hsys' I) as (k & Ek & Hk). exists w, uv, k. do 5 (split; [auto|]). auto.
Qed.

Lemma index_some {A} (eqb : A -> A -> bool) (Heq : forall a b, eqb a b = true <-> a = b) x l : In x l -> exists i, index eqb x l = Ok i /\ nth_error l i = Some x.
Proof.
  intros H. destruct (index_in eqb Heq x l H) as (i & E). exists i. split; [auto|]. apply (index_ok eqb Heq _ _ _ E).
Qed.

Lemma hd_filter_index (ix : idx_t) s n b0 : length (n_sensor ix) = length (n_mu ix) -> hd_error (blocks_of ix s n) = Some b0 ->
  index eqb2 (s, n) (combine (n_sensor ix) (n_mu ix)) = Ok b0.
Proof.
  unfold blocks_of, index. intros L.
  assert (G : forall ls lm k (P : nat -> bool), length ls = length lm ->
     (forall j, j < length lm -> P (k + j) = ((nth j ls 0 =? s) && (nth j lm 0 =? n))) ->
     hd_error (filter P (seq k (length lm))) = Some b0 -> index_from eqb2 (s, n) (combine ls lm) k = Ok b0).
  { induction ls as [|a ls IH]; intros [|b lm] k P Hl HP Hh; try discriminate. cbn [length seq filter] in Hh. cbn [combine index_from].
    pose proof (HP 0 ltac:(cbn; lia)) as P0. rewrite Nat.add_0_r in P0. cbn [nth] in P0. unfold eqb2. cbn [fst snd].
    rewrite <- P0. destruct (P k); [cbn in Hh; congruence|].
    apply (IH lm (S k) P); [cbn in Hl; lia| |exact Hh]. intros j Hj. replace (S k + j) with (k + S j) by lia. apply (HP (S j)). cbn. lia. }
  apply G; auto.
Qed.

Lemma block_series b n : nth_error (n_mu (m_idx R T m)) b = Some (n + 1) -> exists u N, nth_error (m_unc R T m) b = Some u /\
  nth_error (Nm (m_idx R T m)) n = Some N /\ nth_error (N_var (m_idx R T m)) b = Some N.
Proof.
  intros H. destruct SF as [W _ _ _ _ _ _ _ _ _ _ _]. destruct (wf_series _ W b (n + 1) H) as (_ & N & A1 & A2). replace (n + 1 - 1) with n in A1 by lia.
  assert (Hb : b < length (m_unc R T m)) by (rewrite (wf_unc _ W); apply nth_error_Some; congruence).
  destruct (nth_error (m_unc R T m) b) as [u|] eqn:Eu; [|apply nth_error_None in Eu; lia]. exists u, N. auto.
Qed.

Lemma adj_series nv ns : state_of m d nv ns -> forall n p, nth_error (Im (m_idx R T m)) n = Some p ->
  adj n1 n2 (fun x A => series_term T false st (n_vars st) (solver_ncov m) ns x A (n, p))
            (fun y B => series_term T true st (n_vars st) (solver_ncov m) ns y B (n, p)).
Proof.
  intros St n p Hp. destruct solver_facts as (nv' & ns' & _ & SL & Hv' & _ & Hnus & _ & Hmps & _).
  pose proof (st_len _ _ _ _ St) as Hv. change (length (m_values R T d)) with (n_vars st) in Hv.
  destruct SL as (S1 & S2 & S3 & S4 & S5 & S6 & S7 & S8 & S9 & S10 & _).
  pose proof (sf_ev _ _ SF) as Ev. pose proof (sf_wf _ _ SF) as W. pose proof (sf_shapes _ _ SF) as Sh.
  assert (Hn : n < length (Nm (m_idx R T m))) by (rewrite <- (ev_im _ _ Ev); apply nth_error_Some; congruence).
  destruct (nth_error (Nm (m_idx R T m)) n) as [N|] eqn:EN; [|apply nth_error_None in EN; lia].
  destruct (nth_error (m_unck R T m) n) as [uK|] eqn:EK; [|apply nth_error_None in EK; rewrite (wf_unck _ W) in EK; lia].
  assert (LuK : length uK = N) by (pose proof (proj1 (proj2 Sh) n uK EK); congruence).
  set (c0 := list_sum (firstn n (Nm (m_idx R T m)))).
  assert (Hc0 : get (cNm (m_idx R T d)) n = Ok c0) by (rewrite S4, (wf_cnm _ W); apply get_ok, cumul_nth; lia).
  assert (Hc1 : get (cNm (m_idx R T d)) (n + 1) = Ok (c0 + N)).
  { rewrite S4, (wf_cnm _ W). rewrite (proj2 (get_ok _ _ _) (cumul_nth 0 (Nm (m_idx R T m)) (n + 1) ltac:(lia))). cbn [plus].
    rewrite Nat.add_1_r, (list_sum_firstn_S _ _ _ EN). reflexivity. }
  assert (Hcle : c0 + N <= n_ks st).
  { unfold n_ks. rewrite S3. unfold c0. rewrite <- (list_sum_firstn_S _ _ _ EN). rewrite <- (firstn_skipn (S n) (Nm (m_idx R T m))) at 2.
    rewrite list_sum_app. lia. }
  assert (AS : forall side s, s = fst p \/ s = snd p ->
    adj n1 n2
     (fun x acc => do name <- get (sensors (m_idx R T d)) s;;
        do jb <- side_jac T st s (n + 1);;
        match snd jb with
        | None => ref_term T false st (if side =? 1 then 1 else -1)%R s (n + 1) (fst jb) x uK (n_vars st + c0) (n_vars st + (c0 + N)) acc
        | Some J => sensor_term T false st (n_vars st) (solver_ncov m) ns (if side =? 1 then 1 else -1)%R name s (n + 1) (fst jb) x uK J (n_vars st + c0) (n_vars st + (c0 + N)) acc
        end)
     (fun y acc => do name <- get (sensors (m_idx R T d)) s;;
        do jb <- side_jac T st s (n + 1);;
        match snd jb with
        | None => ref_term T true st (if side =? 1 then 1 else -1)%R s (n + 1) (fst jb) y uK (n_vars st + c0) (n_vars st + (c0 + N)) acc
        | Some J => sensor_term T true st (n_vars st) (solver_ncov m) ns (if side =? 1 then 1 else -1)%R name s (n + 1) (fst jb) y uK J (n_vars st + c0) (n_vars st + (c0 + N)) acc
        end)).
  { intros side s Hs. destruct (ev_pair _ _ Ev n p Hp) as (_ & Hin). destruct (Hin s Hs) as (H1 & _).
    destruct (nth_error (sensors (m_idx R T m)) s) as [name|] eqn:Ename; [|apply nth_error_None in Ename; lia].
    destruct (side_ok n p s name N Hp Hs Ename EN) as (ps & ms & f & b & X & a & c & xt & al & t & r & J & r' & B & SD & Eps & Lps & Hms & _ & _ & _ & Hall & HJ).
    rewrite S1, (proj2 (get_ok _ _ _) Ename), (sd_jac _ _ _ _ _ _ _ _ _ _ _ _ _ _ _ SD). cbn [bind fst snd].
    destruct (sd_len _ _ _ _ _ _ _ _ _ _ _ _ _ _ _ SD) as (_ & _ & LB).
    set (sg := (if side =? 1 then 1 else -1)%R).
    destruct J as [J|].
    - destruct HJ as (Hms' & Hnp & LJ & LJc). unfold sensor_term. rewrite Hms' in *.
      apply adj_comp.
      + apply (adj_fold n1 n2 (fun c x acc =>
          do im <- index eqb3 (s, n + 1, c) (get_block_idxs (m_idx R T d));; do ib <- get (idxs (m_idx R T d)) im;; do nv0 <- get (N_var (m_idx R T d)) im;;
          do u <- get (m_unc R T d) im;; do JRc <- get J (c - 1);;
          cov_term T false st ns (n_vars st) sg B JRc x uK (n_vars st + c0) (n_vars st + (c0 + N)) ib (ib + nv0) u acc)
          (fun c x acc =>
          do im <- index eqb3 (s, n + 1, c) (get_block_idxs (m_idx R T d));; do ib <- get (idxs (m_idx R T d)) im;; do nv0 <- get (N_var (m_idx R T d)) im;;
          do u <- get (m_unc R T d) im;; do JRc <- get J (c - 1);;
          cov_term T true st ns (n_vars st) sg B JRc x uK (n_vars st + c0) (n_vars st + (c0 + N)) ib (ib + nv0) u acc)).
        intros k Hk. apply in_seq in Hk.
        assert (Gb : get_block_idxs (m_idx R T d) = get_block_idxs (m_idx R T m)) by (unfold get_block_idxs; rewrite S6, S7, S8; reflexivity).
        destruct (index_some eqb3 eqb3_spec (s, n + 1, k) (get_block_idxs (m_idx R T m)) (Hall k ltac:(lia))) as (im & Eim & Him).
        rewrite Gb, Eim. cbn [bind]. pose proof (zip3_nth _ _ _ _ _ _ _ Him) as Hmu.
        destruct (block_series im n Hmu) as (u & N' & Hu & HN' & HNv). assert (N' = N) by congruence. subst N'.
        destruct (block_facts nv ns im u N St Hu HNv) as (ib & n' & G1 & G2 & G3 & Hle & Hk'). rewrite G1, G2, G3. cbn [bind].
        destruct (nth_error J (k - 1)) as [JRc|] eqn:EJ; [|apply nth_error_None in EJ; lia]. rewrite (proj2 (get_ok _ _ _) EJ). cbn [bind].
        rewrite Hv. apply (adj_cov st (list_sum nv + ns + n_pars st) (list_sum nv + ns + n_ks st) N ns (list_sum nv)); auto; try lia.
        { apply LJc. eapply nth_error_In; eauto. }
        replace (ib + n' - ib) with n' by lia. exact Hk'.
      + apply (adj_param st n1 n2 N (n_vars st) (solver_ncov m) sg name ps); auto; try lia. congruence.
    - destruct HJ as (b0 & u & Hhd & Hu & Hty). unfold ref_term. rewrite S6, S7.
      assert (Lmu : length (n_sensor (m_idx R T m)) = length (n_mu (m_idx R T m))) by (destruct (ev_len _ _ Ev); congruence).
      rewrite (hd_filter_index _ _ _ _ Lmu Hhd). cbn [bind].
      assert (Hb0 : In b0 (blocks_of (m_idx R T m) s (n + 1))) by (destruct (blocks_of (m_idx R T m) s (n + 1)); [discriminate|cbn in Hhd; injection Hhd as ->; left; auto]).
      unfold blocks_of in Hb0. apply filter_In in Hb0 as (Hb1 & Hb2). apply in_seq in Hb1. apply andb_true_iff in Hb2 as (_ & Hb2). apply Nat.eqb_eq in Hb2.
      assert (Hmu : nth_error (n_mu (m_idx R T m)) b0 = Some (n + 1)) by (rewrite (nth_error_nth' _ 0) by lia; congruence).
      destruct (block_series b0 n Hmu) as (u' & N' & Hu' & HN' & HNv). assert (N' = N) by congruence. assert (u' = u) by congruence. subst N' u'.
      destruct (block_facts nv ns b0 u N St Hu HNv) as (ib & n' & G1 & G2 & G3 & Hle & Hk'). rewrite G1, G2, G3. cbn [bind].
      destruct (u_kind R u) as [r0|r0 c1|wi ui|wi ui c1]; try contradiction; cbn [bind].
      + destruct Hk' as (L0 & ->). apply (adj_ref n1 n2 N ns (list_sum nv) sg B B uK (n_vars st + c0) (n_vars st + (c0 + N)) ib (ib + N)); auto; lia.
      + destruct Hk' as (L0 & _ & -> & _). apply (adj_ref n1 n2 N ns (list_sum nv) sg B B uK (n_vars st + c0) (n_vars st + (c0 + N)) ib (ib + N)); auto; lia. }
  unfold series_term. cbn [fst snd]. rewrite Hc0, Hc1. cbn [bind]. rewrite S10, (proj2 (get_ok _ _ _) EK). cbn [bind].
  apply (adj_fold n1 n2
    (fun q x acc => do name <- get (sensors (m_idx R T d)) (snd q);;
        do jb <- side_jac T st (snd q) (n + 1);;
        match snd jb with
        | None => ref_term T false st (if fst q =? 1 then 1 else -1)%R (snd q) (n + 1) (fst jb) x uK (n_vars st + c0) (n_vars st + (c0 + N)) acc
        | Some J => sensor_term T false st (n_vars st) (solver_ncov m) ns (if fst q =? 1 then 1 else -1)%R name (snd q) (n + 1) (fst jb) x uK J (n_vars st + c0) (n_vars st + (c0 + N)) acc
        end)
    (fun q x acc => do name <- get (sensors (m_idx R T d)) (snd q);;
        do jb <- side_jac T st (snd q) (n + 1);;
        match snd jb with
        | None => ref_term T true st (if fst q =? 1 then 1 else -1)%R (snd q) (n + 1) (fst jb) x uK (n_vars st + c0) (n_vars st + (c0 + N)) acc
        | Some J => sensor_term T true st (n_vars st) (solver_ncov m) ns (if fst q =? 1 then 1 else -1)%R name (snd q) (n + 1) (fst jb) x uK J (n_vars st + c0) (n_vars st + (c0 + N)) acc
        end)).
  intros q [<-|[<-|[]]]; cbn [fst snd]; apply AS; auto.
Qed.

(** the preconditioner *)
Lemma calc_Px_ok x : length x = n1 -> exists Px PTx, calc_Px T st x false = Ok Px /\ calc_Px T st x true = Ok PTx /\ length Px = n1 /\ length PTx = n1 /\
  firstn (n_vars st) Px = firstn (n_vars st) x /\ firstn (n_vars st) PTx = firstn (n_vars st) x /\
  skipn (n_vars st) Px = map (fun r => dotp r (skipn (n_vars st) x)) (g_S T st) /\
  skipn (n_vars st) PTx = map (fun j => dotp (column j (g_S T st)) (skipn (n_vars st) x)) (seq 0 (n_pars st)).
Proof.
  intros Hx. destruct solver_facts as (nv & ns & _ & _ & _ & Hlast & _). destruct (sf_S _ _ SF) as (LS & LSr).
  unfold calc_Px. rewrite Hlast. cbn [bind].
  assert (E2 : slice (n_vars st) (n_vars st + length (sd_a T sd)) x = skipn (n_vars st) x).
  { unfold slice. replace (n_vars st + length (sd_a T sd) - n_vars st) with (length (skipn (n_vars st) x)) by (rewrite skipn_length; unfold n_pars in *; lia). apply firstn_all. }
  assert (E1 : slice 0 (n_vars st) x = firstn (n_vars st) x) by (unfold slice; rewrite Nat.sub_0_r; reflexivity).
  rewrite E1, E2. assert (L2 : length (skipn (n_vars st) x) = n_pars st) by (rewrite skipn_length; lia).
  assert (L1 : length (firstn (n_vars st) x) = n_vars st) by (apply firstn_length_le; lia).
  unfold mat_dot. rewrite (mapM_Ok_map _ (fun r => dotp r (skipn (n_vars st) x))).
  2:{ intros r Hr. unfold np_dot. rewrite (LSr r Hr), L2, Nat.eqb_refl. reflexivity. }
  cbn [bind]. unfold mat_tdot.
  assert (Lhd : length (hd [] (g_S T st)) = n_pars st).
  { destruct (g_S T st) as [|r0 S0]; [cbn in *; auto|]. apply LSr. left; auto. }
  rewrite Lhd. rewrite (mapM_Ok_map _ (fun j => dotp (column j (g_S T st)) (skipn (n_vars st) x))).
  2:{ intros j Hj. unfold np_dot, column. rewrite map_length, LS, L2, Nat.eqb_refl. reflexivity. }
  cbn [bind]. eexists _, _. split; [reflexivity|]. split; [reflexivity|].
  split; [rewrite app_length, map_length; lia|]. split; [rewrite app_length, map_length, seq_length; lia|].
  rewrite !firstn_app, !skipn_app, L1, Nat.sub_diag. cbn [firstn skipn]. rewrite !app_nil_r, !firstn_firstn, Nat.min_id.
  rewrite (skipn_all2 (firstn (n_vars st) x)) by lia. auto.
Qed.

Lemma calc_Px_adj x z : length x = n1 -> length z = n1 -> exists Px PTz, calc_Px T st x false = Ok Px /\ calc_Px T st z true = Ok PTz /\
  length Px = n1 /\ length PTz = n1 /\ dotp Px z = dotp x PTz.
Proof.
  intros Hx Hz. destruct (calc_Px_ok x Hx) as (Px & _ & E1 & _ & L1 & _ & F1 & _ & G1 & _).
  destruct (calc_Px_ok z Hz) as (_ & PTz & _ & E2 & _ & L2 & _ & F2 & _ & G2).
  exists Px, PTz. do 4 (split; [auto|]). destruct (sf_S _ _ SF) as (LS & LSr).
  transitivity (dotp (firstn (n_vars st) Px ++ skipn (n_vars st) Px) (firstn (n_vars st) z ++ skipn (n_vars st) z)); [rewrite !firstn_skipn; reflexivity|].
  transitivity (dotp (firstn (n_vars st) x ++ skipn (n_vars st) x) (firstn (n_vars st) PTz ++ skipn (n_vars st) PTz)); [|rewrite !firstn_skipn; reflexivity].
  rewrite F1, F2, G1, G2.
  rewrite !dotp_app by (rewrite !firstn_length_le; lia). f_equal.
  set (x2 := skipn (n_vars st) x). set (z2 := skipn (n_vars st) z).
  assert (Lx : length x2 = n_pars st) by (unfold x2; rewrite skipn_length; lia). assert (Lz : length z2 = n_pars st) by (unfold z2; rewrite skipn_length; lia).
  rewrite (dotp_sum _ _ (n_pars st)) by lens. rewrite (dotp_sum x2 _ (n_pars st)) by lens.
  rewrite (rsum_ext _ (fun i => rsum (map (fun j => nth j x2 0 * (nth j (nth i (g_S T st) []) 0 * nth i z2 0))%R (seq 0 (n_pars st))))).
  - rewrite rsum_swap. apply rsum_ext. intros j Hj. apply in_seq in Hj.
    rewrite (nth_mapseq (fun j => dotp (column j (g_S T st)) z2)) by lia. rewrite rsum_scal_l. f_equal.
    rewrite (dotp_sum _ _ (n_pars st)) by (unfold column; lens). apply rsum_ext. intros i Hi. apply in_seq in Hi. f_equal. unfold column.
    rewrite (nth_indep (map (fun r => nth j r 0%R) (g_S T st)) 0%R (nth j [] 0%R)) by (rewrite map_length; lia). rewrite (map_nth (fun r => nth j r 0%R)). reflexivity.
  - intros i Hi. apply in_seq in Hi. rewrite (nth_indep _ 0%R (dotp [] x2)) by (rewrite map_length; lia). rewrite (map_nth (fun r => dotp r x2)).
    rewrite (dotp_sum _ _ (n_pars st)); [|apply LSr; apply nth_In; lia|auto]. rewrite <- rsum_scale. apply rsum_ext. intros; ring.
Qed.

Lemma assign_zeros k N (v : list R) : length v = k -> assign 0 k v (repeat 0%R (k + N)) = Ok (v ++ repeat 0%R N).
Proof.
  intros H. rewrite repeat_app. pose proof (assign_mid [] (repeat 0%R k) (repeat 0%R N) v) as A. rewrite repeat_length in A. cbn [length app plus] in A. apply A. auto.
Qed.

Lemma op_adj x y : length x = n1 -> length y = n2 -> exists Jx Jty, calc_prod_JPx T st x false = Ok Jx /\ calc_prod_JPx T st y true = Ok Jty /\
  length Jx = n2 /\ length Jty = n1 /\ dotp Jx y = dotp x Jty.
Proof.
  intros Hx Hy. destruct solver_facts as (nv & ns & St & SL & Hv & Hlast & Hnus & Hcn & _).
  assert (S2 : Im (m_idx R T d) = Im (m_idx R T m)) by apply SL.
  assert (AF : adj n1 n2 (fun x A => foldM (series_term T false st (n_vars st) (solver_ncov m) ns x) (enumerate (Im (m_idx R T m))) A)
                         (fun y B => foldM (series_term T true st (n_vars st) (solver_ncov m) ns y) (enumerate (Im (m_idx R T m))) B)).
  { apply (adj_fold n1 n2 (fun k x A => series_term T false st (n_vars st) (solver_ncov m) ns x A k) (fun k y B => series_term T true st (n_vars st) (solver_ncov m) ns y B k)).
    intros (n & p) Hin. apply in_enumerate in Hin. apply (adj_series nv ns St n p). auto. }
  destruct AF as (t & F & G). unfold calc_prod_JPx. rewrite Hcn, Hlast, ncov_ok, Hnus, S2. cbn [bind].
  change (length (sd_a T sd)) with (n_pars st).
  assert (FS : forall l : list R, length l >= n_vars st -> slice 0 (n_vars st) l = firstn (n_vars st) l) by (intros; unfold slice; rewrite Nat.sub_0_r; reflexivity).
  destruct (calc_Px_ok x Hx) as (Px & _ & E1 & _ & L1 & _). rewrite E1. cbn [bind]. rewrite !FS by lia.
  rewrite assign_zeros by (apply firstn_length_le; lia). rewrite assign_zeros by (apply firstn_length_le; lia). cbn [bind].
  destruct (F Px (firstn (n_vars st) Px ++ repeat 0%R (n_ks st))) as (Jx & EJ & LJ & DJ); auto.
  { rewrite app_length, repeat_length, firstn_length_le; lia. }
  destruct (G y (firstn (n_vars st) y ++ repeat 0%R (n_pars st))) as (B & EB & LB & DB); auto.
  { rewrite app_length, repeat_length, firstn_length_le; lia. }
  rewrite EJ, EB. cbn [bind]. destruct (calc_Px_adj x B Hx LB) as (Px' & PTB & E1' & E2' & L1' & L2' & D).
  assert (Px' = Px) by congruence. subst Px'. exists Jx, PTB. do 4 (split; [auto|]). rewrite <- D, DJ, DB by auto.
  f_equal. rewrite <- (firstn_skipn (n_vars st) y) at 1. rewrite <- (firstn_skipn (n_vars st) Px) at 2.
  rewrite !dotp_app by (rewrite !firstn_length_le; lia). rewrite dotp_zero, (dotp_comm _ (repeat 0%R (n_pars st))), dotp_zero. reflexivity.
Qed.
End Op.
