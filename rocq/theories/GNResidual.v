(** * C25: the residual function.  Proofs only. *)
From Coq Require Import Reals Lra Sorted.
From Verif Require Import Base BaseLemmas ReaderModel UncModel MuModel MuProofs SensorSpec SampleSpec SampleProofs TransformModel TransformSpec TransformProofs TransformProofs2 TransformMain TransformMain2 TransformMain3 EvalModel EvalSpec EvalProofs EvalMain GNModel GNSpec GNAlgebra GNTerms GNAdjoint GNMain.
Open Scope nat_scope.

Lemma zip2_app f (a b c e : list R) : length a = length c -> zip2 f (a ++ b) (c ++ e) = zip2 f a c ++ zip2 f b e.
Proof.
  revert c. induction a as [|x a IH]; intros [|y c] H; try discriminate; [reflexivity|].
  unfold zip2 in *. cbn [app combine map fst snd]. f_equal. apply IH. cbn in H. lia.
Qed.

Lemma Forall2_len {A B} (P : A -> B -> Prop) l1 l2 : Forall2 P l1 l2 -> length l1 = length l2.
Proof. induction 1; cbn; auto. Qed.

Section NormKs.
Context {T : Type}.
Variable r : mobj R T.
Hypothesis Hc : cNm (m_idx R T r) = cumul 0 (map (@length R) (m_unck R T r)).
Hypothesis Hi : length (Im (m_idx R T r)) = length (m_unck R T r).

Lemma norm_fold us : forall done pre vs, m_unck R T r = done ++ us -> length pre = list_sum (map (@length R) done) ->
  map (@length R) vs = map (@length R) us ->
  foldM (fun arr i =>
    do s <- get (cNm (m_idx R T r)) i;;
    do e <- get (cNm (m_idx R T r)) (i + 1);;
    do u <- get (m_unck R T r) i;;
    do v <- bop Rdiv (slice s e arr) u;;
    if length v =? length (slice s e arr) then assign s e v arr else Raise ValueError)
    (seq (length done) (length us)) (pre ++ concat vs) = Ok (pre ++ zip2 Rdiv (concat vs) (concat us)).
Proof.
  induction us as [|u us IH]; intros done pre vs Hu Hp Hv; destruct vs as [|v vs]; try discriminate.
  - cbn. rewrite !app_nil_r. reflexivity.
  - cbn [map] in Hv. injection Hv as Hv1 Hv2. cbn [length seq foldM].
    assert (G1 : get (cNm (m_idx R T r)) (length done) = Ok (length pre)).
    { rewrite Hc, Hu, map_app. apply get_ok. rewrite cumul_nth by (rewrite app_length, map_length; lia). cbn [plus].
      rewrite firstn_app, map_length, Nat.sub_diag, firstn_all2 by (rewrite map_length; lia). cbn [firstn]. rewrite app_nil_r, <- Hp. reflexivity. }
    assert (G2 : get (cNm (m_idx R T r)) (length done + 1) = Ok (length pre + length v)).
    { rewrite Hc, Hu, map_app. apply get_ok. rewrite cumul_nth by (rewrite app_length, map_length; cbn; lia). cbn [plus].
      rewrite firstn_app, map_length, firstn_all2 by (rewrite map_length; lia). replace (length done + 1 - length done) with 1 by lia. cbn [map firstn].
      rewrite list_sum_app, <- Hp. cbn. f_equal. lia. }
    assert (G3 : get (m_unck R T r) (length done) = Ok u) by (apply get_ok; rewrite Hu, nth_error_app2, Nat.sub_diag by lia; reflexivity).
    rewrite G1, G2, G3. cbn [bind concat]. rewrite slice_mid, bop_eq by auto. cbn [bind].
    rewrite zip2_length, Nat.eqb_refl by auto. rewrite assign_mid by (rewrite zip2_length; auto). cbn [bind].
    rewrite app_assoc.
    pose proof (IH (done ++ [u]) (pre ++ zip2 Rdiv v u) vs) as IH'. rewrite (app_length done [u]) in IH'. cbn [length] in IH'. rewrite Nat.add_1_r in IH'.
    rewrite IH'; [| rewrite <- app_assoc; auto | rewrite app_length, map_app, list_sum_app, zip2_length, Hp; cbn; lia | auto].
    rewrite <- app_assoc, zip2_app by auto. reflexivity.
Qed.

Lemma norm_ks_ok ks : length ks = length (concat (m_unck R T r)) -> norm_ks T r ks = Ok (zip2 Rdiv ks (concat (m_unck R T r))).
Proof.
  intros H. unfold norm_ks. rewrite Hi. rewrite concat_length in H.
  destruct (chop_spec (map (@length R) (m_unck R T r)) ks H) as (C1 & C2). rewrite <- C1 at 1 2.
  pose proof (norm_fold (m_unck R T r) [] [] (chop (map (@length R) (m_unck R T r)) ks) eq_refl eq_refl C2) as N. cbn [length app] in N. exact N.
Qed.
End NormKs.

Section Res.
Context {T : Type}.
Variables (m : mobj R T) (st : solver T).
Hypothesis SF : solver_for m st.
Hypothesis FO : functions_ok m st.
Notation d := (g_m T st).
Notation sd := (g_sd T st).

Lemma unck_sizes : map (@length R) (m_unck R T m) = Nm (m_idx R T m).
Proof.
  destruct SF as [W Sh _ _ _ _ _ _ _ _ _ _]. apply nth_error_ext. intros i. rewrite nth_error_map'.
  destruct (nth_error (m_unck R T m) i) as [u|] eqn:E; [symmetry; apply (proj1 (proj2 Sh)); auto|].
  apply nth_error_None in E. rewrite (wf_unck _ W) in E. symmetry. apply nth_error_None; auto.
Qed.

Lemma nks_m : n_ks st = list_sum (Nm (m_idx R T m)).
Proof. destruct (solver_facts m st SF) as (nv & ns & _ & SL & _). unfold n_ks. destruct SL as (_ & _ & -> & _). reflexivity. Qed.

(** the estimate, transformed back *)
Lemma est_reverse x : unknowns_vec st x -> exists r, tn_reverse T (estimate_obj T st x (n_vars st) (n_ks st)) = Ok r /\
  m_idx R T r = m_idx R T m /\ m_ps R T r = m_ps R T m /\ m_unck R T r = m_unck R T m /\
  m_across1 R T r = None /\ m_across2 R T r = None /\ m_along1 R T r = None /\ m_along2 R T r = None /\ m_time1 R T r = None /\ m_time2 R T r = None /\
  length (m_values R T r) = list_sum (N_var (m_idx R T m)) /\
  exists r0, tn_reverse T (with_values d (firstn (n_vars st) x)) = Ok r0 /\ m_values R T r0 = m_values R T r.
Proof.
  intros Hx. unfold unknowns_vec in Hx. destruct (solver_facts m st SF) as (nv & ns & St & _ & _ & _ & _ & _ & Hps & Hops & _).
  pose proof (ks_len m st SF) as (LK1 & LK2). pose proof nks_m as NK.
  destruct (sf_ps _ _ SF) as (ps & Eps & Eops & _).
  assert (Lf : length (firstn (n_vars st) x) = n_vars st) by (apply firstn_length_le; lia).
  assert (St1 : state_of m (estimate_obj T st x (n_vars st) (n_ks st)) nv ns).
  { destruct St as [A1 A2 A3 A4 A5 A6 A7 A8 A9 A10 A11 A12]. constructor; auto.
    cbn [estimate_obj m_values]. unfold slice. rewrite Nat.sub_0_r. cbn [skipn]. rewrite Lf. unfold n_vars. auto. }
  pose proof (state_with _ _ _ _ (firstn (n_vars st) x) St Lf) as St2.
  destruct SF as [W Sh _ _ _ _ _ _ _ _ _ _].
  destruct (reverse_spec m _ nv ns W Sh St1) as (vs1 & E1 & L1 & P1); [cbn [estimate_obj m_ks]; rewrite repeat_length; auto|].
  destruct (reverse_spec m _ nv ns W Sh St2) as (vs2 & E2 & L2 & P2); [auto|].
  eexists. split; [exact E1|]. cbn [m_idx m_ps m_unck m_across1 m_across2 m_along1 m_along2 m_time1 m_time2 m_values estimate_obj m_ops].
  split; [auto|]. split; [congruence|]. do 7 (split; [auto|]). split; [rewrite concat_length, L1; auto|].
  eexists. split; [exact E2|]. cbn [m_values]. f_equal. apply nth_error_ext. intros b.
  destruct (nth_error (N_var (m_idx R T m)) b) as [N|] eqn:EN.
  - assert (Hb : b < length (m_unc R T m)) by (rewrite (wf_unc _ W); apply nth_error_Some; congruence).
    destruct (nth_error (m_unc R T m) b) as [u|] eqn:Eu; [|apply nth_error_None in Eu; lia].
    destruct (nth_error nv b) as [n'|] eqn:En; [|apply nth_error_None in En; rewrite (st_nvl _ _ _ _ St) in En; lia].
    destruct (nth_error vs1 b) as [v1|] eqn:E3; [|rewrite <- L1, nth_error_map', E3 in EN; discriminate].
    destruct (nth_error vs2 b) as [v2|] eqn:E4; [|rewrite <- L2, nth_error_map', E4 in EN; discriminate].
    rewrite (P1 b u v1 N n' _ Eu E3 EN En eq_refl), (P2 b u v2 N n' _ Eu E4 EN En eq_refl).
    cbn [estimate_obj m_values with_values].
    assert (ES : slice 0 (n_vars st) x = firstn (n_vars st) x) by (unfold slice; rewrite Nat.sub_0_r; reflexivity).
    rewrite ES. reflexivity.
  - assert (A1 : nth_error (map (@length R) vs1) b = None) by (rewrite L1; auto). assert (A2 : nth_error (map (@length R) vs2) b = None) by (rewrite L2; auto).
    rewrite nth_error_map' in A1, A2. destruct (nth_error vs1 b), (nth_error vs2 b); try discriminate; auto.
Qed.

Lemma est_evaluable x r : unknowns_vec st x -> m_idx R T r = m_idx R T m -> m_ps R T r = m_ps R T m ->
  m_across1 R T r = None -> m_across2 R T r = None -> m_along1 R T r = None -> m_along2 R T r = None -> m_time1 R T r = None -> m_time2 R T r = None ->
  length (m_values R T r) = list_sum (N_var (m_idx R T m)) ->
  evaluable r (estimate_sd T st x (n_vars st)) /\ models_total r (estimate_sd T st x (n_vars st)).
Proof.
  intros Hx Ei Ep A1 A2 A3 A4 A5 A6 Lv. pose proof (sf_ev _ _ SF) as Ev. pose proof (sf_cs _ _ SF) as Ecs.
  assert (EV : evaluable r (estimate_sd T st x (n_vars st))).
  { destruct Ev as [B1 B2 B3 B4 B5 B6 B7 B8 B9 B10 B11 B12]. constructor; rewrite ?Ei, ?Ep; auto.
    - rewrite A1, A2, A3, A4. cbn. intros l H. intuition discriminate.
    - rewrite A5, A6. cbn. intros l H. intuition discriminate. }
  split; [exact EV|]. split.
  - intros n side s X a c xt al t N f I F HN.
    pose proof (si_n _ _ _ _ _ _ _ _ _ _ _ I) as Hn1. pose proof (si_X _ _ _ _ _ _ _ _ _ _ _ I) as HX. destruct (si_sensor _ _ _ _ _ _ _ _ _ _ _ I) as (p & Hp & Hs).
    destruct (si_a _ _ _ _ _ _ _ _ _ _ _ I) as (name & ps & Hname & Hps & Ha & Hc).
    rewrite Ei in *. rewrite Ep in Hps.
    assert (Hs2 : s = fst p \/ s = snd p) by (destruct (side =? 0); auto).
    destruct (sf_covs _ _ SF (n - 1) p s Hp Hs2) as (ms & Hms & Hms1 & Hcov).
    destruct (ev_pair _ _ Ev (n - 1) p Hp) as (_ & Hin). destruct (Hin s Hs2) as (_ & _ & H3 & _).
    destruct (nth_error (sd_adj T sd) s) as [b|] eqn:Eb; [|apply nth_error_None in Eb; lia].
    assert (LX : forall col, In col X -> length col = N).
    { destruct (covariates_ex r _ s n EV) as (X' & HX' & L'). intros z Hz. rewrite Ei in L'. apply (L' z N); auto.
      assert (EX : X' = X); [|congruence]. clear - HX HX'. unfold covariates in *. revert X' HX'. induction HX; intros X' HX'; inversion HX'; subst; auto.
      f_equal; auto. eapply is_block_fun; eauto. }
    assert (Lms : length X = ms).
    { apply Forall2_len in HX. rewrite <- HX, Ei. replace n with (n - 1 + 1) by lia.
      rewrite <- (map_length (fun b => nth b (n_cov (m_idx R T m)) 0)), Hcov. apply seq_length. }
    destruct (sf_ps _ _ SF) as (ps' & Eps & _ & Lps). assert (ps' = ps) by congruence. subst ps'.
    assert (La : length a = n_params ps name).
    { rewrite Ha. apply labelled_length. cbn [estimate_sd sd_a]. rewrite skipn_length. unfold unknowns_vec in Hx. lia. }
    destruct (proj2 FO (n - 1) p s name ps ms N f b X a c xt al t Hp Hs2 Hname Hps Hms HN F Eb Lms LX La) as (r1 & J & r' & B & E1 & L1 & _).
    + rewrite Hc. cbn [estimate_sd sd_cs sd_c]. rewrite Ecs. reflexivity.
    + pose proof (si_xt _ _ _ _ _ _ _ _ _ _ _ I) as H. rewrite A1, A2 in H. destruct (side =? 0), xt; cbn in H; try contradiction; exact Logic.I.
    + pose proof (si_al _ _ _ _ _ _ _ _ _ _ _ I) as H. rewrite A3, A4 in H. destruct (side =? 0), al; cbn in H; try contradiction; exact Logic.I.
    + pose proof (si_t _ _ _ _ _ _ _ _ _ _ _ I) as H. rewrite A5, A6 in H. destruct (side =? 0), t; cbn in H; try contradiction; exact Logic.I.
    + exists r1, J. auto.
  - intros s b r0 Hb. destruct (proj1 FO s b r0 Hb) as (r' & B & E & L). exists r', B. auto.
Qed.

Lemma est_sd x : estimate_sd T st x (n_vars st) = with_params sd (skipn (n_vars st) x).
Proof. unfold estimate_sd, with_params. rewrite (sf_cs _ _ SF). reflexivity. Qed.

Lemma residual_ok x : unknowns_vec st x -> exists r ks, estimate_of m st x r /\ evaluable r (estimate_sd T st x (n_vars st)) /\
  models_total r (estimate_sd T st x (n_vars st)) /\
  evaluate_K T r (estimate_sd T st x (n_vars st)) SelAll = Ok ks /\ length ks = n_ks st /\
  calc_f T st x = Ok (zip2 Rminus (firstn (n_vars st) x) (m_values R T d) ++ zip2 Rminus (zip2 Rdiv ks (all_uK m)) (zip2 Rdiv (m_ks R T m) (all_uK m))).
Proof.
  intros Hx. destruct (est_reverse x Hx) as (r & Er & Ei & Ep & Eu & A1 & A2 & A3 & A4 & A5 & A6 & Lv & r0 & Er0 & Ev0).
  destruct (est_evaluable x r Hx Ei Ep A1 A2 A3 A4 A5 A6 Lv) as (EV & MT).
  destruct (all_selected r _ EV) as (S1 & S2).
  destruct (K_rows r _ EV MT _ SelAll S1 eq_refl) as (ks & Ek & Lk & _).
  assert (LK : length ks = n_ks st).
  { rewrite Lk, S2, nks_m. unfold n_matchups. f_equal. rewrite Ei. rewrite <- seq_shift, map_map.
    apply nth_error_ext. intros i. rewrite nth_error_map'. destruct (nth_error (Nm (m_idx R T m)) i) as [N|] eqn:EN.
    - assert (Hi : i < length (Nm (m_idx R T m))) by (apply nth_error_Some; congruence).
      rewrite (nth_error_nth' (seq 0 _) 0) by (rewrite seq_length; auto). rewrite seq_nth by auto. cbn [option_map plus]. replace (S i - 1) with i by lia. f_equal. apply nth_error_nth; auto.
    - apply nth_error_None in EN. replace (nth_error (seq 0 (length (Nm (m_idx R T m)))) i) with (@None nat); [reflexivity|].
      symmetry. apply nth_error_None. rewrite seq_length. auto. }
  exists r, ks. split; [constructor; [auto|auto|exists r0; auto|repeat split; auto]|]. split; [auto|]. split; [auto|]. split; [auto|]. split; [auto|].
  destruct (solver_facts m st SF) as (nv & ns & St & SL & Hv & Hlast & Hnus & Hcn & Hmps & Hmops & _ & _ & Emk).
  destruct (ks_len m st SF) as (LU & LKd). pose proof (sf_wf _ _ SF) as W. pose proof (sf_shapes _ _ SF) as Sh. pose proof nks_m as NK.
  unfold calc_f. rewrite Hcn, Hlast. cbn [bind].
  assert (ES : forall l : list R, slice 0 (n_vars st) l = firstn (n_vars st) l) by (intros; unfold slice; rewrite Nat.sub_0_r; reflexivity).
  rewrite !ES. rewrite (firstn_all2 (m_values R T d)) by (unfold n_vars; lia).
  assert (Lf : length (firstn (n_vars st) x) = n_vars st) by (apply firstn_length_le; unfold unknowns_vec in Hx; lia).
  rewrite bop_eq by (rewrite Lf; reflexivity). cbn [bind].
  assert (Lz : length (zip2 Rminus (firstn (n_vars st) x) (m_values R T d)) = n_vars st) by (rewrite zip2_length; auto).
  rewrite assign_zeros by auto. cbn [bind]. rewrite Er. cbn [bind]. rewrite Ek. cbn [bind].
  assert (NKS : norm_ks T r ks = Ok (zip2 Rdiv ks (all_uK m))).
  { unfold all_uK. rewrite <- Eu. apply norm_ks_ok.
    - rewrite Eu, unck_sizes, Ei. apply (wf_cnm _ W).
    - rewrite Eu, Ei, (wf_unck _ W). apply Sh.
    - rewrite Eu, LU. congruence. }
  rewrite NKS. cbn [bind]. rewrite Emk. fold (all_uK m).
  rewrite bop_eq by (unfold all_uK; rewrite !zip2_len, LU, (wf_ks _ W), LK, NK; reflexivity). cbn [bind].
  set (dv := zip2 Rminus (firstn (n_vars st) x) (m_values R T d)) in *.
  set (dk := zip2 Rminus (zip2 Rdiv ks (all_uK m)) (zip2 Rdiv (m_ks R T m) (all_uK m))).
  assert (Ldk : length dk = n_ks st) by (unfold dk, all_uK; rewrite !zip2_len, LU, (wf_ks _ W), LK, NK; lia).
  pose proof (assign_mid dv (repeat 0%R (n_ks st)) [] dk) as AM. rewrite repeat_length, Lz, !app_nil_r in AM. apply AM. auto.
Qed.

Lemma calc_f_ok x : unknowns_vec st x -> exists f r ks, calc_f T st x = Ok f /\ residual_vec st f /\ estimate_of m st x r /\
  evaluate_K T r (with_params sd (skipn (n_vars st) x)) SelAll = Ok ks /\ length ks = n_ks st /\
  (forall i, i < n_vars st -> nth i f 0%R = (nth i x 0 - nth i (m_values R T d) 0)%R) /\
  (forall i, i < n_ks st -> nth (n_vars st + i) f 0%R = ((nth i ks 0 - nth i (m_ks R T m) 0) / nth i (all_uK m) 0)%R).
Proof.
  intros Hx. destruct (residual_ok x Hx) as (r & ks & EO & _ & _ & Ek & Lk & Ef). rewrite est_sd in Ek.
  destruct (ks_len m st SF) as (LU & _). pose proof (wf_ks _ (sf_wf _ _ SF)) as Lm. rewrite <- nks_m in LU, Lm. fold (all_uK m) in LU.
  assert (Lf : length (firstn (n_vars st) x) = n_vars st) by (apply firstn_length_le; unfold unknowns_vec in Hx; lia).
  assert (Lz : length (zip2 Rminus (firstn (n_vars st) x) (m_values R T d)) = n_vars st) by (rewrite zip2_length; auto).
  eexists _, r, ks. split; [exact Ef|]. split; [|split; [auto|split; [auto|split; [auto|split]]]].
  - unfold residual_vec. rewrite app_length, Lz, !zip2_len. rewrite LU, Lk, Lm. lia.
  - intros i Hi. rewrite app_nth1 by lia. rewrite zip2_nth by (unfold n_vars in *; lia). f_equal.
    rewrite <- (firstn_skipn (n_vars st) x) at 2. rewrite app_nth1 by lia. reflexivity.
  - intros i Hi. rewrite app_nth2, Lz by lia. replace (n_vars st + i - n_vars st) with i by lia.
    rewrite zip2_nth by (rewrite !zip2_len; lia). rewrite !zip2_nth by lia. unfold Rdiv. ring.
Qed.

Lemma calc_f_zero x f r ks : unknowns_vec st x -> nonzero (all_uK m) -> calc_f T st x = Ok f -> estimate_of m st x r ->
  evaluate_K T r (with_params sd (skipn (n_vars st) x)) SelAll = Ok ks ->
  ((forall y, In y f -> y = 0%R) <-> firstn (n_vars st) x = m_values R T d /\ ks = m_ks R T m).
Proof.
  intros Hx Hu Ef EO Ek. destruct (calc_f_ok x Hx) as (f' & r' & ks' & E1 & L1 & EO' & E2 & L2 & H1 & H2).
  assert (f' = f) by congruence. subst f'.
  assert (ER : evaluate_K T r' (with_params sd (skipn (n_vars st) x)) SelAll = evaluate_K T r (with_params sd (skipn (n_vars st) x)) SelAll).
  { destruct EO as [B1 B2 (r0 & B3 & B3') (B4 & B5 & B6 & B7 & B8 & B9)], EO' as [C1 C2 (r0' & C3 & C3') (C4 & C5 & C6 & C7 & C8 & C9)].
    assert (r0' = r0) by congruence. subst r0'.
    unfold evaluate_K, evaluate_adjusted_measurand, evaluate_measurand, side_eval, m_getAcross, m_getAlong, m_getTime.
    rewrite B1, B2, B3', B4, B5, B6, B7, B8, B9, C1, C2, C3', C4, C5, C6, C7, C8, C9. reflexivity. }
  rewrite E2, Ek in ER. injection ER as ->.
  destruct (ks_len m st SF) as (LU & _). pose proof (wf_ks _ (sf_wf _ _ SF)) as Lm. rewrite <- nks_m in LU, Lm. fold (all_uK m) in LU.
  unfold residual_vec in L1. unfold unknowns_vec in Hx.
  split.
  - intros Hz. assert (Z : forall i, i < n_vars st + n_ks st -> nth i f 0%R = 0%R) by (intros i Hi; apply Hz; apply nth_In; lia). split.
    + apply (nth_ext _ _ 0%R 0%R); [apply firstn_length_le; unfold n_vars in *; lia|]. intros i Hi. rewrite firstn_length_le in Hi by lia.
      specialize (Z i ltac:(lia)). rewrite H1 in Z by auto. rewrite <- (firstn_skipn (n_vars st) x) in Z. rewrite app_nth1 in Z by (rewrite firstn_length_le; lia). lra.
    + apply (nth_ext _ _ 0%R 0%R); [lia|]. intros i Hi. specialize (Z (n_vars st + i) ltac:(lia)). rewrite H2 in Z by lia.
      assert (U : nth i (all_uK m) 0%R <> 0%R) by (apply Hu; apply nth_In; lia).
      unfold Rdiv in Z. apply Rmult_integral in Z as [Z|Z]; [lra|]. apply Rinv_neq_0_compat in U. contradiction.
  - intros (Z1 & Z2) y Hy. apply (In_nth _ _ 0%R) in Hy as (i & Hi & <-). destruct (Nat.lt_ge_cases i (n_vars st)) as [Hl|Hl].
    + rewrite H1 by auto. rewrite <- Z1. rewrite <- (firstn_skipn (n_vars st) x) at 1. rewrite app_nth1 by (rewrite firstn_length_le; lia). lra.
    + replace i with (n_vars st + (i - n_vars st)) by lia. rewrite H2 by lia. rewrite Z2. unfold Rdiv. ring.
Qed.
End Res.
