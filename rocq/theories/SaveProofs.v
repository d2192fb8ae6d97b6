(** * Proofs about re-opened solvers. *)
From Coq Require Import Reals Lra.
From Verif Require Import Base BaseLemmas ReaderModel UncModel MuModel MuProofs SensorSpec SampleSpec SampleProofs TransformModel TransformSpec TransformProofs TransformProofs2 TransformMain TransformMain2 TransformMain3 EvalModel EvalSpec EvalProofs EvalMain HistModel GNModel GNSpec GNAlgebra GNTerms GNAdjoint GNMain GNResidual SaveModel SaveSpec.
Open Scope nat_scope.

Section Reopen.
Variable T : Type.
Variable f4 : R -> R.

(** The solver [st] with other K values and other times. *)
Definition set_ks_times (st : solver T) (ks : list R) (t1 t2 : option (list T)) : solver T :=
  let m := g_m T st in
  mkSolver T
    (mkMobj R T (m_idx R T m) (m_ps R T m) (m_oidx R T m) (m_ops R T m) (m_values R T m) ks (m_unc R T m) (m_unck R T m)
       (m_ws R T m) (m_us R T m) t1 t2 (m_across1 R T m) (m_across2 R T m) (m_along1 R T m) (m_along2 R T m) (m_add R T m))
    (g_sd T st) (g_ocs T st) (g_xyza T st) (g_S T st).

Lemma map_fix {A} (f : A -> A) l : (forall x, In x l -> f x = x) -> map f l = l.
Proof. intros H. transitivity (map (fun x => x) l); [apply map_ext_in; auto|apply map_id]. Qed.

Lemma reopen_eq (m : mobj R T) (st : solver T) sd : tn_run T m = Ok (g_m T st) -> stored_exactly f4 st ->
  exists add, gn_reopen T (gn_save T f4 st) m sd (g_ocs T st) =
  mkSolver T (mkMobj R T (m_idx R T (g_m T st)) (m_ps R T (g_m T st)) (m_oidx R T (g_m T st)) (m_ops R T (g_m T st)) (m_values R T (g_m T st)) (m_ks R T m) (m_unc R T (g_m T st)) (m_unck R T (g_m T st))
       (m_ws R T (g_m T st)) (m_us R T (g_m T st)) (m_time1 R T m) (m_time2 R T m) (m_across1 R T (g_m T st)) (m_across2 R T (g_m T st)) (m_along1 R T (g_m T st)) (m_along2 R T (g_m T st)) add)
    sd (g_ocs T st) (g_xyza T st) (g_S T st).
Proof.
  intros Hr (H1 & H2 & H3). exists (m_add R T m). unfold gn_reopen, gn_open, gn_save, gn_init. cbn [g_m g_sd g_ocs sv_values sv_xyza sv_S sv_idx sv_ps].
  rewrite (map_fix f4 _ H1), (map_fix f4 _ H2). rewrite (map_fix (map f4)) by (intros r Hr'; apply map_fix; eauto).
  unfold tn_run in Hr. repeat (match type of Hr with bind ?x _ = _ => destruct x; cbn [bind] in Hr; [|discriminate] end). injection Hr as Hr.
  rewrite <- Hr. reflexivity.
Qed.
End Reopen.

(** Two solvers that differ only in K values, times, additional data and the parameters of the sensor data. *)
Record twin {T} (st st' : solver T) : Prop := {
  tw_idx : m_idx R T (g_m T st') = m_idx R T (g_m T st);
  tw_ps : m_ps R T (g_m T st') = m_ps R T (g_m T st);
  tw_oidx : m_oidx R T (g_m T st') = m_oidx R T (g_m T st);
  tw_ops : m_ops R T (g_m T st') = m_ops R T (g_m T st);
  tw_values : m_values R T (g_m T st') = m_values R T (g_m T st);
  tw_unc : m_unc R T (g_m T st') = m_unc R T (g_m T st);
  tw_unck : m_unck R T (g_m T st') = m_unck R T (g_m T st);
  tw_ws : m_ws R T (g_m T st') = m_ws R T (g_m T st);
  tw_us : m_us R T (g_m T st') = m_us R T (g_m T st);
  tw_across1 : m_across1 R T (g_m T st') = m_across1 R T (g_m T st);
  tw_across2 : m_across2 R T (g_m T st') = m_across2 R T (g_m T st);
  tw_along1 : m_along1 R T (g_m T st') = m_along1 R T (g_m T st);
  tw_along2 : m_along2 R T (g_m T st') = m_along2 R T (g_m T st);
  tw_na : length (sd_a T (g_sd T st')) = length (sd_a T (g_sd T st));
  tw_c : sd_c T (g_sd T st') = sd_c T (g_sd T st);
  tw_cs : sd_cs T (g_sd T st') = sd_cs T (g_sd T st);
  tw_model : sd_model T (g_sd T st') = sd_model T (g_sd T st);
  tw_adj : sd_adj T (g_sd T st') = sd_adj T (g_sd T st);
  tw_ocs : g_ocs T st' = g_ocs T st;
  tw_xyza : g_xyza T st' = g_xyza T st;
  tw_S : g_S T st' = g_S T st
}.

Section Twin.
Context {T : Type}.

Lemma twin_xyza (st st' : solver T) x : twin st st' -> twin (with_xyza T st x) (with_xyza T st' x).
Proof. intros []. constructor; auto. Qed.

Lemma getX_time {B} (x1 x2 y1 y2 : option (list B)) ix n name :
  (exists a b, getSensorX x1 x2 ix n name = Ok a /\ getSensorX y1 y2 ix n name = Ok b) \/
  (exists e, getSensorX x1 x2 ix n name = Raise e /\ getSensorX y1 y2 ix n name = Raise e).
Proof.
  unfold getSensorX. destruct (pyget (cNm ix) (n - 1)%Z); cbn [bind]; [|right; eauto]. destruct (pyget (cNm ix) n); cbn [bind]; [|right; eauto].
  destruct (pyget (Im ix) (n - 1)%Z); cbn [bind]; [|right; eauto]. destruct (get (sensors ix) (fst _)); cbn [bind]; [|right; eauto].
  destruct (String.eqb name _); [left; eauto|]. destruct (get (sensors ix) (snd _)); cbn [bind]; [|right; eauto].
  destruct (String.eqb name _); [left; eauto|right; eauto].
Qed.

Lemma unconvert_twin (st st' : solver T) x s n : twin st st' -> unconvert_Xs T (g_m T st') x s n = unconvert_Xs T (g_m T st) x s n.
Proof.
  intros W. unfold unconvert_Xs, unconvert_block. rewrite (tw_idx _ _ W), (tw_unc _ _ W), (tw_ws _ _ W), (tw_us _ _ W). reflexivity.
Qed.

Lemma side_jac_twin (st st' : solver T) s n : twin st st' -> ignores_times (g_sd T st) -> side_jac T st' s n = side_jac T st s n.
Proof.
  intros W IG. unfold side_jac, m_getAcross, m_getAlong, m_getTime, calc_R.
  rewrite (unconvert_twin st st' _ _ _ W), (tw_idx _ _ W), (tw_ps _ _ W), (tw_across1 _ _ W), (tw_across2 _ _ W), (tw_along1 _ _ W), (tw_along2 _ _ W), (tw_c _ _ W), (tw_cs _ _ W), (tw_model _ _ W), (tw_adj _ _ W), (tw_xyza _ _ W).
  destruct (get (sensors (m_idx R T (g_m T st))) s) as [name|]; cbn [bind]; [|reflexivity].
  destruct (getSensorX (m_across1 R T (g_m T st)) _ _ _ _) as [xt|]; cbn [bind]; [|reflexivity].
  destruct (getSensorX (m_along1 R T (g_m T st)) _ _ _ _) as [al|]; cbn [bind]; [|reflexivity].
  destruct (getX_time (m_time1 R T (g_m T st)) (m_time2 R T (g_m T st)) (m_time1 R T (g_m T st')) (m_time2 R T (g_m T st')) (m_idx R T (g_m T st)) (Z.of_nat n) name) as [(a & b & -> & ->)|(e & -> & ->)]; cbn [bind]; [|reflexivity].
  f_equal. destruct (m_ps R T (g_m T st)) as [ps|]; cbn [bind]; [|reflexivity]. destruct (unconvert_Xs _ _ _ _ _); cbn [bind]; [|reflexivity].
  destruct (get (sd_model T (g_sd T st)) s) as [f|] eqn:Ef; cbn [bind]; [|reflexivity]. apply get_ok in Ef.
  rewrite (IG _ _ _ _ _ _ _ b Ef), (IG _ _ _ _ _ _ _ a Ef). reflexivity.
Qed.

Lemma calc_Px_twin (st st' : solver T) x tr : twin st st' -> calc_Px T st' x tr = calc_Px T st x tr.
Proof. intros W. unfold calc_Px. rewrite (tw_idx _ _ W), (tw_na _ _ W), (tw_S _ _ W). reflexivity. Qed.

Lemma foldM_ext2 {A B} (f g : A -> B -> res A) l : (forall a b, f a b = g a b) -> forall a, foldM f l a = foldM g l a.
Proof. intros E. induction l as [|b l IH]; intros z; cbn [foldM]; [reflexivity|]. rewrite E. destruct (g z b); cbn [bind]; auto. Qed.

Lemma prod_twin (st st' : solver T) x tr : twin st st' -> ignores_times (g_sd T st) -> calc_prod_JPx T st' x tr = calc_prod_JPx T st x tr.
Proof.
  intros W IG. unfold calc_prod_JPx.
  assert (E : forall NV N_cov n_us z acc p, series_term T tr st' NV N_cov n_us z acc p = series_term T tr st NV N_cov n_us z acc p).
  { intros. unfold series_term. rewrite (tw_idx _ _ W), (tw_unck _ _ W). destruct (get (cNm _) _); cbn [bind]; [|reflexivity].
    destruct (get (cNm _) _); cbn [bind]; [|reflexivity]. destruct (get (m_unck _ _ _) _); cbn [bind]; [|reflexivity]. apply foldM_ext2. intros aa bb.
    rewrite (side_jac_twin st st' _ _ W IG). destruct (get (sensors _) _); cbn [bind]; [|reflexivity]. destruct (side_jac _ _ _ _) as [[JB J]|]; cbn [bind snd fst]; [|reflexivity].
    unfold sensor_term, ref_term, param_term, cov_term.
    rewrite (tw_idx _ _ W), (tw_ps _ _ W), (tw_unc _ _ W), (tw_ws _ _ W), (tw_us _ _ W). reflexivity. }
  rewrite (tw_idx _ _ W), (tw_unc _ _ W), (tw_na _ _ W). destruct (pylast (cNm _)); cbn [bind]; [|reflexivity]. destruct (pylast (idxs _)); cbn [bind]; [|reflexivity].
  destruct (pylast (n_cov _)); cbn [bind]; [|reflexivity]. destruct (n_uS _); cbn [bind]; [|reflexivity]. rewrite !(calc_Px_twin _ _ _ _ W).
  destruct (if tr then _ else _); cbn [bind]; [|reflexivity]. destruct (assign _ _ _ _); cbn [bind]; [|reflexivity].
  rewrite (foldM_ext2 _ _ _ (fun a b => E _ _ _ _ a b)). destruct (foldM _ _ _); cbn [bind]; [|reflexivity]. destruct tr; [|reflexivity]. apply calc_Px_twin; auto.
Qed.

Lemma Hx_twin (st st' : solver T) x : twin st st' -> ignores_times (g_sd T st) -> calc_Hx T st' x = calc_Hx T st x.
Proof. intros W IG. unfold calc_Hx. rewrite (prod_twin _ _ _ _ W IG). destruct (calc_prod_JPx T st x false); cbn [bind]; [|reflexivity]. apply prod_twin; auto. Qed.

Lemma est_obj_twin (st st' : solver T) x NV N : twin st st' -> estimate_obj T st' x NV N = estimate_obj T st x NV N.
Proof.
  intros W. unfold estimate_obj. rewrite (tw_idx _ _ W), (tw_ps _ _ W), (tw_oidx _ _ W), (tw_ops _ _ W), (tw_unc _ _ W), (tw_unck _ _ W), (tw_ws _ _ W), (tw_us _ _ W). reflexivity.
Qed.
Lemma res_obj_twin (st st' : solver T) x NV : twin st st' -> residual_obj T st' x NV = residual_obj T st x NV.
Proof.
  intros W. unfold residual_obj. rewrite (tw_idx _ _ W), (tw_ps _ _ W), (tw_oidx _ _ W), (tw_ops _ _ W), (tw_unc _ _ W), (tw_unck _ _ W), (tw_ws _ _ W), (tw_us _ _ W). reflexivity.
Qed.

Lemma calc_f_twin (st st' : solver T) x : twin st st' -> m_ks R T (g_m T st') = m_ks R T (g_m T st) -> calc_f T st' x = calc_f T st x.
Proof.
  intros W K. unfold calc_f. rewrite K, (tw_idx _ _ W), (tw_values _ _ W). destruct (pylast (cNm _)); cbn [bind]; [|reflexivity]. destruct (pylast (idxs _)); cbn [bind]; [|reflexivity].
  rewrite (est_obj_twin _ _ _ _ _ W). unfold estimate_sd. rewrite (tw_c _ _ W), (tw_model _ _ W), (tw_adj _ _ W), (tw_ocs _ _ W). reflexivity.
Qed.


(** With other K values only the last part of the residual changes. *)
Lemma calc_f_ks (m : mobj R T) (st st' : solver T) x : solver_for m st -> functions_ok m st -> unknowns_vec st x -> twin st st' ->
  length (m_ks R T (g_m T st')) = n_ks st ->
  exists ks, length ks = n_ks st /\
  calc_f T st x = Ok (zip2 Rminus (firstn (n_vars st) x) (m_values R T (g_m T st)) ++ zip2 Rminus (zip2 Rdiv ks (all_uK m)) (m_ks R T (g_m T st))) /\
  calc_f T st' x = Ok (zip2 Rminus (firstn (n_vars st) x) (m_values R T (g_m T st)) ++ zip2 Rminus (zip2 Rdiv ks (all_uK m)) (m_ks R T (g_m T st'))).
Proof.
  intros SF FO Hx W LK'.
  destruct (est_reverse m st SF x Hx) as (r & Er & Ei & Ep & Eu & A1 & A2 & A3 & A4 & A5 & A6 & Lv & r0 & Er0 & Ev0).
  destruct (residual_ok m st SF FO x Hx) as (r1 & ks & EO & _ & _ & Ek & LK & Ef). destruct (solver_facts m st SF) as (nv & ns & St & SL & Hv & Hlast & Hnus & Hcn & Hmps & Hmops & _ & _ & Emk).
  exists ks. split; [auto|]. rewrite Emk. split; [exact Ef|].
  destruct (ks_len m st SF) as (LU & LKd). pose proof (sf_wf _ _ SF) as Wf. pose proof (sf_shapes _ _ SF) as Sh. pose proof (nks_m m st SF) as NK.
  assert (Ek' : evaluate_K T r (estimate_sd T st x (n_vars st)) SelAll = Ok ks).
  { rewrite <- Ek. destruct EO as [B1 B2 (r0' & B3 & B3') (B4 & B5 & B6 & B7 & B8 & B9)]. assert (r0' = r0) by congruence. subst r0'. rewrite Ev0 in B3'.
    unfold evaluate_K, evaluate_adjusted_measurand, evaluate_measurand, side_eval, m_getAcross, m_getAlong, m_getTime.
    rewrite B1, B2, B3', B4, B5, B6, B7, B8, B9, Ei, Ep, A1, A2, A3, A4, A5, A6. reflexivity. }
  unfold calc_f. rewrite (tw_idx _ _ W), (tw_values _ _ W), Hcn, Hlast. cbn [bind]. rewrite (est_obj_twin _ _ _ _ _ W).
  assert (ESD : estimate_sd T st' x (n_vars st) = estimate_sd T st x (n_vars st)) by (unfold estimate_sd; rewrite (tw_c _ _ W), (tw_model _ _ W), (tw_adj _ _ W), (tw_ocs _ _ W); reflexivity). rewrite ESD.
  assert (ES : forall l : list R, slice 0 (n_vars st) l = firstn (n_vars st) l) by (intros; unfold slice; rewrite Nat.sub_0_r; reflexivity).
  rewrite !ES. rewrite (firstn_all2 (m_values R T (g_m T st))) by (unfold n_vars; lia).
  assert (Lf : length (firstn (n_vars st) x) = n_vars st) by (apply firstn_length_le; unfold unknowns_vec in Hx; lia).
  rewrite bop_eq by (rewrite Lf; reflexivity). cbn [bind].
  assert (Lz : length (zip2 Rminus (firstn (n_vars st) x) (m_values R T (g_m T st))) = n_vars st) by (rewrite zip2_length; auto).
  rewrite assign_zeros by auto. cbn [bind]. rewrite Er. cbn [bind]. rewrite Ek'. cbn [bind].
  assert (NKS : norm_ks T r ks = Ok (zip2 Rdiv ks (all_uK m))).
  { unfold all_uK. rewrite <- Eu. apply norm_ks_ok.
    - rewrite Eu, (unck_sizes m st SF), Ei. apply (wf_cnm _ Wf).
    - rewrite Eu, Ei, (wf_unck _ Wf). apply Sh.
    - rewrite Eu, LU. congruence. }
  rewrite NKS. cbn [bind].
  rewrite bop_eq by (unfold all_uK; rewrite !zip2_len, LU, LK', LK, NK; lia). cbn [bind].
  set (dv := zip2 Rminus (firstn (n_vars st) x) (m_values R T (g_m T st))) in *.
  set (dk := zip2 Rminus (zip2 Rdiv ks (all_uK m)) (m_ks R T (g_m T st'))).
  assert (Ldk : length dk = n_ks st) by (unfold dk, all_uK; rewrite !zip2_len, LU, LK', LK, NK; lia).
  pose proof (assign_mid dv (repeat 0%R (n_ks st)) [] dk) as AM. rewrite repeat_length, Lz, !app_nil_r in AM. apply AM. auto.
Qed.

(** ** The run *)

Section Run.
Variable lsmr : nat -> solver T -> list R -> res (list R).
Variable minres : nat -> nat -> solver T -> list R -> res (list R).
Variables st st' : solver T.
Hypothesis W : twin st st'.
Hypothesis IG : ignores_times (g_sd T st).
Hypothesis K : m_ks R T (g_m T st') = m_ks R T (g_m T st).
Hypothesis HL : forall k s s' b, (forall x tr, calc_prod_JPx T s x tr = calc_prod_JPx T s' x tr) -> lsmr k s b = lsmr k s' b.
Hypothesis HM : forall i j s s' b, (forall x, calc_Hx T s x = calc_Hx T s' x) -> minres i j s b = minres i j s' b.

Lemma iter_twin tol g : gn_iter T lsmr st' tol g = gn_iter T lsmr st tol g.
Proof.
  unfold gn_iter. pose proof (twin_xyza _ _ (s_xyza g) W) as Wx.
  rewrite (HL _ (with_xyza T st' (s_xyza g)) (with_xyza T st (s_xyza g))) by (intros; apply prod_twin; auto).
  destruct (lsmr _ _ _); cbn [bind]; [|reflexivity]. rewrite (calc_Px_twin _ _ _ _ Wx). destruct (calc_Px _ _ _ _); cbn [bind]; [|reflexivity].
  match goal with |- bind ?e _ = _ => destruct e as [x|] end; cbn [bind]; [|reflexivity]. pose proof (twin_xyza _ _ x W) as Wy.
  rewrite (calc_f_twin _ _ x Wy K). destruct (calc_f _ _ _) as [f|]; cbn [bind]; [|reflexivity]. rewrite (prod_twin _ _ f true Wy IG). reflexivity.
Qed.

Lemma loop_twin tol fuel : forall g, gn_loop T lsmr st' tol fuel g = gn_loop T lsmr st tol fuel g.
Proof.
  induction fuel as [|n IH]; intros g; cbn [gn_loop]; [reflexivity|]. destruct (s_conv g); [reflexivity|]. rewrite iter_twin. destruct (gn_iter _ _ _ _ _); cbn [bind]; auto.
Qed.

Lemma cov_ij_twin (s s' : solver T) i j : twin s s' -> ignores_times (g_sd T s) -> covariance_ij T minres s' i j = covariance_ij T minres s i j.
Proof.
  intros Ws IGs. unfold covariance_ij. rewrite (tw_idx _ _ Ws), (tw_na _ _ Ws). destruct (pylast _); cbn [bind]; [|reflexivity]. rewrite (calc_Px_twin _ _ _ _ Ws).
  destruct (calc_Px _ _ _ _); cbn [bind]; [|reflexivity]. rewrite (HM i j s' s) by (intros; apply Hx_twin; auto). destruct (minres _ _ _ _); cbn [bind]; [|reflexivity].
  rewrite (calc_Px_twin _ _ _ _ Ws). reflexivity.
Qed.

Lemma mapM_ext_all {A B} (f g : A -> res B) l : (forall a, f a = g a) -> mapM f l = mapM g l.
Proof. intros E. induction l as [|a l IH]; [reflexivity|]. cbn [mapM]. rewrite E, IH. reflexivity. Qed.

Lemma cov_twin (s s' : solver T) : twin s s' -> ignores_times (g_sd T s) -> covariance T minres s' = covariance T minres s.
Proof.
  intros Ws IGs. unfold covariance. rewrite (tw_na _ _ Ws).
  rewrite (mapM_ext_all (fun i => mapM (fun j => covariance_ij T minres s' i j) (seq 0 (length (sd_a T (g_sd T s))))) (fun i => mapM (fun j => covariance_ij T minres s i j) (seq 0 (length (sd_a T (g_sd T s)))))); [reflexivity|].
  intros i. apply mapM_ext_all. intros j. apply cov_ij_twin; auto.
Qed.

Lemma run_twin tol rc : gn_run T lsmr minres st' tol rc = gn_run T lsmr minres st tol rc.
Proof.
  unfold gn_run. rewrite (tw_idx _ _ W), (tw_na _ _ W), (tw_xyza _ _ W), (calc_f_twin _ _ _ W K).
  destruct (pylast (cNm _)); cbn [bind]; [|reflexivity]. destruct (pylast (idxs _)) as [NV|]; cbn [bind]; [|reflexivity]. destruct (calc_f _ _ _); cbn [bind]; [|reflexivity].
  rewrite loop_twin. destruct (gn_loop _ _ _ _ _ _) as [g|]; cbn [bind]; [|reflexivity]. pose proof (twin_xyza _ _ (s_xyza g) W) as Wy.
  rewrite (cov_twin _ _ Wy) by exact IG. rewrite (res_obj_twin _ _ _ _ W).
  assert (SO : systematic_out T (with_xyza T st' (s_xyza g)) (s_xyza g) NV = systematic_out T (with_xyza T st (s_xyza g)) (s_xyza g) NV).
  { unfold systematic_out. cbn [with_xyza g_m]. rewrite (tw_idx _ _ W), (tw_unc _ _ W). reflexivity. }
  rewrite SO. reflexivity.
Qed.
End Run.

Lemma reopen_twin (f4 : R -> R) (m : mobj R T) (st : solver T) sd : tn_run T m = Ok (g_m T st) -> stored_exactly f4 st -> same_sensors (g_sd T st) sd ->
  twin st (gn_reopen T (gn_save T f4 st) m sd (g_ocs T st)) /\
  m_ks R T (g_m T (gn_reopen T (gn_save T f4 st) m sd (g_ocs T st))) = m_ks R T m.
Proof. intros Hr Hs (E1 & E2 & E3 & E4 & E5). destruct (reopen_eq T f4 m st sd Hr Hs) as (add & ->). split; [constructor|]; try reflexivity; assumption. Qed.

Lemma residual_reopened (f4 : R -> R) (m : mobj R T) (st : solver T) sd x : solver_for m st -> functions_ok m st -> stored_exactly f4 st -> same_sensors (g_sd T st) sd -> unknowns_vec st x ->
  exists f f', calc_f T st x = Ok f /\ calc_f T (gn_reopen T (gn_save T f4 st) m sd (g_ocs T st)) x = Ok f' /\
  residual_vec st f /\ residual_vec st f' /\
  (forall i, i < n_vars st -> nth i f' 0%R = nth i f 0%R) /\
  (forall i, i < n_ks st -> (nth (n_vars st + i) f' 0 - nth (n_vars st + i) f 0 = nth i (m_ks R T m) 0 / nth i (all_uK m) 0 - nth i (m_ks R T m) 0)%R).
Proof.
  intros SF FO SE SS Hx. destruct (reopen_twin f4 m st sd (sf_run _ _ SF) SE SS) as (W & K).
  set (st' := gn_reopen _ _ _ _ _) in *. pose proof (wf_ks _ (sf_wf _ _ SF)) as Lm. destruct (ks_len m st SF) as (LU & _). rewrite <- (nks_m m st SF) in LU, Lm. fold (all_uK m) in LU.
  destruct (calc_f_ks m st st' x SF FO Hx W) as (ks & Lk & E & E'); [rewrite K; auto|].
  destruct (solver_facts m st SF) as (_ & _ & _ & _ & _ & _ & _ & _ & _ & _ & _ & _ & Emk). fold (all_uK m) in Emk.
  assert (Lf : length (firstn (n_vars st) x) = n_vars st) by (apply firstn_length_le; unfold unknowns_vec in Hx; lia).
  assert (Lz : length (zip2 Rminus (firstn (n_vars st) x) (m_values R T (g_m T st))) = n_vars st) by (rewrite zip2_length; auto).
  eexists _, _. split; [exact E|]. split; [exact E'|]. rewrite K, Emk. unfold residual_vec. rewrite !app_length, Lz, !zip2_len, LU, Lk, Lm.
  split; [lia|]. split; [lia|]. split; intros i Hi.
  - rewrite !app_nth1 by lia. reflexivity.
  - rewrite !app_nth2, Lz by lia. replace (n_vars st + i - n_vars st) with i by lia.
    rewrite !zip2_nth by (rewrite ?zip2_len; lia). ring.
Qed.

Lemma ks_fixed (m : mobj R T) (st : solver T) : solver_for m st ->
  (forall i, i < n_ks st -> (nth i (m_ks R T m) 0 / nth i (all_uK m) 0 = nth i (m_ks R T m) 0)%R) -> m_ks R T m = m_ks R T (g_m T st).
Proof.
  intros SF HK. destruct (solver_facts m st SF) as (_ & _ & _ & _ & _ & _ & _ & _ & _ & _ & _ & _ & Emk). fold (all_uK m) in Emk.
  pose proof (wf_ks _ (sf_wf _ _ SF)) as Lm. destruct (ks_len m st SF) as (LU & _). rewrite <- (nks_m m st SF) in LU, Lm. fold (all_uK m) in LU.
  rewrite Emk. apply (nth_ext _ _ 0%R 0%R); [rewrite zip2_len; lia|]. intros i Hi. rewrite zip2_nth by lia. symmetry. apply HK. lia.
Qed.
End Twin.
