(** * Proofs for C154-C156. *)
From Coq Require Import Reals Lra FunctionalExtensionality.
From Verif Require Import Base BaseLemmas ReaderModel UncModel MuModel SensorSpec TransformModel EvalModel EvalSpec HistModel GNModel PCModel PCSpec LsmrModel MinresModel EivModel EivSpec EivProofs EivProofs2 EivProofs3
  OpModel OpSpec OpProofs FullModel FullSpec FullProofs6 SaveModel SaveSpec SaveProofs HpcModel HpcSpec GNSpec GNAlgebra GNTerms GNAdjoint GNMain GNResidual GNLoop GNTotal GNOutput.
Open Scope nat_scope.

Section Twins.
Context {T : Type}.
Variables (tolA tolB eps : R) (xr : list vec).

Lemma reopen_rounded f4 (m : mobj R T) (st : solver T) sd : tn_run T m = Ok (g_m T st) -> same_sensors (g_sd T st) sd ->
  twin (rounded f4 st) (gn_reopen T (gn_save T f4 st) m sd (g_ocs T st)) /\ m_ks R T (g_m T (gn_reopen T (gn_save T f4 st) m sd (g_ocs T st))) = m_ks R T m.
Proof.
  intros Hr (E1 & E2 & E3 & E4 & E5). split; [|reflexivity].
  unfold tn_run in Hr. repeat (match type of Hr with bind ?x _ = _ => destruct x; cbn [bind] in Hr; [|discriminate] end). injection Hr as Hr.
  constructor; unfold gn_reopen, gn_open, gn_save, gn_init, rounded; cbn [g_m g_sd g_ocs g_xyza g_S sv_values sv_xyza sv_S sv_idx sv_ps m_idx m_ps m_oidx m_ops m_values m_unc m_unck m_ws m_us m_across1 m_across2 m_along1 m_along2]; auto; rewrite <- Hr; reflexivity.
Qed.
Lemma rounded_exact f4 (st : solver T) : stored_exactly f4 st -> rounded f4 st = st.
Proof.
  intros (H1 & H2 & H3). unfold rounded. rewrite (map_fix f4 _ H1), (map_fix f4 _ H2). rewrite (map_fix (map f4)) by (intros r Hr'; apply map_fix; eauto). destruct st as [[] ? ? ? ?]. reflexivity.
Qed.
Lemma nv_twin (st st' : solver T) : twin st st' -> n_vars_of T st' = n_vars_of T st.
Proof. intros W. unfold n_vars_of. rewrite (tw_idx _ _ W). reflexivity. Qed.
Lemma nmu_twin (st st' : solver T) : twin st st' -> n_mu_of T st' = n_mu_of T st.
Proof. intros W. unfold n_mu_of. rewrite (tw_idx _ _ W). reflexivity. Qed.
Lemma na_twin (st st' : solver T) : twin st st' -> n_a_of T st' = n_a_of T st.
Proof. intros W. exact (tw_na _ _ W). Qed.

Lemma element_twin (st st' : solver T) i j : twin st st' -> ignores_times (g_sd T st) -> cov_element T eps xr st' i j = cov_element T eps xr st i j.
Proof.
  intros W IG. unfold cov_element, minres_call. rewrite (nv_twin _ _ W), (na_twin _ _ W). destruct (n_vars_of T st); cbn [bind]; [|reflexivity].
  rewrite !(calc_Px_twin _ _ _ _ W). assert (E : calc_Hx T st' = calc_Hx T st) by (apply functional_extensionality; intros; apply Hx_twin; auto). rewrite E. reflexivity.
Qed.
Lemma matrix_twin (st st' : solver T) : twin st st' -> ignores_times (g_sd T st) -> cov_matrix T eps xr st' = cov_matrix T eps xr st.
Proof.
  intros W IG. unfold cov_matrix. rewrite (na_twin _ _ W).
  rewrite (mapM_ext_all (fun i => mapM (fun j => cov_element T eps xr st' i j) (seq 0 (n_a_of T st))) (fun i => mapM (fun j => cov_element T eps xr st i j) (seq 0 (n_a_of T st)))); [reflexivity|].
  intros i. apply mapM_ext_all. intros j. apply element_twin; auto.
Qed.

Section Run.
Variables (st st' : solver T) (W : twin st st') (IG : ignores_times (g_sd T st)) (K : m_ks R T (g_m T st') = m_ks R T (g_m T st)).
Lemma lsmr_twin (s s' : solver T) attr b : twin s s' -> ignores_times (g_sd T s) -> lsmr_call T tolA tolB s' attr b = lsmr_call T tolA tolB s attr b.
Proof.
  intros Ws IGs. unfold lsmr_call. rewrite (nv_twin _ _ Ws), (nmu_twin _ _ Ws), (na_twin _ _ Ws).
  assert (E : (fun x => calc_prod_JPx T s' x false) = (fun x => calc_prod_JPx T s x false)) by (apply functional_extensionality; intros; apply prod_twin; auto). rewrite E. reflexivity.
Qed.
Lemma eiter_twin tol ga : eiv_iter T tolA tolB st' tol ga = eiv_iter T tolA tolB st tol ga.
Proof.
  destruct ga as [g attr]. cbn [eiv_iter]. rewrite (lsmr_twin (with_xyza T st (s_xyza g)) _ _ _ (twin_xyza _ _ _ W) IG). destruct (lsmr_call _ _ _ _ _ _) as [[x|]|]; cbn [bind]; [|reflexivity|reflexivity].
  rewrite (iter_twin (fun _ _ _ => Ok x) st st' W IG K) by reflexivity. reflexivity.
Qed.
Lemma eloop_twin tol fuel : forall ga, eiv_loop T tolA tolB st' tol fuel ga = eiv_loop T tolA tolB st tol fuel ga.
Proof. induction fuel as [|n IH]; intros ga; cbn [eiv_loop]; [reflexivity|]. destruct (s_conv (fst ga)); [reflexivity|]. rewrite eiter_twin. destruct (eiv_iter _ _ _ _ _ _); cbn [bind]; auto. Qed.
Lemma erun_twin tol rc : eiv_run T tolA tolB eps xr st' tol rc = eiv_run T tolA tolB eps xr st tol rc.
Proof.
  unfold eiv_run. rewrite (nv_twin _ _ W), (nmu_twin _ _ W), (tw_xyza _ _ W), (calc_f_twin _ _ _ W K), (na_twin _ _ W).
  destruct (n_mu_of T st); cbn [bind]; [|reflexivity]. destruct (n_vars_of T st) as [NV|]; cbn [bind]; [|reflexivity]. destruct (calc_f _ _ _); cbn [bind]; [|reflexivity].
  rewrite eloop_twin. destruct (eiv_loop _ _ _ _ _ _ _) as [[g attr]|]; cbn [bind fst]; [|reflexivity]. pose proof (twin_xyza _ _ (s_xyza g) W) as Wy.
  rewrite (matrix_twin _ _ Wy) by exact IG. rewrite (res_obj_twin _ _ _ _ W).
  assert (SO : systematic_out T (with_xyza T st' (s_xyza g)) (s_xyza g) NV = systematic_out T (with_xyza T st (s_xyza g)) (s_xyza g) NV).
  { unfold systematic_out. cbn [with_xyza g_m]. rewrite (tw_idx _ _ W), (tw_unc _ _ W). reflexivity. }
  rewrite SO. reflexivity.
Qed.
End Run.
End Twins.

(** ** A run with and a run without covariance *)
Section Cov.
Context {T : Type}.
Variables (m : mobj R T) (st : solver T) (SF : solver_for m st) (FO : functions_ok m st).
Variables (tolA tolB eps : R) (xr : list vec) (HA : (0 <= tolA)%R) (NV : 1 <= n_vars st) (tol : R).

Definition set_cov (r : eresult) (c : list (list (option R))) : eresult :=
  mkE (e_a r) c (e_cost r) (e_dof r) (e_values r) (e_ks r) (e_sys r) (e_iter r) (e_conv r) (e_log r) (e_xyza r).
Lemma run_covariance : match eiv_run T tolA tolB eps xr st tol false with
  | Ok r => unknowns_vec st (e_xyza r) /\ exists c, cov_matrix T eps xr (with_xyza T st (e_xyza r)) = Ok c /\ eiv_run T tolA tolB eps xr st tol true = Ok (set_cov r c)
  | Raise e => eiv_run T tolA tolB eps xr st tol true = Raise e
  end.
Proof.
  unfold eiv_run. destruct (dims m st SF) as (D1 & D2). rewrite D1, D2. cbn [bind].
  destruct (calc_f_ok m st SF FO (g_xyza T st) (sf_xyza _ _ SF)) as (f & _ & _ & Ef & Lf & _). rewrite Ef. cbn [bind].
  pose proof (eloop_ok m st SF FO tolA tolB HA NV tol (g_xyza T st) (n_vars st) _ _ _ (einv0 m st SF NV tol f Ef)) as L.
  destruct (eiv_loop T tolA tolB st tol (n_vars st) _) as [[g attr]|e]; cbn [bind fst]; [|reflexivity].
  destruct L as (xs & ss & [Hl Hu Hn Ha Hs He] & _). cbn [fst] in Hu.
  destruct (cov_total m st SF eps xr (s_xyza g) Hu) as (c & Ec). rewrite Ec. cbn [bind].
  destruct (tn_reverse T _) as [r|]; cbn [bind]; [|reflexivity]. destruct (systematic_out _ _ _ _) as [sy|]; cbn [bind]; [|reflexivity]. destruct (s_cost g); cbn [bind]; [|reflexivity].
  cbn [e_xyza]. split; [exact Hu|]. exists c. split; [exact Ec|reflexivity].
Qed.
End Cov.
