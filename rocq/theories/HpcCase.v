(** * Small problem of EivCase for C154 and C155. *)
From Coq Require Import Reals Lra.
From Verif Require Import Base BaseLemmas ReaderModel UncModel SensorModel SensorSpec MuModel SampleSpec TransformModel TransformSpec EvalModel EvalSpec HistModel GNModel PCModel PCSpec LsmrModel EivModel EivSpec EivProofs EivProofs2 EivProofs3 EivCase EivCase2 EivCase4
  FullModel FullSpec SaveModel SaveSpec SaveProofs HpcModel HpcSpec HpcProofs HpcProofs2 GNSpec GNResidual GNTotal PropertiesEval.
Open Scope nat_scope.
Local Open Scope R_scope.

Definition chol1 : list (list R) -> res (list (list R)) := fun _ => Ok [[1]].
Lemma run_same {T} (m d : mobj R T) : tn_run T m = Ok d -> m_ps R T d = m_ps R T m /\ m_oidx R T d = m_oidx R T m.
Proof. unfold tn_run. intros Hr. repeat (match type of Hr with bind ?x _ = _ => destruct x; cbn [bind] in Hr; [|discriminate] end). injection Hr as <-. split; reflexivity. Qed.
Lemma ox_d k1 k2 : exists d, tn_run nat (oxm k1 k2) = Ok d /\ oxst k1 k2 = gn_init nat d oxsd [] /\ m_ps R nat d = Some oxps.
Proof.
  pose proof (sf_run _ _ (ox_solver k1 k2)) as E. exists (g_m nat (oxst k1 k2)). split; [exact E|]. split; [reflexivity|]. exact (proj1 (run_same _ _ E)).
Qed.
Lemma ox_times : ignores_times oxsd.
Proof. intros s f X a c xt al t H. do 2 (destruct s as [|s]; [cbn in H; injection H as <-; reflexivity|]). destruct s; discriminate. Qed.
Lemma id_exact (st : solver nat) : stored_exactly (fun x => x) st.
Proof. repeat split. Qed.

Section Case.
Variables (tolA tolB eps tol : R) (xr : list vec) (HA : 0 <= tolA) (He : 0 < eps /\ eps < 1 / 1000) (Ht : tol <= 4 / 5).
(** The direct run. *)
Lemma ox_direct k1 k2 a save : eiv_from chol1 tolA tolB eps tol xr (oxm k1 k2) oxsd save ([a], [[1]]) =
  match eiv_run nat tolA tolB eps xr (with_xyza nat (oxst k1 k2) [0; 0; 0; 0; a]) tol (negb save) with Ok r => Ok (mkHout oxps (Some oxidx) r) | Raise e => Raise e end.
Proof.
  destruct (ox_d k1 k2) as (d & Ed & Es & Ep). unfold eiv_from. rewrite Ed. unfold chol1. cbn [bind]. rewrite Ep. cbn [bind].
  assert (V : m_values R nat d ++ [0] = [0; 0; 0; 0; 0]).
  { pose proof Es as Q. apply (f_equal (g_xyza nat)) in Q. assert (X : exists l, g_xyza nat (oxst k1 k2) = l /\ l = [0; 0; 0; 0; 0]) by (eexists; split; [lazy -[Rplus Rmult Rdiv Rinv Ropp Rminus IZR]; reflexivity|repeat (apply (f_equal2 cons); [field|]); reflexivity]). destruct X as (l & X1 & X2). cbn [gn_init g_xyza] in Q. change (sd_a nat oxsd) with [0] in Q. congruence. }
  assert (V' : m_values R nat d = [0; 0; 0; 0]). { change [0; 0; 0; 0; 0] with ([0; 0; 0; 0] ++ [0])%list in V. apply app_inj_tail in V. apply V. }
  rewrite V'. cbn [app]. set (s1 := mkSolver nat _ _ _ _ _). set (s2 := with_xyza nat _ _).
  assert (W : twin s2 s1). { unfold s1, s2. rewrite Es. constructor; reflexivity. }
  assert (E : eiv_run nat tolA tolB eps xr s1 tol (negb save) = eiv_run nat tolA tolB eps xr s2 tol (negb save)).
  { apply erun_twin; [exact W| |unfold s1, s2; rewrite Es; reflexivity]. unfold s2. rewrite Es. exact ox_times. }
  rewrite E. destruct (eiv_run nat tolA tolB eps xr s2 tol (negb save)); cbn [bind]; [|reflexivity]. rewrite (proj2 (run_same _ _ Ed)). reflexivity.
Qed.
Lemma ox_self : with_xyza nat (oxst 1 (-1)) [0; 0; 0; 0; 0] = oxst 1 (-1).
Proof. pose proof ox_x0 as E. unfold x_start in E. rewrite <- E. destruct (oxst 1 (-1)). reflexivity. Qed.

(** A run of four iterations that saves, and the covariance from its saved solver. *)
Lemma ox_jobs : exists h sv, run_saving chol1 tolA tolB eps tol xr (fun x => x) (oxm 1 (-1)) oxsd ([0], [[1]]) = Ok (h, sv) /\ e_iter (h_result h) = 4%nat /\ e_cov (h_result h) = [[Some 0]] /\
  covariance_job eps xr (oxm 1 (-1)) oxsd sv 0 0 = Ok (Some (3 / 2)) /\
  exists h0, eiv_from chol1 tolA tolB eps tol xr (oxm 1 (-1)) oxsd false ([0], [[1]]) = Ok h0 /\ e_cov (h_result h0) = [[Some (3 / 2)]].
Proof.
  destruct (ox_d 1 (-1)) as (d & Ed & Es & Ep).
  pose proof (run_covariance (oxm 1 (-1)) (oxst 1 (-1)) (ox_solver _ _) (ox_functions _ _) tolA tolB eps xr HA ox_nv tol) as RC.
  pose proof (run_outcome (oxm 1 (-1)) (oxst 1 (-1)) (ox_solver 1 (-1)) (ox_functions 1 (-1)) tolA tolB eps xr HA ox_nv tol false (ox_numbered 1 (-1))) as RO.
  destruct (ox_run tolA tolB eps xr HA tol Ht false) as (e & Ee & Ex & Ei & _). rewrite Ee in RC, RO. destruct RC as (_ & c & Ec & RC). rewrite Ex in Ec.
  destruct RO as (q1 & q2 & _ & _ & _ & _ & _ & _ & _ & _ & _ & Ea & _ & Ev).
  change (with_xyza nat (oxst 1 (-1)) x_start) with (with_xyza nat (oxst 1 (-1)) [0; 0; 0; 0; 0]) in Ec. pose proof Ec as Ec'. rewrite (oy_cov 1 (-1) 0 0 0 0 0 eps xr He) in Ec'. injection Ec' as <-.
  unfold run_saving. rewrite (ox_direct 1 (-1) 0 true), ox_self. cbn [negb]. rewrite Ee. cbn [bind h_result fst snd]. rewrite Ed. cbn [bind]. unfold chol1 at 1. cbn [bind].
  eexists. eexists. split; [reflexivity|]. cbn [h_result]. split; [exact Ei|]. split; [rewrite Ev, Ea, Ex; reflexivity|]. split.
  - rewrite Ex. set (st := mkSolver nat d (set_parameters oxsd [0]) (sd_cs nat oxsd) x_start [[1]]).
    assert (SS : same_sensors (g_sd nat st) oxsd) by (repeat split). destruct (reopen_rounded (fun x => x) (oxm 1 (-1)) st oxsd Ed SS) as (W & _). rewrite (rounded_exact _ _ (id_exact st)) in W.
    unfold covariance_job. change (g_ocs nat st) with (sd_cs nat oxsd) in W. rewrite (element_twin eps xr _ _ 0 0 W) by exact ox_times.
    assert (E : st = with_xyza nat (oxst 1 (-1)) [0; 0; 0; 0; 0]) by (rewrite Es; reflexivity). rewrite E.
    destruct (matrix_entries eps xr _ _ Ec) as (v & V1 & V2). change (n_a_of nat (with_xyza nat (oxst 1 (-1)) [0; 0; 0; 0; 0])) with 1%nat in V1, V2. rewrite V1 by lia. f_equal. injection V2 as V2.
    destruct (v 0%nat 0%nat) as [w|]; cbn [half_sum] in V2; [|discriminate]. injection V2 as V2. f_equal. lra.
  - rewrite (ox_direct 1 (-1) 0 false), ox_self. cbn [negb]. rewrite RC. eexists. split; [reflexivity|]. reflexivity.
Qed.

(** K values 0, a saved solver whose estimates solve the problem: a run from it with any parameters of the preconditioner raises TypeError; the direct run from
    these parameters does not. *)
Lemma ox_normal : ks_normal (oxm 0 0).
Proof. intros i Hi. destruct i as [|[|i]]; [| |cbn in Hi; lia]; cbn; lra. Qed.
Lemma ox_resume : exists sv, initial_job (fun x => x) (oxm 0 0) oxsd = Ok sv /\
  run_reopening chol1 tolA tolB eps tol xr (oxm 0 0) oxsd sv false ([1], [[1]]) = Raise TypeError /\
  eiv_from chol1 tolA tolB eps tol xr (oxm 0 0) oxsd false ([1], [[1]]) <> Raise TypeError.
Proof.
  destruct (ox_d 0 0) as (d & Ed & Es & Ep). unfold initial_job. rewrite Ed. cbn [bind]. eexists. split; [reflexivity|].
  assert (X0 : g_xyza nat (oxst 0 0) = [0; 0; 0; 0; 0]).
  { assert (X : exists l, g_xyza nat (oxst 0 0) = l /\ l = [0; 0; 0; 0; 0]) by (eexists; split; [lazy -[Rplus Rmult Rdiv Rinv Ropp Rminus IZR]; reflexivity|repeat (apply (f_equal2 cons); [field|]); reflexivity]). destruct X as (l & X1 & X2). congruence. }
  split.
  - unfold run_reopening, chol1. cbn [bind]. set (o := gn_reopen nat _ _ _ _). cbn [g_m].
    assert (SS : same_sensors (g_sd nat (oxst 0 0)) (set_parameters oxsd [1])) by (repeat split).
    destruct (reopen_twin (fun x => x) (oxm 0 0) (oxst 0 0) _ (sf_run _ _ (ox_solver 0 0)) (id_exact _) SS) as (W & K).
    assert (EO : o = gn_reopen nat (gn_save nat (fun x => x) (oxst 0 0)) (oxm 0 0) (set_parameters oxsd [1]) (g_ocs nat (oxst 0 0))) by (unfold o; rewrite Es; reflexivity). rewrite <- EO in W, K.
    rewrite (tw_ps _ _ W). replace (m_ps R nat (g_m nat (oxst 0 0))) with (Some oxps) by (rewrite Es; symmetry; exact Ep). cbn [bind].
    set (s1 := mkSolver nat _ _ _ _ _). assert (W' : twin (oxst 0 0) s1) by (destruct W; constructor; auto).
    assert (Ks : m_ks R nat (oxm 0 0) = m_ks R nat (g_m nat (oxst 0 0))).
    { apply (ks_fixed (oxm 0 0) (oxst 0 0) (ox_solver 0 0)). intros i Hi. apply ox_normal. exact Hi. }
    assert (E : eiv_run nat tolA tolB eps xr s1 tol (negb false) = eiv_run nat tolA tolB eps xr (oxst 0 0) tol (negb false)).
    { apply erun_twin; [exact W'|exact ox_times|]. unfold s1. cbn [g_m]. rewrite K. exact Ks. }
    rewrite E. rewrite (run_stationary (oxm 0 0) (oxst 0 0) (ox_solver 0 0) (ox_functions 0 0)); [reflexivity|exact (le_S _ _ (le_S _ _ (le_S _ _ (le_n 1))))|].
    rewrite X0. eexists. split; [eexists; split; [apply ox_f|apply ox_Jt]|]. intros y Hy. cbn in Hy. repeat (destruct Hy as [<-|Hy]; [lra|]). destruct Hy.
  - rewrite ox_direct. cbn [negb].
    assert (U : unknowns_vec (oxst 0 0) [0; 0; 0; 0; 1]) by reflexivity.
    pose proof (run_outcome (oxm 0 0) _ (solver_with _ _ (ox_solver 0 0) _ U) (ox_functions 0 0) tolA tolB eps xr HA (le_S _ _ (le_S _ _ (le_S _ _ (le_n 1)))) tol true (ox_numbered 0 0)) as RO.
    destruct (eiv_run nat tolA tolB eps xr (with_xyza nat (oxst 0 0) [0; 0; 0; 0; 1]) tol true) as [r|e]; [discriminate|]. intros [= ->].
    destruct RO as [(_ & (g & (f & Ef & Eg) & Z))|(Q & _)]; [|discriminate]. unfold residuals_at in Ef.
    change (calc_f nat (with_xyza nat (oxst 0 0) [0; 0; 0; 0; 1]) [0; 0; 0; 0; 1] = Ok f) in Ef. change (calc_prod_JPx nat (with_xyza nat (oxst 0 0) [0; 0; 0; 0; 1]) f true = Ok g) in Eg.
    pose proof (ox_f 0 0 0 0 0 0 1) as F. unfold residuals_at in F. rewrite F in Ef. injection Ef as <-. rewrite ox_Jt in Eg. injection Eg as <-. specialize (Z _ (or_introl eq_refl)). lra.
Qed.
End Case.
