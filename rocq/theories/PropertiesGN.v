(** Property theorems C22-C25, C27-C29, C56 (Gauss-Newton solver).
    Vocabulary: GNSpec.v, EvalSpec.v, TransformSpec.v.  Model: GNModel.v. *)
From Coq Require Import Reals Lra Sorted.
From Verif Require Import Base BaseLemmas ReaderModel UncModel MuModel SensorSpec SampleSpec TransformModel TransformSpec TransformMain2 EvalModel EvalSpec
  HistModel GNModel GNSpec GNMain GNResidual GNLoop GNTotal GNOutput PropertiesTransform PropertiesEval.
Open Scope nat_scope.

Section Props.
Context {T : Type}.
Notation mobj := (mobj R T).

(** C22: the product and the transpose product are linear (and defined on every vector). *)
Theorem C22_product_linear : forall (m : mobj) (st : solver T), solver_for m st -> functions_ok m st ->
  forall c1 c2 x1 x2, unknowns_vec st x1 -> unknowns_vec st x2 -> exists y1 y2,
  calc_prod_JPx T st x1 false = Ok y1 /\ calc_prod_JPx T st x2 false = Ok y2 /\
  calc_prod_JPx T st (vadd (vscale c1 x1) (vscale c2 x2)) false = Ok (vadd (vscale c1 y1) (vscale c2 y2)).
Proof. exact linear_fwd. Qed.

Theorem C22_transpose_product_linear : forall (m : mobj) (st : solver T), solver_for m st -> functions_ok m st ->
  forall c1 c2 y1 y2, residual_vec st y1 -> residual_vec st y2 -> exists x1 x2,
  calc_prod_JPx T st y1 true = Ok x1 /\ calc_prod_JPx T st y2 true = Ok x2 /\
  calc_prod_JPx T st (vadd (vscale c1 y1) (vscale c2 y2)) true = Ok (vadd (vscale c1 x1) (vscale c2 x2)).
Proof. exact linear_bwd. Qed.

(** C23 *)
Theorem C23_transpose_is_adjoint : forall (m : mobj) (st : solver T), solver_for m st -> functions_ok m st ->
  forall x y, unknowns_vec st x -> residual_vec st y -> exists Jx Jty,
  calc_prod_JPx T st x false = Ok Jx /\ calc_prod_JPx T st y true = Ok Jty /\
  residual_vec st Jx /\ unknowns_vec st Jty /\ inner Jx y = inner x Jty.
Proof. exact adjoint. Qed.

(** C24 *)
Theorem C24_hessian_symmetric : forall (m : mobj) (st : solver T), solver_for m st -> functions_ok m st ->
  forall x y, unknowns_vec st x -> unknowns_vec st y -> exists Hx Hy, calc_Hx T st x = Ok Hx /\ calc_Hx T st y = Ok Hy /\
  unknowns_vec st Hx /\ unknowns_vec st Hy /\ inner Hx y = inner x Hy.
Proof. exact hess_sym. Qed.

Theorem C24_hessian_positive_semidefinite : forall (m : mobj) (st : solver T), solver_for m st -> functions_ok m st ->
  forall x, unknowns_vec st x -> exists Jx Hx, calc_prod_JPx T st x false = Ok Jx /\ calc_Hx T st x = Ok Hx /\
  inner x Hx = sum_sq Jx /\ (0 <= inner x Hx)%R.
Proof. exact hess_psd. Qed.

(** C25: entry by entry; [nth i _ 0] is only used inside the vectors. *)
Theorem C25_residual : forall (m : mobj) (st : solver T), solver_for m st -> functions_ok m st ->
  forall x, unknowns_vec st x -> exists f r ks, calc_f T st x = Ok f /\ residual_vec st f /\ estimate_of m st x r /\
  evaluate_K T r (with_params (g_sd T st) (skipn (n_vars st) x)) SelAll = Ok ks /\ length ks = n_ks st /\
  (forall i, i < n_vars st -> nth i f 0%R = (nth i x 0 - nth i (m_values R T (g_m T st)) 0)%R) /\
  (forall i, i < n_ks st -> nth (n_vars st + i) f 0%R = ((nth i ks 0 - nth i (m_ks R T m) 0) / nth i (all_uK m) 0)%R).
Proof. exact calc_f_ok. Qed.

Theorem C25_residual_vanishes : forall (m : mobj) (st : solver T), solver_for m st -> functions_ok m st ->
  forall x f r ks, unknowns_vec st x -> nonzero (all_uK m) -> calc_f T st x = Ok f -> estimate_of m st x r ->
  evaluate_K T r (with_params (g_sd T st) (skipn (n_vars st) x)) SelAll = Ok ks ->
  ((forall y, In y f -> y = 0%R) <-> firstn (n_vars st) x = m_values R T (g_m T st) /\ ks = m_ks R T m).
Proof. exact calc_f_zero. Qed.

(** C27: whatever the inner solver returns; [NV], the number of unknown variables, is the limit. *)
Theorem C27_loop_bounded_and_honest : forall lsmr minres (st : solver T) tol rc r,
  gn_run T lsmr minres st tol rc = Ok r -> exists NV xs f,
  pylast (idxs (m_idx R T (g_m T st))) = Ok NV /\
  history st tol (g_xyza T st) xs (r_log r) /\ length (r_log r) = r_iter r /\ 1 <= r_iter r <= NV /\
  (forall k l, nth_error (r_log r) k = Some l -> S k < r_iter r -> ~ criteria l) /\
  (r_conv r = true <-> exists l, nth_error (r_log r) (r_iter r - 1) = Some l /\ criteria l) /\
  (r_conv r = false -> r_iter r = NV) /\
  nth_error xs (r_iter r) = Some (r_xyza r) /\ r_a r = skipn NV (r_xyza r) /\
  calc_f T (with_xyza T st (r_xyza r)) (r_xyza r) = Ok f /\ r_cost r = sum_sq f.
Proof. intros. eapply run_loop; eauto. Qed.

(** Every run returns, when the inner solvers return vectors of the right length. *)
Theorem C27_run_returns : forall (m : mobj) (st : solver T), solver_for m st -> functions_ok m st ->
  forall lsmr minres tol rc, 1 <= n_vars st -> well_numbered m -> lsmr_total lsmr st -> minres_total minres st ->
  exists r, gn_run T lsmr minres st tol rc = Ok r.
Proof. exact run_total. Qed.

(** C28: symmetric whatever MINRES returns. *)
Theorem C28_covariance_symmetric : forall lsmr minres (st : solver T) tol rc r, gn_run T lsmr minres st tol rc = Ok r ->
  (forall i j, entry (r_cov r) i j = entry (r_cov r) j i) /\
  (rc = true -> covariance T minres (with_xyza T st (r_xyza r)) = Ok (r_cov r)) /\
  (rc = false -> forall i j, entry (r_cov r) i j = 0%R).
Proof. intros lsmr minres st tol rc r E. destruct (run_cov lsmr minres st tol rc r E) as (A & B & C & _). auto. Qed.

(** With an exact inner solver column j of the covariance is the parameter part of P H^-1 P^T e_j, and
    the variances are not negative. *)
Theorem C28_covariance_of_exact_solver : forall (m : mobj) (st : solver T), solver_for m st -> functions_ok m st ->
  forall minres, minres_exact minres st -> (forall i j b, exists x, minres i j st b = Ok x /\ unknowns_vec st x) ->
  exists V, covariance T minres st = Ok V /\
  forall i j, i < n_pars st -> j < n_pars st ->
   (exists b z p, calc_Px T st (unit_vec (n_vars st + n_pars st) (n_vars st + j)) true = Ok b /\ unknowns_vec st z /\ calc_Hx T st z = Ok b /\
      calc_Px T st z false = Ok p /\ entry V i j = nth (n_vars st + i) p 0%R) /\ (i = j -> (0 <= entry V i j)%R).
Proof. exact covariance_exact. Qed.

(** C29: the reported degrees of freedom are unknown variables - match-ups - parameters; residuals minus
    unknowns are match-ups - parameters.  They agree only when there are twice as many unknown variables
    as match-ups. *)
Theorem C29_degrees_of_freedom_partial : forall lsmr minres (st : solver T) tol rc r, gn_run T lsmr minres st tol rc = Ok r ->
  exists NV N_mu, pylast (idxs (m_idx R T (g_m T st))) = Ok NV /\ pylast (cNm (m_idx R T (g_m T st))) = Ok N_mu /\
    r_dof r = (Z.of_nat NV - Z.of_nat N_mu - Z.of_nat (n_pars st))%Z /\
    (r_dof r = (Z.of_nat (NV + N_mu) - Z.of_nat (NV + n_pars st))%Z <-> NV = 2 * N_mu).
Proof.
  intros lsmr minres st tol rc r E. destruct (run_cov lsmr minres st tol rc r E) as (_ & _ & _ & NV & N_mu & A & B & C).
  exists NV, N_mu. do 3 (split; [auto|]). rewrite C. lia.
Qed.

(** C56 *)
Theorem C56_returned_residuals_and_systematic_errors : forall (m : mobj) (st : solver T), solver_for m st -> functions_ok m st ->
  forall lsmr minres tol rc r, gn_run T lsmr minres st tol rc = Ok r -> lsmr_total lsmr st -> 1 <= n_vars st ->
  nonzero (all_uK m) -> well_numbered m ->
  exists e ks, estimate_of m st (r_xyza r) e /\ evaluate_K T e (with_params (g_sd T st) (r_a r)) SelAll = Ok ks /\
    length (r_ks r) = n_ks st /\
    (forall i, i < n_ks st -> nth i (r_ks r) 0%R = (nth i ks 0 - nth i (m_ks R T m) 0)%R) /\
    match r_sys r with
    | None => forall u, In u (m_unc R T m) -> ~ has_systematic u
    | Some (errs, names) => length errs = length names /\
        forall k err name, nth_error errs k = Some err -> nth_error names k = Some name -> exists b u s, nth_error (m_unc R T m) b = Some u /\ has_systematic u /\ u_sysi R u = Some (S k) /\
          nth_error (n_sensor (m_idx R T m)) b = Some s /\ nth_error (sensors (m_idx R T m)) s = Some name /\
          nth_error (r_xyza r) (n_vars st - length errs + k) = Some err
    end.
Proof. exact run_output. Qed.
End Props.
Print Assumptions C22_product_linear.
Print Assumptions C22_transpose_product_linear.
Print Assumptions C23_transpose_is_adjoint.
Print Assumptions C24_hessian_symmetric.
Print Assumptions C24_hessian_positive_semidefinite.
Print Assumptions C25_residual.
Print Assumptions C25_residual_vanishes.
Print Assumptions C27_loop_bounded_and_honest.
Print Assumptions C27_run_returns.
Print Assumptions C28_covariance_symmetric.
Print Assumptions C28_covariance_of_exact_solver.
Print Assumptions C29_degrees_of_freedom_partial.
Print Assumptions C56_returned_residuals_and_systematic_errors.

(** ** A solver with all four uncertainty types: series 1 = A-B, series 2 = B-C, two match-ups each;
    reference A: type 1; B: type 2 in series 1 and type 3 in series 2; C: type 4. *)
Section Concrete.
Local Open Scope R_scope.
Definition gxm : mobj R nat :=
  mkMobj R nat txidx (Some exps) (Some txidx) (Some exps) [1; 2; 3; 4; 5; 6; 7; 8] [1; 2; 3; 4]
    [mkUnc R (UK1 R [1; 2]) None; mkUnc R (UK2 R [2; 4] [1; 1]) (Some 1%nat);
     mkUnc R (UK3 R 0 0) None; mkUnc R (UK4 R 0 0 3) (Some 2%nat)]
    [[1; 2]; [3; 4]] [txw] [[1; 2; 3]] None None None None None None None.
Definition gxd : mobj R nat := match tn_run nat gxm with Ok d => d | Raise _ => gxm end.
Definition gxst : solver nat := gn_init nat gxd exsd [].

Example gxm_wf : wf_mobj gxm.
Proof.
  constructor; try reflexivity.
  - intros b n Hb. do 4 (destruct b as [|b]; [cbn in Hb; injection Hb as <-; split; [lia|]; eexists; split; reflexivity|]).
    destruct b; discriminate.
  - cbn. intros n Hn. destruct n as [|[|[|n]]]; try lia; tauto.
Qed.
Example gxm_shapes : shapes_ok gxm.
Proof.
  split; [reflexivity|]. split.
  - intros n u Hu. do 2 (destruct n as [|n]; [cbn in Hu; injection Hu as <-; reflexivity|]). destruct n; discriminate.
  - intros b u N Hu HN. destruct b as [|[|[|[|b]]]]; cbn in Hu, HN; try (destruct b; discriminate);
      injection Hu as <-; injection HN as <-; cbn.
    + reflexivity.
    + split; [reflexivity|]. split; [reflexivity|]. eexists; split; [reflexivity|lia].
    + eexists _, _. split; [reflexivity|]. split; [reflexivity|]. apply txw_shape.
    + split; [|eexists; split; [reflexivity|lia]]. eexists _, _. split; [reflexivity|]. split; [reflexivity|]. apply txw_shape.
Qed.
Example gxm_normalisable : normalisable gxm.
Proof.
  split.
  - cbn. intros u [<-|[<-|[]]] x Hx; cbn in Hx; lra.
  - intros b u N Hu HN. assert (Huv : nonzero [1; 2; 3]) by (intros x Hx; cbn in Hx; lra).
    destruct b as [|[|[|[|b]]]]; cbn in Hu, HN; try (destruct b; discriminate);
      injection Hu as <-; injection HN as <-; cbn.
    + intros x Hx; cbn in Hx; lra.
    + intros x Hx; cbn in Hx; lra.
    + intros w uv H1 H2. injection H1 as <-. injection H2 as <-. split; [apply txw_solvable|exact Huv].
    + intros w uv H1 H2. injection H1 as <-. injection H2 as <-. split; [apply txw_solvable|exact Huv].
Qed.
Lemma gxm_run : tn_run nat gxm = Ok gxd.
Proof.
  destruct (C17_reverse_undoes_run gxm gxm_wf gxm_shapes gxm_normalisable eq_refl) as (d & _ & E & _). unfold gxd. rewrite E. reflexivity.
Qed.
Example gxm_evaluable : evaluable gxm exsd.
Proof.
  constructor; try reflexivity.
  - split; reflexivity.
  - intros b n Hb. destruct b as [|[|[|[|b]]]]; cbn in Hb; try (destruct b; discriminate); injection Hb as <-; (split; [lia|]; eexists; split; reflexivity).
  - cbn. intros n Hn. destruct n as [|[|[|n]]]; try lia; tauto.
  - repeat constructor; cbn; intuition congruence.
  - intros n p Hp. destruct n as [|[|n]]; cbn in Hp; try (destruct n; discriminate); injection Hp as <-; cbn [fst snd];
      (split; [lia|]); intros s [-> | ->]; cbn; repeat split; try lia; discriminate.
  - eexists; reflexivity.
  - cbn. intros l H. intuition discriminate.
  - cbn. intros l [H|[H|[]]]; discriminate.
Qed.
Example gx_solver : solver_for gxm gxst.
Proof.
  constructor.
  - exact gxm_wf.
  - exact gxm_shapes.
  - reflexivity.
  - exact gxm_run.
  - exact gxm_evaluable.
  - discriminate.
  - cbn. repeat constructor; cbn; intuition congruence.
  - intros n p s Hp Hs. exists 1%nat. destruct n as [|[|n]]; cbn in Hp; try (destruct n; discriminate); injection Hp as <-; cbn in Hs;
      destruct Hs as [-> | ->]; repeat split; lia.
  - exists exps. repeat split.
  - reflexivity.
  - cbn. rewrite app_length. reflexivity.
  - split; [reflexivity|]. cbn. intros r Hr. repeat (destruct Hr as [<-|Hr]; [reflexivity|]). destruct Hr.
Qed.
Example gx_functions : functions_ok gxm gxst.
Proof.
  split.
  - intros s b r Hb. cbn in Hb. destruct s as [|[|[|s]]]; cbn in Hb; try (destruct s; discriminate); injection Hb as <-; eexists r, _; (split; reflexivity).
  - intros n p s name ps ms N f b X a c xt al t Hp Hs Hn Hps Hms HN Hf Hb LX HX La Hc _ _ _.
    cbn in Hps. injection Hps as <-.
    destruct X as [|x0 X0]; [exfalso; cbn in LX; subst ms; destruct s as [|[|[|s]]]; try discriminate; destruct s; discriminate|].
    assert (L0 : length x0 = N) by (apply HX; left; reflexivity).
    destruct n as [|[|n]]; cbn in Hp; try (destruct n; discriminate); injection Hp as <-; cbn in HN; injection HN as <-; cbn in Hs;
      destruct Hs as [-> | ->]; cbn in Hn; injection Hn as <-; cbn in Hms; injection Hms as <-; cbn in Hf; injection Hf as <-; cbn in Hb; injection Hb as <-.
    + exists x0, None, x0. eexists. split; [reflexivity|]. split; [auto|]. split; [reflexivity|]. split; [auto|]. split; [rewrite map_length; auto|].
      eexists _, _. split; [reflexivity|]. split; [reflexivity|exact I].
    + destruct a as [|a0 [|a1 [|? ?]]]; try discriminate.
      eexists _, _, _, _. split; [reflexivity|]. split; [rewrite map_length; auto|]. split; [reflexivity|]. split; [rewrite map_length; auto|]. split; [rewrite !map_length; auto|].
      split; [reflexivity|]. split; [cbn; lia|]. split; [reflexivity|].
      intros col [<-|[<-|[<-|[]]]]; rewrite ?map_length; auto.
    + destruct a as [|a0 [|a1 [|? ?]]]; try discriminate.
      eexists _, _, _, _. split; [reflexivity|]. split; [rewrite map_length; auto|]. split; [reflexivity|]. split; [rewrite map_length; auto|]. split; [rewrite !map_length; auto|].
      split; [reflexivity|]. split; [cbn; lia|]. split; [reflexivity|].
      intros col [<-|[<-|[<-|[]]]]; rewrite ?map_length; auto.
    + destruct a as [|a0 [|a1 [|? ?]]]; try discriminate.
      eexists _, _, _, _. split; [reflexivity|]. split; [rewrite map_length; auto|]. split; [reflexivity|]. split; [rewrite map_length; auto|]. split; [rewrite !map_length; auto|].
      split; [reflexivity|]. split; [cbn; lia|]. split; [reflexivity|].
      intros col [<-|[<-|[<-|[]]]]; rewrite ?map_length; auto.
Qed.
Example gx_numbered : well_numbered gxm.
Proof.
  split.
  - intros k u Hu Hs (k' & Ek & Hk). assert (k = 1 \/ k = 2)%nat as [-> | ->].
    { cbn in Hu. repeat (destruct Hu as [<-|Hu]; [cbn in Ek; try discriminate; injection Ek as <-; lia|]). destruct Hu. }
    + exists 1%nat. eexists. split; [reflexivity|]. split; [exact I|reflexivity].
    + exists 3%nat. eexists. split; [reflexivity|]. split; [exact I|reflexivity].
  - intros b s Hb. do 4 (destruct b as [|b]; [cbn in Hb; injection Hb as <-; cbn; lia|]). destruct b; discriminate.
Qed.
(** 2 + 2 + 3 + 3 transformed variables and 2 systematic errors. *)
Lemma gx_vars : n_vars gxst = 12%nat /\ n_ks gxst = 4%nat /\ n_pars gxst = 4%nat.
Proof.
  destruct (C18_transformed_layout gxm gxd gxm_wf gxm_shapes gxm_run) as ((_ & _ & HN & _) & Ln & Hn & ns & body & (Hs1 & Hs2) & Hv & Lb & _).
  assert (ns = 2)%nat.
  { destruct (Hs1 _ (or_intror (or_intror (or_intror (or_introl eq_refl)))) I) as (k & Ek & Hk). cbn in Ek. injection Ek as <-.
    destruct Hs2 as [->|(u & Hu & _ & Eu)]; [lia|]. cbn in Hu. repeat (destruct Hu as [<-|Hu]; [cbn in Eu; try discriminate; injection Eu as <-; lia|]). destruct Hu. }
  split; [|split; [|reflexivity]].
  - unfold n_vars. cbn [gxst gn_init g_m]. rewrite Hv, app_length, repeat_length, Lb. subst ns.
    destruct (N_var (m_idx R nat gxd)) as [|a [|b [|c [|d [|? ?]]]]] eqn:E; cbn in Ln; try discriminate.
    pose proof (Hn 0%nat _ _ _ eq_refl eq_refl eq_refl) as H0. pose proof (Hn 1%nat _ _ _ eq_refl eq_refl eq_refl) as H1.
    pose proof (Hn 2%nat _ _ _ eq_refl eq_refl eq_refl) as H2. pose proof (Hn 3%nat _ _ _ eq_refl eq_refl eq_refl) as H3.
    cbn in H0, H1, H2, H3. destruct H2 as (v2 & E2 & ->), H3 as (v3 & E3 & ->). injection E2 as <-. injection E3 as <-. subst. reflexivity.
  - unfold n_ks. cbn [gxst gn_init g_m]. rewrite HN. reflexivity.
Qed.

(** Inner solvers that return zero: the run ends after one iteration or more, and reports 12 - 4 - 4 = 4
    degrees of freedom for 16 residuals and 16 unknowns. *)
Definition zero_lsmr : nat -> solver nat -> list R -> res (list R) := fun _ _ _ => Ok (repeat 0 16).
Definition zero_minres : nat -> nat -> solver nat -> list R -> res (list R) := fun _ _ _ _ => Ok (repeat 0 16).
Lemma zero_lsmr_total : lsmr_total zero_lsmr gxst.
Proof. intros k st' b. eexists. split; [reflexivity|]. unfold unknowns_vec. destruct gx_vars as (-> & _ & ->). reflexivity. Qed.
Lemma zero_minres_total : minres_total zero_minres gxst.
Proof. intros i j st' b. eexists. split; [reflexivity|]. unfold unknowns_vec. destruct gx_vars as (-> & _ & ->). reflexivity. Qed.
Example gx_run : forall tol rc, exists r, gn_run nat zero_lsmr zero_minres gxst tol rc = Ok r.
Proof.
  intros tol rc. apply (C27_run_returns gxm gxst gx_solver gx_functions).
  - destruct gx_vars as (-> & _). lia.
  - exact gx_numbered.
  - exact zero_lsmr_total.
  - exact zero_minres_total.
Qed.
Example gx_uK : nonzero (all_uK gxm).
Proof. intros x Hx. cbn in Hx. intuition lra. Qed.
Example gx_product : exists x Jx Jty, calc_prod_JPx nat gxst x false = Ok Jx /\ calc_prod_JPx nat gxst Jx true = Ok Jty /\
  length x = 16%nat /\ inner x Jty = sum_sq Jx.
Proof.
  destruct gx_vars as (V & K & P).
  assert (U : unknowns_vec gxst (repeat 1 16)) by (unfold unknowns_vec; rewrite V, P; reflexivity).
  destruct (C24_hessian_positive_semidefinite gxm gxst gx_solver gx_functions _ U) as (Jx & Hx & E1 & E2 & E3 & _).
  exists (repeat 1 16), Jx, Hx. split; [auto|]. split; [|auto]. unfold calc_Hx in E2. rewrite E1 in E2. exact E2.
Qed.

(** C29, refuted: a run that reports 4 degrees of freedom, where 16 residuals depend on 16 unknowns. *)
Theorem C29_degrees_of_freedom_refuted : exists r, gn_run nat zero_lsmr zero_minres gxst 1 true = Ok r /\
  solver_for gxm gxst /\ functions_ok gxm gxst /\ r_dof r = 4%Z /\
  (Z.of_nat (n_vars gxst + n_ks gxst) - Z.of_nat (n_vars gxst + n_pars gxst) = 0)%Z.
Proof.
  destruct (gx_run 1 true) as (r & E). exists r. split; [auto|]. split; [exact gx_solver|]. split; [exact gx_functions|].
  destruct gx_vars as (V & K & P). destruct (C29_degrees_of_freedom_partial _ _ _ _ _ _ E) as (NV & N_mu & A & B & C & _).
  destruct (GNAdjoint.solver_facts gxm gxst gx_solver) as (nv & ns & St & SL & Hv & Hlast & Hnus & Hcn & _).
  assert (NV = 12%nat) by congruence. assert (N_mu = 4%nat) by congruence. rewrite V, K, P. split; [|reflexivity]. rewrite C, P. subst. reflexivity.
Qed.
Print Assumptions C29_degrees_of_freedom_refuted.
End Concrete.
