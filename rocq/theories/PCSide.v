(** * The sensor functions as the preconditioner solver evaluates them.  Proofs only. *)
From Coq Require Import Reals Lra.
From Verif Require Import Base BaseLemmas ReaderModel UncModel MuModel MuProofs SensorSpec SampleSpec SampleProofs TransformModel TransformSpec TransformProofs TransformProofs2 TransformMain TransformMain2 TransformMain3 EvalModel EvalSpec EvalProofs GNModel GNSpec GNAlgebra GNTerms GNAdjoint GNMain GNLoop GNTotal GNForward GNForward2 GNResidual GNOutput PCModel PCSpec PCAlgebra PCMatrix.
Open Scope nat_scope.

Section Side.
Context {T : Type}.
Variables (m : mobj R T) (st : solver T) (a : list R).
Hypothesis PF : pc_for m st a.
Hypothesis FO : functions_ok m st.
Notation d := (g_m T st).
Notation sd := (g_sd T st).
Definition pm : mobj R T := with_oidx m (Some (m_idx R T m)).
Definition pst : solver T := mkSolver T (with_oidx d (Some (m_idx R T m))) sd (sd_cs T sd) (g_xyza T st) (eye (length (sd_a T sd))).

Lemma run_pm : tn_run T pm = Ok (g_m T pst).
Proof.
  pose proof (pf_run _ _ _ PF) as H. unfold tn_run in *. change (ind_idx T pm) with (ind_idx T m). destruct (ind_idx T m) as [ix'|]; [|discriminate]. cbn [bind] in *.
  destruct (pylast (idxs ix')) as [tot|]; [|discriminate]. cbn [bind] in *.
  change (run_block T pm) with (run_block T m). change (m_unc R T pm) with (m_unc R T m). destruct (foldM _ _ _) as [vals|]; [|discriminate]. cbn [bind] in *.
  change (m_idx R T pm) with (m_idx R T m). change (m_ks R T pm) with (m_ks R T m). change (m_unck R T pm) with (m_unck R T m).
  destruct (scale_ks _ _ _ _ _) as [ks|]; [|discriminate]. cbn [bind] in *. injection H as H. unfold pst. cbn [g_m]. rewrite <- H. reflexivity.
Qed.

Lemma values_len : length (g_xyza T st) = length (m_values R T d) + length (sd_a T sd).
Proof. rewrite (pf_xyza _ _ _ PF), app_length, (pf_a _ _ _ PF). reflexivity. Qed.

Lemma SF' : solver_for pm pst.
Proof.
  destruct PF as [A1 A2 A3 A4 A5 A6 A7 A8 A9 (ps & P1 & P2) A11 A12]. constructor.
  - destruct A1. constructor; assumption.
  - exact A2.
  - reflexivity.
  - apply run_pm.
  - destruct A6. constructor; assumption.
  - exact A7.
  - exact A8.
  - exact A9.
  - exists ps. auto.
  - reflexivity.
  - apply values_len.
  - apply eye_square.
Qed.
Lemma FO' : functions_ok pm pst. Proof. exact FO. Qed.

Lemma unconvert_view s n : unconvert_Xs T (no_matrices T d) (g_xyza T st) s n = unconvert_Xs T d (g_xyza T st) s n.
Proof.
  unfold unconvert_Xs. change (m_idx R T (no_matrices T d)) with (m_idx R T d). change (m_unc R T (no_matrices T d)) with (m_unc R T d).
  destruct (get (sensor_ms _) s); [|reflexivity]. cbn [bind]. destruct (n_uS _); [|reflexivity]. cbn [bind]. destruct (pyget _ _); [|reflexivity]. cbn [bind].
  assert (E : forall l, mapM (fun c => do im <- index eqb3 (s, n, c) (get_block_idxs (m_idx R T d));; do ib <- get (idxs (m_idx R T d)) im;; do nv <- get (N_var (m_idx R T d)) im;;
    do u <- get (m_unc R T d) im;; do last <- pylast (idxs (m_idx R T d));; do v <- unconvert_block T (no_matrices T d) a1 last (g_xyza T st) (slice ib (ib + nv) (g_xyza T st)) u;; column_of a2 v) l =
    mapM (fun c => do im <- index eqb3 (s, n, c) (get_block_idxs (m_idx R T d));; do ib <- get (idxs (m_idx R T d)) im;; do nv <- get (N_var (m_idx R T d)) im;;
    do u <- get (m_unc R T d) im;; do last <- pylast (idxs (m_idx R T d));; do v <- unconvert_block T d a1 last (g_xyza T st) (slice ib (ib + nv) (g_xyza T st)) u;; column_of a2 v) l); [|apply E].
  induction l as [|c l IH]; [reflexivity|]. cbn [mapM]. rewrite IH. clear IH.
  match goal with |- match ?x with _ => _ end = match ?y with _ => _ end => assert (Ex : x = y); [|rewrite Ex; reflexivity] end.
  destruct (index _ _ _) as [im|]; [|reflexivity]. cbn [bind]. destruct (get (idxs _) im); [|reflexivity]. cbn [bind]. destruct (get (N_var _) im); [|reflexivity]. cbn [bind].
  destruct (get (m_unc R T d) im) as [u|] eqn:Eu; [|reflexivity]. cbn [bind]. destruct (pylast _); [|reflexivity]. cbn [bind].
  assert (Hu : In u (m_unc R T m)).
  { apply get_ok in Eu. apply nth_error_In in Eu. destruct (run_layout m d (pf_wf _ _ _ PF) (pf_shapes _ _ _ PF) (pf_run _ _ _ PF)) as (SL & _).
    destruct SL as (_ & _ & _ & _ & _ & _ & _ & _ & S9 & _). rewrite <- S9. auto. }
  apply (pf_ind _ _ _ PF) in Hu. unfold unconvert_block. destruct (u_kind R u); try contradiction; reflexivity.
Qed.

(** the covariates are the original values *)
Lemma covs_orig n p s N X : nth_error (Im (m_idx R T m)) n = Some p -> s = fst p \/ s = snd p -> nth_error (Nm (m_idx R T m)) n = Some N ->
  unconvert_Xs T d (g_xyza T st) s (n + 1) = Ok X -> covariates m s (n + 1) X.
Proof.
  intros Hp Hs HN EX. destruct (solver_facts pm pst SF') as (nv & ns & St & _).
  assert (Lx : length (g_xyza T pst) = n_vars pst + n_pars pst) by apply values_len.
  assert (EX' : unconvert_Xs T (g_m T pst) (g_xyza T pst) s (n + 1) = Ok X) by exact EX.
  rewrite (unc_covs pm pst SF' nv ns St (g_xyza T pst) n p s N X Lx Hp Hs HN EX').
  destruct (reverse_run pm (sf_wf _ _ SF') (pf_shapes _ _ _ PF) (pf_norm _ _ _ PF) eq_refl) as (d0 & m2 & E1 & E2 & E3 & _).
  rewrite run_pm in E1. injection E1 as <-.
  assert (Ex : firstn (n_vars pst) (g_xyza T pst) = m_values R T (g_m T pst)).
  { unfold pst, n_vars. cbn [g_m g_xyza with_oidx m_values]. rewrite (pf_xyza _ _ _ PF). rewrite firstn_app, firstn_all, Nat.sub_diag. cbn [firstn]. apply app_nil_r. }
  assert (Er : tn_reverse T (with_values (g_m T pst) (firstn (n_vars pst) (g_xyza T pst))) = Ok m2).
  { rewrite Ex. exact E2. }
  unfold covariates, cvs.
  assert (G : forall l, (forall b, In b l -> In b (blocks_of (m_idx R T pm) s (n + 1))) -> Forall2 (is_block (idxs (m_idx R T m)) (m_values R T m)) l (map (fun b => cv pm nv b (g_xyza T pst)) l)).
  { induction l as [|b l IH]; intros H; cbn [map]; constructor; [|apply IH; intros; apply H; right; auto].
    destruct (in_bl pm pst SF' b s n (H b (or_introl eq_refl))) as (A1 & _).
    pose proof (rev_block pm pst SF' nv ns St (g_xyza T pst) m2 b N n Lx Er A1 HN) as B. rewrite E3 in B. exact B. }
  apply G. auto.
Qed.

(** One sensor of a series. *)
Record pc_data (n side s : nat) (name : string) (N : nat) (ps : list string) (ms : nat) (f : smodel T) (b : amodel) (X : list (list R)) (as_ c : list R) (xt al : option (list R))
  (r : list R) (J : option (list (list R))) (r' JB : list R) : Prop := {
  pd_in : side_input (without_times m) (with_params sd a) (n + 1) side s X as_ c xt al None;
  pd_f : nth_error (sd_model T sd) s = Some f;
  pd_ev : f X as_ c xt al None = Ok (r, J);
  pd_b : nth_error (sd_adj T sd) s = Some b;
  pd_bv : b r = Ok (r', JB);
  pd_side : pc_side T st s (n + 1) = Ok (J, (r', JB));
  pd_len : length r = N /\ length r' = N /\ length JB = N;
  pd_X : length X = ms /\ forall col, In col X -> length col = N;
  pd_as : length as_ = n_params ps name;
  pd_ps : m_ps R T m = Some ps;
  pd_ms : nth_error (sensor_ms (m_idx R T m)) s = Some ms;
  pd_J : match J with
    | None => exists b0 u, hd_error (blocks_of (m_idx R T m) s (n + 1)) = Some b0 /\ nth_error (m_unc R T m) b0 = Some u /\
                match u_kind R u with UK1 _ _ => True | UK2 _ _ _ => True | _ => False end
    | Some cols => ms = solver_ncov m /\ 1 <= n_params ps name /\ length cols = ms + n_params ps name /\ forall col, In col cols -> length col = N
    end
}.

Lemma pc_side_ok n p side s name N : nth_error (Im (m_idx R T m)) n = Some p -> side < 2 -> s = (if side =? 0 then fst p else snd p) ->
  nth_error (sensors (m_idx R T m)) s = Some name -> nth_error (Nm (m_idx R T m)) n = Some N ->
  exists ps ms f b X as_ c xt al r J r' JB, pc_data n side s name N ps ms f b X as_ c xt al r J r' JB.
Proof.
  intros Hp Hside Hs' Hname HN.
  assert (Hs : s = fst p \/ s = snd p) by (destruct (side =? 0); auto).
  destruct (sf_covs' pm pst SF' n p s Hp Hs) as (ms & Hms & Hms1 & Hblk & Hall).
  destruct (pf_ps _ _ _ PF) as (ps & Eps & Lps).
  pose proof (pf_ev _ _ _ PF) as Ev.
  destruct (ev_pair _ _ Ev n p Hp) as (Hne & Hin). destruct (Hin s Hs) as (H1 & H2 & H3 & _).
  destruct (nth_error (sd_model T sd) s) as [f|] eqn:Ef; [|apply nth_error_None in Ef; lia].
  destruct (nth_error (sd_adj T sd) s) as [b|] eqn:Eb; [|apply nth_error_None in Eb; lia].
  destruct (unconvert_cols pm pst SF' s n N ms HN Hms Hms1 Hall (g_xyza T st) values_len) as (X & EX & LX & LXc).
  assert (EX' : unconvert_Xs T d (g_xyza T st) s (n + 1) = Ok X) by exact EX.
  assert (CX : covariates m s (n + 1) X) by (eapply covs_orig; eauto).
  destruct (solver_facts pm pst SF') as (nv & ns & St & SL & _ & Hlast & _ & _ & Hmps & _ & Ht1 & Ht2 & _).
  assert (Hp' : nth_error (Im (m_idx R T m)) (n + 1 - 1) = Some p) by (replace (n + 1 - 1) with n by lia; auto).
  destruct (getX_side (m_across1 R T m) (m_across2 R T m) m sd (n + 1) p side s name Ev ltac:(lia) Hp' Hside Hs' Hname) as (xt & Ext & Sxt).
  { intros l [E|[E|[]]]; apply (ev_opt _ _ Ev); cbn; auto. }
  destruct (getX_side (m_along1 R T m) (m_along2 R T m) m sd (n + 1) p side s name Ev ltac:(lia) Hp' Hside Hs' Hname) as (al & Eal & Sal).
  { intros l [E|[E|[]]]; apply (ev_opt _ _ Ev); cbn; auto. }
  destruct (getX_side (@None (list T)) None m sd (n + 1) p side s name Ev ltac:(lia) Hp' Hside Hs' Hname) as (t & Et & Stt).
  { intros l [E|[E|[]]]; discriminate. }
  assert (Htn : t = None) by (destruct (side =? 0), t; cbn in Stt; auto; contradiction). subst t.
  assert (Rx : rows_are N xt). { apply (part_rows pm pst SF' n N _ _ HN) in Sxt; auto. intros l El. apply (ev_opt _ _ Ev). destruct (side =? 0); rewrite El; cbn; auto. }
  assert (Ra : rows_are N al). { apply (part_rows pm pst SF' n N _ _ HN) in Sal; auto. intros l El. apply (ev_opt _ _ Ev). destruct (side =? 0); rewrite El; cbn; auto. }
  assert (Hlen : length a = length ps) by (rewrite Lps; apply (pf_a _ _ _ PF)).
  destruct (proj2 FO n p s name ps ms N f b X (labelled name ps a) (labelled name (sd_cs T sd) (sd_c T sd)) xt al None Hp Hs Hname Eps Hms HN Ef Eb LX LXc)
    as (r & J & r' & B & E1 & L1 & E2 & L2 & L3 & HJ); auto; [apply labelled_length; auto|exact I|].
  exists ps, ms, f, b, X, (labelled name ps a), (labelled name (sd_cs T sd) (sd_c T sd)), xt, al, r, J, r', B.
  constructor; auto.
  - constructor; auto; [lia|exists p; split; auto|exists name, ps; auto].
  - unfold pc_side, calc_R, m_getAcross, m_getAlong, m_getTime. destruct SL as (S1 & S2 & S3 & S4 & S5 & S6 & S7 & S8 & S9 & S10 & S11 & S12 & S13 & S14 & S15 & S16).
    change (sensors (m_idx R T d) = sensors (m_idx R T m)) in S1. change (m_across1 R T d = m_across1 R T m) in S13. change (m_across2 R T d = m_across2 R T m) in S14.
    change (m_along1 R T d = m_along1 R T m) in S15. change (m_along2 R T d = m_along2 R T m) in S16. change (m_time1 R T d = None) in Ht1. change (m_time2 R T d = None) in Ht2.
    assert (GS : forall B (x1 x2 : option (list B)) k nm, getSensorX x1 x2 (m_idx R T d) k nm = getSensorX x1 x2 (m_idx R T m) k nm) by (intros; apply (getSensorX_same pm pst SF')).
    rewrite S1, (proj2 (get_ok _ _ _) Hname). cbn [bind]. rewrite !GS, S13, S14, S15, S16, Ht1, Ht2, Ext, Eal, Et. cbn [bind].
    cbn [pc_view g_m g_sd g_xyza no_matrices m_idx m_ps]. rewrite S1, (proj2 (get_ok _ _ _) Hname). cbn [bind].
    change (m_ps R T d = m_ps R T m) in Hmps. rewrite Hmps, Eps. cbn [bind]. 
    rewrite ?Hmps, ?unconvert_view. rewrite EX'. cbn [bind]. rewrite (proj2 (get_ok _ _ _) Ef). cbn [bind].
    assert (Esel : select ps (last_k (length ps) (g_xyza T st)) name = labelled name ps a).
    { unfold last_k. rewrite (pf_xyza _ _ _ PF). destruct (Nat.eqb_spec (length ps) 0) as [E0|_].
      - destruct ps; [reflexivity|discriminate].
      - rewrite app_length. replace (length (m_values R T d) + length a - length ps) with (length (m_values R T d)) by lia.
        rewrite skipn_app, skipn_all, Nat.sub_diag. reflexivity. }
    rewrite Esel. change (select (sd_cs T sd) (sd_c T sd) name) with (labelled name (sd_cs T sd) (sd_c T sd)). rewrite E1. cbn [bind fst snd].
    rewrite (proj2 (get_ok _ _ _) Eb). cbn [bind]. rewrite E2. reflexivity.
  - apply labelled_length; auto.
Qed.
End Side.
