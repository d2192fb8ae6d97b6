(** * Proofs for C150: a harmonisation with a sensor function that cannot be called. *)
From Coq Require Import Reals Lra Permutation.
From Verif Require Import Base BaseLemmas ReaderModel ReaderSpec ReaderMain UncModel UncSpec SensorModel SensorSpec MuModel SampleSpec TransformModel TransformSpec EvalModel EvalSpec EvalMain GNModel GNAdjoint GNResidual LsmrModel EivModel EivSpec CheckModel CheckSpec IOModel IOSpec InstModel PCModel PCSpec FullModel FullSpec FullProofs6 GNSpec.
Open Scope nat_scope.

Section Lower.
Context {T : Type}.
Definition raising (f : smodel T) : Prop := forall X a c xt al t, f X a c xt al t = Raise TypeError.
(** The same sensor data, but some functions raise. *)
Definition lower (sd sd' : sdat T) : Prop := sd_a T sd = sd_a T sd' /\ sd_c T sd = sd_c T sd' /\ sd_cs T sd = sd_cs T sd' /\ sd_adj T sd = sd_adj T sd' /\ length (sd_model T sd) = length (sd_model T sd') /\
  forall s f f', nth_error (sd_model T sd) s = Some f -> nth_error (sd_model T sd') s = Some f' -> f = f' \/ raising f.
Context (sd sd' : sdat T) (LW : lower sd sd').

Lemma side_lower m n s r : side_eval T m sd' n s = Ok r -> side_eval T m sd n s = Ok r \/ side_eval T m sd n s = Raise TypeError.
Proof.
  destruct LW as (E1 & E2 & E3 & E4 & E5 & HL). unfold side_eval. intros H.
  repeat (match type of H with bind ?x _ = _ => destruct x as [?|] eqn:?; cbn [bind] in H |- *; [|discriminate] end). rewrite E1, E2, E3.
  match goal with Q : get (sd_model T sd') s = Ok _ |- _ => pose proof Q as G0 end. pose proof (proj1 (get_ok _ _ _) G0) as G.
  destruct (nth_error (sd_model T sd) s) as [f|] eqn:Ef; [|apply nth_error_None in Ef; assert (s < length (sd_model T sd')) by (apply nth_error_Some; congruence); lia].
  rewrite (proj2 (get_ok _ _ _) Ef). cbn [bind]. destruct (HL s f _ Ef G) as [-> |Rf]; [left; exact H|right; apply Rf].
Qed.
Lemma side_raises m n s f r : side_eval T m sd' n s = Ok r -> nth_error (sd_model T sd) s = Some f -> raising f -> side_eval T m sd n s = Raise TypeError.
Proof.
  destruct LW as (E1 & E2 & E3 & E4 & E5 & HL). unfold side_eval. intros H Ef Rf.
  repeat (match type of H with bind ?x _ = _ => destruct x as [?|] eqn:?; cbn [bind] in H |- *; [|discriminate] end). rewrite (proj2 (get_ok _ _ _) Ef). cbn [bind]. apply Rf.
Qed.
Lemma measurand_raises m s v : evaluate_measurand T m sd' s = Ok v -> sel_list (m_idx R T m) s <> [] ->
  (forall p, In p (Im (m_idx R T m)) -> exists i f, (i = fst p \/ i = snd p) /\ nth_error (sd_model T sd) i = Some f /\ raising f) -> evaluate_measurand T m sd s = Raise TypeError.
Proof.
  unfold evaluate_measurand. intros H NE HR. destruct (pylast _) as [total|] eqn:Et; cbn [bind] in H |- *; [|discriminate].
  destruct (sel_list (m_idx R T m) s) as [|n series] eqn:Es; [congruence|]. unfold enumerate in *. cbn [length seq combine foldM fst snd] in H |- *.
  destruct (pyget (Im (m_idx R T m)) (Z.of_nat n - 1)) as [pr|] eqn:Ep; cbn [bind] in H |- *; [|discriminate].
  assert (IP : In pr (Im (m_idx R T m))). { unfold pyget in Ep. destruct (0 <=? _)%Z in Ep; [|destruct (0 <=? _)%Z in Ep; [|discriminate]]; apply (proj1 (get_ok _ _ _)) in Ep; eapply nth_error_In; exact Ep. }
  destruct (get (sel_cNm (m_idx R T m) (n :: series)) 0) as [i0|] eqn:Ei0; cbn [bind] in H |- *; [|discriminate]. destruct (get (sel_cNm (m_idx R T m) (n :: series)) (0 + 1)) as [i1|] eqn:Ei1; cbn [bind] in H |- *; [|discriminate].
  destruct (side_eval T m sd' n (fst pr)) as [r1|] eqn:E1; cbn [bind] in H; [|discriminate]. destruct (assign_side 0 _ _ _ _) as [arr|] eqn:Ea in H; cbn [bind] in H; [|discriminate].
  destruct (side_eval T m sd' n (snd pr)) as [r2|] eqn:E2; cbn [bind] in H; [|discriminate].
  destruct (HR pr IP) as (i & f & Hi & Hf & Rf). destruct (side_lower m n (fst pr) r1 E1) as [Q|Q]; [|rewrite Q; reflexivity]. rewrite Q. cbn [bind]. rewrite Ea. cbn [bind].
  destruct Hi as [-> | ->].
  - rewrite (side_raises m n _ f r1 E1 Hf Rf) in Q. discriminate.
  - rewrite (side_raises m n _ f r2 E2 Hf Rf). reflexivity.
Qed.
Lemma K_raises m s v : evaluate_K T m sd' s = Ok v -> sel_list (m_idx R T m) s <> [] ->
  (forall p, In p (Im (m_idx R T m)) -> exists i f, (i = fst p \/ i = snd p) /\ nth_error (sd_model T sd) i = Some f /\ raising f) -> evaluate_K T m sd s = Raise TypeError.
Proof.
  unfold evaluate_K, evaluate_adjusted_measurand. intros H NE HR. destruct (evaluate_measurand T m sd' (SelList (sel_list (m_idx R T m) s))) as [meas|] eqn:E; cbn [bind] in H; [|discriminate].
  rewrite (measurand_raises m (SelList (sel_list (m_idx R T m) s)) meas E NE HR). reflexivity.
Qed.
End Lower.

Section Run.
Context {T : Type} (zeroT : T) (cholesky : list (list R) -> res (list (list R))) (tolA tolB eps tol : R) (xs : list vec).
Theorem raising_run m (sd sd' : sdat T) save a V : FullSpec.ready m sd' -> lower sd sd' -> (forall p, In p (Im (m_idx R T m)) -> exists i f, (i = fst p \/ i = snd p) /\ nth_error (sd_model T sd) i = Some f /\ raising f) ->
  cholesky_total cholesky -> (0 <= tolA)%R -> (exists N, In N (Nm (m_idx R T m)) /\ 1 <= N) -> length a = length (sd_a T sd) -> spd V (length a) ->
  eiv_from cholesky tolA tolB eps tol xs m sd save (a, V) = Raise TypeError.
Proof.
  intros RD LW HR CT HA HN La SV. pose proof LW as (E1 & E2 & E3 & E4 & E5 & _). rewrite E1 in La.
  destruct (eiv_from_outcome cholesky tolA tolB eps tol xs m sd' save a V RD CT HA HN La SV) as (d & L & Ed & EL & FL & SF & FO & NV & _).
  unfold eiv_from. rewrite Ed. cbn [bind]. rewrite EL. cbn [bind]. fold (start sd d a L).
  destruct (solver_facts m _ SF) as (nv & ns & _ & _ & _ & F1 & _ & F2 & F3 & _). cbn [start g_m] in F1, F2, F3. rewrite F3. destruct (rd_ps _ _ RD) as (ps & P1 & _). rewrite P1. cbn [bind].
  unfold eiv_run, n_mu_of, n_vars_of. cbn [start g_m]. rewrite F2, F1. cbn [bind].
  assert (U : unknowns_vec (start sd' d a L) (g_xyza T (start sd d a L))) by (unfold unknowns_vec, n_vars, n_pars; cbn; apply app_length).
  assert (Q : calc_f T (start sd d a L) (g_xyza T (start sd d a L)) = Raise TypeError); [|rewrite Q; reflexivity].
  destruct (residual_ok m (start sd' d a L) SF FO _ U) as (r & ks & EO & EV & _ & EK & _ & EC).
  destruct (est_reverse m (start sd' d a L) SF _ U) as (r' & Er & Ei & _). clear EO EV EK r.
  unfold calc_f in EC |- *. cbn [start g_m] in EC |- *. rewrite F2, F1 in EC |- *. cbn [bind] in EC |- *.
  set (x := g_xyza T (start sd d a L)) in *. destruct (bop Rminus _ _) as [dv|] eqn:Eb in EC; cbn [bind] in EC; [|discriminate]. rewrite Eb. cbn [bind].
  destruct (assign 0 _ dv _) as [f|] eqn:Ef in EC; cbn [bind] in EC; [|discriminate]. rewrite Ef. cbn [bind].
  change (estimate_obj T (start sd d a L)) with (estimate_obj T (start sd' d a L)). rewrite Er in EC |- *. cbn [bind] in EC |- *.
  destruct (evaluate_K T r' _ SelAll) as [ks'|] eqn:EK in EC; cbn [bind] in EC; [|discriminate].
  assert (LW' : lower (estimate_sd T (start sd d a L) x (n_vars (start sd' d a L))) (estimate_sd T (start sd' d a L) x (n_vars (start sd' d a L)))).
  { destruct LW as (A1 & A2 & A3 & A4 & A5 & A6). unfold lower, estimate_sd, start. cbn [sd_a sd_c sd_cs sd_adj sd_model g_ocs g_sd]. split; [reflexivity|]. auto. }
  rewrite (K_raises _ _ LW' r' SelAll ks' EK); [reflexivity| |].
  - cbn [sel_list]. rewrite Ei. destruct (all_selected m sd' (rd_ev _ _ RD)) as (_ & S2). rewrite S2. destruct HN as (N & HN & _). destruct (Nm (m_idx R T m)); [destruct HN|discriminate].
  - rewrite Ei. exact HR.
Qed.
End Run.
