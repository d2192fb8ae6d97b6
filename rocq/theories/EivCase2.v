(** * The run on the small problem: it passes twice through the minimum and returns its starting point. *)
From Coq Require Import Reals ZArith Lra Lia.
From Verif Require Import Base BaseLemmas ReaderModel UncModel MuModel SensorSpec SampleSpec TransformModel TransformSpec TransformProofs TransformProofs2 EvalModel EvalSpec
  HistModel GNModel GNAlgebra GNTerms GNAdjoint GNMain GNResidual GNForward GNDeriv GNLoop GNTotal GNOutput PCAlgebra LsmrModel LsmrSpec LsmrAlg LsmrInv LsmrLoop LsmrMono LsmrEigen MinresModel
  EivModel EivSpec EivProofs EivProofs2 EivProofs3 EivCase GNSpec PropertiesEval.
Open Scope nat_scope.

Section G.
Context {T : Type}.
Variables (m : mobj R T) (st : solver T) (SF : solver_for m st) (FO : functions_ok m st).
Variables (tolA tolB : R) (HA : (0 <= tolA)%R) (NV : 1 <= n_vars st).
Variable tol : R.

(** An iteration whose LSMR vector is known and that does not meet the first criterion. *)
Lemma iter_with x0 ga xs ss s x' : einv st tol x0 ga xs ss -> s_conv (fst ga) = false ->
  lsmr_call T tolA tolB (with_xyza T st (s_xyza (fst ga))) (snd ga) (map Ropp (s_res (fst ga))) = Ok (Some s) ->
  moves st (s_xyza (fst ga)) s x' ->
  ~ (0 <= cost_at st (s_xyza (fst ga)) - cost_at st x' < tol * (1 + cost_at st x'))%R ->
  exists ga', eiv_iter T tolA tolB st tol ga = Ok ga' /\ einv st tol x0 ga' (xs ++ [x']) (ss ++ [s]) /\ s_xyza (fst ga') = x' /\ snd ga' = Some s /\
    s_conv (fst ga') = false /\ s_iter (fst ga') = S (s_iter (fst ga)).
Proof.
  intros H Hc El (d & Ed & Ex & Ld) NC. pose proof (eiter_ok m st SF FO tolA tolB HA NV tol x0 ga xs ss H Hc) as I1.
  destruct (eiv_iter T tolA tolB st tol ga) as [ga'|e] eqn:E.
  - destruct I1 as (s' & H' & It & Eg). exists ga'. split; [reflexivity|].
    destruct ga as [g attr]. cbn [fst snd] in *. unfold eiv_iter in E. rewrite El in E. cbn [bind] in E.
    destruct (gn_iter T (fun _ _ _ => Ok s) st tol g) as [g'|] eqn:Eg1; cbn [bind] in E; [|discriminate]. injection E as <-. cbn [fst snd] in *.
    assert (s' = s). { pose proof (ei_attr _ _ _ _ _ _ H') as Q. cbn [snd] in Q. rewrite app_length in Q. cbn [length] in Q. replace (length ss + 1) with (S (length ss)) in Q by lia.
      rewrite nth_error_app2, Nat.sub_diag in Q by lia. cbn in Q. congruence. } subst s'.
    destruct (gn_iter_moves st tol (fun _ _ _ => Ok s) g g' s (fun _ _ => eq_refl) Eg1) as (d' & Ed' & Ex' & _). assert (d' = d) by congruence. subst d'.
    assert (EX : s_xyza g' = x') by congruence. rewrite EX in H'. split; [exact H'|]. split; [exact EX|]. split; [reflexivity|]. split; [|exact It].
    destruct (s_conv g') eqn:Ec; [|reflexivity]. exfalso. pose proof (ei_l _ _ _ _ _ _ H') as L. cbn [fst] in L. destruct (proj1 (li_conv _ _ _ _ _ L) Ec) as (l & k & K1 & K2 & (Cr & _)).
    destruct (li_hist _ _ _ _ _ L) as (L1 & _ & L3). assert (k = s_iter g) by lia. subst k.
    pose proof (li_hist _ _ _ _ _ (ei_l _ _ _ _ _ _ H)) as (M1 & _ & _). pose proof (li_last _ _ _ _ _ (ei_l _ _ _ _ _ _ H)) as M2. pose proof (li_iter _ _ _ _ _ (ei_l _ _ _ _ _ _ H)) as M3. cbn [fst] in M1, M2, M3.
    assert (A1 : nth_error (xs ++ [x']) (s_iter g) = Some (s_xyza g)) by (rewrite nth_error_app1 by lia; exact M2).
    assert (A2 : nth_error (xs ++ [x']) (S (s_iter g)) = Some x') by (rewrite nth_error_app2 by lia; replace (S (s_iter g) - length xs) with 0 by lia; reflexivity).
    destruct (it_res _ _ _ _ _ _ (L3 _ _ _ _ A1 A2 K2)) as (f & f' & gg & F1 & F2 & _ & R1 & R2 & _).
    apply NC. unfold cost_at. rewrite F1, F2, <- R1, <- R2. exact Cr.
  - exfalso. destruct ga as [g attr]. cbn [fst snd] in *. unfold eiv_iter in E. rewrite El in E. cbn [bind] in E.
    pose proof (ei_attr _ _ _ _ _ _ H) as _. 
    destruct (iter_total m st SF FO (fun _ _ _ => Ok s) tol g NV) as (g' & E2 & _).
    + intros k st' b. exists s. split; [reflexivity|].
      pose proof (call_at m st SF FO tolA tolB HA NV (s_xyza g) (s_res g) attr (ei_u _ _ _ _ _ _ H) (li_res _ _ _ _ _ (ei_l _ _ _ _ _ _ H))) as C.
      rewrite El in C. apply C. intros a Ea. apply (ei_all _ _ _ _ _ _ H). pose proof (ei_attr _ _ _ _ _ _ H) as Q. cbn [snd] in Q. rewrite Ea in Q. destruct (length ss); [discriminate|]. eapply nth_error_In. symmetry. exact Q.
    + exact (ei_u _ _ _ _ _ _ H).
    + rewrite E2 in E. discriminate.
Qed.
(** At a stationary point the vector of the iteration before is used again. *)
Lemma call_again x f s : unknowns_vec st x -> residuals_at st x f -> unknowns_vec st s -> stationary st x ->
  lsmr_call T tolA tolB (with_xyza T st x) (Some s) (map Ropp f) = Ok (Some s).
Proof.
  intros Ux Ef Us St. pose proof (call_at m st SF FO tolA tolB HA NV x f (Some s) Ux Ef) as C.
  destruct (lsmr_call T tolA tolB (with_xyza T st x) (Some s) (map Ropp f)) as [[s'|]|e].
  - destruct C as (_ & C & _); [intros a [= <-]; exact Us|]. specialize (C St). congruence.
  - destruct C as (_ & C); [intros a [= <-]; exact Us|discriminate].
  - destruct C as (_ & _ & C); [intros a [= <-]; exact Us|contradiction].
Qed.
End G.

Section Run.
Local Open Scope R_scope.
Variables (tolA tolB eps : R) (xr : list vec) (HA : 0 <= tolA) (tol : R) (Ht : tol <= 4 / 5) (rc : bool).
Notation st := (oxst 1 (-1)).
Notation m := (oxm 1 (-1)).
Definition x_start : list R := [0; 0; 0; 0; 0].
Definition x_min : list R := [-1/3; 1/3; 1/3; -1/3; 0].
Definition x_far : list R := [-2/3; 2/3; 2/3; -2/3; 0].
Definition s_fwd : list R := [-1/3; 1/3; 1/3; -1/3; 0].
Definition s_back : list R := [1/3; -1/3; -1/3; 1/3; 0].

Lemma ox_nv : (1 <= n_vars st)%nat.
Proof. destruct (ox_dims 1 (-1)) as (-> & _). lia. Qed.
Lemma ox_len x : length x = 5%nat -> unknowns_vec st x.
Proof. unfold unknowns_vec. destruct (ox_dims 1 (-1)) as (-> & _ & ->). auto. Qed.
Lemma ox_rlen x : length x = 6%nat -> residual_vec st x.
Proof. unfold residual_vec. destruct (ox_dims 1 (-1)) as (-> & -> & _). auto. Qed.
Lemma neg1 : 1 <> -1.
Proof. lra. Qed.

(** The exact step at the start and at the far point. *)
Lemma ox_step x1 x2 x3 x4 x5 c attr f : residuals_at st [x1; x2; x3; x4; x5] f ->
  (x5 + x3 - x1 - 1) = - (x5 + x4 - x2 + 1) -> x3 = - x1 -> x2 = - x1 -> x4 = x1 -> x5 = 0 -> c = 3 -> 3 * x1 <> -1 ->
  lsmr_call nat tolA tolB (with_xyza nat st [x1; x2; x3; x4; x5]) attr (map Ropp f) = Ok (Some [-1/3 - x1; 1/3 - x2; 1/3 - x3; -1/3 - x4; 0]).
Proof.
  intros Ef E0 E3 E2 E4 E5 -> N. pose proof (ox_f 1 (-1) x1 x2 x3 x4 x5) as F. unfold residuals_at in Ef, F. rewrite F in Ef. injection Ef as <-.
  set (ff := [x1; x2; x3; x4; x5 + x3 - x1 - 1; x5 + x4 - x2 - -1]) in *.
  set (g := [x1 - (x5 + x3 - x1 - 1); x2 - (x5 + x4 - x2 - -1); x3 + (x5 + x3 - x1 - 1); x4 + (x5 + x4 - x2 - -1); (x5 + x3 - x1 - 1) + (x5 + x4 - x2 - -1)]).
  destruct (call_exact m st (ox_solver 1 (-1)) (ox_functions 1 (-1)) tolA tolB HA ox_nv [x1; x2; x3; x4; x5] ff g
    [3 * x1 + 1; - (3 * x1 + 1); - (3 * x1 + 1); 3 * x1 + 1; -2 * (3 * x1 + 1); 2 * (3 * x1 + 1)] 3 attr) as (s & Js & r & Es & Ls & EJ & Er & Z).
  - apply ox_len. reflexivity.
  - exact F.
  - apply ox_rlen. reflexivity.
  - apply ox_len. reflexivity.
  - apply ox_rlen. reflexivity.
  - apply ox_Jt.
  - unfold g. rewrite ox_J. f_equal. subst. repeat (apply (f_equal2 cons); [ring|]). reflexivity.
  - rewrite ox_Jt. f_equal. unfold g, vscale. cbn [map]. subst. repeat (apply (f_equal2 cons); [ring|]). reflexivity.
  - intros Zg. specialize (Zg (x1 - (x5 + x3 - x1 - 1)) ltac:(left; reflexivity)). apply N. subst. lra.
  - apply ox_unsolvable; [exact neg1|apply ox_len; reflexivity].
  - rewrite Es. f_equal. f_equal. destruct (five 1 (-1) s Ls) as (s1 & s2 & s3 & s4 & s5 & ->). rewrite ox_J in EJ. injection EJ as <-. unfold ff in Er. cbn [vadd] in Er. rewrite ox_Jt in Er. injection Er as <-.
    pose proof (Z _ (or_introl eq_refl)) as Z1. pose proof (Z _ (or_intror (or_introl eq_refl))) as Z2. pose proof (Z _ (or_intror (or_intror (or_introl eq_refl)))) as Z3.
    pose proof (Z _ (or_intror (or_intror (or_intror (or_introl eq_refl))))) as Z4. pose proof (Z _ (or_intror (or_intror (or_intror (or_intror (or_introl eq_refl)))))) as Z5. clear Z.
    subst. repeat (apply (f_equal2 cons); [lra|]). reflexivity.
Qed.
Lemma ox_moves x1 x2 x3 x4 x5 s1 s2 s3 s4 s5 x' : x' = [x1 + s1; x2 + s2; x3 + s3; x4 + s4; x5 + s5] -> moves st [x1; x2; x3; x4; x5] [s1; s2; s3; s4; s5] x'.
Proof. intros ->. exists [s1; s2; s3; s4; s5]. split; [apply ox_P|]. split; reflexivity. Qed.
Lemma ox_stationary : stationary st x_min.
Proof.
  unfold x_min. eexists. split; [eexists; split; [apply ox_f|apply ox_Jt]|]. intros a [<-|[<-|[<-|[<-|[<-|[]]]]]]; lra.
Qed.
Ltac same := repeat (apply (f_equal2 cons); [lra|]); reflexivity.

Lemma ox_x0 : g_xyza nat st = x_start.
Proof. assert (E : exists l, g_xyza nat st = l /\ l = x_start) by (eexists; split; [lazy -[Rplus Rmult Rdiv Rinv Ropp Rminus IZR]; reflexivity|unfold x_start; repeat (apply (f_equal2 cons); [field|]); reflexivity]). destruct E as (l & -> & ->). reflexivity. Qed.
Lemma ox_run : exists e, eiv_run nat tolA tolB eps xr st tol rc = Ok e /\ e_xyza e = x_start /\ e_iter e = 4%nat /\ e_conv e = false /\
  exists xs ss, eiv_steps st x_start xs ss /\ length ss = e_iter e /\ nth_error xs 1 = Some x_min.
Proof.
  pose proof (run_outcome m st (ox_solver 1 (-1)) (ox_functions 1 (-1)) tolA tolB eps xr HA ox_nv tol rc (ox_numbered 1 (-1))) as RO.
  destruct (eiv_run nat tolA tolB eps xr st tol rc) as [e|ex] eqn:ER.
  2:{ exfalso. destruct RO as [(_ & (g & (f & Ef & Eg) & Z))|(_ & xs & ss & y & St & Ey & _ & L & _)].
      - rewrite ox_x0 in Ef, Eg. unfold x_start in Ef, Eg. pose proof (ox_f 1 (-1) 0 0 0 0 0) as F. unfold residuals_at in *. rewrite F in Ef. injection Ef as <-. rewrite ox_Jt in Eg. injection Eg as <-. specialize (Z _ (or_introl eq_refl)). lra.
      - eapply (ox_unsolvable 1 (-1) y neg1); [|exact L]. destruct St as (_ & S2 & S3). destruct (length ss) as [|k] eqn:Ek.
        + rewrite ox_x0 in S2. assert (y = x_start) by congruence. subst y. apply ox_len. reflexivity.
        + destruct (nth_error xs k) as [x|] eqn:Ex; [|exfalso; apply nth_error_None in Ex; assert (S k < length xs)%nat by (apply nth_error_Some; congruence); lia].
          destruct (nth_error ss k) as [s|] eqn:Es; [|exfalso; apply nth_error_None in Es; lia].
          destruct (S3 k x s y Ex Es Ey) as (Ux & _ & (d & _ & -> & Ld) & _). unfold unknowns_vec in *. rewrite vadd_len; congruence. }
  exists e. split; [reflexivity|]. clear RO. unfold eiv_run in ER.
  destruct (dims m st (ox_solver 1 (-1))) as (D1 & D2). rewrite D1, D2 in ER. cbn [bind] in ER.
  pose proof (ox_f 1 (-1) 0 0 0 0 0) as F0. set (f0 := [0; 0; 0; 0; 0 + 0 - 0 - 1; 0 + 0 - 0 - -1]) in F0.
  assert (F0' : calc_f nat st (g_xyza nat st) = Ok f0) by (rewrite <- (with_self st), ox_x0; exact F0). rewrite F0' in ER. cbn [bind] in ER.
  pose proof (einv0 m st (ox_solver 1 (-1)) ox_nv tol f0 F0') as I0. set (ga0 := (mkG 0 (g_xyza nat st) f0 (cost_of f0) None false [], None)) in *. rewrite ox_x0 in I0.
  (* 1 *)
  destruct (iter_with m st (ox_solver 1 (-1)) (ox_functions 1 (-1)) tolA tolB HA ox_nv tol x_start ga0 _ _ s_fwd x_min I0 eq_refl) as (ga1 & E1 & I1 & X1 & A1 & C1 & T1).
  { change (s_xyza (fst ga0)) with (g_xyza nat st); rewrite ox_x0; unfold x_start. etransitivity; [apply (ox_step 0 0 0 0 0 3); [exact F0|try lra; auto ..]|]. f_equal. f_equal. unfold s_fwd. same. }
  { change (s_xyza (fst ga0)) with (g_xyza nat st); rewrite ox_x0. apply ox_moves. unfold x_min. same. }
  { change (s_xyza (fst ga0)) with (g_xyza nat st); rewrite ox_x0; unfold x_start. unfold x_min. rewrite !ox_cost. intros (_ & Q). lra. }
  (* 2 *)
  pose proof (li_res _ _ _ _ _ (ei_l _ _ _ _ _ _ I1)) as R1. rewrite X1 in R1.
  destruct (iter_with m st (ox_solver 1 (-1)) (ox_functions 1 (-1)) tolA tolB HA ox_nv tol x_start ga1 _ _ s_fwd x_far I1 C1) as (ga2 & E2 & I2 & X2 & A2 & C2 & T2).
  { rewrite X1, A1. apply (call_again m st (ox_solver 1 (-1)) (ox_functions 1 (-1)) tolA tolB HA ox_nv); [apply ox_len; reflexivity|exact R1|apply ox_len; reflexivity|apply ox_stationary]. }
  { rewrite X1. apply ox_moves. unfold x_far. same. }
  { rewrite X1. unfold x_min, x_far. rewrite !ox_cost. intros (Q & _). lra. }
  (* 3 *)
  pose proof (li_res _ _ _ _ _ (ei_l _ _ _ _ _ _ I2)) as R2. rewrite X2 in R2.
  destruct (iter_with m st (ox_solver 1 (-1)) (ox_functions 1 (-1)) tolA tolB HA ox_nv tol x_start ga2 _ _ s_back x_min I2 C2) as (ga3 & E3 & I3 & X3 & A3 & C3 & T3).
  { rewrite X2. etransitivity; [unfold x_far; apply (ox_step (-2/3) (2/3) (2/3) (-2/3) 0 3); [exact R2|try lra; auto ..]|]. f_equal. f_equal. unfold s_back. same. }
  { rewrite X2. apply ox_moves. unfold x_min. same. }
  { rewrite X2. unfold x_min, x_far. rewrite !ox_cost. intros (_ & Q). lra. }
  (* 4 *)
  pose proof (li_res _ _ _ _ _ (ei_l _ _ _ _ _ _ I3)) as R3. rewrite X3 in R3.
  destruct (iter_with m st (ox_solver 1 (-1)) (ox_functions 1 (-1)) tolA tolB HA ox_nv tol x_start ga3 _ _ s_back x_start I3 C3) as (ga4 & E4 & I4 & X4 & A4 & C4 & T4).
  { rewrite X3, A3. apply (call_again m st (ox_solver 1 (-1)) (ox_functions 1 (-1)) tolA tolB HA ox_nv); [apply ox_len; reflexivity|exact R3|apply ox_len; reflexivity|apply ox_stationary]. }
  { rewrite X3. apply ox_moves. unfold x_start. same. }
  { rewrite X3. unfold x_min, x_start. rewrite !ox_cost. intros (Q & _). lra. }
  destruct (ox_dims 1 (-1)) as (N4 & _). assert (EL : eiv_loop nat tolA tolB st tol (n_vars st) ga0 = Ok ga4).
  { rewrite N4. cbn [eiv_loop]. change (s_conv (fst ga0)) with false. cbn match. rewrite E1. cbn [bind]. rewrite C1, E2. cbn [bind]. rewrite C2, E3. cbn [bind]. rewrite C3, E4. reflexivity. }
  rewrite EL in ER. cbn [bind] in ER.
  repeat (match type of ER with bind ?x _ = _ => destruct x as [?|]; cbn [bind] in ER; [|discriminate] end). injection ER as <-. cbn [e_xyza e_iter e_conv].
  split; [exact X4|]. assert (It : s_iter (fst ga4) = 4%nat) by (rewrite T4, T3, T2, T1; reflexivity). split; [exact It|]. split; [exact C4|].
  eexists _, _. split; [exact (ei_steps _ _ _ _ _ _ I4)|]. split; [exact (ei_len _ _ _ _ _ _ I4)|]. reflexivity.
Qed.
Lemma ox_costs : cost_at st x_start = 2 /\ cost_at st x_min = 2 / 3 /\ forall x, unknowns_vec st x -> 2 / 3 <= cost_at st x.
Proof.
  unfold x_start, x_min. rewrite !ox_cost. split; [lra|]. split; [lra|]. intros x Ux. destruct (five 1 (-1) x Ux) as (a & b & c & d & e & ->). rewrite ox_cost.
  assert (Q : 0 <= (a + 1/3) ^ 2 + (b - 1/3) ^ 2 + (c - 1/3) ^ 2 + (d + 1/3) ^ 2 + (e + c - a - 2/3) ^ 2 + (e + d - b + 2/3) ^ 2).
  { repeat apply Rplus_le_le_0_compat; apply pow2_ge_0. }
  nra.
Qed.
End Run.
