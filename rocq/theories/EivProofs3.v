(** * The whole run with LSMR and MINRES in place: outcome, iterates, descent. *)
From Coq Require Import Reals ZArith Lra Lia.
From Verif Require Import Base BaseLemmas ReaderModel UncModel MuModel SensorSpec SampleSpec TransformModel TransformSpec TransformProofs TransformProofs2 EvalModel EvalSpec
  HistModel GNModel GNAlgebra GNTerms GNAdjoint GNMain GNResidual GNForward GNDeriv GNLoop GNTotal GNOutput PCAlgebra LsmrModel MinresModel EivModel EivSpec EivProofs EivProofs2 GNSpec.
Open Scope nat_scope.

Section Run.
Context {T : Type}.
Variables (m : mobj R T) (st : solver T) (SF : solver_for m st) (FO : functions_ok m st).
Variables (tolA tolB eps : R) (xr : list vec) (HA : (0 <= tolA)%R) (NV : 1 <= n_vars st).
Variables (tol : R) (rc : bool).
Notation run := (eiv_run T tolA tolB eps xr st tol rc).

Lemma cov_total x : unknowns_vec st x -> exists V, cov_matrix T eps xr (with_xyza T st x) = Ok V.
Proof.
  intros Hx. set (sx := with_xyza T st x). pose proof (solver_with m st SF _ Hx) as SX. fold sx in SX. unfold cov_matrix.
  assert (C : forall i j, exists v, cov_element T eps xr sx i j = Ok v).
  { intros i j. unfold cov_element. destruct (dims m sx SX) as (D1 & _). rewrite D1. cbn [bind]. change (n_a_of T sx) with (n_pars sx).
    destruct (pt_unit m sx SX (n_vars sx + j)) as (Pd & E1 & L1). destruct (pt_unit m sx SX (n_vars sx + i)) as (Pc & E2 & L2). rewrite E1, E2. cbn [bind].
    destruct (minres_call T eps xr sx (n_vars sx) Pd) as [s|]; [|eexists; reflexivity]. unfold np_dot. rewrite list_of_len. unfold unknowns_vec in L2. rewrite L2, Nat.eqb_refl. eexists; reflexivity. }
  destruct (mapM_ok_ex (fun i => mapM (fun j => cov_element T eps xr sx i j) (seq 0 (n_a_of T sx))) (seq 0 (n_a_of T sx))) as (V & ->); [|eexists; reflexivity].
  intros i _. apply mapM_ok_ex. intros j _. apply C.
Qed.

Lemma run_outcome : well_numbered m ->
  match run with
  | Ok e => exists xs ss, eiv_steps st (g_xyza T st) xs ss /\ history st tol (g_xyza T st) xs (e_log e) /\
      length (e_log e) = e_iter e /\ length ss = e_iter e /\ 1 <= e_iter e <= n_vars st /\
      (forall k l, nth_error (e_log e) k = Some l -> S k < e_iter e -> ~ criteria l) /\
      (e_conv e = true <-> exists l, nth_error (e_log e) (e_iter e - 1) = Some l /\ criteria l) /\
      (e_conv e = false -> e_iter e = n_vars st) /\
      nth_error xs (e_iter e) = Some (e_xyza e) /\ e_a e = skipn (n_vars st) (e_xyza e) /\ e_cost e = cost_at st (e_xyza e) /\
      (if rc then cov_matrix T eps xr (with_xyza T st (e_xyza e)) = Ok (e_cov e) else e_cov e = map (fun _ => repeat (Some 0%R) (length (e_a e))) (e_a e))
  | Raise x => x = TypeError /\ stationary st (g_xyza T st) \/
      x = ZeroDivisionError /\ exists xs ss y, eiv_steps st (g_xyza T st) xs ss /\ nth_error xs (length ss) = Some y /\ length ss < n_vars st /\ linearly_solvable st y /\ ~ stationary st y
  end.
Proof.
  intros HN. unfold eiv_run. destruct (dims m st SF) as (D1 & D2). rewrite D1, D2. cbn [bind].
  destruct (calc_f_ok m st SF FO (g_xyza T st) (sf_xyza _ _ SF)) as (f & _ & _ & Ef & Lf & _). rewrite Ef. cbn [bind].
  pose proof (eloop_ok m st SF FO tolA tolB HA NV tol (g_xyza T st) (n_vars st) _ _ _ (einv0 m st SF NV tol f Ef)) as L.
  destruct (eiv_loop T tolA tolB st tol (n_vars st) _) as [[g attr]|e]; cbn [bind]; [|exact L].
  destruct L as (xs & ss & [Hl Hu Hn Ha Hs He] & _ & A3 & A4 & A5 & _). cbn [fst snd s_iter s_conv] in *. specialize (A5 eq_refl NV).
  assert (EC : exists cov, (if rc then cov_matrix T eps xr (with_xyza T st (s_xyza g)) else Ok (map (fun _ => repeat (Some 0%R) (length (skipn (n_vars st) (s_xyza g)))) (skipn (n_vars st) (s_xyza g)))) = Ok cov).
  { destruct rc; [apply cov_total, Hu|eexists; reflexivity]. }
  destruct EC as (cov & EC). rewrite EC. cbn [bind].
  pose proof (li_res _ _ _ _ _ Hl) as Er.
  assert (Lres : residual_vec st (s_res g)).
  { destruct (calc_f_ok m _ (solver_with m st SF _ Hu) FO (s_xyza g) Hu) as (f' & _ & _ & Ef' & Lf' & _). assert (f' = s_res g) by congruence. subst f'. exact Lf'. }
  destruct (res_reverse m st SF _ Lres) as (r & Err & _). rewrite Err. cbn [bind].
  destruct (sys_out m st SF (s_xyza g) Hu HN) as (ns' & o & _ & Eo & _). rewrite Eo. cbn [bind].
  rewrite (li_cost _ _ _ _ _ Hl ltac:(lia)). cbn [bind e_log e_iter e_conv e_xyza e_a e_cost e_cov].
  exists xs, ss. split; [exact He|]. split; [exact (li_hist _ _ _ _ _ Hl)|]. split; [symmetry; exact (li_iter _ _ _ _ _ Hl)|]. split; [exact Hn|]. split; [lia|]. split; [exact (li_open _ _ _ _ _ Hl)|].
  split.
  { rewrite (li_conv _ _ _ _ _ Hl). split.
    - intros (l & k & B1 & B2 & B3). exists l. rewrite B1. replace (S k - 1) with k by lia. auto.
    - intros (l & B1 & B2). exists l, (s_iter g - 1). split; [lia|auto]. }
  split; [intros Q; specialize (A4 Q); lia|]. split; [exact (li_last _ _ _ _ _ Hl)|]. split; [reflexivity|]. split; [unfold cost_at; rewrite Er; reflexivity|]. destruct rc; [exact EC|]. injection EC as <-. reflexivity.
Qed.
(** A run that starts where the gradient vanishes. *)
Lemma run_stationary : stationary st (g_xyza T st) -> run = Raise TypeError.
Proof.
  intros St. unfold eiv_run. destruct (dims m st SF) as (D1 & D2). rewrite D1, D2. cbn [bind].
  destruct (res_at m st SF FO (g_xyza T st) (sf_xyza _ _ SF)) as (f & g & Ef & Lf & Eg & Lg). pose proof (proj1 (stationary_iff st _ f g Ef Eg) St) as Z.
  unfold residuals_at in Ef. rewrite with_self in Ef, Eg. rewrite Ef. cbn [bind]. pose proof (call_stationary m st SF FO tolA tolB NV None f g Lf Eg Z) as C. destruct (n_vars st) as [|k]; [lia|]. cbn [eiv_loop fst s_conv].
  unfold eiv_iter. cbn [s_xyza s_res]. rewrite with_self. rewrite C. reflexivity.
Qed.

(** The run is one of those of C27 and C56: for some answers of LSMR. *)
Lemma run_refines e : run = Ok e -> exists lsmr r, lsmr_total lsmr st /\ (forall minres, gn_run T lsmr minres st tol false = Ok r) /\
  r_a r = e_a e /\ r_cost r = e_cost e /\ r_dof r = e_dof e /\ r_values r = e_values e /\ r_ks r = e_ks e /\ r_sys r = e_sys e /\ r_xyza r = e_xyza e.
Proof.
  unfold eiv_run. destruct (dims m st SF) as (D1 & D2). rewrite D1, D2. cbn [bind].
  destruct (calc_f_ok m st SF FO (g_xyza T st) (sf_xyza _ _ SF)) as (f & _ & _ & Ef & Lf & _). rewrite Ef. cbn [bind].
  pose proof (eloop_ok m st SF FO tolA tolB HA NV tol (g_xyza T st) (n_vars st) _ _ _ (einv0 m st SF NV tol f Ef)) as L.
  destruct (eiv_loop T tolA tolB st tol (n_vars st) _) as [[g attr]|e']; cbn [bind]; [|discriminate].
  destruct L as (xs & ss & [Hl Hu Hn Ha Hs He] & _ & _ & _ & _ & A6). cbn [fst snd s_iter s_conv] in *.
  match goal with |- bind ?x _ = _ -> _ => destruct x as [cov|]; cbn [bind]; [|discriminate] end.
  match goal with |- bind ?x _ = _ -> _ => destruct x as [rr|] eqn:Err; cbn [bind]; [|discriminate] end.
  match goal with |- bind ?x _ = _ -> _ => destruct x as [sys|] eqn:Esys; cbn [bind]; [|discriminate] end.
  destruct (s_cost g) as [c|] eqn:Ec; cbn [bind]; [|discriminate]. intros [= <-]. cbn [e_a e_cost e_dof e_values e_ks e_sys e_xyza].
  set (z := repeat 0%R (n_vars st + n_pars st)).
  exists (fun k _ _ => Ok (nth (k - 1) ss z)).
  eexists. split.
  { intros k st' b. eexists. split; [reflexivity|]. destruct (nth_in_or_default (k - 1) ss z) as [Hi|Hi]; [apply Hs, Hi|rewrite Hi; unfold unknowns_vec, z; apply repeat_length]. }
  split.
  { intros minres. unfold gn_run. fold (n_mu_of T st) (n_vars_of T st). rewrite D1, D2. cbn [bind]. rewrite Ef. cbn [bind]. rewrite A6; [cbn [bind]|].
    - rewrite Err. cbn [bind]. rewrite Esys. cbn [bind]. rewrite Ec. cbn [bind]. reflexivity.
    - intros k s Hk st' b. replace (S k - 1) with k by lia. f_equal. apply nth_error_nth. exact Hk. }
  cbn [r_a r_cost r_dof r_values r_ks r_sys r_xyza]. repeat split; reflexivity.
Qed.
End Run.

(** ** Descent *)
Section Descent.
Context {T : Type}.
Variables (m : mobj R T) (st : solver T) (SF : solver_for m st) (FO : functions_ok m st).

Lemma fall h l : derivable_pt_lim h 0 l -> (l < 0)%R -> exists t0, (0 < t0)%R /\ forall t, (0 < t < t0)%R -> (h t < h 0)%R.
Proof.
  intros D Hl. destruct (D (- l / 2)%R ltac:(lra)) as (del & Hd). exists del. split; [apply cond_pos|]. intros t (Ht1 & Ht2).
  specialize (Hd t ltac:(lra) ltac:(rewrite Rabs_right; lra)). apply Rabs_def2 in Hd. rewrite Rplus_0_l in Hd. destruct Hd as (Hd & _).
  assert (Q : ((h t - h 0) / t < l / 2)%R) by lra. apply (Rmult_lt_compat_r t) in Q; [|exact Ht1]. replace ((h t - h 0) / t * t)%R with (h t - h 0)%R in Q by (field; lra).
  assert (l / 2 * t < 0)%R; [|lra]. replace (l / 2 * t)%R with (- (- l / 2 * t))%R by field. assert (0 < - l / 2 * t)%R; [apply Rmult_lt_0_compat; lra|lra].
Qed.
Lemma deriv_sum (F : nat -> R -> R) (l : nat -> R) x ks : (forall k, In k ks -> derivable_pt_lim (F k) x (l k)) ->
  derivable_pt_lim (fun h => rsum (map (fun k => F k h * F k h)%R ks)) x (rsum (map (fun k => 2 * (F k x * l k))%R ks)).
Proof.
  induction ks as [|k ks IH]; intros H.
  - cbn [map]. apply derivable_ext with (f := fun _ => 0%R); [reflexivity|]. apply derivable_pt_lim_const.
  - cbn [map]. apply derivable_ext with (f := fun h => (F k h * F k h + rsum (map (fun k => F k h * F k h) ks))%R); [intros h; rewrite rsum_cons; reflexivity|].
    rewrite rsum_cons. apply derivable_val with (l := (l k * F k x + F k x * l k + rsum (map (fun k => 2 * (F k x * l k)) ks))%R); [ring|].
    apply (derivable_pt_lim_plus (fun h => F k h * F k h)%R (fun h => rsum (map (fun k => F k h * F k h)%R ks))); [|apply IH; intros; apply H; right; auto].
    apply (derivable_pt_lim_mult (F k) (F k)); apply H; left; reflexivity.
Qed.

Lemma step_descends before x s x' d : derivatives_correct m (with_xyza T st x) -> ignores_indices m st -> reference_random m st ->
  eiv_step st before x s x' -> ~ stationary st x -> calc_Px T (with_xyza T st x) s false = Ok d -> descent st x d.
Proof.
  intros DC II RR (Ux & Us & _ & _ & D) NS Ed. specialize (D NS). destruct D as (f & g & Js & Ef & (f' & Ef' & Eg) & EJ & _ & D2).
  assert (f' = f) by (unfold residuals_at in *; congruence). subst f'.
  set (sx := with_xyza T st x) in *. pose proof (solver_with m st SF _ Ux) as SX. fold sx in SX.
  destruct (product_is_derivative m sx s SX FO DC II RR Us) as (dx & Jx & E1 & Ldx & E2 & LJ & Tot & Der). assert (dx = d) by congruence. subst dx. assert (Jx = Js) by congruence. subst Jx.
  change (g_xyza T sx) with x in Tot. change (n_vars sx + n_ks sx) with (n_vars st + n_ks st) in Der.
  set (N := n_vars st + n_ks st) in *.
  assert (C : forall h, cost_at st (vadd x (vscale h d)) = rsum (map (fun i => residual_along sx d i h * residual_along sx d i h)%R (seq 0 N))).
  { intros h. unfold cost_at. destruct (Tot h) as (fh & Eh & Lh). change (calc_f T (with_xyza T st (vadd x (vscale h d))) (vadd x (vscale h d))) with (calc_f T sx (vadd x (vscale h d))). rewrite Eh.
    unfold sum_sq. rewrite (inner_nth fh fh N Lh Lh). f_equal. apply map_ext. intros i. unfold residual_along. change (g_xyza T sx) with x. rewrite Eh. reflexivity. }
  assert (Z : vadd x (vscale 0 d) = x).
  { assert (LL : length x = length (vscale 0 d)) by (rewrite vscale_len; etransitivity; [exact Ux|symmetry; exact Ldx]). apply nth_ext with (d := 0%R) (d' := 0%R); [apply vadd_len, LL|]. intros i Hi.
    rewrite nth_vadd by exact LL. rewrite nth_vscale. ring. }
  assert (Lf : residual_vec st f). { destruct (calc_f_ok m sx SX FO x Ux) as (f2 & _ & _ & Ef2 & Lf2 & _). unfold residuals_at in Ef. fold sx in Ef. assert (f2 = f) by congruence. subst f2. exact Lf2. }
  destruct (fall (fun h => cost_at st (vadd x (vscale h d))) (rsum (map (fun i => 2 * (residual_along sx d i 0 * nth i Js 0))%R (seq 0 N)))) as (t0 & P & H).
  - apply derivable_ext with (f := fun h => rsum (map (fun i => residual_along sx d i h * residual_along sx d i h)%R (seq 0 N))); [intros h; symmetry; apply C|].
    apply deriv_sum. intros i Hi. apply in_seq in Hi. apply Der. lia.
  - assert (E : rsum (map (fun i => 2 * (residual_along sx d i 0 * nth i Js 0))%R (seq 0 N)) = (2 * inner f Js)%R).
    { rewrite (inner_nth f Js N Lf LJ). assert (Q : forall i, residual_along sx d i 0 = nth i f 0%R).
      { intros i. unfold residual_along. change (g_xyza T sx) with x. rewrite Z. unfold residuals_at in Ef. fold sx in Ef. rewrite Ef. reflexivity. }
      generalize (seq 0 N). intros l. induction l as [|i l IH]; [unfold rsum; cbn; ring|]. cbn [map]. rewrite !rsum_cons, IH, Q. ring. }
    rewrite E. destruct (ADJ m sx SX FO s f Us Lf) as (fx & gy & Q1 & Q2 & _ & _ & Q3). assert (fx = Js) by congruence. assert (gy = g) by congruence. subst fx gy.
    rewrite inner_comm, Q3, inner_comm. pose proof (sum_sq_pos Js). lra.
  - exists t0. split; [exact P|]. intros t Ht. specialize (H t Ht). cbn beta in H. rewrite Z in H. exact H.
Qed.
End Descent.
