(** * The pivots of MINRES on a positive definite matrix are not smaller than its smallest eigenvalue. *)
From Coq Require Import Reals ZArith Lra Lia.
From Verif Require Import Base BaseLemmas TransformModel PCAlgebra LsmrModel LsmrAlg LsmrSpec LsmrInv MinresModel MinresProofs.
Open Scope R_scope.

Section Pivot.
Variables (n : nat) (A : matrix) (eps rtol etol : R) (itnlim : nat) (b : vec) (alpha : R).
Hypothesis sym : forall i j, (i < n)%nat -> (j < n)%nat -> A i j = A j i.
Hypothesis He : 0 < eps < alpha.
Hypothesis Hd : forall v, alpha * vdot n v v <= vdot n v (mul n A v).
Notation mstep := (mstep n A eps rtol etol itnlim).
Notation mloop := (mloop n A eps rtol etol itnlim).
Notation MInv := (MInv n A b).

Lemma expand v : 1 <= vdot n v v -> alpha * alpha <= vdot n (mul n A v) (mul n A v).
Proof.
  intros H. pose proof (Hd v) as D. pose proof (cauchy n v (mul n A v)) as C.
  pose proof (vdot_pos n v) as P1. pose proof (vdot_pos n (mul n A v)) as P2.
  unfold vnorm in C. set (p := vdot n v v) in *. set (q := vdot n (mul n A v) (mul n A v)) in *.
  pose proof (sqrt_sqrt p P1) as S1. pose proof (sqrt_sqrt q P2) as S2. pose proof (sqrt_pos p) as N1. pose proof (sqrt_pos q) as N2.
  set (a := sqrt p) in *. set (c := sqrt q) in *. rewrite <- S1 in D, H. rewrite <- S2.
  assert (1 <= a). { apply Rnot_lt_le. intros L. assert (a * a < 1 * 1) by (apply Rmult_le_0_lt_compat; lra). lra. }
  assert (alpha * a <= c). { apply (Rmult_le_reg_l a); [lra|]. lra. }
  assert (alpha <= c). { apply (Rle_trans _ (alpha * a)); [|assumption]. rewrite <- (Rmult_1_r alpha) at 1. apply Rmult_le_compat_l; lra. }
  apply Rmult_le_compat; lra.
Qed.

Lemma pivot_step s s' beta1 vs t tp : MInv s vs t tp -> mstep beta1 s = Some s' ->
  span vs (m_w s) -> span vs (m_w2 s) -> (m_itn s = 0%nat \/ eps < m_gmin s) ->
  eps < m_gmin s' /\ span (vn s :: vs) (m_w s') /\ span (vn s :: vs) (m_w2 s').
Proof.
  intros I H Sw Sw2 Hg0.
  destruct (mstep_inv _ _ _ _ _ _ _ _ _ H) as (v & y & alfa & gamma & delta & gbar & Nb & Ev & Ey & Ea & E1 & E2 & E3 & E4 & E5 & Ed & Eg & E6 & E7 & Egm & E8 & E9 & E10 & E11 & E12 & E13 & E14 & E15 & _).
  fold (vn s) in Ev. subst v. pose proof (k_beta _ _ _ _ _ _ _ I) as Pb. destruct (onb_hd _ _ _ (k_onb _ _ _ _ _ _ _ I)) as (V1 & V2 & _).
  assert (Hy : forall i, y i = mul n A (vn s) i - prev s i). { intros i. rewrite Ey. unfold prev. destruct (Nat.leb 1 (m_itn s)); unfold vsub, vscal; ring. }
  assert (Hr2 : forall i, m_r2 s i = m_beta s * vn s i) by (intros i; unfold vn, vscal; field; lra).
  assert (Hr2' : forall i, m_r2 s' i = mul n A (vn s) i - prev s i - alfa * vn s i). { intros i. rewrite E3. unfold vadd, vscal. rewrite Hr2, Hy. field. lra. }
  assert (Ea' : alfa = vdot n (vn s) (mul n A (vn s)) - vdot n (vn s) (prev s)). { rewrite Ea. rewrite (vdot_lin n (vn s) (mul n A (vn s)) (prev s) y 1 (-1)) by (intros i _; rewrite Hy; ring). ring. }
  assert (Sprev : span vs (prev s)) by (destruct (k_vs _ _ _ _ _ _ _ I) as [[E0 ->]|(vk & vs' & L & -> & Po & Hr1 & _)]; [apply span_0; intros i; unfold prev; rewrite E0; reflexivity|apply (span_lin _ (m_beta s) 0 vk vk); [apply span_hd|apply span_hd|intros i; unfold prev; rewrite (proj2 (Nat.leb_le 1 (m_itn s)) L), Hr1; field; lra]]).
  assert (Ovp : vdot n (vn s) (prev s) = 0) by (apply (span_orth n vs); assumption).
  assert (Orth : forall v, In v (vn s :: vs) -> vdot n (m_r2 s') v = 0).
  { intros v Hv. rewrite (vdot_lin_l n v (mul n A (vn s)) (fun i => prev s i + alfa * vn s i) (m_r2 s') 1 (-1)) by (intros i _; rewrite Hr2'; ring).
    rewrite (vdot_lin_l n v (prev s) (vn s) (fun i => prev s i + alfa * vn s i) 1 alfa) by (intros i _; ring). destruct Hv as [<-|Hv].
    - rewrite (vdot_comm n (mul n A (vn s))), (vdot_comm n (prev s)), V1, Ovp. rewrite Ea', Ovp. ring.
    - rewrite (V2 v Hv), (self_adjoint _ _ sym). destruct (k_vs _ _ _ _ _ _ _ I) as [[E0 Ev0]|(vk & vs' & L & Ev0 & Po & Hr1 & (u & Su & Hu) & Hvs)]; [rewrite Ev0 in Hv; destruct Hv|].
      assert (Ep : vdot n (prev s) v = m_beta s * vdot n vk v). { rewrite (vdot_lin_l n v vk vk (prev s) (m_beta s) 0) by (intros i _; unfold prev; rewrite (proj2 (Nat.leb_le 1 (m_itn s)) L), Hr1; field; lra). ring. }
      pose proof (k_onb _ _ _ _ _ _ _ I) as ON. rewrite Ev0 in ON. destruct (onb_hd _ _ _ ON) as (_ & _ & ON2). destruct (onb_hd _ _ _ ON2) as (K1 & K2 & _).
      rewrite Ep. rewrite Ev0 in Hv. destruct Hv as [<-|Hv].
      + rewrite K1. rewrite (vdot_lin n (vn s) (vn s) u (mul n A vk) (m_beta s) 1) by (intros i _; rewrite Hu; ring). rewrite V1, (span_orth n vs (vn s) u V2 Su). ring.
      + rewrite (K2 v Hv). rewrite (span_orth n vs (vn s) (mul n A v) V2 (Hvs v Hv)). ring. }
  assert (Gp : eps <= gamma) by (rewrite Egm; apply Rmax_r).
  pose proof (k_cs _ _ _ _ _ _ _ I) as C0.
  set (u := vsub (vsub (vn s) (vscal (m_epsln s) (m_w2 s))) (vscal delta (m_w s))) in *.
  (* A u *)
  assert (Hw : forall i, mul n A u i = gbar * t i + 1 * m_r2 s' i).
  { intros i. set (q := fun j => vn s j + - m_epsln s * m_w2 s j).
    rewrite (mul_lin n A q (m_w s) _ 1 (- delta)) by (intros j _; unfold u, q, vscal, vsub; ring).
    rewrite (mul_lin n A (vn s) (m_w2 s) q 1 (- m_epsln s)) by (intros j _; unfold q; ring).
    rewrite Hr2', (k_w _ _ _ _ _ _ _ I), (k_t _ _ _ _ _ _ _ I). pose proof (k_w2 _ _ _ _ _ _ _ I i) as W2. replace (1 * (1 * mul n A (vn s) i + - m_epsln s * mul n A (m_w2 s) i)) with (mul n A (vn s) i - m_epsln s * mul n A (m_w2 s) i) by ring.
    replace (m_epsln s * mul n A (m_w2 s) i) with (prev s i - m_dbar s * tp i) by lra. rewrite Ed, Eg.
    replace (m_dbar s * tp i) with ((m_cs s * m_cs s + m_sn s * m_sn s) * (m_dbar s * tp i)) by (rewrite C0; ring).
    replace (alfa * vn s i) with ((m_cs s * m_cs s + m_sn s * m_sn s) * (alfa * vn s i)) by (rewrite C0; ring). ring. }
  pose proof (t_unit _ _ _ _ _ _ _ I) as Tu. assert (St : span (vn s :: vs) t). { apply (span_lin _ (m_sn s) (- m_cs s) tp (vn s)); [apply span_tl, (k_tp _ _ _ _ _ _ _ I)|apply span_hd|]. intros i. rewrite (k_t _ _ _ _ _ _ _ I). ring. }
  pose proof (span_orth n (vn s :: vs) (m_r2 s') t Orth St) as Ort.
  assert (Br : m_beta s' * m_beta s' = vdot n (m_r2 s') (m_r2 s')) by (rewrite E5; apply sqrt_sqrt, vdot_pos).
  assert (Nau : vdot n (mul n A u) (mul n A u) = gbar * gbar + m_beta s' * m_beta s').
  { rewrite (vdot_lin_l n _ _ _ _ _ _ (fun i _ => Hw i)), !(vdot_lin n _ _ _ _ _ _ (fun i _ => Hw i)), (vdot_comm n t (m_r2 s')), Ort, Tu, <- Br. ring. }
  (* u = vn - (a vector of the span of vs) *)
  set (z := fun i => m_epsln s * m_w2 s i + delta * m_w s i).
  assert (Sz : span vs z) by (apply (span_lin _ (m_epsln s) delta (m_w2 s) (m_w s)); [exact Sw2|exact Sw|reflexivity]).
  assert (Nu : 1 <= vdot n u u).
  { assert (Eu : forall i, (i < n)%nat -> u i = 1 * vn s i + (-1) * z i) by (intros i _; unfold u, z, vsub, vscal; ring).
    rewrite (vdot_lin_l n _ _ _ _ _ _ Eu), !(vdot_lin n _ _ _ _ _ _ Eu), V1, (vdot_comm n z (vn s)), (span_orth n vs (vn s) z V2 Sz). pose proof (vdot_pos n z). lra. }
  assert (G : alpha <= normof2 gbar (m_beta s')).
  { pose proof (expand u Nu) as X. rewrite Nau in X. unfold normof2. apply Rnot_lt_le. intros L.
    assert (P0 : 0 <= gbar ^ 2 + m_beta s' ^ 2) by (pose proof (pow2_ge_0 gbar); pose proof (pow2_ge_0 (m_beta s')); lra).
    pose proof (sqrt_pos (gbar ^ 2 + m_beta s' ^ 2)) as P. pose proof (sqrt_sqrt _ P0) as S. set (r := sqrt (gbar ^ 2 + m_beta s' ^ 2)) in *.
    assert (r * r < alpha * alpha) by (apply Rmult_le_0_lt_compat; lra). replace (gbar ^ 2 + m_beta s' ^ 2) with (gbar * gbar + m_beta s' * m_beta s') in S by ring. lra. }
  assert (Ge : eps < gamma) by (rewrite Egm; pose proof (Rmax_l (normof2 gbar (m_beta s')) eps); lra).
  split; [|split].
  - rewrite E14. apply Rmin_glb_lt; [|exact Ge]. destruct (Nat.eqb_spec (m_itn s) 0) as [E0|E0].
    + rewrite Ea', Ovp, Rminus_0_r. pose proof (Hd (vn s)) as D. rewrite V1 in D. rewrite Rabs_right; lra.
    + destruct Hg0 as [E|E]; [contradiction|exact E].
  - rewrite E12. apply (span_lin _ (1 / gamma) (- (1 / gamma)) (vn s) z); [apply span_hd|apply span_tl, Sz|]. intros i. unfold z, vscal. fold (vn s). unfold u, vsub, vscal. ring.
  - rewrite E11. apply span_tl, Sw.
Qed.

Lemma pivot_loop beta1 : forall fuel s s', (m_beta s <> 0 -> exists vs t tp, MInv s vs t tp /\ span vs (m_w s) /\ span vs (m_w2 s)) ->
  (m_itn s = 0%nat \/ eps < m_gmin s) -> mloop fuel beta1 s = Finite s' -> (0 < m_itn s')%nat -> eps < m_gmin s'.
Proof.
  induction fuel as [|f IH]; intros s s' HI Hg H L; cbn [MinresModel.mloop] in H; [injection H as <-; destruct Hg; [lia|assumption]|]. destruct (mstep beta1 s) as [s1|] eqn:E; [|discriminate].
  assert (N : m_beta s <> 0). { unfold MinresModel.mstep in E. intros Z. rewrite (Reqb_t _ _ Z) in E. discriminate. }
  destruct (HI N) as (vs & t & tp & I & Sw & Sw2).
  destruct (pivot_step s s1 beta1 vs t tp I E Sw Sw2 Hg) as (G & Sw' & Sw2').
  destruct (Z.ltb 0 (m_istop s1)); [injection H as <-; exact G|].
  apply (IH s1 s'); [|right; exact G|exact H|exact L]. intros Nb.
  destruct (minres_step n A eps rtol etol itnlim b sym s s1 beta1 vs t tp I E (proj1 He) G) as (_ & _ & _ & R4). destruct (R4 Nb) as (t' & I').
  exists (vn s :: vs), t', t. auto.
Qed.

Lemma msolve_pivots s : msolve n A eps rtol etol itnlim true b = Finite s -> (0 < m_itn s)%nat -> eps < m_gmin s.
Proof.
  intros H L. unfold msolve in H. cbn [negb] in H. destruct (Reqb (vdot n b b) 0) eqn:Z; [injection H as <-; cbn in L; lia|].
  assert (P : 0 < vdot n b b). { pose proof (vdot_pos n b). assert (vdot n b b <> 0) by (intros Q; apply Reqb_iff in Q; congruence). lra. }
  apply (pivot_loop (m_beta (minit n b)) itnlim (minit n b) s); [|left; reflexivity|exact H|exact L]. intros _.
  (* at the start the list of earlier vectors is empty *)
  destruct (minit_inv n A b P) as (vs & t & tp & I). exists vs, t, tp. split; [exact I|]. split; apply span_0; reflexivity.
Qed.
End Pivot.
