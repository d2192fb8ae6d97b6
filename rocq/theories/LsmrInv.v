(** * The invariant of the LSMR iteration (damp = 0, exact arithmetic). *)
From Coq Require Import Reals Lra Lia.
From Verif Require Import Base BaseLemmas TransformModel PCAlgebra LsmrModel LsmrAlg.
Open Scope R_scope.

Section Inv.
Variables (m n : nat) (A : matrix) (b : vec).
Definition resid (x : vec) : vec := fun i => b i - mul n A x i.
Definition gam (s : state) : R := l_rhodold s * l_betad s - (l_zeta s - l_thetatilde s * l_tautildeold s).

Record Inv (s : state) (us vs : list vec) (ub gb pd q : vec) : Prop := mkInv {
  i_u : onb m (l_u s :: us);
  i_v : onb n (l_v s :: vs);
  i_AHu : forall u', In u' us -> span vs (mulH m A u');
  i_AHu0 : exists t, span vs t /\ forall i, mulH m A (l_u s) i = l_alpha s * l_v s i + t i;
  i_Av : forall v', In v' vs -> span (l_u s :: us) (mul n A v');
  i_al : 0 < l_alpha s; i_ab : 0 < l_alphabar s; i_rho : 0 < l_rho s; i_rb : 0 < l_rhobar s; i_cb : 0 < l_cbar s; i_rd : 0 < l_rhodold s;
  i_cs : l_cbar s * l_cbar s + l_sbar s * l_sbar s = 1;
  i_ub1 : span (l_u s :: us) ub; i_ub2 : vdot m ub ub = 1; i_ub3 : forall i, mulH m A ub i = l_alphabar s * l_v s i;
  i_h : forall i, mul n A (l_h s) i = mul n A (l_v s) i - l_alpha s * l_u s i + l_alphabar s * ub i;
  i_q : forall i, mul n A (l_hbar s) i = l_rho s * l_rhobar s * q i;
  i_pd : forall i, pd i = l_rhodold s * q i;
  i_pd1 : span (l_u s :: us) pd; i_pd2 : vdot m pd ub = 0; i_pd3 : vdot m pd pd = 1 \/ l_sbar s = 0;
  i_r : forall i, b i - mul n A (l_x s) i = gam s * q i + l_betadd s * ub i;
  i_g1 : span (l_v s :: vs) gb; i_g2 : vdot n gb gb = 1;
  i_g3 : forall j, mulH m A (resid (l_x s)) j = l_zetabar s * gb j;
  i_g4 : forall j, l_v s j - l_sbar s * mulH m A q j = l_cbar s * gb j;
  i_S2 : l_cbar s * l_alphabar s * l_betadd s = l_zetabar s;
  i_S1 : gam s = - l_sbar s * l_alphabar s * l_betadd s;
  i_z : l_zetabar s <> 0; i_d : l_d s = 0; i_min : 0 < l_minrbar s; i_nA : 0 < l_normA2 s
}.

Lemma sqrt_sq x : 0 <= x -> sqrt (x * x) = x.
Proof. intros H. apply sqrt_square, H. Qed.
Lemma vnorm_eq k x r : 0 <= r -> vdot k x x = r * r -> vnorm k x = r.
Proof. intros H E. unfold vnorm. rewrite E. apply sqrt_sq, H. Qed.

(** The next u: orthogonal to the previous ones, of norm beta. *)
Lemma next_u_orth s us vs ub gb pd q : Inv s us vs ub gb pd q -> forall y, In y (l_u s :: us) ->
  vdot m (vsub (mul n A (l_v s)) (vscal (l_alpha s) (l_u s))) y = 0.
Proof.
  intros I y Hy. destruct (onb_hd _ _ _ (i_u _ _ _ _ _ _ _ I)) as (U1 & U2 & U3). destruct (onb_hd _ _ _ (i_v _ _ _ _ _ _ _ I)) as (V1 & V2 & V3).
  rewrite (vdot_lin_l m y (mul n A (l_v s)) (l_u s) _ 1 (- l_alpha s)) by (intros i _; unfold vsub, vscal; ring). rewrite adjoint. destruct Hy as [<-|Hy].
  - destruct (i_AHu0 _ _ _ _ _ _ _ I) as (t & St & Ht). rewrite (vdot_lin n (l_v s) (l_v s) t (mulH m A (l_u s)) (l_alpha s) 1) by (intros j _; rewrite Ht; ring).
    rewrite V1, U1. rewrite (span_orth n vs (l_v s) t V2 St). ring.
  - rewrite (span_orth n vs (l_v s) _ V2 (i_AHu _ _ _ _ _ _ _ I y Hy)). rewrite (U2 y Hy). ring.
Qed.
(** The next v, for a given unit vector u orthogonal to the previous ones with A v = alpha u_old + beta u. *)
Lemma next_v_orth s us vs ub gb pd q u beta : Inv s us vs ub gb pd q -> (forall y, In y (l_u s :: us) -> vdot m u y = 0) -> vdot m u u = 1 ->
  (forall i, mul n A (l_v s) i = l_alpha s * l_u s i + beta * u i) -> forall y, In y (l_v s :: vs) -> vdot n (vsub (mulH m A u) (vscal beta (l_v s))) y = 0.
Proof.
  intros I Ho Hu HA y Hy. destruct (onb_hd _ _ _ (i_v _ _ _ _ _ _ _ I)) as (V1 & V2 & V3).
  rewrite (vdot_lin_l n y (mulH m A u) (l_v s) _ 1 (- beta)) by (intros i _; unfold vsub, vscal; ring). rewrite (vdot_comm n (mulH m A u)), <- adjoint, (vdot_comm m (mul n A y)). destruct Hy as [<-|Hy].
  - rewrite (vdot_lin m u (l_u s) u (mul n A (l_v s)) (l_alpha s) beta) by (intros j _; apply HA). rewrite Hu, V1, (Ho (l_u s) (or_introl eq_refl)). ring.
  - rewrite (span_orth m (l_u s :: us) u _ Ho (i_Av _ _ _ _ _ _ _ I y Hy)). rewrite (V2 y Hy). ring.
Qed.
End Inv.
