(** * One iteration of LSMR keeps the invariant (damp = 0, exact arithmetic). *)
From Coq Require Import Reals Lra Lia.
From Verif Require Import Base BaseLemmas TransformModel PCAlgebra LsmrModel LsmrAlg LsmrInv.
Open Scope R_scope.

Section Step.
Variables (m n : nat) (A : matrix) (b : vec).
Notation Inv := (Inv m n A b).
Notation resid := (resid n A b).

(** The new quantities of one iteration, from the new alpha, beta and the rotations. *)
Record rots (s : state) (beta alpha c s_ rho cbar sbar rhobar ct st rt : R) : Prop := mkRots {
  o_1 : c * c + s_ * s_ = 1; o_2 : rho * c = l_alphabar s; o_3 : rho * s_ = beta; o_4 : 0 < c; o_5 : 0 < rho;
  o_6 : cbar * cbar + sbar * sbar = 1; o_7 : rhobar * cbar = l_cbar s * rho; o_8 : rhobar * sbar = s_ * alpha; o_9 : 0 < cbar; o_10 : 0 < rhobar;
  o_11 : ct * ct + st * st = 1; o_12 : rt * ct = l_rhodold s; o_13 : rt * st = l_sbar s * rho; o_14 : 0 < ct; o_15 : 0 < rt
}.
Section Fixed.
Variables (s : state) (us vs : list vec) (ub gb pd q : vec) (I : Inv s us vs ub gb pd q).
Variables (beta alpha c s_ rho cbar sbar rhobar ct st rt : R) (O : rots s beta alpha c s_ rho cbar sbar rhobar ct st rt).
Variable u' : vec.

Definition P_ : vec := fun i => c * ub i + s_ * u' i.
Definition UB : vec := fun i => - s_ * ub i + c * u' i.
Definition Q_ : vec := fun i => (P_ i - l_sbar s * rho * q i) / rhobar.
Definition PD : vec := fun i => - st * pd i + ct * P_ i.
Definition HB : vec := vsub (l_h s) (vscal (l_sbar s * rho * rho / (l_rho s * l_rhobar s)) (l_hbar s)).
Definition ZE : R := cbar * l_zetabar s.
Definition X_ : vec := vadd (l_x s) (vscal (ZE / (rho * rhobar)) HB).
Definition BH : R := c * l_betadd s.
Definition BDD : R := - s_ * l_betadd s.
Definition BD : R := - st * l_betad s + ct * BH.
Definition TT : R := (l_zeta s - l_thetatilde s * l_tautildeold s) / rt.
Definition G' : R := ct * rhobar * BD - (ZE - st * rhobar * TT).

Lemma gam_eq : gam s = - (l_sbar s * rho) * BH.
Proof. rewrite (i_S1 _ _ _ _ _ _ _ _ _ _ _ I). rewrite <- (o_2 _ _ _ _ _ _ _ _ _ _ _ _ O). unfold BH. ring. Qed.
Lemma ze_eq : (rhobar - sbar * (s_ * alpha)) * BH = ZE.
Proof.
  unfold ZE. rewrite <- (i_S2 _ _ _ _ _ _ _ _ _ _ _ I), <- (o_2 _ _ _ _ _ _ _ _ _ _ _ _ O), <- (o_8 _ _ _ _ _ _ _ _ _ _ _ _ O).
  replace (cbar * (l_cbar s * (rho * c) * l_betadd s)) with (cbar * (l_cbar s * rho) * BH) by (unfold BH; ring). rewrite <- (o_7 _ _ _ _ _ _ _ _ _ _ _ _ O).
  replace ((rhobar - sbar * (rhobar * sbar)) * BH) with (rhobar * (1 - sbar * sbar) * BH) by ring. rewrite <- (o_6 _ _ _ _ _ _ _ _ _ _ _ _ O). ring.
Qed.
Lemma G_eq : G' = BH * rhobar - ZE.
Proof.
  unfold G', TT. pose proof (o_15 _ _ _ _ _ _ _ _ _ _ _ _ O) as Hrt. pose proof gam_eq as HG. unfold gam in HG.
  replace (l_zeta s - l_thetatilde s * l_tautildeold s) with (l_rhodold s * l_betad s + l_sbar s * rho * BH) by lra.
  rewrite <- (o_13 _ _ _ _ _ _ _ _ _ _ _ _ O), <- (o_12 _ _ _ _ _ _ _ _ _ _ _ _ O). unfold BD.
  replace (ct * rhobar * (- st * l_betad s + ct * BH) - (ZE - st * rhobar * ((rt * ct * l_betad s + rt * st * BH) / rt))) with (rhobar * BH * (ct * ct + st * st) - ZE) by (field; lra).
  rewrite (o_11 _ _ _ _ _ _ _ _ _ _ _ _ O). ring.
Qed.
Lemma hb_eq i : mul n A (l_v s) i = l_alpha s * l_u s i + beta * u' i -> mul n A HB i = rho * rhobar * Q_ i.
Proof.
  intros H. unfold HB. pose proof (i_rho _ _ _ _ _ _ _ _ _ _ _ I). pose proof (i_rb _ _ _ _ _ _ _ _ _ _ _ I). pose proof (o_10 _ _ _ _ _ _ _ _ _ _ _ _ O).
  rewrite (mul_lin n A (l_h s) (l_hbar s) _ 1 (- (l_sbar s * rho * rho / (l_rho s * l_rhobar s)))) by (intros j _; unfold vsub, vscal; ring).
  rewrite (i_h _ _ _ _ _ _ _ _ _ _ _ I), (i_q _ _ _ _ _ _ _ _ _ _ _ I), H, <- (o_2 _ _ _ _ _ _ _ _ _ _ _ _ O), <- (o_3 _ _ _ _ _ _ _ _ _ _ _ _ O). unfold Q_, P_. field. repeat split; lra.
Qed.
Lemma x_eq i : mul n A (l_v s) i = l_alpha s * l_u s i + beta * u' i -> mul n A X_ i = mul n A (l_x s) i + ZE * Q_ i.
Proof.
  intros H. unfold X_. pose proof (o_5 _ _ _ _ _ _ _ _ _ _ _ _ O). pose proof (o_10 _ _ _ _ _ _ _ _ _ _ _ _ O).
  rewrite (mul_lin n A (l_x s) HB _ 1 (ZE / (rho * rhobar))) by (intros j _; unfold vadd, vscal; ring). rewrite (hb_eq i H). field. split; lra.
Qed.
Lemma r_eq i : mul n A (l_v s) i = l_alpha s * l_u s i + beta * u' i -> b i - mul n A X_ i = G' * Q_ i + BDD * UB i.
Proof.
  intros H. rewrite (x_eq i H). replace (b i - (mul n A (l_x s) i + ZE * Q_ i)) with (b i - mul n A (l_x s) i - ZE * Q_ i) by ring. rewrite (i_r _ _ _ _ _ _ _ _ _ _ _ I), G_eq, gam_eq.
  pose proof (o_10 _ _ _ _ _ _ _ _ _ _ _ _ O) as Hr. assert (Hq : rhobar * Q_ i = P_ i - l_sbar s * rho * q i) by (unfold Q_; field; lra).
  replace ((BH * rhobar - ZE) * Q_ i) with (BH * (rhobar * Q_ i) - ZE * Q_ i) by ring. rewrite Hq. unfold BH, BDD, UB, P_.
  replace (l_betadd s * ub i) with (l_betadd s * (c * c + s_ * s_) * ub i) by (rewrite (o_1 _ _ _ _ _ _ _ _ _ _ _ _ O); ring). ring.
Qed.
Lemma pd_eq i : PD i = ct * rhobar * Q_ i.
Proof.
  pose proof (o_10 _ _ _ _ _ _ _ _ _ _ _ _ O) as Hr. assert (Hq : rhobar * Q_ i = P_ i - l_sbar s * rho * q i) by (unfold Q_; field; lra).
  replace (ct * rhobar * Q_ i) with (ct * (rhobar * Q_ i)) by ring. rewrite Hq. unfold PD. rewrite (i_pd _ _ _ _ _ _ _ _ _ _ _ I), <- (o_12 _ _ _ _ _ _ _ _ _ _ _ _ O), <- (o_13 _ _ _ _ _ _ _ _ _ _ _ _ O). ring.
Qed.

Section Unit.
Hypotheses (Ho : forall y, In y (l_u s :: us) -> vdot m u' y = 0) (Hu : vdot m u' u' = 1).
Lemma u'_span y : span (l_u s :: us) y -> vdot m u' y = 0.
Proof. apply span_orth, Ho. Qed.
Lemma ub_u' : vdot m u' ub = 0. Proof. apply u'_span, (i_ub1 _ _ _ _ _ _ _ _ _ _ _ I). Qed.
Lemma pd_u' : vdot m u' pd = 0. Proof. apply u'_span, (i_pd1 _ _ _ _ _ _ _ _ _ _ _ I). Qed.
Lemma dot_P y : vdot m P_ y = c * vdot m ub y + s_ * vdot m u' y. Proof. apply vdot_lin_l. reflexivity. Qed.
Lemma dot_UB y : vdot m UB y = - s_ * vdot m ub y + c * vdot m u' y. Proof. apply vdot_lin_l. reflexivity. Qed.
Lemma dot_PD y : vdot m PD y = - st * vdot m pd y + ct * vdot m P_ y. Proof. apply vdot_lin_l. reflexivity. Qed.
Lemma UB_ub : vdot m UB ub = - s_.
Proof. rewrite dot_UB, ub_u', (i_ub2 _ _ _ _ _ _ _ _ _ _ _ I). ring. Qed.
Lemma UB_u' : vdot m UB u' = c.
Proof. rewrite dot_UB, (vdot_comm m ub u'), ub_u', Hu. ring. Qed.
Lemma P_ub : vdot m P_ ub = c.
Proof. rewrite dot_P, ub_u', (i_ub2 _ _ _ _ _ _ _ _ _ _ _ I). ring. Qed.
Lemma P_u' : vdot m P_ u' = s_.
Proof. rewrite dot_P, (vdot_comm m ub u'), ub_u', Hu. ring. Qed.
Lemma UB_unit : vdot m UB UB = 1.
Proof. rewrite dot_UB, (vdot_comm m ub UB), (vdot_comm m u' UB), UB_ub, UB_u', <- (o_1 _ _ _ _ _ _ _ _ _ _ _ _ O). ring. Qed.
Lemma P_unit : vdot m P_ P_ = 1.
Proof. rewrite dot_P, (vdot_comm m ub P_), (vdot_comm m u' P_), P_ub, P_u', <- (o_1 _ _ _ _ _ _ _ _ _ _ _ _ O). ring. Qed.
Lemma P_pd : vdot m P_ pd = 0.
Proof. rewrite dot_P, (vdot_comm m ub pd), (i_pd2 _ _ _ _ _ _ _ _ _ _ _ I), pd_u'. ring. Qed.
Lemma PD_UB : vdot m PD UB = 0.
Proof. rewrite dot_PD, (vdot_comm m pd UB), (vdot_comm m P_ UB), !dot_UB, (vdot_comm m ub pd), (i_pd2 _ _ _ _ _ _ _ _ _ _ _ I), pd_u', (vdot_comm m ub P_), (vdot_comm m u' P_), P_ub, P_u'. ring. Qed.
Lemma PD_unit : vdot m PD PD = 1.
Proof.
  rewrite dot_PD, (vdot_comm m pd PD), (vdot_comm m P_ PD), !dot_PD, (vdot_comm m pd P_), P_pd, P_unit. destruct (i_pd3 _ _ _ _ _ _ _ _ _ _ _ I) as [->|E].
  - pose proof (o_11 _ _ _ _ _ _ _ _ _ _ _ _ O) as H11. ring_simplify. ring_simplify in H11. lra.
  - pose proof (o_13 _ _ _ _ _ _ _ _ _ _ _ _ O) as H13. rewrite E, Rmult_0_l in H13. pose proof (o_15 _ _ _ _ _ _ _ _ _ _ _ _ O). assert (Z : st = 0) by (apply Rmult_integral in H13; destruct H13; lra).
    pose proof (o_11 _ _ _ _ _ _ _ _ _ _ _ _ O) as H11. rewrite Z in *. lra.
Qed.
Lemma PD_span : span (u' :: l_u s :: us) PD.
Proof.
  apply (span_lin _ (- st) ct pd P_); [apply span_tl, (i_pd1 _ _ _ _ _ _ _ _ _ _ _ I)| |reflexivity].
  apply (span_lin _ c s_ ub u'); [apply span_tl, (i_ub1 _ _ _ _ _ _ _ _ _ _ _ I)|apply span_hd|reflexivity].
Qed.
Lemma UB_span : span (u' :: l_u s :: us) UB.
Proof. apply (span_lin _ (- s_) c ub u'); [apply span_tl, (i_ub1 _ _ _ _ _ _ _ _ _ _ _ I)|apply span_hd|reflexivity]. Qed.
Hypothesis HA : forall i, mul n A (l_v s) i = l_alpha s * l_u s i + beta * u' i.
(** The estimate of the residual norm is exact. *)
Lemma normr_eq : vdot m (resid X_) (resid X_) = (G' / (ct * rhobar)) ^ 2 + BDD * BDD.
Proof.
  pose proof (o_10 _ _ _ _ _ _ _ _ _ _ _ _ O). pose proof (o_14 _ _ _ _ _ _ _ _ _ _ _ _ O).
  assert (E : forall i, (i < m)%nat -> resid X_ i = G' / (ct * rhobar) * PD i + BDD * UB i). { intros i _. unfold LsmrInv.resid. rewrite (r_eq i (HA i)), pd_eq. field. split; lra. }
  rewrite (vdot_lin_l m _ PD UB _ _ _ E), !(vdot_comm m _ (resid X_)), !(vdot_lin_l m _ PD UB _ _ _ E), PD_unit, UB_unit, (vdot_comm m UB PD), PD_UB. ring.
Qed.

(** The next v. *)
Variable z : vec.
Hypothesis Hz : forall j, mulH m A u' j = beta * l_v s j + z j.
Lemma AHP j : mulH m A P_ j = rho * l_v s j + s_ * z j.
Proof.
  rewrite (mulH_lin m A ub u' P_ c s_) by reflexivity. rewrite (i_ub3 _ _ _ _ _ _ _ _ _ _ _ I), Hz, <- (o_2 _ _ _ _ _ _ _ _ _ _ _ _ O), <- (o_3 _ _ _ _ _ _ _ _ _ _ _ _ O).
  replace (rho * l_v s j) with (rho * (c * c + s_ * s_) * l_v s j) by (rewrite (o_1 _ _ _ _ _ _ _ _ _ _ _ _ O); ring). ring.
Qed.
Lemma AHUB j : mulH m A UB j = c * z j.
Proof.
  rewrite (mulH_lin m A ub u' UB (- s_) c) by reflexivity. rewrite (i_ub3 _ _ _ _ _ _ _ _ _ _ _ I), Hz, <- (o_2 _ _ _ _ _ _ _ _ _ _ _ _ O), <- (o_3 _ _ _ _ _ _ _ _ _ _ _ _ O). ring.
Qed.
Lemma AHQ j : mulH m A Q_ j = cbar * gb j + s_ / rhobar * z j.
Proof.
  pose proof (o_10 _ _ _ _ _ _ _ _ _ _ _ _ O). rewrite (mulH_lin m A P_ q Q_ (/ rhobar) (- (l_sbar s * rho / rhobar))) by (intros i _; unfold Q_; field; lra). rewrite AHP.
  replace (/ rhobar * (rho * l_v s j + s_ * z j) + - (l_sbar s * rho / rhobar) * mulH m A q j) with (rho / rhobar * (l_v s j - l_sbar s * mulH m A q j) + s_ / rhobar * z j) by (field; lra).
  rewrite (i_g4 _ _ _ _ _ _ _ _ _ _ _ I). replace (rho / rhobar * (l_cbar s * gb j)) with ((l_cbar s * rho) / rhobar * gb j) by (field; lra). rewrite <- (o_7 _ _ _ _ _ _ _ _ _ _ _ _ O). field. lra.
Qed.
Lemma AHr j : mulH m A (resid X_) j = l_zetabar s * gb j - ZE * (cbar * gb j + s_ / rhobar * z j).
Proof.
  rewrite (mulH_lin m A (resid (l_x s)) Q_ _ 1 (- ZE)) by (intros i _; unfold LsmrInv.resid; rewrite (x_eq i (HA i)); ring). rewrite (i_g3 _ _ _ _ _ _ _ _ _ _ _ I), AHQ. ring.
Qed.
End Unit.
End Fixed.
End Step.
