(** * The MINRES iteration (exact arithmetic). *)
From Coq Require Import Reals ZArith Lra Lia.
From Verif Require Import Base BaseLemmas TransformModel PCAlgebra LsmrModel LsmrAlg LsmrSpec LsmrInv MinresModel.
Open Scope R_scope.

Section Minres.
Variables (n : nat) (A : matrix) (eps rtol etol : R) (itnlim : nat).
Notation mstep := (mstep n A eps rtol etol itnlim).
Notation mloop := (mloop n A eps rtol etol itnlim).

(** ** One iteration, opened *)
Lemma mstep_inv beta1 s s' : mstep beta1 s = Some s' ->
  exists v y alfa gamma delta gbar, m_beta s <> 0 /\ v = vscal (1 / m_beta s) (m_r2 s) /\
  y = (if Nat.leb 1 (m_itn s) then vsub (mul n A v) (vscal (m_beta s / m_oldb s) (m_r1 s)) else mul n A v) /\ alfa = vdot n v y /\
  m_itn s' = S (m_itn s) /\ m_r1 s' = m_r2 s /\ m_r2 s' = vadd (vscal (- alfa / m_beta s) (m_r2 s)) y /\ m_oldb s' = m_beta s /\ m_beta s' = sqrt (vdot n (m_r2 s') (m_r2 s')) /\
  delta = m_cs s * m_dbar s + m_sn s * alfa /\ gbar = m_sn s * m_dbar s - m_cs s * alfa /\ m_epsln s' = m_sn s * m_beta s' /\ m_dbar s' = - m_cs s * m_beta s' /\
  gamma = Rmax (normof2 gbar (m_beta s')) eps /\ m_cs s' = gbar / gamma /\ m_sn s' = m_beta s' / gamma /\ m_phibar s' = m_sn s' * m_phibar s /\ m_w2 s' = m_w s /\
  m_w s' = vscal (1 / gamma) (vsub (vsub v (vscal (m_epsln s) (m_w2 s))) (vscal delta (m_w s))) /\ m_x s' = vadd (m_x s) (vscal (m_cs s' * m_phibar s) (m_w s')) /\
  m_gmin s' = Rmin (if Nat.eqb (m_itn s) 0 then Rabs alfa else m_gmin s) gamma /\ m_rnorm s' = m_phibar s' /\
  m_Anorm s' = sqrt (m_tnorm2 s + alfa ^ 2 + m_beta s ^ 2 + m_beta s' ^ 2) /\ m_tnorm2 s' = m_tnorm2 s + alfa ^ 2 + m_beta s ^ 2 + m_beta s' ^ 2 /\
  m_ynorm s' = sqrt ((m_rhs1 s / gamma) ^ 2 + m_ynorm2 s) /\ m_ynorm2 s' = (m_rhs1 s / gamma) ^ 2 + m_ynorm2 s /\ m_Anorm s' * m_ynorm s' <> 0 /\ m_Arnorm s' = m_phibar s * normof2 gbar (m_dbar s') /\
  exists istop, m_istop s' = mflags eps rtol itnlim istop (m_itn s') (m_rnorm s' / (m_Anorm s' * m_ynorm s')) (normof2 gbar (m_dbar s') / m_Anorm s') (m_Anorm s' * m_ynorm s' * eps) beta1 (m_Acond s') /\
    (istop = 10%Z \/ istop = if Nat.eqb (m_itn s) 0 then (if Rleb (m_beta s' / beta1) (10 * eps) then (-1)%Z else m_istop s) else m_istop s).
Proof.
  unfold MinresModel.mstep. destruct (Reqb (m_beta s) 0) eqn:E; [discriminate|]. cbv zeta.
  match goal with |- context [Reqb ?p 0] => destruct (Reqb p 0) eqn:E2 end; [discriminate|]. intros [= <-].
  assert (N : m_beta s <> 0) by (intros H; apply Reqb_iff in H; congruence).
  match type of E2 with Reqb ?p 0 = _ => assert (N2 : p <> 0) by (intros H; apply Reqb_iff in H; congruence) end.
  cbn [m_itn m_r1 m_r2 m_oldb m_beta m_dbar m_epsln m_phibar m_rhs1 m_rhs2 m_tnorm2 m_ynorm2 m_cs m_sn m_w m_w2 m_x m_gmax m_gmin m_istop m_Arnorm m_rnorm m_Anorm m_ynorm m_Acond].
  do 6 eexists. split; [exact N|]. do 19 (split; [reflexivity|]). split; [change (Nat.eqb (S (m_itn s)) 1) with (Nat.eqb (m_itn s) 0); destruct (Nat.eqb (m_itn s) 0); reflexivity|]. do 5 (split; [reflexivity|]). split; [exact N2|]. split; [reflexivity|].
  eexists. split; [reflexivity|]. change (Nat.eqb (S (m_itn s)) 1) with (Nat.eqb (m_itn s) 0).
  match goal with |- context [if ?c && ?d then 10%Z else _] => destruct (c && d) end; auto.
Qed.
(** ** The invariant *)
Section Inv.
Variable b : vec.
Hypothesis sym : forall i j, (i < n)%nat -> (j < n)%nat -> A i j = A j i.
Notation resid := (residual n A b).

Lemma self_adjoint x y : vdot n (mul n A x) y = vdot n x (mul n A y).
Proof.
  rewrite adjoint. unfold vdot. f_equal. apply map_ext_in. intros j Hj. f_equal. unfold mulH, mul. f_equal. apply map_ext_in. intros i Hi. apply in_seq in Hi, Hj. rewrite (sym i j) by lia. reflexivity.
Qed.

Definition prev (s : mstate) : vec := fun i => if Nat.leb 1 (m_itn s) then m_beta s / m_oldb s * m_r1 s i else 0.
Definition vn (s : mstate) : vec := vscal (1 / m_beta s) (m_r2 s).
Record MInv (s : mstate) (vs : list vec) (t tp : vec) : Prop := mkMInv {
  k_beta : 0 < m_beta s;
  k_onb : onb n (vn s :: vs);
  k_vs : (m_itn s = 0%nat /\ vs = []) \/ (exists vk vs', (1 <= m_itn s)%nat /\ vs = vk :: vs' /\ 0 < m_oldb s /\ (forall i, m_r1 s i = m_oldb s * vk i) /\
           (exists u, span vs u /\ forall i, mul n A vk i = m_beta s * vn s i + u i) /\ forall v, In v vs' -> span vs (mul n A v));
  k_t : forall i, t i = m_sn s * tp i - m_cs s * vn s i;
  k_w : forall i, mul n A (m_w s) i = m_cs s * tp i + m_sn s * vn s i;
  k_w2 : forall i, prev s i - m_epsln s * mul n A (m_w2 s) i = m_dbar s * tp i;
  k_cs : m_cs s * m_cs s + m_sn s * m_sn s = 1;
  k_r : forall i, b i - mul n A (m_x s) i = m_phibar s * t i;
  k_tp : span vs tp; k_tpn : vdot n tp tp = 1 \/ m_sn s = 0;
  k_phi : 0 <= m_phibar s
}.

Lemma t_unit s vs t tp : MInv s vs t tp -> vdot n t t = 1.
Proof.
  intros I. destruct (onb_hd _ _ _ (k_onb _ _ _ _ I)) as (V1 & V2 & _). pose proof (span_orth n vs (vn s) tp V2 (k_tp _ _ _ _ I)) as O. pose proof (k_cs _ _ _ _ I) as C.
  assert (E : forall i, (i < n)%nat -> t i = m_sn s * tp i + - m_cs s * vn s i) by (intros i _; rewrite (k_t _ _ _ _ I); ring).
  rewrite (vdot_lin_l n _ _ _ _ _ _ E), !(vdot_lin n _ _ _ _ _ _ E), (vdot_comm n tp (vn s)), O, V1. destruct (k_tpn _ _ _ _ I) as [E1|E1]; rewrite E1 in *; [lra|].
  replace (0 * (0 * vdot n tp tp + - m_cs s * 0) + - m_cs s * (0 * 0 + - m_cs s * 1)) with (m_cs s * m_cs s + 0 * 0) by ring. exact C.
Qed.

(** ** One iteration keeps the invariant *)
Section Step.
Variables (s s' : mstate) (beta1 : R) (vs : list vec) (t tp : vec) (I : MInv s vs t tp) (H : mstep beta1 s = Some s') (Heps : 0 < eps) (Hg : eps < m_gmin s').
Lemma minres_step : m_rnorm s' = vnorm n (resid (m_x s')) /\ m_rnorm s' <= m_phibar s /\ m_rnorm s' = m_phibar s' /\ (m_beta s' <> 0 -> exists t', MInv s' (vn s :: vs) t' t).
Proof.
  destruct (mstep_inv _ _ _ H) as (v & y & alfa & gamma & delta & gbar & Nb & Ev & Ey & Ea & E1 & E2 & E3 & E4 & E5 & Ed & Eg & E6 & E7 & Egm & E8 & E9 & E10 & E11 & E12 & E13 & E14 & E15 & E16 & E17 & E18 & E19 & E20 & E21 & _).
  fold (vn s) in Ev. subst v. pose proof (k_beta _ _ _ _ I) as Pb. destruct (onb_hd _ _ _ (k_onb _ _ _ _ I)) as (V1 & V2 & _).
  assert (Hy : forall i, y i = mul n A (vn s) i - prev s i). { intros i. rewrite Ey. unfold prev. destruct (Nat.leb 1 (m_itn s)); unfold vsub, vscal; ring. }
  assert (Hr2 : forall i, m_r2 s i = m_beta s * vn s i) by (intros i; unfold vn, vscal; field; lra).
  assert (Hr2' : forall i, m_r2 s' i = mul n A (vn s) i - prev s i - alfa * vn s i). { intros i. rewrite E3. unfold vadd, vscal. rewrite Hr2, Hy. field. lra. }
  assert (Ea' : alfa = vdot n (vn s) (mul n A (vn s)) - vdot n (vn s) (prev s)). { rewrite Ea. rewrite (vdot_lin n (vn s) (mul n A (vn s)) (prev s) y 1 (-1)) by (intros i _; rewrite Hy; ring). ring. }
  assert (Pprev : exists c, span vs (prev s) /\ (forall u, vdot n u (prev s) = c u)) by (exists (fun u => vdot n u (prev s)); split; [|reflexivity]; destruct (k_vs _ _ _ _ I) as [[E0 ->]|(vk & vs' & L & -> & Po & Hr1 & _)]; [apply span_0; intros i; unfold prev; rewrite E0; reflexivity|apply (span_lin _ (m_beta s) 0 vk vk); [apply span_hd|apply span_hd|intros i; unfold prev; rewrite (proj2 (Nat.leb_le 1 (m_itn s)) L), Hr1; field; lra]]).
  destruct Pprev as (_ & Sprev & _).
  assert (Ovp : vdot n (vn s) (prev s) = 0) by (apply (span_orth n vs); assumption).
  (* orthogonality of the next vector *)
  assert (Orth : forall v, In v (vn s :: vs) -> vdot n (m_r2 s') v = 0).
  { intros v Hv. rewrite (vdot_lin_l n v (mul n A (vn s)) (fun i => prev s i + alfa * vn s i) (m_r2 s') 1 (-1)) by (intros i _; rewrite Hr2'; ring).
    rewrite (vdot_lin_l n v (prev s) (vn s) (fun i => prev s i + alfa * vn s i) 1 alfa) by (intros i _; ring). destruct Hv as [<-|Hv].
    - rewrite (vdot_comm n (mul n A (vn s))), (vdot_comm n (prev s)), V1, Ovp. rewrite Ea', Ovp. ring.
    - rewrite (V2 v Hv), self_adjoint. destruct (k_vs _ _ _ _ I) as [[E0 Ev0]|(vk & vs' & L & Ev0 & Po & Hr1 & (u & Su & Hu) & Hvs)]; [rewrite Ev0 in Hv; destruct Hv|].
      assert (Ep : vdot n (prev s) v = m_beta s * vdot n vk v). { rewrite (vdot_lin_l n v vk vk (prev s) (m_beta s) 0) by (intros i _; unfold prev; rewrite (proj2 (Nat.leb_le 1 (m_itn s)) L), Hr1; field; lra). ring. }
      pose proof (k_onb _ _ _ _ I) as ON. rewrite Ev0 in ON. destruct (onb_hd _ _ _ ON) as (_ & _ & ON2). destruct (onb_hd _ _ _ ON2) as (K1 & K2 & _).
      rewrite Ep. rewrite Ev0 in Hv. destruct Hv as [<-|Hv].
      + rewrite K1. rewrite (vdot_lin n (vn s) (vn s) u (mul n A vk) (m_beta s) 1) by (intros i _; rewrite Hu; ring). rewrite V1, (span_orth n vs (vn s) u V2 Su). ring.
      + rewrite (K2 v Hv). rewrite (span_orth n vs (vn s) (mul n A v) V2 (Hvs v Hv)). ring. }
  assert (Pb' : 0 <= m_beta s') by (rewrite E5; apply sqrt_pos).
  (* the rotation *)
  assert (Gm : eps < gamma). { rewrite E14 in Hg. pose proof (Rmin_r (if Nat.eqb (m_itn s) 0 then Rabs alfa else m_gmin s) gamma). lra. }
  assert (Gn : gamma = normof2 gbar (m_beta s')). { rewrite Egm in Gm |- *. unfold Rmax in *. destruct (Rle_dec (normof2 gbar (m_beta s')) eps); [exfalso; lra|reflexivity]. }
  assert (G2 : gamma * gamma = gbar * gbar + m_beta s' * m_beta s'). { rewrite Gn. unfold normof2. rewrite sqrt_sqrt; [ring|]. pose proof (pow2_ge_0 gbar). pose proof (pow2_ge_0 (m_beta s')). lra. }
  assert (Gp : 0 < gamma) by lra.
  assert (Ccs : m_cs s' * m_cs s' + m_sn s' * m_sn s' = 1). { rewrite E8, E9. replace (gbar / gamma * (gbar / gamma) + m_beta s' / gamma * (m_beta s' / gamma)) with ((gbar * gbar + m_beta s' * m_beta s') / (gamma * gamma)) by (field; lra). rewrite <- G2. field. lra. }
  assert (Psn : 0 <= m_sn s') by (rewrite E9; apply Rmult_le_pos; [exact Pb'|apply Rlt_le, Rinv_0_lt_compat; lra]).
  assert (Hcs : gamma * m_cs s' = gbar) by (rewrite E8; field; lra). assert (Hsn : gamma * m_sn s' = m_beta s') by (rewrite E9; field; lra).
  (* A w *)
  pose proof (k_cs _ _ _ _ I) as C0.
  assert (Hw : forall i, gamma * mul n A (m_w s') i = gbar * t i + m_r2 s' i).
  { intros i. rewrite E12. set (q := fun j => vn s j + - m_epsln s * m_w2 s j).
    rewrite (mul_lin n A q (m_w s) _ (1 / gamma) (- (delta / gamma))) by (intros j _; unfold q, vscal, vsub; field; lra).
    rewrite (mul_lin n A (vn s) (m_w2 s) q 1 (- m_epsln s)) by (intros j _; unfold q; ring).
    replace (gamma * (1 / gamma * (1 * mul n A (vn s) i + - m_epsln s * mul n A (m_w2 s) i) + - (delta / gamma) * mul n A (m_w s) i)) with (mul n A (vn s) i - m_epsln s * mul n A (m_w2 s) i - delta * mul n A (m_w s) i) by (field; lra).
    rewrite Hr2', (k_w _ _ _ _ I), (k_t _ _ _ _ I). pose proof (k_w2 _ _ _ _ I i) as W2. replace (m_epsln s * mul n A (m_w2 s) i) with (prev s i - m_dbar s * tp i) by lra. rewrite Ed, Eg.
    replace (m_dbar s * tp i) with ((m_cs s * m_cs s + m_sn s * m_sn s) * (m_dbar s * tp i)) by (rewrite C0; ring).
    replace (alfa * vn s i) with ((m_cs s * m_cs s + m_sn s * m_sn s) * (alfa * vn s i)) by (rewrite C0; ring). ring. }
  (* the residual *)
  assert (Hx : forall i, b i - mul n A (m_x s') i = m_phibar s * (t i - m_cs s' * mul n A (m_w s') i)).
  { intros i. rewrite E13. rewrite (mul_lin n A (m_x s) (m_w s') _ 1 (m_cs s' * m_phibar s)) by (intros j _; unfold vadd, vscal; ring). pose proof (k_r _ _ _ _ I i). lra. }
  assert (Hx2 : forall i, b i - mul n A (m_x s') i = m_phibar s * (m_sn s' * m_sn s' * t i - m_cs s' / gamma * m_r2 s' i)).
  { intros i. rewrite Hx. f_equal. replace (m_cs s' * mul n A (m_w s') i) with (m_cs s' / gamma * (gamma * mul n A (m_w s') i)) by (field; lra). rewrite Hw, <- Hcs.
    replace (m_sn s' * m_sn s') with (1 - m_cs s' * m_cs s') by lra. field. lra. }
  pose proof (t_unit _ _ _ _ I) as Tu. assert (St : span (vn s :: vs) t). { apply (span_lin _ (m_sn s) (- m_cs s) tp (vn s)); [apply span_tl, (k_tp _ _ _ _ I)|apply span_hd|]. intros i. rewrite (k_t _ _ _ _ I). ring. }
  pose proof (span_orth n (vn s :: vs) (m_r2 s') t Orth St) as Ort. pose proof (k_phi _ _ _ _ I) as Pphi.
  assert (Br : m_beta s' * m_beta s' = vdot n (m_r2 s') (m_r2 s')) by (rewrite E5; apply sqrt_sqrt, vdot_pos).
  split; [|split; [|split; [exact E15|]]].
  - symmetry. apply vnorm_eq; [rewrite E15, E10; apply Rmult_le_pos; assumption|].
    assert (E : forall i, (i < n)%nat -> resid (m_x s') i = m_phibar s * (m_sn s' * m_sn s') * t i + - (m_phibar s * (m_cs s' / gamma)) * m_r2 s' i) by (intros i _; unfold residual; rewrite Hx2; ring).
    rewrite (vdot_lin_l n _ _ _ _ _ _ E), !(vdot_lin n _ _ _ _ _ _ E), (vdot_comm n t (m_r2 s')), Ort, Tu, <- Br, E15, E10, <- Hsn.
    replace (m_phibar s * (m_sn s' * m_sn s') * (m_phibar s * (m_sn s' * m_sn s') * 1 + - (m_phibar s * (m_cs s' / gamma)) * 0) + - (m_phibar s * (m_cs s' / gamma)) * (m_phibar s * (m_sn s' * m_sn s') * 0 + - (m_phibar s * (m_cs s' / gamma)) * (gamma * m_sn s' * (gamma * m_sn s'))))
      with (m_phibar s * m_phibar s * (m_sn s' * m_sn s') * (m_cs s' * m_cs s' + m_sn s' * m_sn s')) by (field; lra). rewrite Ccs. ring.
  - rewrite E15, E10. rewrite <- (Rmult_1_l (m_phibar s)) at 2. apply Rmult_le_compat_r; [exact Pphi|]. pose proof (Rle_0_sqr (m_cs s')) as Pc. unfold Rsqr in Pc. apply Rsqr_incr_0_var; [unfold Rsqr; lra|lra].
  - intros Nb'. assert (Pb2 : 0 < m_beta s') by lra. exists (fun i => m_sn s' * t i - m_cs s' * vn s' i).
    assert (Hr3 : forall i, m_r2 s' i = m_beta s' * vn s' i) by (intros i; unfold vn, vscal; field; lra).
    assert (Hpv : forall i, prev s' i = m_beta s' * vn s i). { intros i. unfold prev. rewrite E1, E2, E4. cbn [Nat.leb]. rewrite Hr2. field. lra. }
    constructor.
    + exact Pb2.
    + constructor; [|intros v Hv|exact (k_onb _ _ _ _ I)].
      * unfold vn. rewrite (vdot_lin_l n _ (m_r2 s') (m_r2 s') _ (1 / m_beta s') 0) by (intros i _; unfold vscal; ring). rewrite !(vdot_lin n _ (m_r2 s') (m_r2 s') (vscal (1 / m_beta s') (m_r2 s')) (1 / m_beta s') 0) by (intros i _; unfold vscal; ring). rewrite <- Br. field. lra.
      * unfold vn. rewrite (vdot_lin_l n v (m_r2 s') (m_r2 s') _ (1 / m_beta s') 0) by (intros i _; unfold vscal; ring). rewrite (Orth v Hv). ring.
    + right. exists (vn s), vs. split; [lia|]. split; [reflexivity|]. rewrite E4. split; [exact Pb|]. split; [intros i; rewrite E2; apply Hr2|]. split.
      * exists (fun i => prev s i + alfa * vn s i). split; [apply (span_lin _ 1 alfa (prev s) (vn s)); [apply span_tl, Sprev|apply span_hd|intros i; ring]|]. intros i. rewrite <- Hr3, Hr2'. ring.
      * intros v Hv. destruct (k_vs _ _ _ _ I) as [[E0 Ev0]|(vk & vs' & L & Ev0 & Po & Hr1 & (u & Su & Hu) & Hvs)]; [rewrite Ev0 in Hv; destruct Hv|]. rewrite Ev0 in Hv. destruct Hv as [<-|Hv].
        -- apply (span_lin _ (m_beta s) 1 (vn s) u); [apply span_hd|apply span_tl, Su|intros i; rewrite Hu; ring].
        -- apply span_tl, Hvs, Hv.
    + intros i. reflexivity.
    + intros i. apply (Rmult_eq_reg_l gamma); [|lra]. rewrite Hw, Hr3, <- Hcs, <- Hsn. ring.
    + intros i. rewrite Hpv, E6, E7, E11, (k_w _ _ _ _ I), (k_t _ _ _ _ I). replace (m_beta s' * vn s i) with ((m_cs s * m_cs s + m_sn s * m_sn s) * (m_beta s' * vn s i)) by (rewrite C0; ring). ring.
    + exact Ccs.
    + intros i. rewrite Hx2, E10, Hr3, <- Hsn. field. lra.
    + exact St.
    + left. exact Tu.
    + rewrite E10. apply Rmult_le_pos; assumption.
Qed.
End Step.

Lemma mloop_gmin beta1 : forall fuel s s', mloop fuel beta1 s = Finite s' -> (1 <= m_itn s)%nat -> m_gmin s' <= m_gmin s.
Proof.
  induction fuel as [|f IH]; intros s s' H L; cbn [MinresModel.mloop] in H; [injection H as <-; lra|]. destruct (mstep beta1 s) as [s1|] eqn:E; [|discriminate].
  assert (G : m_gmin s1 <= m_gmin s /\ (1 <= m_itn s1)%nat).
  { destruct (mstep_inv _ _ _ E) as (v & y & alfa & gamma & delta & gbar & _ & _ & _ & _ & E1 & _ & _ & _ & _ & _ & _ & _ & _ & _ & _ & _ & _ & _ & _ & _ & E14 & _).
    rewrite E14, E1. destruct (Nat.eqb_spec (m_itn s) 0); [lia|]. split; [apply Rmin_l|lia]. }
  destruct (Z.ltb 0 (m_istop s1)); [injection H as <-; tauto|]. pose proof (IH _ _ H (proj2 G)). lra.
Qed.
Lemma mloop_exact beta1 p0 (Heps : 0 < eps) : forall fuel s s', (m_beta s <> 0 -> exists vs t tp, MInv s vs t tp) -> m_phibar s <= p0 -> mloop fuel beta1 s = Finite s' -> eps < m_gmin s' ->
  (fuel = 0%nat /\ s' = s) \/ (m_rnorm s' = vnorm n (resid (m_x s')) /\ m_rnorm s' <= p0).
Proof.
  induction fuel as [|f IH]; intros s s' HI Hp H Hg; cbn [MinresModel.mloop] in H; [injection H as <-; auto|]. right. destruct (mstep beta1 s) as [s1|] eqn:E; [|discriminate].
  assert (N : m_beta s <> 0). { unfold MinresModel.mstep in E. intros Z. rewrite (Reqb_t _ _ Z) in E. discriminate. }
  assert (It : m_itn s1 = S (m_itn s)). { destruct (mstep_inv _ _ _ E) as (v & y & alfa & gamma & delta & gbar & _ & _ & _ & _ & E1 & _). exact E1. }
  destruct (HI N) as (vs & t & tp & I).
  destruct (Z.ltb 0 (m_istop s1)) eqn:L.
  - injection H as <-. destruct (minres_step s s1 beta1 vs t tp I E Heps Hg) as (R1 & R2 & _). split; [exact R1|lra].
  - pose proof (mloop_gmin _ _ _ _ H ltac:(lia)) as Gm. destruct (minres_step s s1 beta1 vs t tp I E Heps ltac:(lra)) as (R1 & R2 & R3 & R4).
    destruct (IH s1 s') as [[_ ->]|Q]; [|lra|exact H|exact Hg|split; [exact R1|lra]|exact Q]. intros Nb. destruct (R4 Nb) as (t' & I'). exists (vn s :: vs), t', t. exact I'.
Qed.

Lemma minit_inv : 0 < vdot n b b -> exists vs t tp, MInv (minit n b) vs t tp.
Proof.
  intros P. assert (Pb : 0 < sqrt (vdot n b b)) by (apply sqrt_lt_R0, P). assert (E : sqrt (vdot n b b) * sqrt (vdot n b b) = vdot n b b) by (apply sqrt_sqrt; lra).
  assert (Mz : forall i, mul n A vzero i = 0) by (intros i; rewrite (mul_lin n A vzero vzero vzero 0 0 i) by (intros j _; unfold vzero; ring); ring).
  exists [], (vn (minit n b)), vzero. unfold minit, vn. constructor; cbn [m_itn m_r1 m_r2 m_oldb m_beta m_dbar m_epsln m_phibar m_cs m_sn m_w m_w2 m_x]; unfold vn; cbn [m_r2 m_beta].
  - exact Pb.
  - set (v := vscal (1 / sqrt (vdot n b b)) b). constructor; [|intros v0 []|constructor]. assert (Ev : forall i, (i < n)%nat -> v i = 1 / sqrt (vdot n b b) * b i + 0 * b i) by (intros i _; unfold v, vscal; ring).
    rewrite (vdot_lin_l n _ _ _ _ _ _ Ev), !(vdot_lin n _ _ _ _ _ _ Ev). set (sb := sqrt (vdot n b b)) in *. rewrite <- E. field. lra.
  - left. auto.
  - intros i. ring.
  - intros i. rewrite Mz. unfold vzero. ring.
  - intros i. unfold prev. cbn [m_itn Nat.leb]. unfold vzero. ring.
  - ring.
  - intros i. rewrite Mz. unfold vscal. field. lra.
  - apply span_0. reflexivity.
  - auto.
  - lra.
Qed.
Lemma msolve_exact s : 0 < eps -> (0 < itnlim)%nat -> msolve n A eps rtol etol itnlim true b = Finite s -> ((0 < m_itn s)%nat -> eps < m_gmin s) ->
  m_rnorm s = vnorm n (resid (m_x s)) /\ m_rnorm s <= vnorm n b.
Proof.
  intros Heps Hl H Hg. unfold msolve in H. cbn [negb] in H. destruct (Req_EM_T (vdot n b b) 0) as [Z|Z].
  - rewrite (Reqb_t _ _ Z) in H. injection H as <-. unfold minit. cbn [m_rnorm m_x]. split; [|apply sqrt_pos]. symmetry. apply vnorm_eq; [lra|].
    rewrite vdot_zero; [lra|]. intros i Hi. unfold residual. rewrite (mul_lin n A vzero vzero vzero 0 0 i) by (intros j _; unfold vzero; ring). rewrite (vdot_null n b Z i Hi). ring.
  - rewrite (Reqb_f _ _ Z) in H. assert (P : 0 < vdot n b b) by (pose proof (vdot_pos n b); lra).
    assert (It : (0 < m_itn s)%nat).
    { assert (G : forall fuel s0 s1 b1, mloop fuel b1 s0 = Finite s1 -> (m_itn s0 <= m_itn s1)%nat).
      { induction fuel as [|f IH]; intros s0 s1 b1 H0; cbn [MinresModel.mloop] in H0; [injection H0 as <-; lia|]. destruct (mstep b1 s0) as [s2|] eqn:E; [|discriminate].
        destruct (mstep_inv _ _ _ E) as (v & y & alfa & gamma & delta & gbar & _ & _ & _ & _ & E1 & _). destruct (Z.ltb 0 (m_istop s2)); [injection H0 as <-; lia|]. pose proof (IH _ _ _ H0). lia. }
      destruct itnlim as [|f] eqn:El; [lia|]. cbn [MinresModel.mloop] in H. destruct (MinresModel.mstep n A eps rtol etol (S f) _ (minit n b)) as [s2|] eqn:E; [|discriminate]. rewrite <- El in *.
      destruct (mstep_inv _ _ _ E) as (v & y & alfa & gamma & delta & gbar & _ & _ & _ & _ & E1 & _). destruct (Z.ltb 0 (m_istop s2)); [injection H as <-; lia|]. pose proof (G _ _ _ _ H). lia. }
    destruct (mloop_exact (m_beta (minit n b)) (vnorm n b) Heps itnlim (minit n b) s) as [[E0 _]|Q]; [intros _; apply minit_inv, P|unfold minit, vnorm; cbn [m_phibar]; lra|exact H|exact (Hg It)|lia|exact Q].
Qed.
End Inv.

(** ** The flags *)
Lemma mflags_cases istop itn test1 test2 epsx beta1 ac : 0 <= rtol -> istop = 0%Z -> let f := mflags eps rtol itnlim istop itn test1 test2 epsx beta1 ac in
  (f = 0%Z /\ (itn < itnlim)%nat) \/ (f = 1%Z /\ test1 <= rtol) \/ (f = 2%Z /\ test2 <= rtol) \/ (f = 3%Z /\ beta1 <= epsx) \/ (f = 4%Z /\ match ac with None => True | Some a => 1 / 10 / eps <= a end) \/ (f = 6%Z /\ (itnlim <= itn)%nat).
Proof.
  intros Hr -> . cbv zeta. unfold mflags. cbn [Z.eqb]. destruct (Rleb test1 rtol) eqn:D1; [apply Rleb_iff in D1; auto|]. destruct (Rleb test2 rtol) eqn:D2; [apply Rleb_iff in D2; auto|].
  destruct (Rleb beta1 epsx) eqn:D3; [apply Rleb_iff in D3; tauto|]. destruct ac as [a|]; [|tauto]. destruct (Rleb (1 / 10 / eps) a) eqn:D4; [apply Rleb_iff in D4; tauto|].
  destruct (Nat.leb itnlim itn) eqn:D6; [apply Nat.leb_le in D6; tauto|]. apply Nat.leb_gt in D6.
  destruct (Rleb (1 + test1) 1) eqn:D7; [apply Rleb_iff in D7; exfalso; assert (test1 <= rtol) by lra; rewrite Rleb_t in D1 by assumption; discriminate|].
  destruct (Rleb (1 + test2) 1) eqn:D8; [apply Rleb_iff in D8; exfalso; assert (test2 <= rtol) by lra; rewrite Rleb_t in D2 by assumption; discriminate|]. auto.
Qed.

(** What the flags of a finished run say. *)
Definition mmeaning (beta1 : R) (s : mstate) : Prop :=
  (m_istop s = 1%Z -> m_rnorm s <= rtol * (m_Anorm s * m_ynorm s)) /\
  (m_istop s = 3%Z -> beta1 <= m_Anorm s * m_ynorm s * eps) /\
  (m_istop s = 4%Z -> match m_Acond s with None => True | Some a => 1 / 10 / eps <= a end) /\
  (m_istop s = 6%Z -> (itnlim <= m_itn s)%nat) /\ In (m_istop s) [-1; 0; 1; 2; 3; 4; 6; 10]%Z /\ (m_istop s = 0%Z -> (m_itn s < itnlim)%nat).
Lemma mstep_flags beta1 s s' : 0 <= rtol -> In (m_istop s) [0; -1]%Z -> mstep beta1 s = Some s' -> mmeaning beta1 s' /\ m_itn s' = S (m_itn s).
Proof.
  intros Hr Hi H. destruct (mstep_inv _ _ _ H) as (v & y & alfa & gamma & delta & gbar & _ & _ & _ & _ & E1 & _ & _ & _ & _ & _ & _ & _ & _ & _ & _ & _ & _ & _ & _ & _ & _ & _ & E16 & _ & E18 & _ & NA & _ & istop & Ef & Ei).
  split; [|exact E1]. set (test2 := normof2 gbar (m_dbar s') / m_Anorm s') in *.
  assert (Hi' : In istop [0; -1; 10]%Z).
  { cbn [In] in Hi |- *. destruct Ei as [->| ->]; [tauto|]. destruct (Nat.eqb (m_itn s) 0); [destruct (Rleb _ _); tauto|tauto]. }
  assert (PA : 0 < m_Anorm s' * m_ynorm s'). { assert (0 <= m_Anorm s' * m_ynorm s') by (rewrite E16, E18; apply Rmult_le_pos; apply sqrt_pos). lra. }
  destruct (Z.eq_dec istop 0) as [Z|Z].
  - pose proof (mflags_cases istop (m_itn s') (m_rnorm s' / (m_Anorm s' * m_ynorm s')) test2 (m_Anorm s' * m_ynorm s' * eps) beta1 (m_Acond s') Hr Z) as C. cbv zeta in C. rewrite <- Ef in C. unfold mmeaning. cbn [In].
    destruct C as [[F C]|[[F C]|[[F C]|[[F C]|[[F C]|[F C]]]]]]; rewrite F; (split; [intros Q; try discriminate Q|split; [intros Q; try discriminate Q; auto|split; [intros Q; try discriminate Q; auto|split; [intros Q; try discriminate Q; auto|split; [tauto|intros Q; try discriminate Q; auto]]]]]).
    apply (Rmult_le_compat_r (m_Anorm s' * m_ynorm s')) in C; [|lra]. replace (m_rnorm s' / (m_Anorm s' * m_ynorm s') * (m_Anorm s' * m_ynorm s')) with (m_rnorm s') in C; [exact C|]. field. split; intros Q0; rewrite Q0 in PA; lra.
  - assert (F : m_istop s' = istop) by (rewrite Ef; unfold mflags; rewrite (proj2 (Z.eqb_neq istop 0) Z); reflexivity). unfold mmeaning. rewrite F. cbn [In] in Hi' |- *. destruct Hi' as [<-|[<-|[<-|[]]]]; [contradiction| |]; do 4 (split; [discriminate|]); (split; [tauto|discriminate]).
Qed.
Lemma mloop_flags beta1 : 0 <= rtol -> forall fuel s s', In (m_istop s) [0; -1]%Z -> (m_itn s + fuel = itnlim)%nat -> mloop fuel beta1 s = Finite s' -> (fuel = 0%nat /\ s' = s) \/ (mmeaning beta1 s' /\ (m_itn s < m_itn s' <= itnlim)%nat).
Proof.
  intros Hr. induction fuel as [|f IH]; intros s s' Hi Hf H; cbn [MinresModel.mloop] in H; [injection H as <-; auto|]. right. destruct (mstep beta1 s) as [s1|] eqn:E; [|discriminate].
  destruct (mstep_flags _ _ _ Hr Hi E) as (M & E1). destruct (Z.ltb 0 (m_istop s1)) eqn:L.
  - injection H as <-. split; [exact M|]. lia.
  - apply Z.ltb_ge in L. assert (Hi1 : In (m_istop s1) [0; -1]%Z) by (destruct M as (_ & _ & _ & _ & M & _); cbn [In] in M |- *; lia).
    destruct (IH s1 s' Hi1 ltac:(lia) H) as [[F0 ->]|(M' & B)]; [split; [exact M|lia]|split; [exact M'|lia]].
Qed.

(** ** b an eigenvector of A *)
Section Eigen.
Variables (b : vec) (lam : R).
Hypotheses (Hb : 0 < vdot n b b) (He : forall i, (i < n)%nat -> mul n A b i = lam * b i) (Heps : 0 < eps).
Lemma eigen_step : exists s, mstep (sqrt (vdot n b b)) (minit n b) = Some s /\ m_beta s = 0 /\ m_istop s = (-1)%Z /\ m_itn s = 1%nat /\ m_rnorm s = 0 /\
  m_Arnorm s = sqrt (vdot n b b) * Rabs lam /\ (eps <= Rabs lam -> forall i, m_x s i = b i / lam).
Proof.
  set (b1 := sqrt (vdot n b b)). assert (P : 0 < b1) by (apply sqrt_lt_R0, Hb). assert (E : b1 * b1 = vdot n b b) by (apply sqrt_sqrt; lra).
  set (v := vscal (1 / b1) b).
  assert (Hv : forall i, (i < n)%nat -> mul n A v i = lam * v i). { intros i Hi. rewrite (mul_lin n A b b v (1 / b1) 0) by (intros j _; unfold v, vscal; ring). rewrite (He i Hi). unfold v, vscal. ring. }
  assert (Vu : vdot n v v = 1). { assert (Ev : forall i, (i < n)%nat -> v i = 1 / b1 * b i + 0 * b i) by (intros i _; unfold v, vscal; ring). rewrite (vdot_lin_l n _ _ _ _ _ _ Ev), !(vdot_lin n _ _ _ _ _ _ Ev), <- E. field. lra. }
  assert (Al : vdot n v (mul n A v) = lam) by (rewrite (vdot_lin n v v v (mul n A v) lam 0) by (intros i Hi; rewrite (Hv i Hi); ring); rewrite Vu; ring).
  set (r2 := vadd (vscal (- lam / b1) b) (mul n A v)).
  assert (B0 : vdot n r2 r2 = 0). { apply vdot_zero. intros i Hi. unfold r2, vadd. rewrite (Hv i Hi). unfold v, vscal. field. lra. }
  unfold MinresModel.mstep, minit. cbn [m_itn m_r1 m_r2 m_oldb m_beta m_dbar m_epsln m_phibar m_rhs1 m_rhs2 m_tnorm2 m_ynorm2 m_cs m_sn m_w m_w2 m_x m_gmax m_gmin m_istop m_xNrg m_dErr]. fold b1. rewrite (Reqb_f b1 0) by lra. cbv zeta. cbn [Nat.leb Nat.eqb]. fold v. rewrite Al. fold r2. rewrite B0, sqrt_0.
  set (gam := Rmax (normof2 (0 * 0 - -1 * lam) 0) eps). assert (Pg : 0 < gam) by (unfold gam; apply (Rlt_le_trans _ eps); [exact Heps|apply Rmax_r]).
  assert (PA : 0 < sqrt (0 + lam ^ 2 + b1 ^ 2 + 0 ^ 2) * sqrt ((b1 / gam) ^ 2 + 0)).
  { apply Rmult_lt_0_compat; apply sqrt_lt_R0; [pose proof (pow2_ge_0 lam); pose proof (pow_lt b1 2 P); lra|]. pose proof (pow_lt (b1 / gam) 2 (Rdiv_lt_0_compat _ _ P Pg)). lra. }
  rewrite (Reqb_f _ 0) by lra. eexists. split; [reflexivity|]. cbn [m_beta m_istop m_itn m_rnorm m_Arnorm m_x].
  split; [reflexivity|]. split; [|split; [reflexivity|]].
  - rewrite (Rleb_t (0 / b1)) by (unfold Rdiv; rewrite Rmult_0_l; lra). cbn [Nat.ltb Nat.leb window andb]. reflexivity.
  - assert (Nl : normof2 (0 * 0 - -1 * lam) 0 = Rabs lam) by (unfold normof2; rewrite <- sqrt_Rsqr_abs; f_equal; unfold Rsqr; ring).
    split; [unfold Rdiv; ring|]. split; [f_equal; rewrite <- Nl; f_equal; ring|]. intros Hl i. unfold vadd, vscal, vsub, vzero, v, vscal.
    assert (Eg : gam = Rabs lam) by (unfold gam; rewrite Nl; apply Rmax_left; exact Hl). assert (Nz : lam <> 0) by (intros Z; rewrite Z, Rabs_R0 in Hl; lra).
    assert (G2 : gam * gam = lam * lam) by (rewrite Eg, <- Rabs_mult, Rabs_right; [reflexivity|apply Rle_ge, Rle_0_sqr]).
    replace (0 + (0 * 0 - -1 * lam) / gam * b1 * (1 / gam * (1 / b1 * b i - 0 * 0 - (-1 * 0 + 0 * lam) * 0))) with (lam * b i / (gam * gam)) by (field; lra). rewrite G2. field. exact Nz.
Qed.
Lemma eigen_nan : (2 <= itnlim)%nat -> msolve n A eps rtol etol itnlim true b = NotANumber (-1) itnlim.
Proof.
  intros Hl. unfold msolve. cbn [negb]. rewrite (Reqb_f _ 0) by lra. destruct eigen_step as (s & E & B0 & I1 & _).
  assert (G : forall f, mloop (S (S f)) (m_beta (minit n b)) (minit n b) = NotANumber (-1) itnlim).
  { intros f. cbn [MinresModel.mloop]. change (m_beta (minit n b)) with (sqrt (vdot n b b)). rewrite E. rewrite I1. cbn [Z.ltb Z.compare].
    unfold MinresModel.mstep. rewrite (Reqb_t (m_beta s) 0 B0). reflexivity. }
  replace itnlim with (S (S (itnlim - 2))) at 2 by lia. apply G.
Qed.
End Eigen.
End Minres.
