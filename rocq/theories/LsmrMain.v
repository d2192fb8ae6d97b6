(** * One iteration of LSMR, from its program text (damp = 0, exact arithmetic). *)
From Coq Require Import Reals Lra Lia.
From Verif Require Import Base BaseLemmas TransformModel PCAlgebra LsmrModel LsmrAlg LsmrInv LsmrStep.
Open Scope R_scope.

Section Main.
Variables (m n : nat) (A : matrix) (b : vec).
Variables (atol btol conlim : R) (itnlim : nat).
Notation Inv := (Inv m n A b).
Notation resid := (resid n A b).
Notation step := (step m n A 0 atol btol conlim itnlim).

Definition good (s : state) : Prop :=
  l_normr s = vnorm m (resid (l_x s)) /\ 0 < l_normr s /\ l_normar s = vnorm n (mulH m A (resid (l_x s))) /\
  l_normar s = Rabs (l_zetabar s) /\ l_normx s = vnorm n (l_x s) /\ 0 < l_normA s /\ 0 < l_condA s.

Lemma next_u_zero Mu : vdot m Mu Mu = 0 -> next_u m Mu = (Mu, 0).
Proof. intros H. unfold next_u. rewrite H, sqrt_0, Rltb_f by lra. reflexivity. Qed.
Lemma next_u_pos Mu : 0 < vdot m Mu Mu -> next_u m Mu = (vdiv Mu (sqrt (vdot m Mu Mu)), sqrt (vdot m Mu Mu)).
Proof. intros H. unfold next_u. rewrite Rltb_t by (apply sqrt_lt_R0, H). reflexivity. Qed.
Lemma next_v_zero Mu : vdot n Mu Mu = 0 -> next_v n Mu = (Mu, 0).
Proof. intros H. unfold next_v. rewrite H, sqrt_0, Rltb_f by lra. reflexivity. Qed.
Lemma next_v_pos Mu : 0 < vdot n Mu Mu -> next_v n Mu = (vdiv Mu (sqrt (vdot n Mu Mu)), sqrt (vdot n Mu Mu)).
Proof. intros H. unfold next_v. rewrite Rltb_t by (apply sqrt_lt_R0, H). reflexivity. Qed.
Lemma vdiv_unit k Mu : 0 < vdot k Mu Mu -> vdot k (vdiv Mu (sqrt (vdot k Mu Mu))) (vdiv Mu (sqrt (vdot k Mu Mu))) = 1.
Proof.
  intros H. set (r := sqrt (vdot k Mu Mu)). assert (Hr : 0 < r) by (apply sqrt_lt_R0, H). assert (E : r * r = vdot k Mu Mu) by (apply sqrt_sqrt; lra).
  rewrite (vdot_lin_l k _ Mu Mu _ (/ r) 0) by (intros i _; unfold vdiv; field; lra). rewrite (vdot_comm k Mu), (vdot_lin_l k _ Mu Mu _ (/ r) 0) by (intros i _; unfold vdiv; field; lra).
  rewrite <- E. field. lra.
Qed.
Lemma vdiv_orth k Mu r y : r <> 0 -> vdot k Mu y = 0 -> vdot k (vdiv Mu r) y = 0.
Proof. intros Hr H. rewrite (vdot_lin_l k y Mu Mu _ (/ r) 0) by (intros i _; unfold vdiv; field; auto). rewrite H. ring. Qed.

Section Fixed.
Variables (s : state) (us vs : list vec) (ub gb pd q : vec) (I : Inv s us vs ub gb pd q).
Variables (normb : R) (Hb : 0 < normb).
Notation Mu := (vsub (mul n A (l_v s)) (vscal (l_alpha s) (l_u s))).

Lemma betadd_ne : l_betadd s <> 0.
Proof. intros E. pose proof (i_S2 _ _ _ _ _ _ _ _ _ _ _ I) as H. rewrite E, Rmult_0_r in H. apply (i_z _ _ _ _ _ _ _ _ _ _ _ I). auto. Qed.

(** The numbers of one iteration, once u, v, beta and alpha are known. *)
Lemma step_numbers u' beta v' alpha : next_u m Mu = (u', beta) ->
  (if Rltb 0 beta then next_v n (vsub (mulH m A u') (vscal beta (l_v s))) else (l_v s, l_alpha s)) = (v', alpha) -> 0 <= beta -> 0 <= alpha ->
  exists c s_ rho cbar sbar rhobar ct st rt, rots s beta alpha c s_ rho cbar sbar rhobar ct st rt /\
  (let x := X_ s rho cbar rhobar in let g := G' s c cbar rhobar ct st rt / (ct * rhobar) in
   let normr := sqrt (g ^ 2 + BDD s s_ * BDD s s_) in
   (normr = 0 -> step normb s = Raise ZeroDivisionError) /\
   (normr <> 0 -> exists s', step normb s = Ok s' /\ l_itn s' = S (l_itn s) /\ l_u s' = u' /\ l_v s' = v' /\ l_alpha s' = alpha /\ l_alphabar s' = c * alpha /\ l_rho s' = rho /\ l_rhobar s' = rhobar /\
      l_cbar s' = cbar /\ l_sbar s' = sbar /\ l_zeta s' = ZE s cbar /\ l_zetabar s' = - sbar * l_zetabar s /\ l_hbar s' = HB s rho /\ l_x s' = x /\
      l_h s' = vsub v' (vscal (s_ * alpha / rho) (l_h s)) /\ l_betadd s' = BDD s s_ /\ l_betad s' = BD s c ct st /\ l_rhodold s' = ct * rhobar /\
      l_tautildeold s' = TT s rt /\ l_thetatilde s' = st * rhobar /\ l_d s' = 0 /\ l_normA2 s' = l_normA2 s + beta * beta + alpha * alpha /\ 0 < l_minrbar s' /\
      l_normr s' = normr /\ l_normar s' = Rabs (l_zetabar s') /\ l_normx s' = vnorm n x /\ 0 < l_normA s' /\ 0 < l_condA s')).
Proof.
  intros E1 E2 P1 P2.
  pose proof (i_al _ _ _ _ _ _ _ _ _ _ _ I) as Hal. pose proof (i_ab _ _ _ _ _ _ _ _ _ _ _ I) as Hab. pose proof (i_rho _ _ _ _ _ _ _ _ _ _ _ I) as Hrho.
  pose proof (i_rb _ _ _ _ _ _ _ _ _ _ _ I) as Hrb. pose proof (i_cb _ _ _ _ _ _ _ _ _ _ _ I) as Hcb. pose proof (i_rd _ _ _ _ _ _ _ _ _ _ _ I) as Hrd.
  pose proof (i_d _ _ _ _ _ _ _ _ _ _ _ I) as Hd. pose proof (i_min _ _ _ _ _ _ _ _ _ _ _ I) as Hmin. pose proof (i_nA _ _ _ _ _ _ _ _ _ _ _ I) as HnA.
  unfold LsmrModel.step. rewrite E1. rewrite E2. rewrite (symOrtho_0 (l_alphabar s)) by lra.
  destruct (symOrtho (l_alphabar s) beta) as [[c s_] rho] eqn:R1. destruct (symOrtho_pos _ _ _ _ _ Hab P1 R1) as (A1 & A2 & A3 & A4 & A5 & A6 & A7).
  assert (Ht : 0 < l_cbar s * rho) by (apply Rmult_lt_0_compat; lra). assert (Ht2 : 0 <= s_ * alpha) by (apply Rmult_le_pos; lra).
  destruct (symOrtho (l_cbar s * rho) (s_ * alpha)) as [[cbar sbar] rhobar] eqn:R2. destruct (symOrtho_pos _ _ _ _ _ Ht Ht2 R2) as (B1 & B2 & B3 & B4 & B5 & B6 & B7).
  destruct (symOrtho (l_rhodold s) (l_sbar s * rho)) as [[ct st] rt] eqn:R3. destruct (symOrtho_any _ _ _ _ _ Hrd R3) as (C1 & C2 & C3 & C4 & C5 & C6).
  exists c, s_, rho, cbar, sbar, rhobar, ct, st, rt. split; [constructor; assumption|].
  assert (N1 : l_rho s * l_rhobar s <> 0) by (apply Rmult_integral_contrapositive_currified; lra).
  assert (N2 : rho * rhobar <> 0) by (apply Rmult_integral_contrapositive_currified; lra).
  assert (N3 : ct * rhobar <> 0) by (apply Rmult_integral_contrapositive_currified; lra).
  set (minr := if Nat.ltb 1 (S (l_itn s)) then Rmin (l_minrbar s) (l_rhobar s) else l_minrbar s).
  assert (Hmr : 0 < minr) by (unfold minr; destruct (Nat.ltb 1 (S (l_itn s))); [apply Rmin_glb_lt; lra|lra]).
  assert (N4 : 0 < Rmin minr (l_cbar s * rho)) by (apply Rmin_glb_lt; lra).
  set (condA := Rmax (Rmax (l_maxrbar s) (l_rhobar s)) (l_cbar s * rho) / Rmin minr (l_cbar s * rho)).
  assert (N5 : 0 < condA). { unfold condA. apply Rdiv_lt_0_compat; [|exact N4]. apply (Rlt_le_trans _ (l_cbar s * rho)); [exact Ht|apply Rmax_r]. }
  set (nA := sqrt (l_normA2 s + beta * beta)). assert (N6 : 0 < nA). { apply sqrt_lt_R0. pose proof (Rle_0_sqr beta). unfold Rsqr in *. lra. }
  cbv zeta.
  set (nr := sqrt ((G' s c cbar rhobar ct st rt / (ct * rhobar)) ^ 2 + BDD s s_ * BDD s s_)).
  assert (Enr : sqrt (l_d s + - 0 * l_betadd s * (- 0 * l_betadd s) + (- st * l_betad s + ct * (c * (1 * l_betadd s)) - (cbar * l_zetabar s - st * rhobar * ((l_zeta s - l_thetatilde s * l_tautildeold s) / rt)) / (ct * rhobar)) ^ 2 +
     - s_ * (1 * l_betadd s) * (- s_ * (1 * l_betadd s))) = nr).
  { unfold nr. f_equal. rewrite Hd. unfold G', BD, BDD, ZE, TT, BH.
    replace (ct * rhobar * (- st * l_betad s + ct * (c * l_betadd s)) - (cbar * l_zetabar s - st * rhobar * ((l_zeta s - l_thetatilde s * l_tautildeold s) / rt))) with
      (ct * rhobar * (- st * l_betad s + ct * (c * (1 * l_betadd s)) - (cbar * l_zetabar s - st * rhobar * ((l_zeta s - l_thetatilde s * l_tautildeold s) / rt)) / (ct * rhobar))) by (field; repeat split; lra).
    set (w := - st * l_betad s + ct * (c * (1 * l_betadd s)) - (cbar * l_zetabar s - st * rhobar * ((l_zeta s - l_thetatilde s * l_tautildeold s) / rt)) / (ct * rhobar)).
    replace (ct * rhobar * w / (ct * rhobar)) with w by (field; split; lra). ring. }
  rewrite (pdiv_ok _ _ N1). cbn [bind]. rewrite (pdiv_ok _ _ N2). cbn [bind]. rewrite (pdiv_ok _ rho) by lra. cbn [bind]. rewrite (pdiv_ok _ rt) by lra. cbn [bind].
  rewrite (pdiv_ok _ _ N3). cbn [bind]. fold minr. rewrite (pdiv_ok _ (Rmin minr _)) by lra. cbn [bind]. fold condA. rewrite (pdiv_ok _ normb) by lra. cbn [bind].
  rewrite Enr. fold nA. split.
  - intros ->. rewrite Rmult_0_r, pdiv_0. reflexivity.
  - intros Hnr. rewrite pdiv_ok by (apply Rmult_integral_contrapositive_currified; lra). cbn [bind]. rewrite (pdiv_ok 1 condA) by lra. cbn [bind]. eexists. split; [reflexivity|].
    cbn [l_itn l_u l_v l_alpha l_alphabar l_rho l_rhobar l_cbar l_sbar l_zeta l_zetabar l_hbar l_x l_h l_betadd l_betad l_rhodold l_tautildeold l_thetatilde l_d l_normA2 l_minrbar l_normr l_normar l_normx l_normA l_condA].
    do 14 (split; [reflexivity|]). do 1 (split; [unfold BDD; ring|]). do 1 (split; [unfold BD, BH; ring|]). do 3 (split; [reflexivity|]).
    split; [rewrite Hd; ring|]. split; [reflexivity|]. split; [exact Hmr|]. do 3 (split; [reflexivity|]). split; [exact N6|exact N5].
Qed.

Definition outcome : Prop :=
  (step normb s = Raise ZeroDivisionError /\ exists x, forall i, (i < m)%nat -> mul n A x i = b i) \/
  (exists s', step normb s = Ok s' /\ l_itn s' = S (l_itn s) /\ good s' /\ Rabs (l_zetabar s') <= Rabs (l_zetabar s) /\
     (l_zetabar s' <> 0 -> exists ub' gb' pd' q', Inv s' (l_u s :: us) (l_v s :: vs) ub' gb' pd' q')).

Lemma step_zero : vdot m Mu Mu = 0 -> step normb s = Raise ZeroDivisionError /\ exists x, forall i, (i < m)%nat -> mul n A x i = b i.
Proof.
  intros H0. pose proof (next_u_zero _ H0) as E1. pose proof (i_al _ _ _ _ _ _ _ _ _ _ _ I) as Hal.
  destruct (step_numbers Mu 0 (l_v s) (l_alpha s) E1) as (c & s_ & rho & cbar & sbar & rhobar & ct & st & rt & O & H); [rewrite Rltb_f by lra; reflexivity|lra|lra|].
  destruct H as [H _]. pose proof (ze_eq _ _ _ _ _ _ _ _ _ _ _ I _ _ _ _ _ _ _ _ _ _ _ O) as Ez. pose proof (G_eq _ _ _ _ _ _ _ _ _ _ _ I _ _ _ _ _ _ _ _ _ _ _ O) as Eg.
  pose proof (o_3 _ _ _ _ _ _ _ _ _ _ _ _ O) as H3. pose proof (o_5 _ _ _ _ _ _ _ _ _ _ _ _ O) as H5. assert (Zs : s_ = 0) by (apply Rmult_integral in H3; destruct H3; lra).
  assert (Zg : G' s c cbar rhobar ct st rt = 0). { rewrite Eg. rewrite Zs in Ez. lra. } assert (Zb : BDD s s_ = 0) by (unfold BDD; rewrite Zs; ring).
  split.
  - apply H. rewrite Zg, Zb. replace ((0 / (ct * rhobar)) ^ 2 + 0 * 0) with 0 by (unfold Rdiv; ring). apply sqrt_0.
  - exists (X_ s rho cbar rhobar). intros i Hi. assert (HA : mul n A (l_v s) i = l_alpha s * l_u s i + 0 * vzero i). { pose proof (vdot_null _ _ H0 i Hi) as Hv. unfold vsub, vscal in Hv. unfold vzero. lra. }
    pose proof (r_eq _ _ _ _ _ _ _ _ _ _ _ I _ _ _ _ _ _ _ _ _ _ _ O vzero i HA) as Hr. rewrite Zg, Zb in Hr. lra.
Qed.

Lemma step_pos : 0 < vdot m Mu Mu -> outcome.
Proof.
  intros Hp. right. pose proof (next_u_pos _ Hp) as E1. pose proof (vdiv_unit m Mu Hp) as Hu. set (beta := sqrt (vdot m Mu Mu)) in *. assert (Hbeta : 0 < beta) by (apply sqrt_lt_R0, Hp).
  set (u' := vdiv Mu beta) in *.
  assert (Ho : forall y, In y (l_u s :: us) -> vdot m u' y = 0) by (intros y Hy; apply vdiv_orth; [lra|exact (next_u_orth _ _ _ _ _ _ _ _ _ _ _ I y Hy)]).
  assert (HA : forall i, mul n A (l_v s) i = l_alpha s * l_u s i + beta * u' i) by (intros i; unfold u', vdiv, vsub, vscal; field; lra).
  set (z := vsub (mulH m A u') (vscal beta (l_v s))). assert (Hz : forall j, mulH m A u' j = beta * l_v s j + z j) by (intros j; unfold z, vsub, vscal; ring).
  assert (Hzo : forall y, In y (l_v s :: vs) -> vdot n z y = 0) by (intros y Hy; exact (next_v_orth _ _ _ _ _ _ _ _ _ _ _ u' beta I Ho Hu HA y Hy)).
  assert (Nbd : l_betadd s <> 0) by apply betadd_ne.
  assert (FIN : forall v' alpha, next_v n z = (v', alpha) -> 0 <= alpha -> (forall j, (j < n)%nat -> z j = alpha * v' j) -> (alpha <> 0 -> (forall j, z j = alpha * v' j) /\ vdot n v' v' = 1 /\ forall y, In y (l_v s :: vs) -> vdot n v' y = 0) ->
     exists s', step normb s = Ok s' /\ l_itn s' = S (l_itn s) /\ good s' /\ Rabs (l_zetabar s') <= Rabs (l_zetabar s) /\ (l_zetabar s' <> 0 -> exists ub' gb' pd' q', Inv s' (l_u s :: us) (l_v s :: vs) ub' gb' pd' q')).
  { intros v' alpha E2 Hal0 Hzn Hv'. destruct (step_numbers u' beta v' alpha E1) as (c & s_ & rho & cbar & sbar & rhobar & ct & st & rt & O & H); [rewrite Rltb_t by lra; exact E2|lra|lra|].
    cbv zeta in H. destruct H as [_ H].
    pose proof (normr_eq _ _ _ _ _ _ _ _ _ _ _ I _ _ _ _ _ _ _ _ _ _ _ O u' Ho Hu HA) as Hnr.
    pose proof (o_3 _ _ _ _ _ _ _ _ _ _ _ _ O) as O3. pose proof (o_5 _ _ _ _ _ _ _ _ _ _ _ _ O) as O5. pose proof (o_10 _ _ _ _ _ _ _ _ _ _ _ _ O) as O10. pose proof (o_8 _ _ _ _ _ _ _ _ _ _ _ _ O) as O8. pose proof (o_6 _ _ _ _ _ _ _ _ _ _ _ _ O) as O6.
    assert (Hs : 0 < s_) by (apply (Rmult_lt_reg_l rho); lra).
    assert (Hnb : BDD s s_ <> 0) by (unfold BDD; apply Rmult_integral_contrapositive_currified; lra).
    set (nr := sqrt ((G' s c cbar rhobar ct st rt / (ct * rhobar)) ^ 2 + BDD s s_ * BDD s s_)) in *.
    assert (Pnr : 0 < nr). { apply sqrt_lt_R0. pose proof (pow2_ge_0 (G' s c cbar rhobar ct st rt / (ct * rhobar))). pose proof (Rlt_0_sqr _ Hnb). unfold Rsqr in *. lra. }
    destruct (H ltac:(lra)) as (s' & Es & F0 & F1 & F2 & F3 & F4 & F5 & F6 & F7 & F8 & F9 & F10 & F11 & F12 & F13 & F14 & F15 & F16 & F17 & F18 & F19 & F20 & F21 & F22 & F23 & F24 & F25).
    exists s'. split; [exact Es|]. split; [exact F0|].
    (* A^T r *)
    set (gb' := fun j => - sbar * gb j + cbar * v' j).
    assert (K : forall j, s_ / rhobar * z j = s_ * alpha / rhobar * v' j -> mulH m A (resid (X_ s rho cbar rhobar)) j = - sbar * l_zetabar s * gb' j).
    { intros j Ej. rewrite (AHr _ _ _ _ _ _ _ _ _ _ _ I _ _ _ _ _ _ _ _ _ _ _ O u' HA z Hz), Ej, <- O8. unfold gb', ZE. replace (rhobar * sbar / rhobar) with sbar by (field; lra).
      replace (l_zetabar s * gb j) with (l_zetabar s * (cbar * cbar + sbar * sbar) * gb j) by (rewrite O6; ring). ring. }
    assert (Kn : forall j, (j < n)%nat -> mulH m A (resid (X_ s rho cbar rhobar)) j = - sbar * l_zetabar s * gb' j) by (intros j Hj; apply K; rewrite (Hzn j Hj); field; lra).
    assert (Gn : alpha <> 0 -> vdot n gb' gb' = 1).
    { intros Na. destruct (Hv' Na) as (_ & V1 & V2). assert (Eo : vdot n v' gb = 0) by (apply (span_orth n (l_v s :: vs)); [exact V2|exact (i_g1 _ _ _ _ _ _ _ _ _ _ _ I)]).
      rewrite (vdot_lin_l n gb' gb v' gb' (- sbar) cbar) by reflexivity. rewrite (vdot_lin n gb gb v' gb' (- sbar) cbar) by reflexivity. rewrite (vdot_lin n v' gb v' gb' (- sbar) cbar) by reflexivity.
      rewrite (vdot_comm n gb v'), Eo, V1, (i_g2 _ _ _ _ _ _ _ _ _ _ _ I). lra. }
    assert (Nar : vnorm n (mulH m A (resid (X_ s rho cbar rhobar))) = Rabs (- sbar * l_zetabar s)).
    { apply vnorm_eq; [apply Rabs_pos|]. destruct (Req_EM_T alpha 0) as [Ea|Na].
      - assert (Zs : sbar = 0). { rewrite Ea, Rmult_0_r in O8. apply Rmult_integral in O8. destruct O8; lra. } rewrite Zs. replace (- 0 * l_zetabar s) with 0 by ring. rewrite Rabs_R0, Rmult_0_r.
        apply vdot_zero. intros j Hj. rewrite (Kn j Hj), Zs. ring.
      - rewrite <- (Rabs_mult), Rabs_right by (apply Rle_ge, Rle_0_sqr). rewrite (vdot_lin_l n _ gb' gb' _ (- sbar * l_zetabar s) 0) by (intros j Hj; rewrite (Kn j Hj); ring).
        rewrite (vdot_comm n gb'), (vdot_lin_l n _ gb' gb' _ (- sbar * l_zetabar s) 0) by (intros j Hj; rewrite (Kn j Hj); ring). rewrite (Gn Na). ring. }
    split.
    { unfold good. rewrite F12, F22, F23, F10, F24. do 1 (split; [unfold vnorm; rewrite Hnr; reflexivity|]). split; [exact Pnr|]. split; [symmetry; exact Nar|]. split; [reflexivity|]. split; [reflexivity|]. exact F25. }
    split.
    { rewrite F10, Rabs_mult, Rabs_Ropp. pose proof (Rabs_pos (l_zetabar s)). assert (Rabs sbar <= 1); [|rewrite <- (Rmult_1_l (Rabs (l_zetabar s))) at 2; apply Rmult_le_compat_r; lra].
      apply Rsqr_incr_0_var; [|lra]. rewrite <- Rsqr_abs. unfold Rsqr. pose proof (Rle_0_sqr cbar). unfold Rsqr in *. lra. }
    intros Nz. rewrite F10 in Nz. assert (Na : alpha <> 0). { intros Ea. apply Nz. rewrite Ea, Rmult_0_r in O8. apply Rmult_integral in O8. destruct O8 as [O8|O8]; [lra|rewrite O8; ring]. }
    destruct (Hv' Na) as (V0 & V1 & V2). specialize (Gn Na). assert (Pa : 0 < alpha) by lra.
    pose proof (o_2 _ _ _ _ _ _ _ _ _ _ _ _ O) as O2. pose proof (o_1 _ _ _ _ _ _ _ _ _ _ _ _ O) as O1. pose proof (o_4 _ _ _ _ _ _ _ _ _ _ _ _ O) as O4. pose proof (o_9 _ _ _ _ _ _ _ _ _ _ _ _ O) as O9. pose proof (o_14 _ _ _ _ _ _ _ _ _ _ _ _ O) as O14.
    assert (Gam : gam s' = G' s c cbar rhobar ct st rt). { unfold gam, G'. rewrite F16, F15, F9, F18, F17. ring. }
    assert (Fx : l_x s' = X_ s rho cbar rhobar) by exact F12.
    pose proof (G_eq _ _ _ _ _ _ _ _ _ _ _ I _ _ _ _ _ _ _ _ _ _ _ O) as Eg. pose proof (ze_eq _ _ _ _ _ _ _ _ _ _ _ I _ _ _ _ _ _ _ _ _ _ _ O) as Ez.
    exists (UB ub c s_ u'), gb', (PD ub pd c s_ ct st u'), (Q_ s ub q c s_ rho rhobar u'). constructor.
    - rewrite F1. constructor; [exact Hu|exact Ho|exact (i_u _ _ _ _ _ _ _ _ _ _ _ I)].
    - rewrite F2. constructor; [exact V1|exact V2|exact (i_v _ _ _ _ _ _ _ _ _ _ _ I)].
    - intros y [<-|Hy]; [|apply span_tl, (i_AHu _ _ _ _ _ _ _ _ _ _ _ I y Hy)]. destruct (i_AHu0 _ _ _ _ _ _ _ _ _ _ _ I) as (t & St & Ht).
      apply (span_lin _ (l_alpha s) 1 (l_v s) t); [apply span_hd|apply span_tl, St|]. intros j. rewrite Ht. ring.
    - exists (vscal beta (l_v s)). split; [apply (span_lin _ beta 0 (l_v s) (l_v s)); [apply span_hd|apply span_hd|intros j; unfold vscal; ring]|]. intros j. rewrite F1, F2, F3, Hz, V0. unfold vscal. ring.
    - rewrite F1. intros y [<-|Hy]; [|apply span_tl, (i_Av _ _ _ _ _ _ _ _ _ _ _ I y Hy)]. apply (span_lin _ (l_alpha s) beta (l_u s) u'); [apply span_tl, span_hd|apply span_hd|exact HA].
    - rewrite F3. exact Pa.
    - rewrite F4. apply Rmult_lt_0_compat; lra.
    - rewrite F5. exact O5.
    - rewrite F6. exact O10.
    - rewrite F7. exact O9.
    - rewrite F16. apply Rmult_lt_0_compat; lra.
    - rewrite F7, F8. exact O6.
    - rewrite F1. exact (UB_span _ _ _ _ _ _ _ _ _ _ _ I _ _ u').
    - exact (UB_unit _ _ _ _ _ _ _ _ _ _ _ I _ _ _ _ _ _ _ _ _ _ _ O u' Ho Hu).
    - intros j. rewrite (AHUB _ _ _ _ _ _ _ _ _ _ _ I _ _ _ _ _ _ _ _ _ _ _ O u' z Hz), F4, F2, V0. ring.
    - intros i. rewrite F13, F2, F3, F1, F4. rewrite (mul_lin n A v' (l_h s) _ 1 (- (s_ * alpha / rho))) by (intros j _; unfold vsub, vscal; ring).
      rewrite (i_h _ _ _ _ _ _ _ _ _ _ _ I), HA. unfold UB. rewrite <- O3, <- O2.
      replace (1 * mul n A v' i + - (s_ * alpha / rho) * (l_alpha s * l_u s i + rho * s_ * u' i - l_alpha s * l_u s i + rho * c * ub i)) with (mul n A v' i - alpha * (s_ * s_) * u' i - s_ * alpha * c * ub i) by (field; lra).
      replace (s_ * s_) with (1 - c * c) by lra. ring.
    - intros i. rewrite F11, F5, F6. exact (hb_eq _ _ _ _ _ _ _ _ _ _ _ I _ _ _ _ _ _ _ _ _ _ _ O u' i (HA i)).
    - intros i. rewrite F16. exact (pd_eq _ _ _ _ _ _ _ _ _ _ _ I _ _ _ _ _ _ _ _ _ _ _ O u' i).
    - rewrite F1. exact (PD_span _ _ _ _ _ _ _ _ _ _ _ I _ _ _ _ u').
    - exact (PD_UB _ _ _ _ _ _ _ _ _ _ _ I _ _ _ _ u' Ho Hu).
    - left. exact (PD_unit _ _ _ _ _ _ _ _ _ _ _ I _ _ _ _ _ _ _ _ _ _ _ O u' Ho Hu).
    - intros i. rewrite Gam, F14, Fx. exact (r_eq _ _ _ _ _ _ _ _ _ _ _ I _ _ _ _ _ _ _ _ _ _ _ O u' i (HA i)).
    - rewrite F2. apply (span_lin _ (- sbar) cbar gb v'); [apply span_tl, (i_g1 _ _ _ _ _ _ _ _ _ _ _ I)|apply span_hd|reflexivity].
    - exact Gn.
    - intros j. rewrite F10, Fx. apply K. rewrite V0. field. lra.
    - intros j. rewrite F2, F8, F7. rewrite (AHQ _ _ _ _ _ _ _ _ _ _ _ I _ _ _ _ _ _ _ _ _ _ _ O u' z Hz), V0. unfold gb'.
      replace (sbar * (cbar * gb j + s_ / rhobar * (alpha * v' j))) with (sbar * cbar * gb j + sbar * (s_ * alpha / rhobar) * v' j) by (field; lra). rewrite <- O8.
      replace (rhobar * sbar / rhobar) with sbar by (field; lra). replace (v' j) with ((cbar * cbar + sbar * sbar) * v' j) at 1 by (rewrite O6; ring). ring.
    - rewrite F7, F4, F14, F10. unfold BDD. rewrite <- (i_S2 _ _ _ _ _ _ _ _ _ _ _ I), <- O2. pose proof (o_7 _ _ _ _ _ _ _ _ _ _ _ _ O) as O7.
      replace (cbar * (c * alpha) * (- s_ * l_betadd s)) with (- (s_ * alpha) * (cbar * c * l_betadd s)) by ring. rewrite <- O8.
      replace (- sbar * (l_cbar s * (rho * c) * l_betadd s)) with (- sbar * ((l_cbar s * rho) * c * l_betadd s)) by ring. rewrite <- O7. ring.
    - rewrite Gam, Eg, <- Ez, F8, F4, F14. unfold BDD, BH. ring.
    - rewrite F10. exact Nz.
    - exact F19.
    - exact F21.
    - rewrite F20. pose proof (i_nA _ _ _ _ _ _ _ _ _ _ _ I). pose proof (Rle_0_sqr beta). pose proof (Rle_0_sqr alpha). unfold Rsqr in *. lra. }
  destruct (Rle_lt_or_eq_dec 0 (vdot n z z) (vdot_pos n z)) as [Pz|Zz].
  - pose proof (sqrt_lt_R0 _ Pz) as Psq. assert (Ez : forall j, z j = sqrt (vdot n z z) * vdiv z (sqrt (vdot n z z)) j) by (intros j; unfold vdiv; field; lra).
    apply (FIN _ _ (next_v_pos z Pz)); [lra|intros j _; apply Ez|]. intros _. split; [exact Ez|]. split; [exact (vdiv_unit n z Pz)|]. intros y Hy. apply vdiv_orth; [lra|exact (Hzo y Hy)].
  - apply (FIN z 0 (next_v_zero z (eq_sym Zz))); [lra| |intros E; contradiction]. intros j Hj. rewrite (vdot_null n z (eq_sym Zz) j Hj). ring.
Qed.

Theorem step_outcome : outcome.
Proof. destruct (Rle_lt_or_eq_dec _ _ (vdot_pos m Mu)) as [P|Z]; [exact (step_pos P)|left; exact (step_zero (eq_sym Z))]. Qed.
End Fixed.
End Main.
