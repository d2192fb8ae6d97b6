(** * Every iteration of LSMR makes the residual smaller (damp = 0, exact arithmetic). *)
From Coq Require Import Reals Lra Lia.
From Verif Require Import Base BaseLemmas TransformModel PCAlgebra LsmrModel LsmrAlg LsmrInv LsmrStep LsmrMain LsmrLoop.
Open Scope R_scope.

Section Mono.
Variables (m n : nat) (A : matrix) (b : vec).
Variables (atol btol conlim : R) (itnlim : nat).
Notation Inv := (Inv m n A b).
Notation resid := (resid n A b).
Notation step := (step m n A 0 atol btol conlim itnlim).
Notation r2 x := (vdot m (resid x) (resid x)).

Lemma step_less s us vs ub gb pd q normb s' : 0 < normb -> Inv s us vs ub gb pd q -> step normb s = Ok s' -> r2 (l_x s') < r2 (l_x s).
Proof.
  intros Hnb I E. set (Mu := vsub (mul n A (l_v s)) (vscal (l_alpha s) (l_u s))).
  destruct (Rle_lt_or_eq_dec _ _ (vdot_pos m Mu)) as [Hp|Z].
  2: { destruct (step_zero m n A b atol btol conlim itnlim s us vs ub gb pd q I normb Hnb (eq_sym Z)) as (E' & _). rewrite E in E'. discriminate. }
  pose proof (next_u_pos m _ Hp) as E1. pose proof (vdiv_unit m Mu Hp) as Hu. set (beta := sqrt (vdot m Mu Mu)) in *. assert (Hbeta : 0 < beta) by (apply sqrt_lt_R0, Hp).
  set (u' := vdiv Mu beta) in *.
  assert (Ho : forall y, In y (l_u s :: us) -> vdot m u' y = 0) by (intros y Hy; apply vdiv_orth; [lra|exact (next_u_orth _ _ _ _ _ _ _ _ _ _ _ I y Hy)]).
  assert (HA : forall i, mul n A (l_v s) i = l_alpha s * l_u s i + beta * u' i) by (intros i; unfold u', Mu, vdiv, vsub, vscal; field; lra).
  destruct (next_v n (vsub (mulH m A u') (vscal beta (l_v s)))) as [v' alpha] eqn:E2.
  assert (Hal : 0 <= alpha) by (unfold next_v in E2; injection E2 as _ <-; apply sqrt_pos).
  destruct (step_numbers m n A b atol btol conlim itnlim s us vs ub gb pd q I normb Hnb u' beta v' alpha E1) as (c & s_ & rho & cbar & sbar & rhobar & ct & st & rt & O & H); [rewrite Rltb_t by lra; exact E2|lra|lra|].
  cbv zeta in H. destruct H as [H0 H].
  assert (Ex : l_x s' = X_ s rho cbar rhobar).
  { destruct (Req_EM_T (sqrt ((G' s c cbar rhobar ct st rt / (ct * rhobar)) ^ 2 + BDD s s_ * BDD s s_)) 0) as [Z|N]; [rewrite (H0 Z) in E; discriminate|].
    destruct (H N) as (s2 & Es & R). rewrite E in Es. injection Es as <-. tauto. }
  rewrite Ex.
  pose proof (G_eq _ _ _ _ _ _ _ _ _ _ _ I _ _ _ _ _ _ _ _ _ _ _ O) as Eg. pose proof (ze_eq _ _ _ _ _ _ _ _ _ _ _ I _ _ _ _ _ _ _ _ _ _ _ O) as Ez.
  pose proof (o_8 _ _ _ _ _ _ _ _ _ _ _ _ O) as O8. pose proof (o_6 _ _ _ _ _ _ _ _ _ _ _ _ O) as O6. pose proof (o_10 _ _ _ _ _ _ _ _ _ _ _ _ O) as O10. pose proof (o_14 _ _ _ _ _ _ _ _ _ _ _ _ O) as O14. pose proof (o_9 _ _ _ _ _ _ _ _ _ _ _ _ O) as O9. pose proof (o_4 _ _ _ _ _ _ _ _ _ _ _ _ O) as O4.
  set (Q := Q_ s ub q c s_ rho rhobar u'). set (U := UB ub c s_ u').
  pose proof (PD_unit _ _ _ _ _ _ _ _ _ _ _ I _ _ _ _ _ _ _ _ _ _ _ O u' Ho Hu) as Pu.
  pose proof (PD_UB _ _ _ _ _ _ _ _ _ _ _ I c s_ ct st u' Ho Hu) as Po.
  assert (PQ : forall i, (i < m)%nat -> PD ub pd c s_ ct st u' i = ct * rhobar * Q i + 0 * Q i) by (intros i _; rewrite (pd_eq _ _ _ _ _ _ _ _ _ _ _ I _ _ _ _ _ _ _ _ _ _ _ O u' i); unfold Q; ring).
  assert (Np : 0 < ct * rhobar) by (apply Rmult_lt_0_compat; lra).
  assert (QQ : 0 < vdot m Q Q). { rewrite (vdot_lin_l m _ _ _ _ _ _ PQ), (vdot_lin m _ _ _ _ _ _ PQ) in Pu. pose proof (vdot_pos m Q). destruct (Req_EM_T (vdot m Q Q) 0) as [Z|N]; [|lra]. rewrite Z in Pu. lra. }
  assert (QU : vdot m Q U = 0). { rewrite (vdot_lin_l m _ _ _ _ _ _ PQ) in Po. fold U in Po. assert (ct * rhobar * vdot m Q U = 0) as F by lra. apply Rmult_integral in F. destruct F; lra. }
  set (X := X_ s rho cbar rhobar). set (g := G' s c cbar rhobar ct st rt) in *. set (ze := ZE s cbar) in *.
  assert (R1 : forall i, (i < m)%nat -> resid X i = g * Q i + BDD s s_ * U i) by (intros i _; exact (r_eq _ _ _ _ _ _ _ _ _ _ _ I _ _ _ _ _ _ _ _ _ _ _ O u' i (HA i))).
  assert (R2 : forall i, (i < m)%nat -> resid (l_x s) i = 1 * resid X i + ze * Q i).
  { intros i _. pose proof (x_eq _ _ _ _ _ _ _ _ _ _ _ I _ _ _ _ _ _ _ _ _ _ _ O u' i (HA i)) as Hx. unfold LsmrInv.resid, X. rewrite Hx. unfold ze, Q. ring. }
  assert (XQ : vdot m (resid X) Q = g * vdot m Q Q). { rewrite (vdot_lin_l m _ _ _ _ _ _ R1), (vdot_comm m U Q), QU. ring. }
  assert (RR : r2 (l_x s) = r2 X + (2 * (ze * g) + ze * ze) * vdot m Q Q).
  { rewrite (vdot_lin_l m _ _ _ _ _ _ R2), (vdot_lin m _ _ _ _ _ _ R2), (vdot_lin m _ _ _ _ _ _ R2), (vdot_comm m Q (resid X)), XQ. ring. }
  rewrite RR.
  assert (Zn : ze <> 0). { unfold ze, ZE. apply Rmult_integral_contrapositive_currified; [lra|exact (i_z _ _ _ _ _ _ _ _ _ _ _ I)]. }
  assert (Zg : 0 <= ze * g).
  { assert (E3 : ze = cbar * cbar * (rhobar * BH s c)) by (rewrite <- Ez, <- O8; replace (cbar * cbar) with (1 - sbar * sbar) by lra; ring).
    assert (E4 : g = sbar * sbar * (rhobar * BH s c)) by (rewrite Eg, E3; replace (cbar * cbar) with (1 - sbar * sbar) by lra; ring).
    rewrite E3, E4. replace (cbar * cbar * (rhobar * BH s c) * (sbar * sbar * (rhobar * BH s c))) with ((cbar * sbar * (rhobar * BH s c)) * (cbar * sbar * (rhobar * BH s c))) by ring. apply Rle_0_sqr. }
  pose proof (Rlt_0_sqr _ Zn) as Zs. unfold Rsqr in Zs. assert (0 < (2 * (ze * g) + ze * ze) * vdot m Q Q) by (apply Rmult_lt_0_compat; lra). lra.
Qed.

Lemma loop_less normb (Hb : 0 < normb) : forall fuel s s', invk m n A b s -> l_istop s = 0%nat -> loop m n A 0 atol btol conlim itnlim fuel normb s = Ok s' ->
  0 <= atol -> fuel <> 0%nat -> r2 (l_x s') < r2 (l_x s).
Proof.
  induction fuel as [|f IH]; intros s s' HI H0 E Ha Hf; [contradiction|]. cbn [LsmrModel.loop] in E. destruct HI as (us & vs & ub & gb & pd & q & I & Lu & Lv).
  destruct (step normb s) as [s1|] eqn:E1; cbn [bind] in E; [|discriminate]. pose proof (step_less _ _ _ _ _ _ _ _ _ Hb I E1) as L1.
  destruct (Nat.ltb 0 (l_istop s1)) eqn:L; [injection E as <-; exact L1|]. apply Nat.ltb_ge in L. assert (Z : l_istop s1 = 0%nat) by lia.
  destruct f as [|f]; [cbn [LsmrModel.loop] in E; injection E as <-; exact L1|].
  apply Rlt_trans with (r2 (l_x s1)); [|exact L1]. apply (IH s1 s'); auto.
  destruct (step_outcome m n A b atol btol conlim itnlim s us vs ub gb pd q I normb Hb) as [[E' _]|(s2 & E' & Ei & G & Mo & HI)]; rewrite E1 in E'; [discriminate|]. injection E' as <-.
  destruct (step_flags m n A 0 atol btol conlim itnlim normb s s1 H0 E1) as (_ & T & _).
  destruct HI as (ub' & gb' & pd' & q' & I').
  { intros Ez. destruct (T ltac:(lia) ltac:(lia) ltac:(lia)) as (T2 & _ & _). destruct G as (_ & _ & _ & G4 & _). rewrite Ez, Rabs_R0 in G4. rewrite G4 in T2. unfold Rdiv in T2. rewrite Rmult_0_l in T2. lra. }
  exists (l_u s :: us), (l_v s :: vs), ub', gb', pd', q'. split; [exact I'|]. cbn [length]. lia.
Qed.

Theorem solve_less sx s sx' : 0 <= atol -> (0 < itnlim)%nat -> vnorm n (mulH m A b) <> 0 -> solve m n A 0 atol btol conlim itnlim sx b = (Ok s, sx') ->
  r2 (l_x s) < vdot m b b.
Proof.
  intros Ha Hl N H. unfold solve in H. destruct (Req_EM_T (l_normar (init m n A b)) 0) as [E|E].
  { exfalso. apply N. destruct (init_norms m n A b) as (_ & I2 & _). destruct (init_zero m n A b) as (_ & _ & Ex). rewrite <- E, I2, Ex. apply rhs_norm. }
  rewrite (Reqb_f _ _ E) in H. destruct (loop m n A 0 atol btol conlim itnlim itnlim (l_normr (init m n A b)) (init m n A b)) as [s1|] eqn:El; [|discriminate]. injection H as <- _.
  destruct (init_pos m n A b E) as (HI & Hb & Hs & _). assert (L := loop_less _ Hb itnlim _ _ HI Hs El Ha ltac:(lia)).
  destruct (init_zero m n A b) as (_ & _ & Ex). rewrite Ex in L.
  assert (E0 : forall i, (i < m)%nat -> resid vzero i = 1 * b i + 0 * b i) by (intros i _; unfold LsmrInv.resid; rewrite (mul_zero n A); ring).
  rewrite (vdot_lin_l m (resid vzero) _ _ _ _ _ E0), (vdot_lin m _ _ _ _ _ _ E0) in L. lra.
Qed.
End Mono.
