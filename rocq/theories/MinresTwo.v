(** * MINRES on a system with a two-dimensional Krylov space, followed completely. *)
From Coq Require Import Reals ZArith Lra Lia.
From Verif Require Import Base BaseLemmas TransformModel PCAlgebra LsmrModel LsmrAlg LsmrSpec LsmrInv MinresModel MinresProofs MinresFinite.
Open Scope R_scope.

Section Two.
Variables (n : nat) (A : matrix) (eps rtol etol : R) (itnlim : nat) (v1 v2 : vec).
Hypotheses (He : 0 < eps < 1 / 1000) (Hr : 0 <= rtol < 1 / 10) (Hl : (2 <= itnlim)%nat).
Hypotheses (V11 : vdot n v1 v1 = 1) (V12 : vdot n v1 v2 = 0) (V22 : vdot n v2 v2 = 1).
Hypotheses (A1 : forall i, (i < n)%nat -> mul n A v1 i = 2 * v1 i + 2 * v2 i) (A2 : forall i, (i < n)%nat -> mul n A v2 i = 2 * v1 i + 3 * v2 i).
Notation mstep := (mstep n A eps rtol etol itnlim).

Lemma dot_comb a b c d x y : (forall i, (i < n)%nat -> x i = a * v1 i + b * v2 i) -> (forall i, (i < n)%nat -> y i = c * v1 i + d * v2 i) -> vdot n x y = a * c + b * d.
Proof. intros Hx Hy. rewrite (vdot_lin_l n _ _ _ _ _ _ Hx), !(vdot_lin n _ _ _ _ _ _ Hy), (vdot_comm n v2 v1), V11, V12, V22. ring. Qed.
Lemma mul_comb a b x : (forall i, (i < n)%nat -> x i = a * v1 i + b * v2 i) -> forall i, (i < n)%nat -> mul n A x i = (2 * a + 2 * b) * v1 i + (2 * a + 3 * b) * v2 i.
Proof. intros Hx i Hi. rewrite (mul_lin n A v1 v2 x a b i Hx), (A1 i Hi), (A2 i Hi). ring. Qed.
Lemma sqrt_sq x y : 0 <= y -> x = y * y -> sqrt x = y.
Proof. intros H ->. apply sqrt_square, H. Qed.
Lemma sqrt_between x l u : 0 < l -> 0 < u -> l * l < x < u * u -> l < sqrt x < u.
Proof. intros Pl Pu (H1 & H2). rewrite <- (sqrt_square l) by lra. rewrite <- (sqrt_square u) by lra. split; apply sqrt_lt_1; nra. Qed.

Lemma mstep_inv2 beta1 s s' : mstep beta1 s = Some s' ->
  exists alfa gamma, alfa = vdot n (vscal (1 / m_beta s) (m_r2 s)) (if Nat.leb 1 (m_itn s) then vsub (mul n A (vscal (1 / m_beta s) (m_r2 s))) (vscal (m_beta s / m_oldb s) (m_r1 s)) else mul n A (vscal (1 / m_beta s) (m_r2 s))) /\
    gamma = Rmax (normof2 (m_sn s * m_dbar s - m_cs s * alfa) (m_beta s')) eps /\
    m_gmax s' = Rmax (if Nat.eqb (m_itn s) 0 then Rabs alfa else m_gmax s) gamma /\
    m_Acond s' = (if Reqb (m_gmin s') 0 then None else Some (m_gmax s' / m_gmin s')) /\
    ((m_itn s < 5)%nat -> m_istop s' = mflags eps rtol itnlim (if Nat.eqb (m_itn s) 0 then (if Rleb (m_beta s' / beta1) (10 * eps) then (-1)%Z else m_istop s) else m_istop s)
       (m_itn s') (m_rnorm s' / (m_Anorm s' * m_ynorm s')) (normof2 (m_sn s * m_dbar s - m_cs s * alfa) (m_dbar s') / m_Anorm s') (m_Anorm s' * m_ynorm s' * eps) beta1 (m_Acond s')).
Proof.
  unfold MinresModel.mstep. destruct (Reqb (m_beta s) 0) eqn:E; [discriminate|]. cbv zeta.
  match goal with |- context [Reqb ?p 0] => destruct (Reqb p 0) eqn:E2 end; [discriminate|]. intros [= <-].
  cbn [m_itn m_r1 m_r2 m_oldb m_beta m_dbar m_epsln m_phibar m_rhs1 m_rhs2 m_tnorm2 m_ynorm2 m_cs m_sn m_w m_w2 m_x m_gmax m_gmin m_istop m_Arnorm m_rnorm m_Anorm m_ynorm m_Acond].
  do 2 eexists. split; [reflexivity|]. split; [reflexivity|]. change (Nat.eqb (S (m_itn s)) 1) with (Nat.eqb (m_itn s) 0). split; [reflexivity|]. split; [reflexivity|].
  intros H5. rewrite (proj2 (Nat.ltb_ge window (S (m_itn s)))) by (unfold window; lia). reflexivity.
Qed.
Lemma two_steps : exists s, msolve n A eps rtol etol itnlim true v1 = Finite s /\ eps < m_gmin s /\ m_rnorm s = 0 /\ m_istop s = 1%Z /\ m_itn s = 2%nat.
Proof.
  unfold msolve. cbn [negb]. rewrite (Reqb_f _ 0) by lra. set (fuel := itnlim) at 2. assert (Hf : (2 <= fuel)%nat) by exact Hl. clearbody fuel. destruct fuel as [|[|fuel]]; [lia|lia|].
  assert (N1 : vnorm n v1 = 1) by (unfold vnorm; rewrite V11; apply sqrt_1). assert (B0 : m_beta (minit n v1) = 1) by exact N1. rewrite B0.
  destruct (mstep_go n A eps rtol etol itnlim (proj1 He) 1 (minit n v1)) as (s1 & E1 & T1 & Y1 & It1).
  { rewrite B0. lra. } { cbn. lra. } { cbn. lra. } { left. change (m_rhs1 (minit n v1)) with (vnorm n v1). rewrite N1. lra. }
  cbn [MinresModel.mloop]. rewrite E1.
  destruct (mstep_inv _ _ _ _ _ _ _ _ _ E1) as (v & y & alfa & gamma & delta & gbar & _ & Ev & Ey & Ea & _ & F2 & F3 & F4 & F5 & Fd & Fg & F6 & F7 & Fgm & F8 & F9 & F10 & F11 & F12 & F13 & F14 & F15 & F16 & F17 & F18 & F19 & F20 & F21 & istop & Fi & Fj).
  rewrite B0 in *. change (m_r2 (minit n v1)) with v1 in *. change (m_itn (minit n v1)) with 0%nat in *. cbn [Nat.leb Nat.eqb] in *. change (m_cs (minit n v1)) with (-1) in *. change (m_sn (minit n v1)) with 0 in *. change (m_dbar (minit n v1)) with 0 in *.
  change (m_phibar (minit n v1)) with (vnorm n v1) in *. change (m_rhs1 (minit n v1)) with (vnorm n v1) in *. change (m_tnorm2 (minit n v1)) with 0 in *. change (m_ynorm2 (minit n v1)) with 0 in *. change (m_istop (minit n v1)) with 0%Z in *. rewrite N1 in *.
  assert (Hv : forall i, (i < n)%nat -> v i = 1 * v1 i + 0 * v2 i) by (intros i _; rewrite Ev; unfold vscal; field).
  pose proof (mul_comb 1 0 v Hv) as Hy. rewrite <- Ey in Hy.
  assert (Ea' : alfa = 2) by (rewrite Ea, (dot_comb 1 0 _ _ _ _ Hv Hy); ring). rewrite Ea' in *. clear Ea Ea' alfa.
  assert (Hr2 : forall i, (i < n)%nat -> m_r2 s1 i = 0 * v1 i + 2 * v2 i) by (intros i Hi; rewrite F3; unfold vadd, vscal; rewrite (Hy i Hi); field).
  assert (Eb : m_beta s1 = 2) by (rewrite F5, (dot_comb _ _ _ _ _ _ Hr2 Hr2); apply sqrt_sq; lra). rewrite Eb in *.
  set (q := sqrt 8) in *. assert (Q8 : q * q = 8) by (apply sqrt_sqrt; lra). assert (Qb : 28 / 10 < q < 29 / 10) by (apply sqrt_between; lra).
  assert (Eg : gbar = 2) by lra. rewrite Eg in *.
  assert (Egm : gamma = q). { rewrite Fgm. unfold normof2. replace (2 ^ 2 + 2 ^ 2) with 8 by ring. fold q. apply Rmax_left. lra. } rewrite Egm in *.
  assert (Ep : m_phibar s1 = 2 / q) by (rewrite F10, F9; field; lra).
  assert (EA : m_Anorm s1 = 3) by (rewrite F16; apply sqrt_sq; lra).
  assert (EY : m_ynorm s1 = 1 / q). { rewrite F18. apply sqrt_sq; [apply Rlt_le, Rdiv_lt_0_compat; lra|]. field. lra. }
  destruct (mstep_inv2 _ _ _ E1) as (alfa & gamma0 & Ga & Gg & Gx & Gc & Gi). rewrite B0, Eb in *. change (m_itn (minit n v1)) with 0%nat in *. cbn [Nat.leb Nat.eqb] in *. change (m_r2 (minit n v1)) with v1 in *. change (m_cs (minit n v1)) with (-1) in *. change (m_sn (minit n v1)) with 0 in *. change (m_dbar (minit n v1)) with 0 in *. change (m_istop (minit n v1)) with 0%Z in *.
  rewrite <- Ev, <- Ey, (dot_comb 1 0 _ _ _ _ Hv Hy) in Ga. assert (Ga' : alfa = 2) by lra. rewrite Ga' in *. clear Ga Ga' alfa.
  assert (Gg' : gamma0 = q). { rewrite Gg. unfold normof2. replace ((0 * 0 - -1 * 2) ^ 2 + 2 ^ 2) with 8 by ring. fold q. apply Rmax_left. lra. } rewrite Gg' in *. clear Gg Gg' gamma0.
  rewrite (Rabs_right 2) in * by lra. rewrite Rmin_left in F14 by lra. rewrite Rmax_right in Gx by lra. rewrite F14, Gx in Gc. rewrite (Reqb_f 2 0) in Gc by lra.
  assert (I1 : m_istop s1 = 0%Z).
  { rewrite Gi by lia. rewrite (Rleb_f (2 / 1)) by lra. unfold mflags. cbn [Z.eqb]. rewrite F15, Ep, EA, EY, Gc, It1, F7.
    replace (normof2 (0 * 0 - -1 * 2) (- -1 * 2)) with q by (unfold normof2, q; f_equal; ring).
    replace (2 / q / (3 * (1 / q))) with (2 / 3) by (field; lra).
    rewrite (Rleb_f (1 + q / 3)) by lra. rewrite (Rleb_f (1 + 2 / 3)) by lra. rewrite (proj2 (Nat.leb_gt itnlim 1)) by lia.
    rewrite (Rleb_f (1 / 10 / eps)). 2:{ apply (Rlt_le_trans _ 100); [lra|]. apply (Rmult_le_reg_r eps); [lra|]. replace (1 / 10 / eps * eps) with (1 / 10) by (field; lra). lra. }
    rewrite (Rleb_f 1). 2:{ assert (1 / q < 1) by (apply (Rmult_lt_reg_r q); [lra|]; replace (1 / q * q) with 1 by (field; lra); lra). assert (0 < 1 / q) by (apply Rdiv_lt_0_compat; lra). nra. }
    rewrite (Rleb_f (q / 3)) by lra. rewrite (Rleb_f (2 / 3)) by lra. reflexivity. }
  rewrite I1. cbn [Z.ltb Z.compare].
  destruct (mstep_go n A eps rtol etol itnlim (proj1 He) 1 s1 ltac:(lra) T1 ltac:(lra) (or_intror Y1)) as (s2 & E2 & _ & _ & It2). rewrite E2.
  assert (Es : m_sn s1 = 2 / q) by exact F9. assert (Ec : m_cs s1 = 2 / q) by exact F8. assert (Ed : m_dbar s1 = 2) by lra.
  destruct (mstep_inv _ _ _ _ _ _ _ _ _ E2) as (w & z & alf & gam & delt & gb & _ & Ew & Ez & Eal & _ & G2 & G3 & G4 & G5 & _ & Ggb & _ & G7 & Ggm & G8 & G9 & G10 & _ & _ & _ & G14 & G15 & _ & _ & _ & _ & G20 & _).
  rewrite Eb, It1 in *. cbn [Nat.leb Nat.eqb] in *. rewrite F2, F4 in *.
  assert (Hw : forall i, (i < n)%nat -> w i = 0 * v1 i + 1 * v2 i) by (intros i Hi; rewrite Ew; unfold vscal; rewrite (Hr2 i Hi); field).
  assert (Hz : forall i, (i < n)%nat -> z i = 0 * v1 i + 3 * v2 i) by (intros i Hi; rewrite Ez; unfold vsub, vscal; rewrite (mul_comb 0 1 w Hw i Hi); field).
  assert (Eal' : alf = 3) by (rewrite Eal, (dot_comb _ _ _ _ _ _ Hw Hz); ring). rewrite Eal' in *. clear Eal Eal' alf.
  assert (Hr3 : forall i, (i < n)%nat -> m_r2 s2 i = 0 * v1 i + 0 * v2 i) by (intros i Hi; rewrite G3; unfold vadd, vscal; rewrite (Hz i Hi), (Hr2 i Hi); field).
  assert (Eb2 : m_beta s2 = 0) by (rewrite G5, (dot_comb _ _ _ _ _ _ Hr3 Hr3); apply sqrt_sq; lra). rewrite Eb2 in *.
  assert (Egb : gb = - (2 / q)) by (rewrite Ggb, Es, Ec, Ed; field; lra).
  assert (P2 : 1 / 2 < 2 / q) by (apply (Rmult_lt_reg_r q); [lra|]; replace (2 / q * q) with 2 by (field; lra); lra).
  assert (Egam : gam = 2 / q). { rewrite Ggm. unfold normof2. rewrite Egb. rewrite (sqrt_sq _ (2 / q)); [apply Rmax_left; lra|lra|ring]. }
  assert (R0 : m_rnorm s2 = 0) by (rewrite G15, G10, G9; unfold Rdiv; ring).
  assert (I2 : m_istop s2 = 1%Z).
  { destruct (mstep_inv2 _ _ _ E2) as (a & g & _ & _ & _ & _ & Gi2). rewrite It1 in Gi2. rewrite Gi2 by lia. cbn [Nat.eqb]. rewrite I1, R0. unfold mflags. cbn [Z.eqb]. rewrite (Rleb_t (0 / _) rtol) by (unfold Rdiv; rewrite Rmult_0_l; lra). reflexivity. }
  rewrite I2. cbn [Z.ltb Z.compare]. exists s2. split; [reflexivity|]. split; [|split; [exact R0|split; [exact I2|lia]]].
  rewrite G14, F14, Egam. apply Rmin_glb_lt; lra.
Qed.
End Two.
