(** * The LSMR loop (damp = 0, exact arithmetic). *)
From Coq Require Import Reals Lra Lia.
From Verif Require Import Base BaseLemmas TransformModel PCAlgebra LsmrModel LsmrAlg LsmrInv LsmrStep LsmrMain.
Open Scope R_scope.

(** ** The flags, whatever the matrix and the numbers *)
Section Flags.
Variables (m n : nat) (A : matrix) (damp atol btol conlim : R) (itnlim : nat).
Notation step := (step m n A damp atol btol conlim itnlim).

(** What the flag of a finished iteration says. *)
Definition meaning (normb : R) (s : state) : Prop :=
  match l_istop s with
  | 0%nat => (l_itn s < itnlim)%nat
  | 1%nat => l_normr s / normb <= btol + atol * l_normA s * l_normx s / normb
  | 2%nat => l_normar s / (l_normA s * l_normr s) <= atol
  | 3%nat => 1 / l_condA s <= ctol conlim
  | 4%nat => 1 + l_normr s / normb / (1 + l_normA s * l_normx s / normb) <= 1
  | 5%nat => 1 + l_normar s / (l_normA s * l_normr s) <= 1
  | 6%nat => 1 + 1 / l_condA s <= 1
  | 7%nat => (itnlim <= l_itn s)%nat
  | 8%nat => (window < l_itn s)%nat /\ sqrt (rsum (map (fun e => e * e) (l_dErr s))) < etol * sqrt (l_xNrgNorm2 s)
  | _ => False
  end.
(** The tests that decide the flag. *)
Definition tests (normb : R) (s : state) : Prop :=
  l_istop s <> 1%nat -> l_istop s <> 2%nat -> l_istop s <> 3%nat -> atol < l_normar s / (l_normA s * l_normr s) /\ btol + atol * l_normA s * l_normx s / normb < l_normr s / normb /\ ctol conlim < 1 / l_condA s.

Lemma flags_spec itn istop test1 test2 test3 t1 rtol (P8 : Prop) : istop = 0%nat \/ istop = 8%nat /\ P8 ->
  match flags atol conlim itnlim itn istop test1 test2 test3 t1 rtol with
  | 0%nat => (itn < itnlim)%nat | 1%nat => test1 <= rtol | 2%nat => test2 <= atol | 3%nat => test3 <= ctol conlim
  | 4%nat => 1 + t1 <= 1 | 5%nat => 1 + test2 <= 1 | 6%nat => 1 + test3 <= 1 | 7%nat => (itnlim <= itn)%nat | 8%nat => P8 | _ => False end.
Proof.
  intros H0. unfold flags. destruct (Rleb test1 _) eqn:D1; [apply Rleb_iff in D1; exact D1|]. destruct (Rleb test2 atol) eqn:D2; [apply Rleb_iff in D2; exact D2|]. destruct (Rleb test3 (ctol conlim)) eqn:D3; [apply Rleb_iff in D3; exact D3|].
  destruct (Rleb (1 + t1) 1) eqn:D4; [apply Rleb_iff in D4; exact D4|]. destruct (Rleb (1 + test2) 1) eqn:D5; [apply Rleb_iff in D5; exact D5|]. destruct (Rleb (1 + test3) 1) eqn:D6; [apply Rleb_iff in D6; exact D6|].
  destruct (Nat.leb itnlim itn) eqn:D7; [apply Nat.leb_le, D7|]. apply Nat.leb_gt in D7. destruct H0 as [->|[-> Hx]]; [exact D7|exact Hx].
Qed.
Lemma flags_zero itn istop test1 test2 test3 t1 rtol : flags atol conlim itnlim itn istop test1 test2 test3 t1 rtol <> 1%nat -> flags atol conlim itnlim itn istop test1 test2 test3 t1 rtol <> 2%nat -> flags atol conlim itnlim itn istop test1 test2 test3 t1 rtol <> 3%nat -> atol < test2 /\ rtol < test1 /\ ctol conlim < test3.
Proof.
  assert (N : forall x y, Rleb x y = false -> y < x) by (intros x y; unfold Rleb; destruct (Rle_dec x y); [discriminate|intros _; lra]).
  unfold flags. destruct (Rleb test1 _) eqn:D1; [intros []; reflexivity|]. destruct (Rleb test2 atol) eqn:D2; [intros _ []; reflexivity|]. destruct (Rleb test3 (ctol conlim)) eqn:D3; [intros _ _ []; reflexivity|]. intros _ _ _. auto.
Qed.
Lemma step_flags normb s s' : l_istop s = 0%nat -> step normb s = Ok s' -> meaning normb s' /\ tests normb s' /\ l_itn s' = S (l_itn s).
Proof.
  intros H0 H. unfold LsmrModel.step in H. destruct (next_u m _) as [u beta] in H. destruct (if Rltb 0 beta then _ else _) as [v alpha] in H.
  destruct (symOrtho (l_alphabar s) damp) as [[chat shat] alphahat] in H. destruct (symOrtho alphahat beta) as [[c s_] rho] in H. destruct (symOrtho (l_cbar s * rho) _) as [[cbar sbar] rhobar] in H.
  cbv zeta in H. destruct (pdiv _ (l_rho s * l_rhobar s)) as [q1|] in H; cbn [bind] in H; [|discriminate]. destruct (pdiv _ (rho * rhobar)) as [q2|] in H; cbn [bind] in H; [|discriminate].
  destruct (pdiv _ rho) as [q3|] in H; cbn [bind] in H; [|discriminate]. destruct (symOrtho (l_rhodold s) _) as [[ct st] rt] in H. destruct (pdiv _ rt) as [tt|] in H; cbn [bind] in H; [|discriminate].
  destruct (pdiv _ (ct * rhobar)) as [taud|] in H; cbn [bind] in H; [|discriminate]. destruct (pdiv (Rmax _ _) _) as [condA|] in H; cbn [bind] in H; [|discriminate].
  destruct (pdiv _ normb) as [test1|] eqn:T1 in H; cbn [bind] in H; [|discriminate]. destruct (pdiv (Rabs _) _) as [test2|] eqn:T2 in H; cbn [bind] in H; [|discriminate].
  destruct (pdiv 1 condA) as [test3|] eqn:T3 in H; cbn [bind] in H; [|discriminate]. apply pdiv_inv in T1. apply pdiv_inv in T2. apply pdiv_inv in T3. destruct T1 as [_ T1], T2 as [_ T2], T3 as [_ T3].
  subst test1 test2 test3. injection H as <-. unfold meaning, tests. cbn [l_istop l_itn l_normr l_normA l_normx l_normar l_condA l_dErr l_xNrgNorm2]. rewrite H0. split; [|split; [|reflexivity]].
  - apply flags_spec. destruct (Nat.ltb window (S (l_itn s))) eqn:W; cbn [andb]; [|auto]. match goal with |- context [Rltb ?a ?c] => destruct (Rltb a c) eqn:L end; [|auto]. right. split; [reflexivity|]. split; [apply Nat.ltb_lt, W|apply Rltb_iff, L].
  - apply flags_zero.
Qed.

(** A returned state is the initial one, or one produced by the last iteration. *)
Lemma loop_flags normb : forall fuel s s', l_istop s = 0%nat -> loop m n A damp atol btol conlim itnlim fuel normb s = Ok s' -> (l_itn s + fuel = itnlim)%nat ->
  (s' = s /\ fuel = 0%nat) \/ (meaning normb s' /\ tests normb s' /\ (l_itn s < l_itn s' <= itnlim)%nat /\ l_istop s' <> 0%nat).
Proof.
  induction fuel as [|f IH]; intros s s' H0 H Hf.
  - left. cbn [loop] in H. injection H as <-. auto.
  - right. cbn [loop] in H. destruct (step normb s) as [s1|] eqn:E; cbn [bind] in H; [|discriminate]. destruct (step_flags _ _ _ H0 E) as (M & T & I1).
    destruct (Nat.ltb 0 (l_istop s1)) eqn:L.
    + injection H as <-. apply Nat.ltb_lt in L. split; [exact M|]. split; [exact T|]. lia.
    + apply Nat.ltb_ge in L. assert (Z : l_istop s1 = 0%nat) by lia. destruct (IH s1 s' Z H ltac:(lia)) as [[-> F0]|(M' & T' & I' & N')].
      * exfalso. unfold meaning in M. rewrite Z in M. lia.
      * split; [exact M'|]. split; [exact T'|]. lia.
Qed.
End Flags.

(** ** The reported numbers *)
Section Exact.
Variables (m n : nat) (A : matrix) (b : vec) (atol btol conlim : R) (itnlim : nat).
Hypothesis Hatol : 0 <= atol.
Notation step := (step m n A 0 atol btol conlim itnlim).
Notation loop := (loop m n A 0 atol btol conlim itnlim).
Notation Inv := (Inv m n A b).
Notation resid := (resid n A b).
Definition invk (s : state) : Prop := exists us vs ub gb pd q, Inv s us vs ub gb pd q /\ length us = l_itn s /\ length vs = l_itn s.

Lemma mulH_scal y r j : r <> 0 -> mulH m A (vdiv y r) j = mulH m A y j / r.
Proof. intros H. rewrite (mulH_lin m A y y (vdiv y r) (/ r) 0) by (intros i _; unfold vdiv; field; auto). field. auto. Qed.
Lemma mul_zero i : mul n A vzero i = 0.
Proof. rewrite (mul_lin n A vzero vzero vzero 0 0 i) by (intros j _; unfold vzero; ring). ring. Qed.

(** The start. *)
Lemma init_pos : l_normar (init m n A b) <> 0 -> invk (init m n A b) /\ 0 < l_normr (init m n A b) /\ l_istop (init m n A b) = 0%nat /\ l_itn (init m n A b) = 0%nat.
Proof.
  unfold init. destruct (Rle_lt_or_eq_dec _ _ (vdot_pos m b)) as [P|Z]; [|rewrite (next_u_zero m b (eq_sym Z)), Rltb_f by lra; cbn [l_normar]; intros N; exfalso; apply N; ring].
  rewrite (next_u_pos m b P). pose proof (vdiv_unit m b P) as Hu. pose proof (sqrt_lt_R0 _ P) as Hbt. set (beta := sqrt (vdot m b b)) in *. rewrite Rltb_t by lra. set (u := vdiv b beta) in *.
  destruct (Rle_lt_or_eq_dec _ _ (vdot_pos n (mulH m A u))) as [Pz|Zz]; [|rewrite (next_v_zero n _ (eq_sym Zz)); cbn [l_normar]; intros N; exfalso; apply N; ring].
  rewrite (next_v_pos n _ Pz). pose proof (vdiv_unit n (mulH m A u) Pz) as Hv. pose proof (sqrt_lt_R0 _ Pz) as Hal. set (alpha := sqrt (vdot n (mulH m A u) (mulH m A u))) in *. set (v := vdiv (mulH m A u) alpha) in *.
  assert (Ev : forall j, mulH m A u j = alpha * v j) by (intros j; unfold v, vdiv; field; lra). assert (Eu : forall i, b i = beta * u i) by (intros i; unfold u, vdiv; field; lra).
  intros _. split; [|cbn; auto]. exists [], [], u, v, vzero, vzero. split; [|cbn; auto].
  constructor; cbn [l_u l_v l_alpha l_alphabar l_rho l_rhobar l_cbar l_sbar l_zeta l_zetabar l_h l_hbar l_x l_betadd l_betad l_rhodold l_tautildeold l_thetatilde l_d l_normA2 l_minrbar]; try lra.
  - constructor; [exact Hu|intros y []|constructor].
  - constructor; [exact Hv|intros y []|constructor].
  - intros y [].
  - exists vzero. split; [apply span_0; reflexivity|]. intros j. rewrite Ev. unfold vzero. ring.
  - intros y [].
  - apply span_hd.
  - intros j. rewrite Ev. ring.
  - intros i. ring.
  - intros i. rewrite mul_zero. unfold vzero. ring.
  - intros i. unfold vzero. ring.
  - apply span_0. reflexivity.
  - apply vdot_zero. reflexivity.
  - intros i. rewrite mul_zero, Eu. unfold gam. cbn [l_rhodold l_betad l_zeta l_thetatilde l_tautildeold]. unfold vzero. ring.
  - apply span_hd.
  - intros j. rewrite (mulH_lin m A u u _ beta 0) by (intros i _; unfold LsmrInv.resid; rewrite mul_zero, Eu; ring). rewrite Ev. ring.
  - intros j. ring.
  - unfold gam. cbn [l_rhodold l_betad l_zeta l_thetatilde l_tautildeold]. ring.
  - apply Rmult_integral_contrapositive_currified; lra.
  - apply Rmult_lt_0_compat; lra.
Qed.
Lemma init_norms : let s := init m n A b in l_normr s = vnorm m (resid (l_x s)) /\ l_normar s = vnorm n (mulH m A (resid (l_x s))) /\ l_normx s = vnorm n (l_x s).
Proof.
  assert (R0 : forall k x y, (forall i, (i < k)%nat -> x i = y i) -> vnorm k x = vnorm k y).
  { intros k x y H. unfold vnorm. f_equal. rewrite (vdot_lin_l k x y y x 1 0) by (intros i Hi; rewrite (H i Hi); ring). rewrite (vdot_lin k y y y x 1 0) by (intros i Hi; rewrite (H i Hi); ring). ring. }
  assert (Rb : forall i, resid vzero i = b i) by (intros i; unfold LsmrInv.resid; rewrite mul_zero; ring).
  assert (Rz : 0 = vnorm n vzero) by (unfold vnorm; rewrite vdot_zero by reflexivity; rewrite sqrt_0; reflexivity).
  unfold init. destruct (Rle_lt_or_eq_dec _ _ (vdot_pos m b)) as [P|Z].
  - rewrite (next_u_pos m b P). pose proof (sqrt_lt_R0 _ P) as Hbt. set (beta := sqrt (vdot m b b)) in *. rewrite Rltb_t by lra. set (u := vdiv b beta) in *.
    assert (N : vnorm n (mulH m A (resid vzero)) = sqrt (vdot n (mulH m A u) (mulH m A u)) * beta).
    { apply vnorm_eq; [apply Rmult_le_pos; [apply sqrt_pos|lra]|]. assert (E : forall j, (j < n)%nat -> mulH m A (resid vzero) j = beta * mulH m A u j + 0 * mulH m A u j).
      { intros j _. rewrite (mulH_lin m A u u _ beta 0) by (intros i _; rewrite Rb; unfold u, vdiv; field; lra). ring. }
      rewrite (vdot_lin_l n _ _ _ _ _ _ E), (vdot_lin n _ _ _ _ _ _ E). replace (sqrt (vdot n (mulH m A u) (mulH m A u)) * beta * (sqrt (vdot n (mulH m A u) (mulH m A u)) * beta)) with (sqrt (vdot n (mulH m A u) (mulH m A u)) * sqrt (vdot n (mulH m A u) (mulH m A u)) * (beta * beta)) by ring.
      rewrite sqrt_sqrt by apply vdot_pos. ring. }
    unfold next_v. destruct (Rltb 0 _); cbn [l_normr l_normar l_normx l_x]; (split; [unfold beta; fold (vnorm m b); apply R0; intros i _; symmetry; apply Rb|]; split; [rewrite N; ring|exact Rz]).
  - rewrite (next_u_zero m b (eq_sym Z)), Rltb_f by lra. cbn [l_normr l_normar l_normx l_x]. split; [rewrite (R0 m (resid vzero) b) by (intros i _; apply Rb); unfold vnorm; rewrite <- Z, sqrt_0; reflexivity|]. split; [|exact Rz].
    symmetry. apply vnorm_eq; [lra|]. rewrite vdot_zero; [lra|]. intros j _. rewrite (mulH_lin m A b b _ 0 0) by (intros i Hi; rewrite Rb, (vdot_null m b (eq_sym Z) i Hi); ring). ring.
Qed.

Lemma inv_dims s us vs ub gb pd q : Inv s us vs ub gb pd q -> (S (length us) <= m)%nat /\ (S (length vs) <= n)%nat.
Proof. intros I. split; [exact (onb_length m (l_u s :: us) (i_u _ _ _ _ _ _ _ _ _ _ _ I))|exact (onb_length n (l_v s :: vs) (i_v _ _ _ _ _ _ _ _ _ _ _ I))]. Qed.

Lemma loop_exact normb (Hb : 0 < normb) z0 : forall fuel s, invk s -> Rabs (l_zetabar s) <= z0 -> l_istop s = 0%nat ->
  (loop fuel normb s = Raise ZeroDivisionError /\ exists x, forall i, (i < m)%nat -> mul n A x i = b i) \/
  (exists s', loop fuel normb s = Ok s' /\ (s' = s /\ fuel = 0%nat \/ good m n A b s' /\ l_normar s' <= z0 /\ (l_itn s' <= m)%nat /\ (l_itn s' <= n)%nat /\ (l_istop s' = 7%nat -> (l_itn s' < m)%nat /\ (l_itn s' < n)%nat))).
Proof.
  induction fuel as [|f IH]; intros s HI Hz0 H0; [right; exists s; cbn [LsmrModel.loop]; auto|]. cbn [LsmrModel.loop]. destruct HI as (us & vs & ub & gb & pd & q & I & Lu & Lv). pose proof (inv_dims _ _ _ _ _ _ _ I) as [Du Dv].
  destruct (step_outcome m n A b atol btol conlim itnlim s us vs ub gb pd q I normb Hb) as [[E Hx]|(s1 & E & Ei & G & Mo & HI)].
  - left. rewrite E. cbn [bind]. auto.
  - rewrite E. cbn [bind]. destruct (step_flags m n A 0 atol btol conlim itnlim normb s s1 H0 E) as (_ & T & _).
    assert (Nz : l_istop s1 <> 1%nat -> l_istop s1 <> 2%nat -> l_istop s1 <> 3%nat -> l_zetabar s1 <> 0).
    { intros N1 N2 N3 Ez. destruct (T N1 N2 N3) as (T2 & _ & _). destruct G as (_ & _ & _ & G4 & _). rewrite Ez, Rabs_R0 in G4. rewrite G4 in T2. unfold Rdiv in T2. rewrite Rmult_0_l in T2. lra. }
    assert (Hm : l_normar s1 <= z0) by (destruct G as (_ & _ & _ & G4 & _); lra).
    assert (HI' : l_istop s1 <> 1%nat -> l_istop s1 <> 2%nat -> l_istop s1 <> 3%nat -> invk s1).
    { intros N1 N2 N3. destruct (HI (Nz N1 N2 N3)) as (ub' & gb' & pd' & q' & I'). exists (l_u s :: us), (l_v s :: vs), ub', gb', pd', q'. split; [exact I'|]. cbn [length]. lia. }
    assert (H7 : l_istop s1 = 7%nat -> (l_itn s1 < m)%nat /\ (l_itn s1 < n)%nat).
    { intros E7. destruct HI' as (us' & vs' & ub' & gb' & pd' & q' & I' & Lu' & Lv'); [lia|lia|lia|]. pose proof (inv_dims _ _ _ _ _ _ _ I') as [Du' Dv']. lia. }
    destruct (Nat.ltb 0 (l_istop s1)) eqn:L; [right; exists s1; split; [reflexivity|]; right; split; [exact G|]; split; [exact Hm|]; split; [lia|]; split; [lia|exact H7]|].
    apply Nat.ltb_ge in L. assert (Z : l_istop s1 = 0%nat) by lia.
    destruct (IH s1 (HI' ltac:(lia) ltac:(lia) ltac:(lia)) ltac:(destruct G as (_ & _ & _ & G4 & _); lra) Z) as [[E' Hx]|(s' & E' & [[-> F]|G'])]; [left; auto|right; exists s1; rewrite E'|right; exists s'; auto].
    split; [reflexivity|]. right. split; [exact G|]. split; [exact Hm|]. split; [lia|]. split; [lia|]. intros E7. lia.
Qed.

Theorem solve_exact sx : let (r, sx') := solve m n A 0 atol btol conlim itnlim sx b in
  match r with
  | Ok s => l_normr s = vnorm m (resid (l_x s)) /\ l_normar s = vnorm n (mulH m A (resid (l_x s))) /\ l_normx s = vnorm n (l_x s) /\ (l_istop s <> 0%nat -> 0 < l_normr s /\ 0 < l_normA s /\ 0 < l_condA s) /\
       l_normar s <= vnorm n (mulH m A b) /\ (l_itn s <= m)%nat /\ (l_itn s <= n)%nat /\ (l_istop s = 7%nat -> (l_itn s < m)%nat /\ (l_itn s < n)%nat)
  | Raise e => e = ZeroDivisionError /\ exists x, forall i, (i < m)%nat -> mul n A x i = b i
  end.
Proof.
  unfold solve. pose proof init_norms as IN. cbv zeta in IN.
  assert (Es : l_istop (init m n A b) = 0%nat /\ l_itn (init m n A b) = 0%nat /\ l_zetabar (init m n A b) = l_normar (init m n A b) /\ l_x (init m n A b) = vzero).
  { unfold init. destruct (next_u m b) as [u0 b0]. destruct (if Rltb 0 b0 then _ else _). auto. }
  destruct Es as (Es & Et & Ez & Ex). destruct IN as (I1 & I2 & I3).
  assert (Eb : vnorm n (mulH m A b) = l_normar (init m n A b)).
  { rewrite I2, Ex. unfold vnorm. f_equal. assert (E : forall j, (j < n)%nat -> mulH m A b j = 1 * mulH m A (resid vzero) j + 0 * mulH m A (resid vzero) j).
    { intros j _. rewrite (mulH_lin m A (resid vzero) (resid vzero) b 1 0) by (intros i _; unfold LsmrInv.resid; rewrite mul_zero; ring). ring. }
    rewrite (vdot_lin_l n _ _ _ _ _ _ E), (vdot_lin n _ _ _ _ _ _ E). ring. }
  rewrite Eb.
  assert (FIN : l_normr (init m n A b) = vnorm m (resid (l_x (init m n A b))) /\ l_normar (init m n A b) = vnorm n (mulH m A (resid (l_x (init m n A b)))) /\ l_normx (init m n A b) = vnorm n (l_x (init m n A b)) /\
     (l_istop (init m n A b) <> 0%nat -> 0 < l_normr (init m n A b) /\ 0 < l_normA (init m n A b) /\ 0 < l_condA (init m n A b)) /\ l_normar (init m n A b) <= l_normar (init m n A b) /\ (l_itn (init m n A b) <= m)%nat /\ (l_itn (init m n A b) <= n)%nat /\
     (l_istop (init m n A b) = 7%nat -> (l_itn (init m n A b) < m)%nat /\ (l_itn (init m n A b) < n)%nat)).
  { do 3 (split; [assumption|]). split; [intros N; contradiction|]. split; [lra|]. rewrite Et. split; [lia|]. split; [lia|]. rewrite Es. discriminate. }
  destruct (Req_EM_T (l_normar (init m n A b)) 0) as [E|E].
  - rewrite (Reqb_t _ _ E). exact FIN.
  - rewrite (Reqb_f _ _ E). destruct (init_pos E) as (us & Hb & Hs & _). destruct (loop_exact _ Hb (l_normar (init m n A b)) itnlim _ us) as [[El Hx]|(s' & El & [[-> F]|G])]; [|exact Hs| | |].
    + rewrite Ez, I2. unfold vnorm. rewrite Rabs_right by (apply Rle_ge, sqrt_pos). lra.
    + rewrite El. auto.
    + rewrite El. exact FIN.
    + rewrite El. destruct G as ((G1 & G2 & G3 & G4 & G5 & G6) & G7 & G8 & G9 & G10). do 3 (split; [assumption|]). split; [auto|]. auto.
Qed.

Lemma init_normr : l_normr (init m n A b) = vnorm m b.
Proof. unfold init, next_u, vnorm. destruct (if Rltb 0 (sqrt (vdot m b b)) then next_v n _ else _). reflexivity. Qed.
Lemma init_zero : l_istop (init m n A b) = 0%nat /\ l_itn (init m n A b) = 0%nat /\ l_x (init m n A b) = vzero.
Proof. unfold init. destruct (next_u m b) as [u0 b0]. destruct (if Rltb 0 b0 then _ else _). auto. Qed.

(** b an eigenvector of A A^T: the first iteration fails. *)
Lemma solve_eigen sx c : (exists j, (j < n)%nat /\ mulH m A b j <> 0) -> (forall i, (i < m)%nat -> mul n A (mulH m A b) i = c * b i) -> (0 < itnlim)%nat ->
  solve m n A 0 atol btol conlim itnlim sx b = (Raise ZeroDivisionError, sx).
Proof.
  intros (j0 & Hj0 & Nj0) Hc Hl. pose proof init_norms as (I1 & I2 & I3). destruct init_zero as (Es & Et & Ex).
  assert (Eb : forall j, mulH m A (resid vzero) j = mulH m A b j). { intros j. rewrite (mulH_lin m A b b (resid vzero) 1 0) by (intros i _; unfold LsmrInv.resid; rewrite mul_zero; ring). ring. }
  assert (Na : l_normar (init m n A b) <> 0).
  { rewrite I2, Ex. unfold vnorm. intros E. apply sqrt_eq_0 in E; [|apply vdot_pos]. apply Nj0. rewrite <- Eb. exact (vdot_null n _ E j0 Hj0). }
  destruct (init_pos Na) as (HI & Hb & _ & _). unfold solve. rewrite (Reqb_f _ _ Na). destruct itnlim as [|f] eqn:Ef; [lia|]. cbn [LsmrModel.loop]. rewrite <- Ef in *.
  destruct HI as (us & vs & ub & gb & pd & q & I & _ & _).
  destruct (step_zero m n A b atol btol conlim itnlim (init m n A b) us vs ub gb pd q I _ Hb) as [E _]; [|rewrite E; reflexivity].
  revert Na. clear -Hc. unfold init. destruct (Rle_lt_or_eq_dec _ _ (vdot_pos m b)) as [P|Z]; [|rewrite (next_u_zero m b (eq_sym Z)), Rltb_f by lra; cbn [l_normar]; intros N; exfalso; apply N; ring].
  rewrite (next_u_pos m b P). pose proof (vdiv_unit m b P) as Hu. pose proof (sqrt_lt_R0 _ P) as Hbt. set (beta := sqrt (vdot m b b)) in *. rewrite Rltb_t by lra. set (u := vdiv b beta) in *.
  destruct (Rle_lt_or_eq_dec _ _ (vdot_pos n (mulH m A u))) as [Pz|Zz]; [|rewrite (next_v_zero n _ (eq_sym Zz)); cbn [l_normar]; intros N; exfalso; apply N; ring].
  rewrite (next_v_pos n _ Pz). pose proof (sqrt_lt_R0 _ Pz) as Hal. set (alpha := sqrt (vdot n (mulH m A u) (mulH m A u))) in *. intros _. cbn [l_v l_alpha l_u].
  assert (Eu : forall i, (i < m)%nat -> mul n A (mulH m A u) i = c * u i).
  { intros i Hi. rewrite (mul_lin n A (mulH m A b) (mulH m A b) (mulH m A u) (/ beta) 0) by (intros j _; unfold u; rewrite mulH_scal by lra; field; lra). rewrite (Hc i Hi). unfold u, vdiv. field. lra. }
  assert (Ea : alpha * alpha = c).
  { unfold alpha. rewrite sqrt_sqrt by apply vdot_pos. rewrite <- adjoint. rewrite (vdot_lin_l m u u u _ c 0) by (intros i Hi; rewrite (Eu i Hi); ring). rewrite Hu. ring. }
  apply vdot_zero. intros i Hi. unfold vsub, vscal. rewrite (mul_lin n A (mulH m A u) (mulH m A u) _ (/ alpha) 0) by (intros j _; unfold vdiv; field; lra). rewrite (Eu i Hi), <- Ea. field. lra.
Qed.

Lemma rhs_norm : vnorm n (mulH m A b) = vnorm n (mulH m A (resid vzero)).
Proof.
  unfold vnorm. f_equal. assert (E : forall j, (j < n)%nat -> mulH m A b j = 1 * mulH m A (resid vzero) j + 0 * mulH m A (resid vzero) j).
  { intros j _. rewrite (mulH_lin m A (resid vzero) (resid vzero) b 1 0) by (intros i _; unfold LsmrInv.resid; rewrite mul_zero; ring). ring. }
  rewrite (vdot_lin_l n _ _ _ _ _ _ E), (vdot_lin n _ _ _ _ _ _ E). ring.
Qed.
(** How far from optimal x can be. *)
Lemma gap x y : vdot m (resid x) (resid x) <= vdot m (resid y) (resid y) + 2 * (vnorm n (mulH m A (resid x)) * vnorm n (vsub x y)).
Proof.
  set (d := vsub x y). assert (E : forall i, (i < m)%nat -> resid y i = 1 * resid x i + 1 * mul n A d i).
  { intros i _. unfold LsmrInv.resid, d. rewrite (mul_lin n A x y (vsub x y) 1 (-1)) by (intros j _; unfold vsub; ring). ring. }
  rewrite (vdot_lin_l m _ _ _ _ _ _ E), !(vdot_lin m _ _ _ _ _ _ E), (vdot_comm m (resid x) (mul n A d)).
  rewrite adjoint. pose proof (cauchy n (vscal (-1) d) (mulH m A (resid x))) as C. rewrite (vdot_lin_l n _ d d (vscal (-1) d) (-1) 0) in C by (intros j _; unfold vscal; ring).
  assert (N : vnorm n (vscal (-1) d) = vnorm n d). { unfold vnorm. f_equal. rewrite (vdot_lin_l n _ d d (vscal (-1) d) (-1) 0) by (intros j _; unfold vscal; ring). rewrite (vdot_lin n d d d (vscal (-1) d) (-1) 0) by (intros j _; unfold vscal; ring). ring. }
  rewrite N in C. pose proof (vdot_pos m (mul n A d)). lra.
Qed.
End Exact.

(** ** The flags in terms of the true norms *)
From Verif Require Import LsmrSpec.
Section Right.
Variables (m n : nat) (A : matrix) (b : vec) (atol btol conlim : R) (itnlim : nat).
Hypothesis Ha : 0 <= atol.

Theorem solve_flags sx s sx' : solve m n A 0 atol btol conlim itnlim sx b = (Ok s, sx') ->
  (l_itn s <= itnlim)%nat /\
  (l_istop s = 0%nat /\ l_itn s = 0%nat /\ (forall j, l_x s j = 0) /\ ((0 < itnlim)%nat -> vnorm n (mulH m A (residual n A b (l_x s))) = 0) \/
   (0 < l_itn s)%nat /\ flag_right m n A b atol btol conlim itnlim s).
Proof.
  intros H. pose proof (solve_exact m n A b atol btol conlim itnlim Ha sx) as EX. rewrite H in EX. destruct EX as (X1 & X2 & X3 & X4 & _). destruct (init_zero m n A b) as (Z1 & Z2 & Z3).
  unfold solve in H. pose proof (init_norms m n A b) as (_ & N2 & _). destruct (Req_EM_T (l_normar (init m n A b)) 0) as [E|E].
  - rewrite (Reqb_t _ _ E) in H. injection H as <- <-. split; [lia|]. left. do 2 (split; [assumption|]). split; [intros j; rewrite Z3; reflexivity|]. intros _. rewrite N2 in E. exact E.
  - rewrite (Reqb_f _ _ E) in H. destruct (init_pos m n A b E) as (_ & Pb & _ & _). destruct (loop _ _ _ _ _ _ _ _ itnlim _ _) as [s1|] eqn:L in H; [|discriminate]. injection H as <- <-.
    destruct (loop_flags m n A 0 atol btol conlim itnlim _ _ _ _ Z1 L) as [[-> F0]|(M & T & It & Ns)]; [lia| |].
    + split; [lia|]. left. do 2 (split; [assumption|]). split; [intros j; rewrite Z3; reflexivity|]. lia.
    + split; [lia|]. right. split; [lia|]. destruct (X4 Ns) as (Pr & PA & PC). rewrite (init_normr m n A b) in M. rewrite (init_normr m n A b) in Pb.
      assert (Pic : 0 < 1 / l_condA s1) by (apply Rdiv_lt_0_compat; lra).
      unfold flag_right. cbv zeta. unfold meaning in M. fold (residual n A b (l_x s1)) in X1, X2. change (vnorm m (resid n A b (l_x s1))) with (vnorm m (residual n A b (l_x s1))) in X1. change (vnorm n (mulH m A (resid n A b (l_x s1)))) with (vnorm n (mulH m A (residual n A b (l_x s1)))) in X2.
      rewrite <- X1, <- X2, <- X3. pose proof (Rmult_lt_0_compat _ _ PA Pr) as PAr.
      destruct (l_istop s1) as [|[|[|[|[|[|[|[|[|k]]]]]]]]] eqn:Ei; try contradiction.
      * left. split; [reflexivity|]. apply (Rmult_le_compat_r (vnorm m b)) in M; [|lra]. replace (l_normr s1 / vnorm m b * vnorm m b) with (l_normr s1) in M by (field; lra).
        replace ((btol + atol * l_normA s1 * l_normx s1 / vnorm m b) * vnorm m b) with (atol * l_normA s1 * l_normx s1 + btol * vnorm m b) in M by (field; lra). exact M.
      * right; left. split; [reflexivity|]. apply (Rmult_le_compat_r (l_normA s1 * l_normr s1)) in M; [|lra]. replace (l_normar s1 / (l_normA s1 * l_normr s1) * (l_normA s1 * l_normr s1)) with (l_normar s1) in M by (field; lra). lra.
      * right; right; left. split; [reflexivity|]. unfold ctol in M. destruct (Rltb 0 conlim) eqn:Lc.
        -- apply Rltb_iff in Lc. split; [exact Lc|]. apply (Rmult_le_compat_r (l_condA s1 * conlim)) in M; [|apply Rmult_le_pos; lra].
           replace (1 / l_condA s1 * (l_condA s1 * conlim)) with conlim in M by (field; lra). replace (1 / conlim * (l_condA s1 * conlim)) with (l_condA s1) in M by (field; lra). exact M.
        -- exfalso. lra.
      * exfalso. assert (0 < l_normr s1 / vnorm m b / (1 + l_normA s1 * l_normx s1 / vnorm m b)); [|lra]. apply Rdiv_lt_0_compat; [apply Rdiv_lt_0_compat; lra|].
        assert (0 <= l_normA s1 * l_normx s1 / vnorm m b); [|lra]. apply Rmult_le_pos; [apply Rmult_le_pos; [lra|rewrite X3; apply sqrt_pos]|apply Rlt_le, Rinv_0_lt_compat; lra].
      * exfalso. unfold tests in T. rewrite Ei in T. destruct T as (T & _); [discriminate|discriminate|discriminate|]. lra.
      * exfalso. lra.
      * right; right; right; left. split; [reflexivity|lia].
      * right; right; right; right. split; [reflexivity|exact M].
Qed.
End Right.
