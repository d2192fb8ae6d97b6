(** * LSMR on a least-squares problem whose normal right-hand side is an eigenvector of the normal matrix: one iteration. *)
From Coq Require Import Reals Lra Lia.
From Verif Require Import Base BaseLemmas TransformModel LsmrModel LsmrSpec LsmrAlg LsmrInv LsmrMain LsmrLoop.
Open Scope R_scope.

Section E.
Variables (m n : nat) (A : matrix) (b : vec) (c atol btol conlim : R) (itnlim : nat) (sx : option vec).
Hypothesis (Ha : 0 <= atol) (Hl : (0 < itnlim)%nat).
Hypothesis (Hg : exists j, (j < n)%nat /\ mulH m A b j <> 0).
Hypothesis (Hc : forall j, (j < n)%nat -> mulH m A (mul n A (mulH m A b)) j = c * mulH m A b j).
Hypothesis (Hn : ~ exists x, solves m n A b x).

Lemma first_step normb s1 : l_normar (init m n A b) <> 0 -> step m n A 0 atol btol conlim itnlim normb (init m n A b) = Ok s1 -> (0 < vdot m (vsub (mul n A (l_v (init m n A b))) (vscal (l_alpha (init m n A b)) (l_u (init m n A b)))) (vsub (mul n A (l_v (init m n A b))) (vscal (l_alpha (init m n A b)) (l_u (init m n A b))))) -> l_normar s1 = 0 /\ (0 < l_istop s1)%nat.
Proof.
  intros Na ES P. 
  assert (V0 : let s := init m n A b in let w := vsub (mul n A (l_v s)) (vscal (l_alpha s) (l_u s)) in
     let beta := sqrt (vdot m w w) in vdot n (vsub (mulH m A (vdiv w beta)) (vscal beta (l_v s))) (vsub (mulH m A (vdiv w beta)) (vscal beta (l_v s))) = 0).
  { revert P Na. unfold init. destruct (Rle_lt_or_eq_dec _ _ (vdot_pos m b)) as [Pb|Z]; [|rewrite (next_u_zero m b (eq_sym Z)), Rltb_f by lra; cbn [l_normar]; intros _ N; exfalso; apply N; ring].
    rewrite (next_u_pos m b Pb). pose proof (vdiv_unit m b Pb) as Hu. pose proof (sqrt_lt_R0 _ Pb) as Hbt. set (beta1 := sqrt (vdot m b b)) in *. rewrite Rltb_t by lra. set (u := vdiv b beta1) in *.
    destruct (Rle_lt_or_eq_dec _ _ (vdot_pos n (mulH m A u))) as [Pz|Zz]; [|rewrite (next_v_zero n _ (eq_sym Zz)); cbn [l_normar]; intros _ N; exfalso; apply N; ring].
    rewrite (next_v_pos n _ Pz). pose proof (sqrt_lt_R0 _ Pz) as Hal. set (alpha := sqrt (vdot n (mulH m A u) (mulH m A u))) in *. intros P _. cbn [l_v l_alpha l_u] in *.
    set (v := vdiv (mulH m A u) alpha) in *. set (w := vsub (mul n A v) (vscal alpha u)) in *. cbv zeta. pose proof (sqrt_lt_R0 _ P) as Hb2. set (beta := sqrt (vdot m w w)) in *.
    assert (Eg : forall j, mulH m A u j = / beta1 * mulH m A b j + 0 * mulH m A b j). { intros j. unfold u. rewrite mulH_scal by lra. field. lra. }
    assert (Ev : forall j, v j = / alpha / beta1 * mulH m A b j + 0 * mulH m A b j). { intros j. unfold v, vdiv. rewrite Eg. field. lra. }
    assert (EN : forall j, (j < n)%nat -> mulH m A (mul n A v) j = c * v j).
    { intros j Hj. rewrite (mulH_lin m A (mul n A (mulH m A b)) (mul n A (mulH m A b)) (mul n A v) (/ alpha / beta1) 0).
      - rewrite (Hc j Hj), Ev. ring.
      - intros i Hi. apply (mul_lin n A (mulH m A b) (mulH m A b) v). intros k _. apply Ev. }
    assert (EW : forall j, (j < n)%nat -> mulH m A w j = (c - alpha * alpha) * v j).
    { intros j Hj. rewrite (mulH_lin m A (mul n A v) u w 1 (- alpha)) by (intros i _; unfold w, vsub, vscal; ring). rewrite (EN j Hj). unfold v, vdiv. field. lra. }
    assert (Vv : vdot n v v = 1) by (apply vdiv_unit, Pz).
    assert (Eb : beta * beta = c - alpha * alpha).
    { unfold beta. rewrite sqrt_sqrt by lra.
      assert (Lw : forall i, (i < m)%nat -> w i = 1 * mul n A v i + (- alpha) * u i) by (intros i _; unfold w, vsub, vscal; ring).
      rewrite (vdot_lin_l m _ _ _ _ _ _ Lw). rewrite (adjoint m n A v w).
      assert (Ew2 : forall j, (j < n)%nat -> mulH m A w j = (c - alpha * alpha) * v j + 0 * v j) by (intros j Hj; rewrite (EW j Hj); ring).
      rewrite (vdot_lin n _ _ _ _ _ _ Ew2), Vv.
      rewrite (vdot_lin m _ _ _ _ _ _ Lw). rewrite Hu. rewrite (vdot_comm m u (mul n A v)), (adjoint m n A v u).
      assert (Eu2 : forall j, (j < n)%nat -> mulH m A u j = alpha * v j + 0 * v j) by (intros j _; unfold v, vdiv; field; lra).
      rewrite (vdot_lin n _ _ _ _ _ _ Eu2), Vv. ring. }
    apply vdot_zero. intros j Hj. unfold vsub, vscal. rewrite mulH_scal by lra. rewrite (EW j Hj), <- Eb. field. lra. }
  cbv zeta in V0. unfold step in ES. rewrite (next_u_pos m _ P) in ES. rewrite Rltb_t in ES by (apply sqrt_lt_R0, P). rewrite (next_v_zero n _ V0) in ES.
  destruct (symOrtho (l_alphabar (init m n A b)) 0) as [[chat shat] alphahat]. destruct (symOrtho alphahat (sqrt _)) as [[cc ss] rho].
  replace (ss * 0) with 0 in ES by ring.
  assert (SO : forall a, symOrtho a 0 = (sign a, 0, Rabs a)) by (intros a; unfold symOrtho; rewrite Reqb_t by reflexivity; reflexivity).
  rewrite SO in ES.
  repeat (match type of ES with bind ?x _ = _ => destruct x as [?|] eqn:?; cbn [bind] in ES; [|discriminate] end).
  destruct (symOrtho _ _) as [[? ?] ?] in ES.
  repeat (match type of ES with bind ?x _ = _ => destruct x as [?|] eqn:?; cbn [bind] in ES; [|discriminate] end).
  injection ES as <-. cbn [l_normar l_istop].
  assert (Z : Rabs (- 0 * l_zetabar (init m n A b)) = 0) by (rewrite Ropp_0, Rmult_0_l; apply Rabs_R0). split; [exact Z|].
  match goal with HH : pdiv (Rabs (- 0 * _)) _ = Ok ?t |- _ => assert (T2 : t = 0) by (unfold pdiv in HH; destruct (Reqb _ 0) in HH; [discriminate|]; injection HH as <-; rewrite Z; unfold Rdiv; ring) end.
  unfold flags. rewrite T2. destruct (Rleb _ _) in |- * at 1; destruct (Rleb_iff 0 atol) as [_ R]; rewrite ?(R Ha); try lia; destruct (Rleb _ _); lia.
Qed.

Lemma solve_normal : exists s, solve m n A 0 atol btol conlim itnlim sx b = (Ok s, Some (l_x s)) /\
  forall j, (j < n)%nat -> mulH m A (residual n A b (l_x s)) j = 0.
Proof.
  pose proof (solve_exact m n A b atol btol conlim itnlim Ha sx) as EX.
  assert (Na : l_normar (init m n A b) <> 0).
  { pose proof (init_norms m n A b) as (_ & I2 & _). destruct (init_zero m n A b) as (_ & _ & Ex). intros E. destruct Hg as (j0 & Hj0 & Nj0). rewrite I2, Ex in E. rewrite <- (rhs_norm m n A b) in E.
    unfold vnorm in E. apply sqrt_eq_0 in E; [|apply vdot_pos]. exact (Nj0 (vdot_null n _ E j0 Hj0)). }
  destruct (init_pos m n A b Na) as (HI & Hb & _ & _). unfold solve in *. rewrite (Reqb_f _ _ Na) in *. destruct itnlim as [|f] eqn:Ef; [lia|]. cbn [LsmrModel.loop] in *. rewrite <- Ef in *.
  destruct HI as (us & vs & ub & gb & pd & q & I & _ & _).
  destruct (Rle_lt_or_eq_dec _ _ (vdot_pos m (vsub (mul n A (l_v (init m n A b))) (vscal (l_alpha (init m n A b)) (l_u (init m n A b)))))) as [P|Z].
  2:{ destruct (step_zero m n A b atol btol conlim itnlim (init m n A b) us vs ub gb pd q I _ Hb (eq_sym Z)) as [_ E]. exfalso. apply Hn. exact E. }
  destruct (step m n A 0 atol btol conlim itnlim (l_normr (init m n A b)) (init m n A b)) as [s1|e] eqn:ES; cbn [bind] in EX |- *.
  - destruct (first_step _ s1 Na ES P) as (N0 & I0). replace (Nat.ltb 0 (l_istop s1)) with true in * by (symmetry; apply Nat.ltb_lt; exact I0). exists s1. split; [reflexivity|].
    destruct EX as (_ & X2 & _). rewrite N0 in X2. symmetry in X2. unfold vnorm in X2. apply sqrt_eq_0 in X2; [|apply vdot_pos]. intros j Hj. exact (vdot_null n _ X2 j Hj).
  - destruct EX as (_ & E). exfalso. apply Hn. exact E.
Qed.
End E.
