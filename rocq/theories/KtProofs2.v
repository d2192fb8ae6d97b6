From Coq Require Import Reals Lra Lia.
From Verif Require Import Base BaseLemmas TransformModel TransformProofs GNAlgebra PCAlgebra LsmrModel LsmrAlg LsmrSpec MinresModel KtModel KtSpec KtProofs.
Open Scope R_scope.

Lemma eps_pos : 0 < machine_epsilon. Proof. unfold machine_epsilon. apply Rinv_0_lt_compat. apply pow_lt. lra. Qed.
Lemma cbrt_pos : 0 < cbrt_eps. Proof. unfold cbrt_eps, Rpower. apply exp_pos. Qed.
(** 2^-18 is below the tolerance. *)
Lemma cbrt_lower : / 2 ^ 18 <= cbrt_eps.
Proof.
  unfold cbrt_eps, machine_epsilon. rewrite <- (Rpower_pow 18) by lra. rewrite <- (Rpower_pow 52) by lra.
  rewrite <- !Rpower_Ropp, Rpower_mult. apply Rle_Rpower; [lra|]. cbn [INR]. lra.
Qed.

Section Trials.
Variable stream : nat -> nat -> vec.
Lemma trials_all test : (forall s k, test (stream s k) = true) -> forall r g, fst (trials stream test r g) = true.
Proof. intros H. induction r; intros g; cbn [trials random]; [reflexivity|]. rewrite H. apply IHr. Qed.
Lemma trials_first test r g : (0 < r)%nat -> fst (trials stream test r g) = true -> test (stream (g_seed g) (g_pos g)) = true.
Proof. intros Hr. destruct r; [lia|]. cbn [trials random]. destruct (test _); [reflexivity|discriminate]. Qed.
Lemma trials_seed test : forall r g, g_seed (snd (trials stream test r g)) = g_seed g.
Proof. induction r; intros g; cbn [trials random]; [reflexivity|]. destruct (test _); [rewrite IHr|]; reflexivity. Qed.
Lemma trials_iff test : forall r g, fst (trials stream test r g) = true <-> forall k, (k < r)%nat -> test (stream (g_seed g) (g_pos g + k)%nat) = true.
Proof.
  induction r; intros g; cbn [trials random].
  - split; [intros _ k Hk; lia|reflexivity].
  - destruct (test (stream (g_seed g) (g_pos g))) eqn:E.
    + rewrite IHr. cbn [g_seed g_pos]. split.
      * intros H [|k] Hk; [rewrite Nat.add_0_r; exact E|]. rewrite <- Nat.add_succ_comm. apply H. lia.
      * intros H k Hk. rewrite Nat.add_succ_comm. apply H. lia.
    + cbn [fst]. split; [discriminate|]. intros H. specialize (H 0%nat ltac:(lia)). rewrite Nat.add_0_r in H. congruence.
Qed.
End Trials.

Lemma mul_symmetric n A x y : symmetric n A -> vdot n (mul n A x) y = vdot n x (mul n A y).
Proof.
  intros H. rewrite adjoint. apply (sm_ext n (fun i => x i * mulH n A y i)). intros i Hi. f_equal.
  apply (sm_ext n (fun j => A j i * y j)). intros j Hj. rewrite H by auto. reflexivity.
Qed.
Lemma symmetric_passes n A x : symmetric n A -> symmetric_on n A x = true.
Proof.
  intros H. unfold symmetric_on. rewrite (mul_symmetric n A x (mul n A x) H).
  replace (vdot n x (mul n A (mul n A x)) - vdot n x (mul n A (mul n A x))) with 0 by ring. rewrite Rabs_R0.
  rewrite Rltb_f; [reflexivity|]. apply Rmult_le_pos; [|left; apply cbrt_pos].
  rewrite <- mul_symmetric by auto. pose proof (vdot_pos n (mul n A x)). pose proof eps_pos. lra.
Qed.
Lemma check_symmetric_complete stream n A r g : symmetric n A -> fst (check_symmetric stream n n A r g) = true.
Proof. intros H. unfold check_symmetric. rewrite Nat.eqb_refl. apply trials_all. intros. apply symmetric_passes, H. Qed.
Lemma check_nonsquare stream m n A r g semi : m <> n ->
  fst (check_symmetric stream m n A r g) = false /\ fst (check_positive_definite stream m n A r semi g) = false.
Proof. intros H. unfold check_symmetric, check_positive_definite. apply Nat.eqb_neq in H. rewrite H. split; reflexivity. Qed.

(** ** Soundness up to the tolerance *)
Lemma mul_unit n A c k i : (k < n)%nat -> mul n A (fun j => c * unitv k j) i = c * A i k.
Proof.
  intros H. change (mul n A (fun j => c * unitv k j) i) with (vdot n (A i) (fun j => c * unitv k j)).
  rewrite (vdot_lin n (A i) (unitv k) (unitv k) (fun j => c * unitv k j) c 0) by (intros; ring).
  rewrite vdot_comm, vdot_unit by auto. ring.
Qed.
Lemma column_bound n A k : (k < n)%nat ->
  (forall c, 0 <= c < 1 -> symmetric_on n A (fun j => c * unitv k j) = true) ->
  sm n (fun i => A i k ^ 2) - sm n (fun i => A k i * A i k) <= (sm n (fun i => A i k ^ 2) + machine_epsilon) * cbrt_eps.
Proof.
  intros Hk H. set (P := sm n (fun i => A i k ^ 2)) in *. set (Q := sm n (fun i => A k i * A i k)).
  assert (HP : 0 <= P) by (apply sm_nonneg; intros; apply pow2_ge_0).
  pose proof cbrt_pos as K. pose proof eps_pos as E.
  assert (G : forall c, 0 <= c < 1 -> c * c * (P - Q) <= (c * c * P + machine_epsilon) * cbrt_eps).
  { intros c Hc. specialize (H c Hc). unfold symmetric_on in H.
    assert (Ew : vdot n (mul n A (fun j => c * unitv k j)) (mul n A (fun j => c * unitv k j)) = c * c * P).
    { unfold P. rewrite <- sm_scal. apply sm_ext. intros i Hi. rewrite mul_unit by auto. ring. }
    assert (Et : vdot n (fun j => c * unitv k j) (mul n A (mul n A (fun j => c * unitv k j))) = c * c * Q).
    { rewrite (vdot_lin_l n _ (unitv k) (unitv k) (fun j => c * unitv k j) c 0) by (intros; ring). rewrite vdot_unit by auto.
      assert (Em : mul n A (mul n A (fun j => c * unitv k j)) k = c * Q).
      { unfold Q. rewrite <- sm_scal. apply sm_ext. intros i Hi. rewrite mul_unit by auto. ring. }
      rewrite Em. ring. }
    rewrite Ew, Et in H. destruct (Rltb _ _) eqn:L in H; [discriminate|].
    assert (B : Rabs (c * c * P - c * c * Q) <= (c * c * P + machine_epsilon) * cbrt_eps).
    { apply Rnot_lt_le. intros K'. apply Rltb_iff in K'. congruence. }
    pose proof (Rle_abs (c * c * P - c * c * Q)). lra. }
  apply Rnot_lt_le. intros L. set (W := P - Q - P * cbrt_eps). set (e := machine_epsilon * cbrt_eps).
  assert (He : 0 < e) by (apply Rmult_lt_0_compat; auto).
  assert (HW : e < W). { unfold W, e. rewrite Rmult_plus_distr_r in L. fold P in L. fold Q in L. clear -L. lra. }
  set (c := sqrt ((e / W + 1) / 2)).
  assert (HeW : 0 < e / W < 1).
  { split; [apply Rdiv_lt_0_compat; lra|]. apply Rmult_lt_reg_r with W; [lra|]. unfold Rdiv. rewrite Rmult_assoc, Rinv_l by lra. lra. }
  assert (Hcc : c * c = (e / W + 1) / 2) by (apply sqrt_sqrt; lra).
  assert (Hc : 0 <= c < 1).
  { split; [apply sqrt_pos|]. apply Rnot_le_lt. intros K'. assert (1 * 1 <= c * c) by (apply Rmult_le_compat; lra). lra. }
  specialize (G c Hc).
  assert (B : c * c * W <= e). { unfold W, e. replace (c * c * (P - Q - P * cbrt_eps)) with (c * c * (P - Q) - c * c * P * cbrt_eps) by ring. lra. }
  rewrite Hcc in B. replace ((e / W + 1) / 2 * W) with ((e + W) / 2) in B by (field; lra). lra.
Qed.
Lemma asymmetry_split n A : asymmetry2 n A = 2 * sm n (fun k => sm n (fun i => A i k ^ 2) - sm n (fun i => A k i * A i k)).
Proof.
  unfold asymmetry2, total. change (sm n (fun i => sm n (fun j => (A i j - A j i) ^ 2)) = 2 * sm n (fun k => sm n (fun i => A i k ^ 2) - sm n (fun i => A k i * A i k))).
  assert (E1 : forall f g, sm n (fun k => f k - g k) = sm n f - sm n g).
  { intros f g. replace (sm n (fun k => f k - g k)) with (sm n (fun k => f k + (-1) * g k)) by (apply sm_ext; intros; ring). rewrite sm_plus, sm_scal. ring. }
  rewrite E1. transitivity (sm n (fun i => sm n (fun j => A i j ^ 2)) + sm n (fun i => sm n (fun j => A j i ^ 2)) - 2 * sm n (fun k => sm n (fun i => A k i * A i k))).
  - rewrite <- sm_scal, <- sm_plus, <- E1. apply sm_ext. intros i Hi. rewrite <- sm_scal, <- sm_plus, <- E1. apply sm_ext. intros j Hj. ring.
  - rewrite (sm_swap n n (fun i j => A i j ^ 2)). ring.
Qed.
Lemma sm_le n f g : (forall i, (i < n)%nat -> f i <= g i) -> sm n f <= sm n g.
Proof.
  intros H. assert (0 <= sm n (fun i => g i + (-1) * f i)). { apply sm_nonneg. intros i Hi. specialize (H i Hi). lra. }
  rewrite sm_plus, sm_scal in H0. lra.
Qed.
Lemma sm_const n c : sm n (fun _ => c) = INR n * c.
Proof. induction n; [cbn; ring|]. rewrite sm_S, IHn, S_INR. ring. Qed.
Lemma check_symmetric_sound n A r g : (0 < r)%nat ->
  (forall stream, (forall s k, uniform n (stream s k)) -> fst (check_symmetric stream n n A r g) = true) ->
  asymmetry2 n A <= 2 * cbrt_eps * (size2 n A + INR n * machine_epsilon).
Proof.
  intros Hr H. rewrite asymmetry_split. rewrite Rmult_assoc. apply Rmult_le_compat_l; [lra|].
  apply Rle_trans with (sm n (fun k => (sm n (fun i => A i k ^ 2) + machine_epsilon) * cbrt_eps)).
  - apply sm_le. intros k Hk. apply column_bound; auto. intros c Hc.
    specialize (H (fun _ _ j => c * unitv k j)). unfold check_symmetric in H. rewrite Nat.eqb_refl in H.
    apply (trials_first (fun _ _ j => c * unitv k j) (symmetric_on n A) r (mkRng 1 0)); [exact Hr|]. apply H.
    intros _ _ i _. unfold unitv. destruct (Nat.eqb i k); lra.
  - rewrite sm_scal_r, sm_plus, sm_const. unfold size2, total.
    change (rsum (map (fun i => rsum (map (fun j => A i j ^ 2) (seq 0 n))) (seq 0 n))) with (sm n (fun i => sm n (fun j => A i j ^ 2))).
    rewrite (sm_swap n n (fun i j => A i j ^ 2)). lra.
Qed.

(** The solver does not refuse a symmetric operator. *)
Lemma sym_1000 stream r g : fst (check_symmetric stream 2 2 (fun i j => match i, j with 0%nat, 0%nat => 1 | 1%nat, 1%nat => 1 | 0%nat, 1%nat => 1 / 1000 | _, _ => 0 end) r g) = true.
Proof.
  unfold check_symmetric. cbn [Nat.eqb]. apply trials_all. intros s k. generalize (stream s k). intros x. unfold symmetric_on.
  cbv [mul vdot seq map rsum fold_right].
  replace (Rabs _) with (x 1%nat * x 1%nat / 1000000).
  2:{ rewrite <- (Rabs_right (x 1%nat * x 1%nat / 1000000)). 2:{ assert (0 <= x 1%nat * x 1%nat) by apply Rle_0_sqr. lra. } f_equal. field. }
  rewrite Rltb_f; [reflexivity|].
  pose proof cbrt_lower as L. pose proof eps_pos as E. pose proof cbrt_pos as C.
  assert (L' : / 1000000 <= cbrt_eps). { eapply Rle_trans; [|exact L]. apply Rinv_le_contravar; cbn [pow]; lra. }
  apply Rle_trans with (x 1%nat * x 1%nat * cbrt_eps).
  - unfold Rdiv. apply Rmult_le_compat_l; [apply Rle_0_sqr|exact L'].
  - apply Rmult_le_compat_r; [lra|].
    set (u := 1 * x 0%nat + (1 / 1000 * x 1%nat + 0)). assert (0 <= u * u) by apply Rle_0_sqr.
    replace ((0 * x 0%nat + (1 * x 1%nat + 0)) * (0 * x 0%nat + (1 * x 1%nat + 0))) with (x 1%nat * x 1%nat) by ring. lra.
Qed.

(** ** check_positive_definite *)
Lemma definite_on_iff semi n A v : definite_on semi n A v = true <-> if semi then 0 <= form n A v else 0 < form n A v.
Proof.
  unfold definite_on. fold (form n A v). set (q := form n A v).
  rewrite (Rltb_f (sqrt machine_epsilon * Rabs q) 0) by (apply Rmult_le_pos; [apply sqrt_pos|apply Rabs_pos]).
  destruct semi.
  - destruct (Rltb q 0) eqn:E; cbn; [apply Rltb_iff in E; split; [discriminate|lra]|]. split; auto. intros _. apply Rnot_lt_le. intros K. apply Rltb_iff in K. congruence.
  - destruct (Rleb q 0) eqn:E; cbn; [apply Rleb_iff in E; split; [discriminate|lra]|]. split; auto. intros _. apply Rnot_le_lt. intros K. apply Rleb_iff in K. congruence.
Qed.
Lemma check_definite stream n A r g semi :
  fst (check_positive_definite stream n n A r semi g) = true <->
  forall k, (k < r)%nat -> if semi then 0 <= form n A (stream (g_seed g) (g_pos g + k)%nat) else 0 < form n A (stream (g_seed g) (g_pos g + k)%nat).
Proof.
  unfold check_positive_definite. rewrite Nat.eqb_refl, trials_iff. split; intros H k Hk; specialize (H k Hk).
  - apply definite_on_iff in H. exact H.
  - apply definite_on_iff. exact H.
Qed.
Lemma form_scale n A c x : form n A (fun i => c * x i) = c * c * form n A x.
Proof.
  unfold form. rewrite (vdot_lin_l n _ x x (fun i => c * x i) c 0) by (intros; ring).
  rewrite (vdot_lin n x (mul n A x) (mul n A x) (mul n A (fun i => c * x i)) c 0).
  - ring.
  - intros i Hi. rewrite (mul_lin n A x x (fun i => c * x i) c 0) by (intros; ring). ring.
Qed.
Lemma rsum_nonneg_in (x : vec) : forall l i, In i l -> (forall j, In j l -> 0 <= x j) -> x i <= rsum (map x l).
Proof.
  induction l as [|a l IH]; intros i Hi Hx; [destruct Hi|]. cbn [map]. rewrite rsum_cons.
  assert (0 <= rsum (map x l)). { clear -Hx. induction l as [|b l IH]; [cbn; lra|]. cbn [map]. rewrite rsum_cons. pose proof (Hx b (or_intror (or_introl eq_refl))). assert (0 <= rsum (map x l)). { apply IH. intros j [<-|Hj]; [apply Hx; left; reflexivity|apply Hx; right; right; exact Hj]. } lra. }
  destruct Hi as [<-|Hi]; [lra|]. pose proof (Hx a (or_introl eq_refl)). specialize (IH i Hi (fun j Hj => Hx j (or_intror Hj))). lra.
Qed.
Lemma check_definite_sound n A r g : (0 < r)%nat ->
  (forall stream, (forall s k, uniform n (stream s k) /\ nonzero n (stream s k)) -> fst (check_positive_definite stream n n A r false g) = true) ->
  forall x, (forall i, (i < n)%nat -> 0 <= x i) -> nonzero n x -> 0 < form n A x.
Proof.
  intros Hr H x Hx (j & Hj & Nj).
  set (b := 1 + rsum (map x (seq 0 n))).
  assert (Hle : forall i, (i < n)%nat -> x i < b).
  { intros i Hi. assert (x i <= rsum (map x (seq 0 n))). { apply rsum_nonneg_in; [apply in_seq; lia|]. intros k Hk. apply in_seq in Hk. apply Hx. lia. } unfold b. lra. }
  assert (Hb : 0 < b). { pose proof (Hx j Hj). pose proof (Hle j Hj). lra. }
  specialize (H (fun _ _ i => / b * x i)). rewrite check_definite in H.
  assert (K : 0 < form n A (fun i => / b * x i)).
  { refine (H _ 0%nat Hr). intros _ _. split.
    - intros i Hi. assert (Hib : 0 < / b) by (apply Rinv_0_lt_compat; exact Hb). split; [apply Rmult_le_pos; [lra|auto]|].
      apply Rmult_lt_reg_l with b; auto. rewrite <- Rmult_assoc, Rinv_r by lra. specialize (Hle i Hi). lra.
    - exists j. split; [exact Hj|]. apply Rmult_integral_contrapositive_currified; [apply Rinv_neq_0_compat; lra|exact Nj]. }
  rewrite form_scale in K. assert (Hp : 0 < / b * / b) by (apply Rmult_lt_0_compat; apply Rinv_0_lt_compat; exact Hb).
  apply Rmult_lt_reg_l with (/ b * / b); [exact Hp|]. rewrite Rmult_0_r. exact K.
Qed.
