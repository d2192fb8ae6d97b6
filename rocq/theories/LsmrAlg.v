(** * Linear algebra and plane rotations for the Krylov solvers. *)
From Coq Require Import Reals Lra Lia.
From Verif Require Import Base BaseLemmas TransformModel PCAlgebra LsmrModel.
Open Scope R_scope.

Lemma Rltb_t x y : x < y -> Rltb x y = true. Proof. intros H. unfold Rltb. destruct (Rlt_dec x y); [reflexivity|contradiction]. Qed.
Lemma Rltb_f x y : y <= x -> Rltb x y = false. Proof. intros H. unfold Rltb. destruct (Rlt_dec x y); [exfalso; lra|reflexivity]. Qed.
Lemma Rltb_iff x y : Rltb x y = true <-> x < y. Proof. unfold Rltb. destruct (Rlt_dec x y); split; auto; discriminate. Qed.
Lemma Rleb_t x y : x <= y -> Rleb x y = true. Proof. intros H. unfold Rleb. destruct (Rle_dec x y); [reflexivity|contradiction]. Qed.
Lemma Rleb_f x y : y < x -> Rleb x y = false. Proof. intros H. unfold Rleb. destruct (Rle_dec x y); [exfalso; lra|reflexivity]. Qed.
Lemma Rleb_iff x y : Rleb x y = true <-> x <= y. Proof. unfold Rleb. destruct (Rle_dec x y); split; auto; discriminate. Qed.
Lemma Reqb_t x y : x = y -> Reqb x y = true. Proof. intros H. unfold Reqb. destruct (Req_EM_T x y); [reflexivity|contradiction]. Qed.
Lemma Reqb_f x y : x <> y -> Reqb x y = false. Proof. intros H. unfold Reqb. destruct (Req_EM_T x y); [contradiction|reflexivity]. Qed.
Lemma Reqb_iff x y : Reqb x y = true <-> x = y. Proof. unfold Reqb. destruct (Req_EM_T x y); split; auto; discriminate. Qed.
Lemma pdiv_ok x y : y <> 0 -> pdiv x y = Ok (x / y). Proof. intros H. unfold pdiv. rewrite Reqb_f by auto. reflexivity. Qed.
Lemma pdiv_0 x : pdiv x 0 = Raise ZeroDivisionError. Proof. unfold pdiv. rewrite Reqb_t by auto. reflexivity. Qed.
Lemma pdiv_inv x y z : pdiv x y = Ok z -> y <> 0 /\ z = x / y. Proof. unfold pdiv, Reqb. destruct (Req_EM_T y 0); [discriminate|]. intros [= <-]. auto. Qed.

(** ** Plane rotations *)
Lemma symOrtho_spec a b c s r : symOrtho a b = (c, s, r) ->
  c * c + s * s = 1 /\ c * a + s * b = r /\ s * a - c * b = 0 /\ r = sqrt (a * a + b * b).
Proof.
  unfold symOrtho. destruct (Req_EM_T b 0) as [Eb|Nb]; [rewrite (Reqb_t _ _ Eb)|rewrite (Reqb_f _ _ Nb)].
  - subst b. intros [= <- <- <-]. unfold sign. replace (a * a + 0 * 0) with (Rsqr a) by (unfold Rsqr; ring). rewrite sqrt_Rsqr_abs. unfold Rltb. destruct (Rlt_dec a 0) as [L|L]; [rewrite (Rabs_left a L)|rewrite (Rabs_right a) by lra]; repeat split; lra.
  - destruct (Req_EM_T a 0) as [Ea|Na]; [rewrite (Reqb_t _ _ Ea)|rewrite (Reqb_f _ _ Na)].
    + subst a. intros [= <- <- <-]. unfold sign. replace (0 * 0 + b * b) with (Rsqr b) by (unfold Rsqr; ring). rewrite sqrt_Rsqr_abs. unfold Rltb. destruct (Rlt_dec b 0) as [L|L]; [rewrite (Rabs_left b L)|rewrite (Rabs_right b) by lra]; repeat split; lra.
    + assert (G : forall x y, x <> 0 -> y <> 0 -> let t := y / x in let c := sign x / sqrt (1 + t * t) in
         0 < sqrt (1 + t * t) /\ sqrt (1 + t * t) * sqrt (1 + t * t) = 1 + t * t /\ sign x * sign x = 1 /\ x / c = sqrt (x * x + y * y) /\ c <> 0).
      { intros x y Hx Hy t c0. assert (0 <= t * t) by (apply Rle_0_sqr). assert (P : 0 < sqrt (1 + t * t)) by (apply sqrt_lt_R0; lra).
        assert (Q : sqrt (1 + t * t) * sqrt (1 + t * t) = 1 + t * t) by (apply sqrt_sqrt; lra).
        assert (S : sign x * sign x = 1) by (unfold sign, Rltb; destruct (Rlt_dec x 0); lra). assert (Sn : sign x <> 0) by (intros E; rewrite E in S; lra).
        do 3 (split; [assumption|]). split.
        - apply (Rsqr_inj (x / c0)).
          + unfold c0, sign, Rltb. destruct (Rlt_dec x 0).
            * replace (x / (-1 / sqrt (1 + t * t))) with (- x * sqrt (1 + t * t)) by (field; lra). apply Rmult_le_pos; lra.
            * replace (x / (1 / sqrt (1 + t * t))) with (x * sqrt (1 + t * t)) by (field; lra). apply Rmult_le_pos; lra.
          + apply sqrt_pos.
          + rewrite Rsqr_sqrt by (pose proof (Rle_0_sqr x); pose proof (Rle_0_sqr y); unfold Rsqr in *; lra).
            unfold Rsqr, c0. replace (x / (sign x / sqrt (1 + t * t)) * (x / (sign x / sqrt (1 + t * t)))) with (x * x * (sqrt (1 + t * t) * sqrt (1 + t * t)) / (sign x * sign x)) by (field; split; lra).
            rewrite Q, S. unfold t. field. exact Hx.
        - unfold c0. intros E. apply Sn. apply (Rmult_eq_reg_r (/ sqrt (1 + t * t))); [|apply Rinv_neq_0_compat; lra]. rewrite Rmult_0_l. exact E. }
      destruct (Rltb (Rabs a) (Rabs b)); intros [= <- <- <-].
      * destruct (G b a Nb Na) as (P & Q & S & E & Hc). set (t := a / b) in *. set (q := sqrt (1 + t * t)) in *. split; [|split; [|split]].
        -- replace (sign b / q * t * (sign b / q * t) + sign b / q * (sign b / q)) with ((sign b * sign b) * (1 + t * t) / (q * q)) by (field; lra). rewrite S, Q. field. pose proof (Rle_0_sqr t). unfold Rsqr in *. lra.
        -- assert (X : b / (sign b / q) = b * sign b * q). { assert (sign b <> 0) by (intros E0; rewrite E0 in S; lra). replace (b / (sign b / q)) with (b * (sign b * sign b) * q / (sign b)) by (rewrite S; field; split; lra). field. auto. }
           rewrite X. replace (sign b / q * t * a + sign b / q * b) with (sign b * b * (1 + t * t) / q) by (unfold t; field; split; lra). rewrite <- Q. field. lra.
        -- unfold t. field. split; lra.
        -- rewrite E. f_equal. ring.
      * destruct (G a b Na Nb) as (P & Q & S & E & Hc). set (t := b / a) in *. set (q := sqrt (1 + t * t)) in *. split; [|split; [|split]].
        -- replace (sign a / q * (sign a / q) + sign a / q * t * (sign a / q * t)) with ((sign a * sign a) * (1 + t * t) / (q * q)) by (field; lra). rewrite S, Q. field. pose proof (Rle_0_sqr t). unfold Rsqr in *. lra.
        -- assert (X : a / (sign a / q) = a * sign a * q). { assert (sign a <> 0) by (intros E0; rewrite E0 in S; lra). replace (a / (sign a / q)) with (a * (sign a * sign a) * q / (sign a)) by (rewrite S; field; split; lra). field. auto. }
           rewrite X. replace (sign a / q * a + sign a / q * t * b) with (sign a * a * (1 + t * t) / q) by (unfold t; field; split; lra). rewrite <- Q. field. lra.
        -- unfold t. field. split; lra.
        -- exact E.
Qed.
Lemma symOrtho_any a b c s r : 0 < a -> symOrtho a b = (c, s, r) ->
  c * c + s * s = 1 /\ r * c = a /\ r * s = b /\ 0 < c /\ 0 < r /\ s * a = c * b.
Proof.
  intros Ha H. destruct (symOrtho_spec _ _ _ _ _ H) as (H1 & H2 & H3 & H4). pose proof (Rmult_lt_0_compat a a Ha Ha) as P1. pose proof (Rle_0_sqr b) as P2. unfold Rsqr in P2.
  assert (Hr : 0 < r) by (rewrite H4; apply sqrt_lt_R0; lra).
  assert (E1 : r * c = a). { rewrite <- H2. replace ((c * a + s * b) * c) with (a * (c * c + s * s) - s * (s * a - c * b)) by ring. rewrite H1, H3. ring. }
  assert (E2 : r * s = b). { rewrite <- H2. replace ((c * a + s * b) * s) with (b * (c * c + s * s) + c * (s * a - c * b)) by ring. rewrite H1, H3. ring. }
  do 3 (split; [assumption|]). split; [|split; [assumption|lra]]. apply (Rmult_lt_reg_l r); lra.
Qed.
Lemma symOrtho_pos a b c s r : 0 < a -> 0 <= b -> symOrtho a b = (c, s, r) ->
  c * c + s * s = 1 /\ r * c = a /\ r * s = b /\ 0 < c /\ 0 <= s /\ 0 < r /\ s * a = c * b.
Proof.
  intros Ha Hb H. destruct (symOrtho_any _ _ _ _ _ Ha H) as (H1 & H2 & H3 & H4 & H5 & H6). do 4 (split; [assumption|]). split; [|split; assumption].
  apply (Rmult_le_reg_l r); lra.
Qed.
Lemma symOrtho_0 a : 0 <= a -> symOrtho a 0 = (1, 0, a).
Proof. intros H. unfold symOrtho, sign. rewrite Reqb_t by auto. rewrite Rltb_f by lra. rewrite Rabs_right by lra. reflexivity. Qed.

(** ** Dot products *)
Lemma vdot_comm k x y : vdot k x y = vdot k y x.
Proof. apply (sm_ext k (fun i => x i * y i)). intros i _. ring. Qed.
Lemma vdot_lin k w x y z a b : (forall i, (i < k)%nat -> z i = a * x i + b * y i) -> vdot k w z = a * vdot k w x + b * vdot k w y.
Proof.
  intros H. change (vdot k w z) with (sm k (fun i => w i * z i)). change (vdot k w x) with (sm k (fun i => w i * x i)). change (vdot k w y) with (sm k (fun i => w i * y i)).
  rewrite <- !sm_scal, <- sm_plus. apply sm_ext. intros i Hi. rewrite H by auto. ring.
Qed.
Lemma vdot_lin_l k w x y z a b : (forall i, (i < k)%nat -> z i = a * x i + b * y i) -> vdot k z w = a * vdot k x w + b * vdot k y w.
Proof. intros H. rewrite (vdot_comm k z), (vdot_comm k x), (vdot_comm k y). apply vdot_lin, H. Qed.
Lemma vdot_pos k x : 0 <= vdot k x x.
Proof. apply (sm_nonneg k (fun i => x i * x i)). intros i _. apply Rle_0_sqr. Qed.
Lemma vdot_null k x : vdot k x x = 0 -> forall i, (i < k)%nat -> x i = 0.
Proof.
  intros H i Hi. destruct (Req_dec (x i) 0) as [E|E]; [exact E|]. exfalso. assert (P : 0 < sm k (fun i => x i * x i)). { apply (sm_pos k _ i); [intros j _; apply Rle_0_sqr|exact Hi|]. apply Rsqr_pos_lt in E. exact E. }
  change (vdot k x x) with (sm k (fun i => x i * x i)) in H. lra.
Qed.
Lemma vdot_zero k x y : (forall i, (i < k)%nat -> x i = 0) -> vdot k x y = 0.
Proof. intros H. apply (sm_zero k (fun i => x i * y i)). intros i Hi. rewrite H by auto. ring. Qed.
Lemma adjoint m n A x y : vdot m (mul n A x) y = vdot n x (mulH m A y).
Proof.
  unfold vdot, mul, mulH. change (sm m (fun i => sm n (fun j => A i j * x j) * y i) = sm n (fun j => x j * sm m (fun i => A i j * y i))).
  transitivity (sm m (fun i => sm n (fun j => A i j * x j * y i))). { apply sm_ext. intros i _. rewrite <- sm_scal_r. reflexivity. }
  rewrite sm_swap. apply sm_ext. intros j _. rewrite <- sm_scal. apply sm_ext. intros i _. ring.
Qed.
Lemma mul_lin n A x y z a b i : (forall j, (j < n)%nat -> z j = a * x j + b * y j) -> mul n A z i = a * mul n A x i + b * mul n A y i.
Proof. intros H. exact (vdot_lin n (A i) x y z a b H). Qed.
Lemma mulH_lin m A x y z a b j : (forall i, (i < m)%nat -> z i = a * x i + b * y i) -> mulH m A z j = a * mulH m A x j + b * mulH m A y j.
Proof. intros H. exact (vdot_lin m (fun i => A i j) x y z a b H). Qed.

(** ** Spans and orthonormal families *)
Inductive span (l : list vec) : vec -> Prop :=
| span_0 x : (forall i, x i = 0) -> span l x
| span_in x : In x l -> span l x
| span_lin a b x y z : span l x -> span l y -> (forall i, z i = a * x i + b * y i) -> span l z.
Lemma span_incl l l' x : incl l l' -> span l x -> span l' x.
Proof. intros HI H. induction H as [x Hx|x Hx|a b x y z _ IHx _ IHy Hz]; [apply span_0; auto|apply span_in; auto|exact (span_lin l' a b x y z IHx IHy Hz)]. Qed.
Lemma span_orth k l w x : (forall y, In y l -> vdot k w y = 0) -> span l x -> vdot k w x = 0.
Proof.
  intros H S. induction S as [x Hx|x Hx|a b x y z _ IHx _ IHy Hz].
  - rewrite vdot_comm. apply vdot_zero. auto.
  - auto.
  - rewrite (vdot_lin k w x y z a b) by auto. rewrite IHx, IHy. ring.
Qed.
Inductive onb (k : nat) : list vec -> Prop :=
| onb_nil : onb k []
| onb_cons x l : vdot k x x = 1 -> (forall y, In y l -> vdot k x y = 0) -> onb k l -> onb k (x :: l).
Lemma onb_hd k x l : onb k (x :: l) -> vdot k x x = 1 /\ (forall y, In y l -> vdot k x y = 0) /\ onb k l.
Proof. inversion 1; auto. Qed.
Lemma span_hd l x : span (x :: l) x. Proof. apply span_in. left. reflexivity. Qed.
Lemma span_tl l x y : span l y -> span (x :: l) y. Proof. apply span_incl. intros z Hz. right. exact Hz. Qed.

(** ** No more than k orthonormal vectors of length k *)
Definition unitv (j : nat) : vec := fun i => if Nat.eqb i j then 1 else 0.
Lemma vdot_unit k j x : (j < k)%nat -> vdot k (unitv j) x = x j.
Proof.
  intros H. unfold vdot. assert (G : forall l, NoDup l -> In j l -> rsum (map (fun i => unitv j i * x i) l) = x j).
  { induction l as [|a l IH]; intros ND HI; [destruct HI|]. inversion ND as [|? ? Na NDl]. subst. cbn [map rsum fold_right]. fold (rsum (map (fun i => unitv j i * x i) l)). destruct HI as [<-|HI].
    - unfold unitv at 1. rewrite Nat.eqb_refl. assert (Z : rsum (map (fun i => unitv a i * x i) l) = 0).
      { clear -Na. induction l as [|c l IH]; [reflexivity|]. cbn [map rsum fold_right]. fold (rsum (map (fun i => unitv a i * x i) l)). rewrite IH by (intros H; apply Na; right; exact H).
        unfold unitv. destruct (Nat.eqb_spec c a) as [->|]; [exfalso; apply Na; left; reflexivity|]. ring. }
      rewrite Z. ring.
    - unfold unitv at 1. destruct (Nat.eqb_spec a j) as [->|]; [contradiction|]. rewrite IH by assumption. ring. }
  apply G; [apply seq_NoDup|apply in_seq; lia].
Qed.
(** Bessel's inequality *)
Lemma bessel k l x : onb k l -> rsum (map (fun v => vdot k v x * vdot k v x) l) <= vdot k x x.
Proof.
  intros H. assert (G : exists y, (forall v, In v l -> vdot k v y = 0) /\ vdot k y y = vdot k x x - rsum (map (fun v => vdot k v x * vdot k v x) l)).
  { assert (G : exists y, (forall v, In v l -> vdot k v y = 0) /\ vdot k y y = vdot k x x - rsum (map (fun v => vdot k v x * vdot k v x) l) /\ (forall w, (forall v, In v l -> vdot k w v = 0) -> vdot k w y = vdot k w x)).
    { induction H as [|v l Hv Ho Hl (y & Y1 & Y2 & Y3)].
      - exists x. split; [intros v []|]. split; [cbn; ring|auto].
      - exists (fun i => 1 * y i + - vdot k v x * v i). assert (E : forall w, vdot k w (fun i => 1 * y i + - vdot k v x * v i) = vdot k w y - vdot k v x * vdot k w v) by (intros w; rewrite (vdot_lin k w y v _ 1 (- vdot k v x)) by reflexivity; ring).
        assert (Evy : vdot k v y = vdot k v x) by (apply Y3; auto). split; [|split].
        + intros w [<-|Hw]; rewrite E; [rewrite Evy, Hv; ring|]. rewrite (Y1 w Hw), (vdot_comm k w v), (Ho w Hw). ring.
        + rewrite (vdot_lin_l k _ y v _ 1 (- vdot k v x)) by reflexivity. rewrite !E, (vdot_comm k y v), Evy, Hv, Y2. cbn [map rsum fold_right]. fold (rsum (map (fun v0 => vdot k v0 x * vdot k v0 x) l)). ring.
        + intros w Hw. rewrite E, (Hw v (or_introl eq_refl)), Y3 by (intros v0 H0; apply Hw; right; exact H0). ring. }
    destruct G as (y & Y1 & Y2 & _). exists y. auto. }
  destruct G as (y & _ & Y). pose proof (vdot_pos k y). lra.
Qed.
Lemma onb_length k l : onb k l -> (length l <= k)%nat.
Proof.
  intros H. apply INR_le.
  assert (E1 : INR (length l) = rsum (map (fun v => vdot k v v) l)).
  { clear -H. induction H as [|v l Hv Ho Hl IH]; [reflexivity|]. cbn [length map rsum fold_right]. fold (rsum (map (fun v => vdot k v v) l)). rewrite S_INR, IH, Hv. ring. }
  assert (E2 : rsum (map (fun v => vdot k v v) l) = rsum (map (fun j => rsum (map (fun v => vdot k v (unitv j) * vdot k v (unitv j)) l)) (seq 0 k))).
  { clear. induction l as [|v l IH].
    - cbn [map rsum fold_right]. generalize (seq 0 k). induction l as [|a l IH]; [reflexivity|]. cbn [map rsum fold_right]. unfold rsum in IH. rewrite <- IH. ring.
    - cbn [map rsum fold_right]. fold (rsum (map (fun v => vdot k v v) l)). rewrite IH. unfold vdot at 1. assert (G : forall L, incl L (seq 0 k) -> rsum (map (fun i => v i * v i) L) + rsum (map (fun j => rsum (map (fun v0 => vdot k v0 (unitv j) * vdot k v0 (unitv j)) l)) L) =
         rsum (map (fun j => vdot k v (unitv j) * vdot k v (unitv j) + rsum (map (fun v0 => vdot k v0 (unitv j) * vdot k v0 (unitv j)) l)) L)).
      { induction L as [|a L IHL]; intros HI; [cbn; ring|]. cbn [map rsum fold_right]. fold (rsum (map (fun i => v i * v i) L)). fold (rsum (map (fun j => rsum (map (fun v0 => vdot k v0 (unitv j) * vdot k v0 (unitv j)) l)) L)).
        fold (rsum (map (fun j => vdot k v (unitv j) * vdot k v (unitv j) + rsum (map (fun v0 => vdot k v0 (unitv j) * vdot k v0 (unitv j)) l)) L)).
        rewrite <- IHL by (intros c Hc; apply HI; right; exact Hc). assert (Ha : (a < k)%nat) by (specialize (HI a (or_introl eq_refl)); apply in_seq in HI; lia). rewrite (vdot_comm k v (unitv a)), (vdot_unit k a v Ha). ring. }
      exact (G (seq 0 k) (incl_refl _)). }
  rewrite E1, E2. replace (INR k) with (INR (length (seq 0 k))) by (rewrite seq_length; reflexivity).
  assert (G : forall L, incl L (seq 0 k) -> rsum (map (fun j => rsum (map (fun v => vdot k v (unitv j) * vdot k v (unitv j)) l)) L) <= INR (length L)).
  { induction L as [|a L IHL]; intros HI; [cbn; lra|]. cbn [map rsum fold_right length]. fold (rsum (map (fun j => rsum (map (fun v => vdot k v (unitv j) * vdot k v (unitv j)) l)) L)). rewrite S_INR.
    assert (Ha : (a < k)%nat) by (specialize (HI a (or_introl eq_refl)); apply in_seq in HI; lia). pose proof (bessel k l (unitv a) H) as B. rewrite (vdot_unit k a _ Ha) in B. unfold unitv at 3 in B. rewrite Nat.eqb_refl in B.
    specialize (IHL (fun c Hc => HI c (or_intror Hc))). fold (rsum (map (fun v => vdot k v (unitv a) * vdot k v (unitv a)) l)) in *. lra. }
  apply G, incl_refl.
Qed.
(** ** Cauchy-Schwarz *)
Lemma cauchy k x y : vdot k x y <= vnorm k x * vnorm k y.
Proof.
  destruct (Rle_lt_or_eq_dec _ _ (vdot_pos k y)) as [P|Z].
  - assert (Q : vdot k x y * vdot k x y <= vdot k x x * vdot k y y).
    { set (z := fun i => vdot k y y * x i + - vdot k x y * y i). pose proof (vdot_pos k z) as H. rewrite (vdot_lin_l k z x y z (vdot k y y) (- vdot k x y)) in H by reflexivity.
      rewrite (vdot_lin k x x y z (vdot k y y) (- vdot k x y)), (vdot_lin k y x y z (vdot k y y) (- vdot k x y)) in H by reflexivity. rewrite (vdot_comm k y x) in H.
      apply (Rmult_le_reg_l (vdot k y y)); [exact P|]. lra. }
    unfold vnorm. rewrite <- sqrt_mult by apply vdot_pos. apply Rsqr_incr_0_var; [|apply sqrt_pos]. rewrite Rsqr_sqrt by (apply Rmult_le_pos; apply vdot_pos). exact Q.
  - rewrite vdot_comm, vdot_zero by (intros i Hi; apply (vdot_null k y (eq_sym Z) i Hi)). unfold vnorm. apply Rmult_le_pos; apply sqrt_pos.
Qed.
