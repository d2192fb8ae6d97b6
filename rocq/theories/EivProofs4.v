(** * The covariance computed with MINRES; the symmetry check. *)
From Coq Require Import Reals ZArith Lra Lia.
From Verif Require Import Base BaseLemmas ReaderModel UncModel MuModel SensorSpec SampleSpec TransformModel TransformSpec TransformProofs TransformProofs2 EvalModel EvalSpec
  HistModel GNModel GNAlgebra GNTerms GNAdjoint GNMain GNResidual GNForward GNDeriv GNLoop GNTotal GNOutput PCAlgebra LsmrModel LsmrSpec LsmrAlg LsmrInv MinresModel MinresProofs EivModel EivSpec EivProofs EivProofs2 EivProofs3 GNSpec.
Open Scope nat_scope.

Lemma cbrt_pos t : (0 <= cbrt t)%R.
Proof. unfold cbrt. destruct (Req_EM_T t 0); [lra|]. unfold Rpower. left. apply exp_pos. Qed.
Lemma mul_sym n A x y : LsmrSpec.symmetric n A -> vdot n (mul n A x) y = vdot n x (mul n A y).
Proof.
  intros H. rewrite LsmrAlg.adjoint. apply vdot_ext; [auto|]. intros j Hj. unfold mulH, mul. f_equal. apply map_ext_in. intros i Hi. apply in_seq in Hi. rewrite H by lia. reflexivity.
Qed.
Lemma check_accepts n A eps xs : LsmrSpec.symmetric n A -> (0 <= eps)%R -> check_symmetric n A eps xs = true.
Proof.
  intros H He. unfold check_symmetric. apply forallb_forall. intros x _. cbv zeta. apply Rleb_t. rewrite (mul_sym n A x (mul n A x) H). unfold Rminus at 1. rewrite Rplus_opp_r, Rabs_R0.
  apply Rmult_le_pos; [|apply cbrt_pos]. apply Rplus_le_le_0_compat; [|exact He]. rewrite <- (mul_sym n A x (mul n A x) H). apply vdot_pos.
Qed.

Section Cov.
Context {T : Type}.
Variables (m : mobj R T) (st : solver T) (SF : solver_for m st) (FO : functions_ok m st).
Variables (eps : R) (xr : list vec) (He : (0 < eps)%R).
Notation n1 := (n_vars st + n_pars st).
Notation H := (op_matrix n1 (calc_Hx T st)).

Lemma HADJ x y : length x = n1 -> length y = n1 -> exists fx gy, calc_Hx T st x = Ok fx /\ calc_Hx T st y = Ok gy /\ length fx = n1 /\ length gy = n1 /\ inner fx y = inner x gy.
Proof. intros Hx Hy. destruct (hess_sym m st SF FO x y Hx Hy) as (a & b & E). exists a, b. exact E. Qed.
Lemma H_sym : LsmrSpec.symmetric n1 H.
Proof.
  intros i j Hi Hj. destruct (op_entry n1 n1 _ _ HADJ i j Hi Hj) as (gi & E1 & _ & ->). unfold op_matrix. rewrite E1. reflexivity.
Qed.
Lemma check_H : check_symmetric n1 H eps xr = true.
Proof. apply check_accepts; [apply H_sym|lra]. Qed.

Lemma unit_sys j : exists b, system_of st j b /\ length b = n1.
Proof. destruct (pt_unit m st SF (n_vars st + j)) as (b & E & L). exists b. auto. Qed.

Lemma vnorm_list n v : vnorm n v = sqrt (sum_sq (list_of n v)).
Proof. unfold vnorm, sum_sq. f_equal. rewrite <- (vdot_inner n _ _ (list_of_len n v) (list_of_len n v)). apply vdot_ext; intros i Hi; symmetry; apply vec_list, Hi. Qed.

(** One element. *)
Lemma element_ok i j : exists c b, system_of st i c /\ system_of st j b /\
  match minres_call T eps xr st (n_vars st) b with
  | NotANumber _ _ => cov_element T eps xr st i j = Ok None
  | Finite s => exists v, cov_element T eps xr st i j = Ok (Some v) /\
      (pivots_ok eps s -> forall zi, exact_solution st i zi -> (Rabs (v - inner zi b) <= sqrt (sum_sq zi) * m_rnorm s)%R)
  end.
Proof.
  destruct (unit_sys i) as (c & Ec & Lc). destruct (unit_sys j) as (b & Eb & Lb). exists c, b. split; [exact Ec|]. split; [exact Eb|].
  unfold cov_element. destruct (dims m st SF) as (D1 & _). rewrite D1. cbn [bind]. change (n_a_of T st) with (n_pars st). unfold system_of in *. rewrite Eb, Ec. cbn [bind].
  destruct (minres_call T eps xr st (n_vars st) b) as [s|] eqn:Em; [|reflexivity].
  unfold np_dot. rewrite list_of_len, Lc, Nat.eqb_refl. eexists. split; [reflexivity|]. intros Pv zi (c' & Ec' & Lz & EH). unfold system_of in Ec'. assert (c' = c) by congruence. subst c'.
  unfold minres_call in Em. change (n_a_of T st) with (n_pars st) in Em. cbv zeta in Em. rewrite check_H in Em.
  destruct (msolve_exact n1 H eps tolU (1 / 1000000) 500 (vec_of b) H_sym s He ltac:(lia) Em Pv) as (Er & _). rewrite Er.
  rewrite <- inner_dotp.
  destruct (op_mul n1 n1 _ _ HADJ zi Lz) as (c' & E1 & _ & Hc). assert (c' = c) by congruence. subst c'.
  assert (Q : (inner c (list_of n1 (m_x s)) - inner zi b)%R = (- vdot n1 (vec_of zi) (residual n1 H (vec_of b) (m_x s)))%R).
  { rewrite <- (vdot_vec_of n1 c (m_x s) Lc), <- (vdot_inner n1 zi b Lz Lb).
    rewrite (vdot_ext n1 (vec_of c) (mul n1 H (vec_of zi)) (m_x s) (m_x s)); [|intros k Hk; symmetry; exact (Hc k Hk)|auto]. rewrite (mul_sym n1 H _ _ H_sym).
    assert (Lin : forall k, k < n1 -> residual n1 H (vec_of b) (m_x s) k = (1 * vec_of b k + (-1) * mul n1 H (m_x s) k)%R) by (intros k Hk; unfold residual; ring).
    rewrite (vdot_lin n1 _ _ _ _ _ _ Lin). ring. }
  rewrite Q, Rabs_Ropp.
  assert (N : sqrt (sum_sq zi) = vnorm n1 (vec_of zi)) by (unfold vnorm; rewrite (vdot_inner n1 zi zi Lz Lz); reflexivity). rewrite N.
  apply Rabs_le. split; [|apply cauchy].
  assert (Lin : forall k, k < n1 -> vscal (-1) (vec_of zi) k = ((-1) * vec_of zi k + 0 * vec_of zi k)%R) by (intros; unfold vscal; ring).
  pose proof (cauchy n1 (vscal (-1) (vec_of zi)) (residual n1 H (vec_of b) (m_x s))) as C. rewrite (vdot_lin_l n1 _ _ _ _ _ _ Lin) in C.
  assert (Nn : vnorm n1 (vscal (-1) (vec_of zi)) = vnorm n1 (vec_of zi)). { unfold vnorm. f_equal. rewrite (vdot_lin_l n1 _ _ _ _ _ _ Lin), !(vdot_lin n1 _ _ _ _ _ _ Lin). ring. }
  rewrite Nn in C. lra.
Qed.

Lemma exact_sym zi zj i j b c w : i < n_pars st -> system_of st i c -> system_of st j b -> exact_solution st i zi -> exact_solution st j zj -> exact_entry st zj i w ->
  inner zi b = w /\ inner zj c = w.
Proof.
  intros Hi Ec Eb (c' & Ec' & Li & Ei) (b' & Eb' & Lj & Ej) (p & Ep & ->). unfold system_of in *. assert (c' = c) by congruence. assert (b' = b) by congruence. subst c' b'.
  destruct (hess_sym m st SF FO zi zj Li Lj) as (h1 & h2 & F1 & F2 & _ & _ & D). assert (h1 = c) by congruence. assert (h2 = b) by congruence. subst h1 h2.
  assert (Q : inner zj c = nth (n_vars st + i) p 0%R).
  { destruct (calc_Px_adj m st SF zj (unit_vec n1 (n_vars st + i)) Lj (unit_len _ _)) as (p' & q & Ep' & Eq & Lp & Lq & Dp). assert (p' = p) by congruence. assert (q = c) by congruence. subst p' q.
    rewrite <- (inner_unit n1 (n_vars st + i) p Lp) by lia. rewrite (inner_comm (unit_vec _ _)), !inner_dotp. symmetry. exact Dp. }
  split; [|exact Q]. rewrite <- D, inner_comm. exact Q.
Qed.

Lemma seq_pick {A} (f : nat -> res A) n V k : mapM f (seq 0 n) = Ok V -> k < n -> exists y, f k = Ok y /\ nth_error V k = Some y.
Proof. intros E Hk. apply (mapM_nth _ _ _ k k E). rewrite (nth_error_nth' _ 0) by (rewrite seq_length; auto). rewrite seq_nth by auto. reflexivity. Qed.

Theorem matrix_ok V : cov_matrix T eps xr st = Ok V ->
  length V = n_pars st /\ (forall r, In r V -> length r = n_pars st) /\
  forall i j, i < n_pars st -> j < n_pars st -> nth j (nth i V []) None = nth i (nth j V []) None /\
  match nth j (nth i V []) None with
  | Some v => exists si sj, solved_for eps xr st i (Finite si) /\ solved_for eps xr st j (Finite sj) /\
      (pivots_ok eps si -> pivots_ok eps sj -> forall zi zj w, exact_solution st i zi -> exact_solution st j zj -> exact_entry st zj i w ->
        (Rabs (v - w) <= (sqrt (sum_sq zi) * m_rnorm sj + sqrt (sum_sq zj) * m_rnorm si) / 2)%R)
  | None => exists k f n, (k = i \/ k = j) /\ solved_for eps xr st k (NotANumber f n)
  end.
Proof.
  unfold cov_matrix. change (n_a_of T st) with (n_pars st). set (n := n_pars st). destruct (mapM _ (seq 0 n)) as [W|] eqn:EW; cbn [bind]; [|discriminate]. intros [= <-].
  split; [rewrite map_length, seq_length; reflexivity|]. split. { intros r Hr. apply in_map_iff in Hr. destruct Hr as (i & <- & _). rewrite map_length, seq_length. reflexivity. }
  intros i j Hi Hj.
  assert (EI : forall i j, i < n -> j < n -> cov_element T eps xr st i j = Ok (nth j (nth i W []) None)).
  { intros a b Ha Hb. destruct (seq_pick _ _ _ a EW Ha) as (row & Er & Hr). rewrite (nth_error_nth _ _ [] Hr). destruct (seq_pick _ _ _ b Er Hb) as (y & Ey & Hy). rewrite (nth_error_nth _ _ None Hy). exact Ey. }
  rewrite !(map_seq_nth _ n) by auto.
  split. { destruct (nth j (nth i W []) None), (nth i (nth j W []) None); try reflexivity. f_equal. lra. }
  destruct (element_ok i j) as (c & b & Ec & Eb & M1). destruct (element_ok j i) as (b' & c' & Eb' & Ec' & M2). unfold system_of in Eb, Ec, Eb', Ec'. assert (b' = b) by congruence. assert (c' = c) by congruence. subst b' c'.
  rewrite (EI i j Hi Hj) in M1. rewrite (EI j i Hj Hi) in M2.
  destruct (minres_call T eps xr st (n_vars st) b) as [sj|f1 n1'] eqn:Ej.
  - destruct M1 as (v1 & E1 & B1). injection E1 as E1. rewrite E1.
    destruct (minres_call T eps xr st (n_vars st) c) as [si|f2 n2'] eqn:Ei.
    + destruct M2 as (v2 & E2 & B2). injection E2 as E2. rewrite E2. exists si, sj. split; [exists c; auto|]. split; [exists b; auto|].
      intros Pi Pj zi zj w Xi Xj Xw. destruct (exact_sym zi zj i j b c w Hi Ec Eb Xi Xj Xw) as (Q1 & Q2). specialize (B1 Pj zi Xi). specialize (B2 Pi zj Xj). rewrite Q1 in B1. rewrite Q2 in B2.
      replace ((v1 + v2) / 2 - w)%R with ((v1 - w) / 2 + (v2 - w) / 2)%R by field. eapply Rle_trans; [apply Rabs_triang|]. unfold Rdiv. rewrite !Rabs_mult. rewrite (Rabs_right (/ 2)) by lra. lra.
    + injection M2 as M2. rewrite M2. exists i, f2, n2'. split; [auto|]. exists c. auto.
  - injection M1 as M1. rewrite M1. exists j, f1, n1'. split; [auto|]. exists b. auto.
Qed.
End Cov.
