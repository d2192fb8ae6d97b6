(** * C27-C28: every run returns; the covariance with an exact inner solver; the output.  Proofs only. *)
From Coq Require Import Reals Lra.
From Verif Require Import Base BaseLemmas ReaderModel UncModel MuModel SensorSpec SampleSpec SampleProofs TransformModel TransformSpec TransformProofs TransformProofs2 TransformMain TransformMain2 TransformMain3 EvalModel EvalSpec EvalProofs GNModel GNSpec GNAlgebra GNTerms GNAdjoint GNMain GNResidual GNLoop.
Open Scope nat_scope.

Section Total.
Context {T : Type}.
Variables (m : mobj R T) (st : solver T).
Hypothesis SF : solver_for m st.
Hypothesis FO : functions_ok m st.
Notation d := (g_m T st).
Notation sd := (g_sd T st).

Lemma solver_with x : unknowns_vec st x -> solver_for m (with_xyza T st x).
Proof. intros Hx. destruct SF as [A1 A2 A3 A4 A5 A6 A7 A8 A9 A10 A11 A12]. constructor; auto. Qed.
Lemma functions_with x : functions_ok m (with_xyza T st x).
Proof. exact FO. Qed.

Lemma norm_inf_ok v : v <> [] -> norm_inf v = Ok (max_abs v).
Proof. unfold norm_inf, max_abs. destruct v; [congruence|reflexivity]. Qed.

Lemma px_total x : unknowns_vec st x -> exists p, calc_Px T st x false = Ok p /\ unknowns_vec st p.
Proof. intros Hx. destruct (calc_Px_ok m st SF x Hx) as (P & _ & E & _ & L & _). exists P. auto. Qed.

Lemma iter_total lsmr tol g : 1 <= n_vars st -> lsmr_total lsmr st -> unknowns_vec st (s_xyza g) -> exists g', gn_iter T lsmr st tol g = Ok g' /\ unknowns_vec st (s_xyza g').
Proof.
  intros Hn HL Hx. unfold gn_iter. destruct (HL (S (s_iter g)) (with_xyza T st (s_xyza g)) (map Ropp (s_res g))) as (sol & -> & Ls). cbn [bind].
  destruct (calc_Px_ok m (with_xyza T st (s_xyza g)) (solver_with _ Hx) sol Ls) as (P & _ & E & _ & L & _). rewrite E. cbn [bind].
  change (length P = n_vars st + n_pars st) in L. unfold unknowns_vec in Hx. rewrite L, Hx, Nat.eqb_refl. rewrite bop_eq by congruence. cbn [bind].
  set (x' := zip2 Rplus (s_xyza g) P). assert (Lx' : unknowns_vec st x') by (unfold x', unknowns_vec; rewrite zip2_len; lia).
  destruct (calc_f_ok m (with_xyza T st x') (solver_with _ Lx') (functions_with x') x' Lx') as (f & _ & _ & Ef & Lf & _). rewrite Ef. cbn [bind].
  assert (Z : unknowns_vec (with_xyza T st x') x') by exact Lx'.
  destruct (adjoint m (with_xyza T st x') (solver_with _ Lx') (functions_with x') x' f Z Lf) as (_ & jt & _ & Ej & _ & Lj & _). rewrite Ej. cbn [bind].
  change (length jt = n_vars st + n_pars st) in Lj. unfold unknowns_vec in Lx'.
  rewrite !norm_inf_ok; [cbn [bind]; eexists; split; [reflexivity|]; exact Lx'| | |];
    intros H; apply (f_equal (@length R)) in H; cbn [length] in H; rewrite ?map_length in H; lia.
Qed.

Lemma loop_total lsmr tol fuel : 1 <= n_vars st -> lsmr_total lsmr st -> forall g, unknowns_vec st (s_xyza g) ->
  exists g', gn_loop T lsmr st tol fuel g = Ok g' /\ unknowns_vec st (s_xyza g') /\ (s_conv g = false -> 1 <= fuel -> s_cost g' <> None) /\ (s_cost g <> None -> s_cost g' <> None).
Proof.
  intros Hn HL. induction fuel as [|fuel IH]; intros g Hx; cbn [gn_loop].
  - exists g. split; [auto|]. split; [auto|]. split; [lia|auto].
  - destruct (s_conv g) eqn:Ec; [exists g; split; [auto|]; split; [auto|]; split; [discriminate|auto]|].
    destruct (iter_total lsmr tol g Hn HL Hx) as (g1 & E & Hx1). rewrite E. cbn [bind].
    destruct (IH g1 Hx1) as (g' & E' & Hx' & _ & C'). exists g'. split; [auto|]. split; [auto|].
    assert (C1 : s_cost g1 <> None).
    { unfold gn_iter in E. repeat (match type of E with bind ?x _ = _ => destruct x; cbn [bind] in E; [|discriminate] end). injection E as <-. discriminate. }
    split; auto.
Qed.

(** covariance elements *)
Lemma unit_len n k : length (unit_vec n k) = n. Proof. unfold unit_vec. rewrite map_length, seq_length. auto. Qed.
Lemma inner_nth x y N : length x = N -> length y = N -> inner x y = rsum (map (fun i => nth i x 0 * nth i y 0)%R (seq 0 N)).
Proof. intros H1 H2. rewrite inner_dotp by lia. apply dotp_sum; auto. Qed.
Lemma inner_unit n k x : length x = n -> k < n -> inner (unit_vec n k) x = nth k x 0%R.
Proof.
  unfold unit_vec. intros Hx Hk.
  assert (G : forall l j, j <= k < j + length l -> inner (map (fun i => if i =? k then 1%R else 0%R) (seq j (length l))) l = nth (k - j) l 0%R).
  { induction l as [|a l IH]; intros j Hj; cbn [length] in Hj; [lia|]. cbn [length seq map inner].
    destruct (Nat.eqb_spec j k) as [->|Hne].
    - rewrite Nat.sub_diag. cbn [nth].
      assert (Z : forall l' j', k < j' -> inner (map (fun i => if i =? k then 1%R else 0%R) (seq j' (length l'))) l' = 0%R).
      { induction l' as [|b l' IH']; intros j' Hj'; [reflexivity|]. cbn [length seq map inner]. destruct (Nat.eqb_spec j' k); [lia|]. rewrite IH' by lia. ring. }
      rewrite Z by lia. ring.
    - rewrite IH by lia. replace (k - j) with (S (k - S j)) by lia. cbn [nth]. ring. }
  rewrite <- Hx. rewrite G by lia. rewrite Nat.sub_0_r. reflexivity.
Qed.

Lemma last_vars : pylast (idxs (m_idx R T d)) = Ok (n_vars st).
Proof. destruct (solver_facts m st SF) as (nv & ns & _ & _ & _ & E & _). exact E. Qed.

Lemma pt_unit k : exists p, calc_Px T st (unit_vec (n_vars st + n_pars st) k) true = Ok p /\ unknowns_vec st p.
Proof. destruct (calc_Px_ok m st SF _ (unit_len _ k)) as (_ & P & _ & E & _ & L & _). exists P. auto. Qed.

Lemma cov_ij_ok minres i j : (forall b, exists x, minres i j st b = Ok x /\ unknowns_vec st x) ->
  exists Pd dt Pc, calc_Px T st (unit_vec (n_vars st + n_pars st) (n_vars st + j)) true = Ok Pd /\ minres i j st Pd = Ok dt /\ unknowns_vec st dt /\
    calc_Px T st (unit_vec (n_vars st + n_pars st) (n_vars st + i)) true = Ok Pc /\ unknowns_vec st Pd /\ unknowns_vec st Pc /\
    covariance_ij T minres st i j = Ok (inner Pc dt).
Proof.
  intros HM. destruct (pt_unit (n_vars st + j)) as (Pd & E1 & L1). destruct (pt_unit (n_vars st + i)) as (Pc & E2 & L2).
  destruct (HM Pd) as (dt & E3 & L3). exists Pd, dt, Pc. do 6 (split; [auto|]).
  unfold covariance_ij. rewrite last_vars. cbn [bind]. change (length (sd_a T sd)) with (n_pars st). rewrite E1. cbn [bind]. rewrite E3. cbn [bind]. rewrite E2. cbn [bind].
  unfold np_dot. unfold unknowns_vec in *. rewrite L2, L3, Nat.eqb_refl. rewrite inner_dotp by lia. reflexivity.
Qed.

Lemma covariance_total minres : (forall i j b, exists x, minres i j st b = Ok x /\ unknowns_vec st x) -> exists V, covariance T minres st = Ok V.
Proof.
  intros HM. unfold covariance. change (length (sd_a T sd)) with (n_pars st).
  assert (R1 : forall i, exists row, mapM (fun j => covariance_ij T minres st i j) (seq 0 (n_pars st)) = Ok row).
  { intros i. destruct (mapM_ok_ex (fun j => covariance_ij T minres st i j) (seq 0 (n_pars st))) as (row & E); [|exists row; auto].
    intros j _. destruct (cov_ij_ok minres i j (HM i j)) as (Pd & dt & Pc & _ & _ & _ & _ & _ & _ & E). eexists; exact E. }
  destruct (mapM_ok_ex (fun i => mapM (fun j => covariance_ij T minres st i j) (seq 0 (n_pars st))) (seq 0 (n_pars st))) as (V & E); [intros i _; apply R1|].
  rewrite E. cbn [bind]. eexists; reflexivity.
Qed.

(** With an exact inner solver the covariance is the parameter block of P (JP^T JP)^-1 P^T. *)
Lemma covariance_exact minres : minres_exact minres st -> (forall i j b, exists x, minres i j st b = Ok x /\ unknowns_vec st x) -> exists V, covariance T minres st = Ok V /\
  forall i j, i < n_pars st -> j < n_pars st -> 
   (exists b z p, calc_Px T st (unit_vec (n_vars st + n_pars st) (n_vars st + j)) true = Ok b /\ unknowns_vec st z /\ calc_Hx T st z = Ok b /\
      calc_Px T st z false = Ok p /\ entry V i j = nth (n_vars st + i) p 0%R) /\ (i = j -> (0 <= entry V i j)%R).
Proof.
  intros HX HM. destruct (covariance_total minres HM) as (V & EV). exists V. split; [auto|].
  destruct (covariance_shape minres st V EV) as (_ & W & EW & HW).
  assert (EI : forall i j, i < n_pars st -> j < n_pars st -> covariance_ij T minres st i j = Ok (entry W i j)).
  { intros i j Hi Hj. unfold entry. pose proof (mapM_nth _ _ _ i i EW) as A.
    assert (Es : nth_error (seq 0 (n_pars st)) i = Some i) by (rewrite (nth_error_nth' _ 0) by (rewrite seq_length; auto); rewrite seq_nth by auto; reflexivity).
    assert (Esj : nth_error (seq 0 (n_pars st)) j = Some j) by (rewrite (nth_error_nth' _ 0) by (rewrite seq_length; auto); rewrite seq_nth by auto; reflexivity).
    destruct (A Es) as (row & Er & Hr). rewrite (nth_error_nth _ _ [] Hr). destruct (mapM_nth _ _ _ j j Er Esj) as (y & Ey & Hy). rewrite (nth_error_nth _ _ 0%R Hy). exact Ey. }
  intros i j Hi Hj.
  (* exact solutions *)
  assert (S1 : forall i j, i < n_pars st -> j < n_pars st -> exists Pd dt Pc, calc_Px T st (unit_vec (n_vars st + n_pars st) (n_vars st + j)) true = Ok Pd /\
     calc_Px T st (unit_vec (n_vars st + n_pars st) (n_vars st + i)) true = Ok Pc /\ unknowns_vec st dt /\ unknowns_vec st Pc /\ unknowns_vec st Pd /\
     calc_Hx T st dt = Ok Pd /\ entry W i j = inner Pc dt).
  { intros a b Ha Hb. destruct (cov_ij_ok minres a b (HM a b)) as (Pd & dt & Pc & E1 & E2 & L1 & E3 & L2 & L3 & E4).
    exists Pd, dt, Pc. destruct (HX a b Pd L2) as (dt' & E2' & L1' & EH). assert (dt' = dt) by congruence. subst dt'.
    do 6 (split; [auto|]). rewrite (EI a b Ha Hb) in E4. congruence. }
  destruct (S1 i j Hi Hj) as (Pd & dt & Pc & E1 & E2 & L1 & L2 & L3 & EH & EWij).
  destruct (S1 j i Hj Hi) as (Pd' & dt' & Pc' & E1' & E2' & L1' & L2' & L3' & EH' & EWji).
  assert (Pd' = Pc) by congruence. assert (Pc' = Pd) by congruence. subst Pd' Pc'.
  destruct (hess_sym m st SF FO dt dt' L1 L1') as (h1 & h2 & F1 & F2 & _ & _ & D). assert (h1 = Pd) by congruence. assert (h2 = Pc) by congruence. subst h1 h2.
  assert (SYM : entry W i j = entry W j i) by (rewrite EWij, EWji, D; apply inner_comm).
  assert (EVij : entry V i j = entry W i j) by (rewrite HW by auto; rewrite SYM; lra).
  split.
  - destruct (px_total dt L1) as (p & Ep & Lp). exists Pd, dt, p. do 4 (split; [auto|]).
    destruct (calc_Px_adj m st SF dt (unit_vec (n_vars st + n_pars st) (n_vars st + i)) L1 (unit_len _ _)) as (p' & q & Ep' & Eq & _ & Lq & Dp).
    assert (p' = p) by congruence. assert (q = Pc) by congruence. subst p' q. rewrite EVij, EWij. unfold unknowns_vec in *.
    rewrite <- (inner_unit (n_vars st + n_pars st) (n_vars st + i) p Lp) by lia.
    rewrite (inner_comm Pc), (inner_comm (unit_vec _ _)). rewrite !inner_dotp by (rewrite ?unit_len; lia). auto.
  - intros ->. rewrite EVij, EWij. destruct (hess_psd m st SF FO dt L1) as (Jx & H & _ & EH2 & _ & P). assert (H = Pd) by congruence. assert (Pc = Pd) by congruence. subst. rewrite inner_comm. exact P.
Qed.
End Total.
