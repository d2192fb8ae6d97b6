(** * Proofs for C71 and the non-vacuity examples of C42. *)
From Coq Require Import Reals Lra.
From Verif Require Import Base BaseLemmas InstModel InstSpec InstProofs.
Open Scope R_scope.

Lemma planck_inj v T T' : 0 < v -> 0 < T -> 0 < T' -> planck v T = planck v T' -> T = T'.
Proof.
  intros Hv HT HT' E. pose proof H_pos as HH. pose proof KB_pos as HK. pose proof C_pos as HC.
  assert (N1 : exp (v * H / (KB * T)) - 1 <> 0) by (apply planck_ne; lra). assert (N2 : exp (v * H / (KB * T')) - 1 <> 0) by (apply planck_ne; lra).
  unfold planck in E. unfold Rdiv at 1 in E. unfold Rdiv at 3 in E.
  assert (P1 : 0 < v ^ 3) by (apply pow_lt; auto). assert (P2 : 0 < C ^ 2) by (apply pow_lt; auto).
  assert (K : 2 * H * v ^ 3 / C ^ 2 <> 0). { apply Rgt_not_eq. apply Rdiv_lt_0_compat; [|auto]. repeat apply Rmult_lt_0_compat; lra. }
  apply Rmult_eq_reg_l in E; [|exact K]. apply (f_equal Rinv) in E. rewrite !Rinv_inv in E.
  assert (E2 : v * H / (KB * T) = v * H / (KB * T')) by (apply exp_inv; lra).
  unfold Rdiv in E2. apply Rmult_eq_reg_l in E2; [|apply Rgt_not_eq, Rmult_lt_0_compat; auto]. apply (f_equal Rinv) in E2. rewrite !Rinv_inv in E2.
  apply Rmult_eq_reg_l in E2; [auto|lra].
Qed.

(** ** Calling the AVHRR models *)
Theorem avhrr_callable k rows p : k = A3 \/ k = A3_scaled -> avhrr_call k rows p = vectorised (avhrr_row k) rows p.
Proof. intros [->| ->]; reflexivity. Qed.
Theorem avhrr_not_callable k rows p : k <> A3 -> k <> A3_scaled -> avhrr_call k rows p = Raise TypeError.
Proof. intros H1 H2. destruct k; try reflexivity; congruence. Qed.
Theorem avhrr_columns k x p r j : avhrr_row k x p = Ok (r, j) -> length j = (avhrr_vars k + avhrr_params k)%nat.
Proof.
  intros E. destruct k; cbn [avhrr_row] in E;
    unfold sensor_model_3, sensor_model_4, sensor_model_37_2, sensor_model_37_3, sensor_model_3_scaled, sensor_model_4_scaled, sensor_model_37_3_scaled in E;
    repeat (match type of E with bind ?x _ = _ => destruct x as [?|] eqn:?; cbn [bind] in E; [|discriminate] end); injection E as _ <-; reflexivity.
Qed.
Theorem avhrr_declared_wrong k : (k = A37_2 \/ k = A37_3 \/ k = A37_2_scaled \/ k = A37_3_scaled) -> avhrr_declared_params k = S (avhrr_params k).
Proof. intros [->|[->|[->| ->]]]; reflexivity. Qed.
Theorem avhrr_declared_right k : (k = A3 \/ k = A4 \/ k = A3_scaled \/ k = A4_scaled) -> avhrr_declared_params k = avhrr_params k.
Proof. intros [->|[->|[->| ->]]]; reflexivity. Qed.
