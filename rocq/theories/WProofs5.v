(** * Proofs for C74: short scan-line times. *)
From Coq Require Import Reals Lra.
From Verif Require Import Base BaseLemmas ReaderModel ReaderMain UncModel UncSpec UncProofs TransformModel EvalModel GNModel SimModel WModel WSpec WProofs WProofs2 WProofs3.
Open Scope nat_scope.

Lemma pround_is x n : (Rabs (x - IZR n) < / 2)%R -> pround x = n.
Proof. intros H. eapply nearest_unique; [exact H|apply pround_nearest]. Qed.
Lemma near0 x n : (x = IZR n)%R -> (Rabs (x - IZR n) < / 2)%R.
Proof. intros ->. rewrite Rminus_diag_eq by auto. rewrite Rabs_R0. lra. Qed.
Theorem lines_lost t dt v x : (0 < dt < 1 / 200)%R -> v <> 0%R ->
  exists W u, gen_w [t; t + dt]%R dt (KF x) (Some [v]) None = Ok (W, u) /\ ~ exists line cols, lines_of [t; t + dt]%R dt line /\ rolling [v] line 2 cols W.
Proof.
  intros Hd Hv. destruct (gen_exists [t; t + dt]%R dt (KF x) (Some [v]) None [v]) as (W & u & H); [discriminate|lra|reflexivity|discriminate|exact Logic.I|]. exists W, u. split; [exact H|].
  intros (line & cols & HL & (R1 & R2 & R3 & R4 & R5)).
  assert (EP : column_positions [t; t + dt]%R dt = Ok [0; 0]).
  { unfold column_positions, enumerate. cbn [length seq combine mapM hd]. unfold scan_position at 1. cbn [Nat.eqb bind]. unfold scan_position. cbn [Nat.eqb]. destruct (Req_EM_T dt 0); [exfalso; lra|]. cbn [bind].
    assert (E1 : pround ((t + dt - t) / dt) = 1%Z) by (apply pround_is, near0; field; lra). rewrite E1.
    assert (E2 : round2 (dt * 1) = 0%R). { unfold round2. assert (E : pround (dt * 1 * 100) = 0%Z) by (apply pround_is; rewrite Rminus_0_r, Rabs_right; lra). rewrite E. lra. }
    rewrite E2. assert (E3 : pround (0 / dt) = 0%Z) by (apply pround_is, near0; field; lra). rewrite E3. reflexivity. }
  unfold gen_w in H. cbn [kernel bind] in H. rewrite EP in H. cbn [bind length] in H.
  pose proof (kmat_rolling [v] [0; 0] 0 (fun _ => 0%Z) 0%Z eq_refl) as KR. cbv zeta in KR. cbn [length repeat] in KR.
  assert (HP : forall i p, nth_error [0; 0] i = Some p -> Z.of_nat p = (0 - 0)%Z) by (intros [|[|[|i]]] p E; try discriminate; injection E as <-; reflexivity). specialize (KR HP).
  cbn [flat_map seq app pymax bind list_max fold_right Nat.max] in H.
  pose proof (kmat_new 1 [0; 0] [[v]; [v]] 1 ltac:(intros q [<-|[<-|[]]]; reflexivity) eq_refl) as KN. cbn [concat app flat_map seq length] in KN. cbn [Nat.add Nat.max] in H. cbn [Nat.add] in KN. rewrite KN in H. cbn [bind] in H. injection H as EW _.
  cbn [Nat.add] in KR. rewrite EW in KR. destruct KR as (_ & Q2 & _ & _ & Q5).
  assert (L0 : line 0%nat = 0%Z). { apply (nearest_unique ((t - t) / dt)%R); [apply near0; field; lra|]. exact (HL 0 t eq_refl). }
  assert (L1 : line 1%nat = 1%Z). { apply (nearest_unique ((t + dt - t) / dt)%R); [apply near0; field; lra|]. exact (HL 1 _ eq_refl). }
  assert (HI : In 0%Z cols). { apply R4. exists 0. split; [lia|]. rewrite L0. change (weight [v] (0 - 0)) with v. auto. }
  apply In_nth_error in HI. destruct HI as (n & Hn). pose proof (R5 0 n 0%Z ltac:(lia) Hn) as A0. pose proof (R5 1 n 0%Z ltac:(lia) Hn) as A1. rewrite L0 in A0. rewrite L1 in A1. change (weight [v] (0 - 0)) with v in A0. change (weight [v] (0 - 1)) with 0%R in A1.
  match type of Q2 with _ = length ?l => destruct (nth_error l n) as [c|] eqn:Ec end.
  - pose proof (Q5 0 n c ltac:(lia) Ec) as B0. pose proof (Q5 1 n c ltac:(lia) Ec) as B1. congruence.
  - apply nth_error_None in Ec. assert (n < length cols) by (apply nth_error_Some; congruence). lia.
Qed.
