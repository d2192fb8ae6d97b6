(** * Proofs for C40-C42, C69-C71. *)
From Coq Require Import Reals Lra.
From Coquelicot Require Import Coquelicot.
From Verif Require Import Base BaseLemmas InstModel InstSpec.
Open Scope R_scope.

Lemma rowwise f nv na cols rows p : (forall x, In x rows -> derivatives_at f nv na cols x p) -> derivatives f nv na cols rows p.
Proof.
  intros H. unfold derivatives, vectorised.
  destruct (mapM_ok_ex (fun x => f x p) rows) as (l & E). { intros a Ha. destruct (H a Ha) as (r & j & E & _). eauto. }
  rewrite E. cbn [bind]. do 2 eexists. split; [reflexivity|]. rewrite !map_length. pose proof (mapM_length _ _ _ E) as Hl. do 2 (split; [auto|]).
  intros i x Hx. destruct (mapM_nth _ _ _ _ _ E Hx) as ((r & j) & Ef & Hi). exists r, j. rewrite !nth_error_map, Hi. do 2 (split; [reflexivity|]). split; [auto|].
  destruct (H x (nth_error_In _ _ Hx)) as (r' & j' & E' & A & B). rewrite Ef in E'. injection E' as <- <-. auto.
Qed.


Lemma ne_sub a b : a <> b -> a - b <> 0.
Proof. intros H E. apply H. lra. Qed.
Lemma ne_sub' a b : a <> b -> a + - b <> 0.
Proof. intros H E. apply H. lra. Qed.

Ltac solve_partial := unfold column_ok; cbn [Nat.ltb Nat.leb Nat.sub]; unfold partial; cbn [nth upd app]; apply is_derive_Reals;
  unfold value, avhrr_row, sensor_model_3, sensor_model_4, sensor_model_37_2, sensor_model_37_3, sensor_model_3_scaled, sensor_model_4_scaled, sensor_model_37_3_scaled, hirs_3, dot;
  cbn [get nth_error bind combine map fold_right fst snd app].
Ltac finish := auto_derive; [repeat split; auto using ne_sub, ne_sub'|field; repeat split; auto using ne_sub, ne_sub'].

Theorem avhrr_derivatives k x p : avhrr_defined k x -> length p = avhrr_params k ->
  derivatives_at (avhrr_row k) (avhrr_vars k) (avhrr_params k) (fun c => (c < avhrr_vars k)%nat \/ unscaled k \/ c = avhrr_vars k) x p.
Proof.
  intros (Hx & Hd) Hp.
  destruct k; cbn in Hx, Hp; destruct x as [|x0 [|x1 [|x2 [|x3 [|x4 [|? ?]]]]]]; try discriminate; destruct p as [|p0 [|p1 [|p2 [|p3 [|? ?]]]]]; try discriminate; cbn [nth] in Hd;
    (do 2 eexists; split; [reflexivity|]; split; [reflexivity|]; cbn [avhrr_vars avhrr_params]; intros c Hc Hk).
  all: do 9 (destruct c as [|c]; [try (exfalso; destruct Hk as [Hk|[[Hk|[Hk|Hk]]|Hk]]; (lia || discriminate)); solve_partial; finish|]); exfalso; lia.
Qed.

Lemma partial_unique F x k d d' : partial F x k d -> partial F x k d' -> d = d'.
Proof. unfold partial. apply uniqueness_limite. Qed.

(** ** Scaled models *)
Theorem scaled_parameter k x p : ~ unscaled k -> avhrr_defined k x -> length p = avhrr_params k -> nth 3 x 0 <> 0 -> nth 0 x 0 <> nth 2 x 0 ->
  exists r j, avhrr_row k x p = Ok (r, j) /\ nth (avhrr_vars k + 1) j 0 <> 0 /\
    partial (fun q => value (avhrr_row k x q)) p 1 (nth (avhrr_vars k + 1) j 0 / 1000) /\ ~ column_ok (avhrr_row k) (avhrr_vars k) x p j (avhrr_vars k + 1).
Proof.
  intros Hu (Hx & Hd) Hp HR HC.
  assert (G : forall (A B : Prop) d, d <> 0 -> A -> (A -> ~ B) -> d <> 0 /\ A /\ ~ B) by (intros; tauto).
  assert (N : forall d F q, d <> 0 -> partial F q 1 (d / 1000) -> ~ partial F q 1 d).
  { intros d F q Hn HP HQ. pose proof (partial_unique _ _ _ _ _ HP HQ). lra. }
  destruct k; cbn in Hx, Hp; try (exfalso; apply Hu; unfold unscaled; tauto);
    destruct x as [|x0 [|x1 [|x2 [|x3 [|x4 [|? ?]]]]]]; try discriminate; destruct p as [|p0 [|p1 [|p2 [|p3 [|? ?]]]]]; try discriminate; cbn [nth] in Hd, HR, HC;
    (do 2 eexists; split; [reflexivity|]; cbn [avhrr_vars Nat.add]; unfold column_ok; cbn [Nat.ltb Nat.leb Nat.sub nth app]; apply G;
     [unfold Rdiv; repeat apply Rmult_integral_contrapositive_currified; auto using ne_sub; apply Rinv_neq_0_compat; auto using ne_sub
     |unfold partial; cbn [nth upd app]; apply is_derive_Reals;
      unfold value, avhrr_row, sensor_model_3, sensor_model_4, sensor_model_37_2, sensor_model_37_3, sensor_model_3_scaled, sensor_model_4_scaled, sensor_model_37_3_scaled, dot;
      cbn [get nth_error bind combine map fold_right fst snd app]; finish
     |intros HP; apply N; auto; unfold Rdiv; repeat apply Rmult_integral_contrapositive_currified; auto using ne_sub; apply Rinv_neq_0_compat; auto using ne_sub]).
Qed.

(** ** HIRS *)
Lemma H_pos : 0 < H. Proof. unfold H. apply Rmult_lt_0_compat; [lra|apply Rinv_0_lt_compat, pow_lt; lra]. Qed.
Lemma KB_pos : 0 < KB. Proof. unfold KB. apply Rmult_lt_0_compat; [lra|apply Rinv_0_lt_compat, pow_lt; lra]. Qed.
Lemma C_pos : 0 < C. Proof. unfold C. lra. Qed.
Lemma exp_ne_1 y : y <> 0 -> exp y - 1 <> 0.
Proof.
  intros Hy E. assert (exp y = exp 0) by (rewrite exp_0; lra). apply Hy. apply exp_inv. auto.
Qed.
Lemma planck_ne v T : v <> 0 -> T <> 0 -> exp (v * H / (KB * T)) - 1 <> 0.
Proof.
  intros Hv HT. apply exp_ne_1. pose proof H_pos. pose proof KB_pos.
  apply Rmult_integral_contrapositive_currified; [apply Rmult_integral_contrapositive_currified; lra|apply Rinv_neq_0_compat, Rmult_integral_contrapositive_currified; lra].
Qed.
Ltac finish2 := auto_derive; [repeat split; auto using ne_sub, ne_sub'|field; repeat split; auto using ne_sub, ne_sub'; lra].
Theorem hirs_derivatives c x p : hirs_defined c x -> length p = 3%nat -> derivatives_at (hirs_3 c) 5 3 (fun k => k <> 3%nat) x p.
Proof.
  intros (Hc & Hx & Hd & Hv & HT) Hp.
  destruct c as [|v [|a [|b [|? ?]]]]; try discriminate. destruct x as [|x0 [|x1 [|x2 [|x3 [|x4 [|? ?]]]]]]; try discriminate. destruct p as [|p0 [|p1 [|p2 [|? ?]]]]; try discriminate.
  cbn [nth] in *. assert (Hd' : x1 <> x0) by auto. pose proof (planck_ne v (a + b * x3) Hv HT) as HE. pose proof C_pos as HC.
  do 2 eexists. split; [reflexivity|]. split; [reflexivity|]. intros c Hcc Hk.
  do 8 (destruct c as [|c]; [try (exfalso; lia); solve_partial; set (E := exp (v * H / (KB * (a + b * x3)))) in *; finish2|]). exfalso; lia.
Qed.
Theorem hirs_temperature c x p : hirs_defined c x -> length p = 3%nat -> nth 2 c 0 <> 0 -> nth 2 x 0 <> nth 0 x 0 -> e_ict + nth 1 p 0 <> 0 ->
  exists r j, hirs_3 c x p = Ok (r, j) /\ nth 3 j 0 <> 0 /\ partial (fun y => value (hirs_3 c y p)) x 3 (nth 3 j 0 / 2) /\ ~ column_ok (hirs_3 c) 5 x p j 3.
Proof.
  intros (Hc & Hx & Hd & Hv & HT) Hp Hb HC He.
  destruct c as [|v [|a [|b [|? ?]]]]; try discriminate. destruct x as [|x0 [|x1 [|x2 [|x3 [|x4 [|? ?]]]]]]; try discriminate. destruct p as [|p0 [|p1 [|p2 [|? ?]]]]; try discriminate.
  cbn [nth] in *. assert (Hd' : x1 <> x0) by auto. pose proof (planck_ne v (a + b * x3) Hv HT) as HE. pose proof C_pos as HC'. pose proof H_pos as HH. pose proof KB_pos as HK.
  do 2 eexists. split; [reflexivity|]. cbn [nth app].
  assert (G : forall (A B : Prop) d, d <> 0 -> A -> (A -> ~ B) -> d <> 0 /\ A /\ ~ B) by (intros; tauto).
  assert (N2 : forall d F q, d <> 0 -> partial F q 3 (d / 2) -> ~ partial F q 3 d).
  { intros d F q Hn HP HQ. pose proof (partial_unique _ _ _ _ _ HP HQ). lra. }
  match goal with |- ?d <> 0 /\ _ => assert (Nz : d <> 0) end.
  { assert (EP := exp_pos (v * H / (KB * (a + b * x3)))). assert (v ^ 3 <> 0) by (apply pow_nonzero; auto). assert (C ^ 2 <> 0) by (apply pow_nonzero; lra).
    assert ((a + b * x3) ^ 2 <> 0) by (apply pow_nonzero; auto).
    unfold Rdiv. repeat apply Rmult_integral_contrapositive_currified; auto using ne_sub; try (apply Rinv_neq_0_compat; auto using ne_sub); try lra.
    apply Rmult_integral_contrapositive_currified; lra. }
  apply G; [exact Nz| |].
  - unfold partial; cbn [nth upd app]; apply is_derive_Reals; unfold value, hirs_3, dot; cbn [get nth_error bind combine map fold_right fst snd app].
    auto_derive; [repeat split; auto using ne_sub, ne_sub'; try (apply Rmult_integral_contrapositive_currified; lra)|].
    { change (v * H * / (KB * (a + b * x3))) with (v * H / (KB * (a + b * x3))). set (E := exp (v * H / (KB * (a + b * x3)))) in *. field. repeat split; auto using ne_sub, ne_sub'; try lra. }
  - intros HP. apply N2; [|exact HP]. exact Nz.
Qed.
