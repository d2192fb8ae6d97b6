(** * Proofs for C42: microwave sounders. *)
From Coq Require Import Reals Lra.
From Coquelicot Require Import Coquelicot.
From Verif Require Import Base BaseLemmas InstModel InstSpec InstProofs.
Open Scope R_scope.

Lemma pyget_tail {A} (l : list A) (t : list A) k a : (k < length t)%nat -> nth_error t k = Some a -> pyget (l ++ t) (Z.of_nat k - Z.of_nat (length t)) = Ok a.
Proof.
  intros Hk Hn. unfold pyget. destruct (Z.leb_spec 0 (Z.of_nat k - Z.of_nat (length t))); [lia|]. rewrite app_length.
  destruct (Z.leb_spec 0 (Z.of_nat (length l + length t) + (Z.of_nat k - Z.of_nat (length t)))); [|lia].
  replace (Z.to_nat _) with (length l + k)%nat by lia. unfold get. rewrite nth_error_app2 by lia. replace (length l + k - length l)%nat with k by lia. rewrite Hn. auto.
Qed.
Lemma pyget_ant {A} (l t : list A) (i : nat) g : nth_error l i = Some g -> pyget (l ++ t) (Z.of_nat i) = Ok g.
Proof.
  intros H. unfold pyget. destruct (Z.leb_spec 0 (Z.of_nat i)); [|lia]. rewrite Nat2Z.id. unfold get. rewrite nth_error_app1; [rewrite H; auto|apply nth_error_Some; congruence].
Qed.
Section MW.
Variables (ant : list R) (i : nat) (g w1 w2 w3 w4 w5 v a b dTw : R).
Hypothesis Hg : nth_error ant i = Some g.
Let c := mw_const ant w1 w2 w3 w4 w5 v a b dTw.
Lemma c9 : pyget c (-9) = Ok w1. Proof. apply (pyget_tail ant [w1; w2; w3; w4; w5; v; a; b; dTw] 0); cbn; [lia|reflexivity]. Qed.
Lemma c8 : pyget c (-8) = Ok w2. Proof. apply (pyget_tail ant [w1; w2; w3; w4; w5; v; a; b; dTw] 1); cbn; [lia|reflexivity]. Qed.
Lemma c7 : pyget c (-7) = Ok w3. Proof. apply (pyget_tail ant [w1; w2; w3; w4; w5; v; a; b; dTw] 2); cbn; [lia|reflexivity]. Qed.
Lemma c6 : pyget c (-6) = Ok w4. Proof. apply (pyget_tail ant [w1; w2; w3; w4; w5; v; a; b; dTw] 3); cbn; [lia|reflexivity]. Qed.
Lemma c5 : pyget c (-5) = Ok w5. Proof. apply (pyget_tail ant [w1; w2; w3; w4; w5; v; a; b; dTw] 4); cbn; [lia|reflexivity]. Qed.
Lemma c4 : pyget c (-4) = Ok v. Proof. apply (pyget_tail ant [w1; w2; w3; w4; w5; v; a; b; dTw] 5); cbn; [lia|reflexivity]. Qed.
Lemma c3 : pyget c (-3) = Ok a. Proof. apply (pyget_tail ant [w1; w2; w3; w4; w5; v; a; b; dTw] 6); cbn; [lia|reflexivity]. Qed.
Lemma c2 : pyget c (-2) = Ok b. Proof. apply (pyget_tail ant [w1; w2; w3; w4; w5; v; a; b; dTw] 7); cbn; [lia|reflexivity]. Qed.
Lemma c1 : pyget c (-1) = Ok dTw. Proof. apply (pyget_tail ant [w1; w2; w3; w4; w5; v; a; b; dTw] 8); cbn; [lia|reflexivity]. Qed.
Lemma cg : pyget c (Z.of_nat i) = Ok g. Proof. apply pyget_ant. auto. Qed.

(** The measurand as a function. *)
Local Notation Tict := (target_T w1 w2 w3 w4 w5 a b dTw).
Definition cosd := cos (2 * (PI * (1111 / 1000) * (IZR (Z.of_nat i) - 455 / 10) / 180)) - cos (2 * thetaS).
Definition rj := C ^ 2 / (2 * v ^ 2 * KB).
Definition lcmb := planck v (a + b * TCMB).
Definition mprime (cs ci ce a1 LI LS : R) := LI + (LI - LS) / (ci - cs) * (ce - ci) + a1 * (LI - lcmb) ^ 2 / (ci - cs) ^ 2 * (ce - ci) * (ce - cs).
Definition meas (cs ci ce a1 a2 LI LS : R) :=
  rj * (1 / g * (mprime cs ci ce a1 LI LS + 1 / 2 * a2 * cosd * (LI - mprime cs ci ce a1 LI LS) - (1 - g) * lcmb)).
Lemma mw_value cs ci t1 t2 t3 t4 t5 ce tl a1 a2 a3 :
  value (mw_3 c (Z.of_nat i) [cs; ci; t1; t2; t3; t4; t5; ce; tl] [a1; a2; a3]) =
  meas cs ci ce a1 a2 (planck v (Tict t1 t2 t3 t4 t5)) (planck v (a + b * (TCMB + a3))).
Proof.
  unfold mw_3. cbn [get nth_error bind]. rewrite c9, c8, c7, c6, c5, c4, c3, c2, c1, cg. cbn [bind value]. reflexivity.
Qed.
Lemma mw_result cs ci t1 t2 t3 t4 t5 ce tl a1 a2 a3 : exists r j, mw_3 c (Z.of_nat i) [cs; ci; t1; t2; t3; t4; t5; ce; tl] [a1; a2; a3] = Ok (r, j) /\ length j = 12%nat /\
  let LI := planck v (Tict t1 t2 t3 t4 t5) in let LS := planck v (a + b * (TCMB + a3)) in let te := Tict t1 t2 t3 t4 t5 in
  nth 0 j 0 = rj * (1 / g * (ce - ci) * (LI - LS) / (ci - cs) ^ 2 * (1 + a1 * (2 * ce - ci - cs) / (ci - cs))) /\
  nth 1 j 0 = rj * (1 / g * (ce - cs) * (LI - LS) / (ci - cs) ^ 2 * (1 + a1 * (LI - LS) * (2 * ce - ci - cs) / (ci - cs))) /\
  nth 2 j 0 = rj * (1 / g * (1 + (ce - ci) / (ci - cs) + 2 * a1 * (ce - cs) * (ce - ci) * (LI - LS) / (ci - cs) ^ 2) *
    (LI * (2 * H * v * KB * b) / (KB * te) ^ 2 * exp (H * v / (KB * te)) / (exp (H * v / (KB * te)) - 1)) * w1 / (w1 + w2 + w3 + w4 + w5)) /\
  nth 7 j 0 = rj * (1 / g * ((LI - LS) / (ci - cs) + a1 * (LI - LS) ^ 2 / (ci - cs) ^ 2) * (2 * ce - ci - cs)) /\
  nth 8 j 0 = rj * 0 /\
  nth 9 j 0 = rj * (1 / g * (ce - cs) * (ce - ci) * (LI - LS) ^ 2 / (ci - cs) ^ 2) /\
  nth 10 j 0 = rj * (1 / (2 * g) * (LI - mprime cs ci ce a1 LI LS) * cosd).
Proof.
  unfold mw_3. cbn [get nth_error bind]. rewrite c9, c8, c7, c6, c5, c4, c3, c2, c1, cg. cbn [bind]. do 2 eexists. split; [reflexivity|]. split; [reflexivity|].
  cbv zeta. cbn [nth map]. repeat split; reflexivity.
Qed.

Lemma via (f h : R -> R) x d : (forall t, f t = h t) -> is_derive h x d -> derivable_pt_lim f x d.
Proof. intros E D. apply is_derive_Reals. eapply is_derive_ext; [|exact D]. intros t. symmetry. apply E. Qed.
Lemma rj_ne : v <> 0 -> rj <> 0.
Proof.
  intros Hv. unfold rj. pose proof C_pos. pose proof KB_pos. assert (v ^ 2 <> 0) by (apply pow_nonzero; auto). assert (C ^ 2 <> 0) by (apply pow_nonzero; lra).
  apply Rmult_integral_contrapositive_currified; [auto|]. apply Rinv_neq_0_compat. repeat apply Rmult_integral_contrapositive_currified; auto; lra.
Qed.
Hypothesis Hg0 : g <> 0.
Opaque H KB C TCMB.

Theorem mw_always x p : length x = 9%nat -> length p = 3%nat ->
  derivatives_at (mw_3 c (Z.of_nat i)) 9 3 (fun k => k = 8%nat \/ k = 10%nat) x p.
Proof.
  intros Hx Hp. destruct x as [|cs [|ci [|t1 [|t2 [|t3 [|t4 [|t5 [|ce [|tl [|? ?]]]]]]]]]]; try discriminate. destruct p as [|a1 [|a2 [|a3 [|? ?]]]]; try discriminate.
  destruct (mw_result cs ci t1 t2 t3 t4 t5 ce tl a1 a2 a3) as (r & j & E & L & _ & _ & _ & _ & N8 & _ & N10). exists r, j. split; [exact E|]. split; [exact L|].
  intros k Hk [->| ->]; unfold column_ok; cbn [Nat.ltb Nat.leb Nat.sub]; unfold partial; cbn [upd nth]; (eapply via; [intros t; apply mw_value|]); [rewrite N8|rewrite N10].
  - auto_derive; [exact Logic.I|ring].
  - unfold meas. set (M := mprime _ _ _ _ _ _). auto_derive; [exact Logic.I|field; auto].
Qed.
Theorem mw_nominal x : length x = 9%nat -> nth 0 x 0 <> nth 1 x 0 ->
  derivatives_at (mw_3 c (Z.of_nat i)) 9 3 (fun k => k = 0%nat \/ k = 8%nat \/ k = 9%nat \/ k = 10%nat) x [0; 0; 0].
Proof.
  intros Hx Hd. destruct (mw_always x [0; 0; 0] Hx eq_refl) as (r0 & j0 & E0 & L0 & H0).
  destruct x as [|cs [|ci [|t1 [|t2 [|t3 [|t4 [|t5 [|ce [|tl [|? ?]]]]]]]]]]; try discriminate. cbn [nth] in Hd.
  destruct (mw_result cs ci t1 t2 t3 t4 t5 ce tl 0 0 0) as (r & j & E & L & N0 & _ & _ & _ & _ & N9 & _). rewrite E in E0. injection E0 as <- <-. exists r, j. split; [exact E|]. split; [exact L|].
  assert (ES : planck v (a + b * (TCMB + 0)) = lcmb) by (unfold lcmb; rewrite Rplus_0_r; auto).
  intros k Hk [->|[->|[->| ->]]]; [|apply H0; auto| |apply H0; auto]; unfold column_ok; cbn [Nat.ltb Nat.leb Nat.sub]; unfold partial; cbn [upd nth]; (eapply via; [intros t; apply mw_value|]); [rewrite N0|rewrite N9]; cbv zeta; rewrite ES.
  - unfold meas, mprime. auto_derive; [repeat split; try (intros HH; apply Hd; lra); apply Rmult_integral_contrapositive_currified; try lra; try (intros HH; apply Hd; lra)|field; repeat split; auto; lra].
  - unfold meas, mprime. auto_derive; [exact Logic.I|field; repeat split; auto; lra].
Qed.
(** At the nominal parameters: the derivative with respect to the target counts has the wrong sign, ... *)
Theorem mw_bad_cict x : length x = 9%nat -> nth 0 x 0 <> nth 1 x 0 -> v <> 0 -> nth 7 x 0 <> nth 0 x 0 ->
  planck v (Tict (nth 2 x 0) (nth 3 x 0) (nth 4 x 0) (nth 5 x 0) (nth 6 x 0)) <> lcmb ->
  exists r j, mw_3 c (Z.of_nat i) x [0; 0; 0] = Ok (r, j) /\ nth 1 j 0 <> 0 /\
    partial (fun y => value (mw_3 c (Z.of_nat i) y [0; 0; 0])) x 1 (- nth 1 j 0) /\ ~ column_ok (mw_3 c (Z.of_nat i)) 9 x [0; 0; 0] j 1.
Proof.
  intros Hx Hd Hv Hc HL.
  destruct x as [|cs [|ci [|t1 [|t2 [|t3 [|t4 [|t5 [|ce [|tl [|? ?]]]]]]]]]]; try discriminate. cbn [nth] in *.
  destruct (mw_result cs ci t1 t2 t3 t4 t5 ce tl 0 0 0) as (r & j & E & L & _ & N1 & _). exists r, j. split; [exact E|].
  assert (ES : planck v (a + b * (TCMB + 0)) = lcmb) by (unfold lcmb; rewrite Rplus_0_r; auto). cbv zeta in N1. rewrite ES in N1. pose proof (rj_ne Hv) as Hr.
  assert (Nz : nth 1 j 0 <> 0).
  { rewrite N1. apply Rmult_integral_contrapositive_currified; [exact Hr|]. unfold Rdiv. assert ((ci - cs) ^ 2 <> 0) by (apply pow_nonzero; lra). repeat apply Rmult_integral_contrapositive_currified; try lra; try (apply Rinv_neq_0_compat; auto).
    }
  assert (P : partial (fun y => value (mw_3 c (Z.of_nat i) y [0; 0; 0])) [cs; ci; t1; t2; t3; t4; t5; ce; tl] 1 (- nth 1 j 0)).
  { unfold partial; cbn [upd nth]; (eapply via; [intros t; apply mw_value|]). rewrite N1, ES. unfold meas, mprime.
    auto_derive; [repeat split; try (intros HH; apply Hd; lra); apply Rmult_integral_contrapositive_currified; try lra; try (intros HH; apply Hd; lra)|field; repeat split; auto; lra]. }
  do 2 (split; [auto|]). intros Q. unfold column_ok in Q. cbn [Nat.ltb Nat.leb] in Q. pose proof (partial_unique _ _ _ _ _ P Q). lra.
Qed.
(** ... that with respect to the Earth counts has a factor too many, ... *)
Theorem mw_bad_ce x : length x = 9%nat -> nth 0 x 0 <> nth 1 x 0 -> v <> 0 -> 2 * nth 7 x 0 - nth 1 x 0 - nth 0 x 0 <> 1 ->
  planck v (Tict (nth 2 x 0) (nth 3 x 0) (nth 4 x 0) (nth 5 x 0) (nth 6 x 0)) <> lcmb ->
  exists r j d, mw_3 c (Z.of_nat i) x [0; 0; 0] = Ok (r, j) /\ d <> 0 /\ nth 7 j 0 = d * (2 * nth 7 x 0 - nth 1 x 0 - nth 0 x 0) /\
    partial (fun y => value (mw_3 c (Z.of_nat i) y [0; 0; 0])) x 7 d /\ ~ column_ok (mw_3 c (Z.of_nat i)) 9 x [0; 0; 0] j 7.
Proof.
  intros Hx Hd Hv Hc HL.
  destruct x as [|cs [|ci [|t1 [|t2 [|t3 [|t4 [|t5 [|ce [|tl [|? ?]]]]]]]]]]; try discriminate. cbn [nth] in *.
  destruct (mw_result cs ci t1 t2 t3 t4 t5 ce tl 0 0 0) as (r & j & E & L & _ & _ & _ & N7 & _).
  assert (ES : planck v (a + b * (TCMB + 0)) = lcmb) by (unfold lcmb; rewrite Rplus_0_r; auto). cbv zeta in N7. rewrite ES in N7. pose proof (rj_ne Hv) as Hr.
  set (LI := planck v (Tict t1 t2 t3 t4 t5)) in *.
  exists r, j, (rj * (1 / g * ((LI - lcmb) / (ci - cs)))). split; [exact E|].
  assert (Nz : rj * (1 / g * ((LI - lcmb) / (ci - cs))) <> 0).
  { apply Rmult_integral_contrapositive_currified; [exact Hr|]. unfold Rdiv. repeat apply Rmult_integral_contrapositive_currified; try lra; try (apply Rinv_neq_0_compat; lra). }
  assert (N7' : nth 7 j 0 = rj * (1 / g * ((LI - lcmb) / (ci - cs))) * (2 * ce - ci - cs)) by (rewrite N7; field; split; [lra|auto]).
  assert (P : partial (fun y => value (mw_3 c (Z.of_nat i) y [0; 0; 0])) [cs; ci; t1; t2; t3; t4; t5; ce; tl] 7 (rj * (1 / g * ((LI - lcmb) / (ci - cs))))).
  { unfold partial; cbn [upd nth]; (eapply via; [intros t; apply mw_value|]). rewrite ES. fold LI. unfold meas, mprime.
    auto_derive; [exact Logic.I|field; repeat split; auto; lra]. }
  do 3 (split; [auto|]). intros Q. unfold column_ok in Q. cbn [Nat.ltb Nat.leb] in Q. pose proof (partial_unique _ _ _ _ _ P Q) as EQ. rewrite N7' in EQ.
  apply Hc. apply (Rmult_eq_reg_l (rj * (1 / g * ((LI - lcmb) / (ci - cs))))); [lra|auto].
Qed.
(** ... and those with respect to the target temperatures are twice what they should be. *)
Theorem mw_bad_tict x : length x = 9%nat -> nth 0 x 0 <> nth 1 x 0 -> v <> 0 -> b <> 0 -> w1 <> 0 -> w1 + w2 + w3 + w4 + w5 <> 0 -> nth 7 x 0 <> nth 0 x 0 ->
  Tict (nth 2 x 0) (nth 3 x 0) (nth 4 x 0) (nth 5 x 0) (nth 6 x 0) <> 0 ->
  exists r j, mw_3 c (Z.of_nat i) x [0; 0; 0] = Ok (r, j) /\ nth 2 j 0 <> 0 /\
    partial (fun y => value (mw_3 c (Z.of_nat i) y [0; 0; 0])) x 2 (nth 2 j 0 / 2) /\ ~ column_ok (mw_3 c (Z.of_nat i)) 9 x [0; 0; 0] j 2.
Proof.
  intros Hx Hd Hv Hb Hw Hwt Hc HT.
  destruct x as [|cs [|ci [|t1 [|t2 [|t3 [|t4 [|t5 [|ce [|tl [|? ?]]]]]]]]]]; try discriminate. cbn [nth] in *.
  destruct (mw_result cs ci t1 t2 t3 t4 t5 ce tl 0 0 0) as (r & j & E & L & _ & _ & N2 & _). exists r, j. split; [exact E|].
  assert (ES : planck v (a + b * (TCMB + 0)) = lcmb) by (unfold lcmb; rewrite Rplus_0_r; auto). cbv zeta in N2. rewrite ES in N2. pose proof (rj_ne Hv) as Hr.
  pose proof (planck_ne v _ Hv HT) as HE. pose proof C_pos as HC'. pose proof H_pos as HH. pose proof KB_pos as HK.
  set (te := Tict t1 t2 t3 t4 t5) in *.
  assert (EQ : exp (H * v / (KB * te)) = exp (v * H / (KB * te))) by (f_equal; f_equal; ring). rewrite EQ in N2.
  assert (V3 : v ^ 3 <> 0) by (apply pow_nonzero; auto). assert (C2 : C ^ 2 <> 0) by (apply pow_nonzero; lra).
  assert (EP := exp_pos (v * H / (KB * te))).
  assert (Nz : nth 2 j 0 <> 0).
  { rewrite N2. replace (1 + (ce - ci) / (ci - cs) + 2 * 0 * (ce - cs) * (ce - ci) * (planck v te - lcmb) / (ci - cs) ^ 2) with ((ce - cs) / (ci - cs)) by (field; lra).
    assert (K2 : (KB * te) ^ 2 <> 0) by (apply pow_nonzero, Rmult_integral_contrapositive_currified; lra).
    revert Hr. generalize rj. intros rr Hr. assert (D1 : ce - cs <> 0) by lra. assert (D2 : ci - cs <> 0) by lra. assert (HN : H <> 0) by lra. assert (KN : KB <> 0) by lra. assert (EN : exp (v * H / (KB * te)) <> 0) by lra.
    assert (T2 : 2 <> 0) by lra. assert (O1 : 1 <> 0) by lra. unfold planck, Rdiv. repeat apply Rmult_integral_contrapositive_currified; try assumption; try (apply Rinv_neq_0_compat; assumption); try lra; try (apply Rinv_neq_0_compat; lra). }
  assert (P : partial (fun y => value (mw_3 c (Z.of_nat i) y [0; 0; 0])) [cs; ci; t1; t2; t3; t4; t5; ce; tl] 2 (nth 2 j 0 / 2)).
  { unfold partial; cbn [upd nth]; (eapply via; [intros t; apply mw_value|]). rewrite N2, ES. clear N2.
    evar_last.
    { apply (is_derive_comp (fun L => meas cs ci ce 0 0 L lcmb) (fun t => planck v (Tict t t2 t3 t4 t5))).
      - unfold meas, mprime. auto_derive; [exact Logic.I|reflexivity].
      - unfold planck, target_T. auto_derive; [|reflexivity]. fold (Tict t1 t2 t3 t4 t5). fold te.
        change (w1 * t1 + w2 * t2 + w3 * t3 + w4 * t4 + w5 * t5) with (w1 * t1 + w2 * t2 + w3 * t3 + w4 * t4 + w5 * t5). repeat split.
        + apply Rmult_integral_contrapositive_currified; [lra|exact HT].
        + exact HE. }
    match goal with |- scal ?A ?B = ?D => change (A * B = D) end.
    change (a + b * ((w1 * t1 + w2 * t2 + w3 * t3 + w4 * t4 + w5 * t5) * / (w1 + w2 + w3 + w4 + w5) + dTw)) with te.
    change (v * H * / (KB * te)) with (v * H / (KB * te)). change (Tict t1 t2 t3 t4 t5) with te. unfold planck. fold lcmb.
    set (Ex := exp (v * H / (KB * te))) in *. assert (D2 : ci - cs <> 0) by lra. assert (KN : KB <> 0) by lra. assert (CN : C <> 0) by lra. assert (EN : Ex + - (1) <> 0) by (intros EE; apply HE; lra).
    clearbody te Ex. generalize rj cosd lcmb. intros rr cc ll.
    field. repeat split; assumption || lra. }
  do 2 (split; [auto|]). intros Q. unfold column_ok in Q. cbn [Nat.ltb Nat.leb] in Q. pose proof (partial_unique _ _ _ _ _ P Q). lra.
Qed.
End MW.
