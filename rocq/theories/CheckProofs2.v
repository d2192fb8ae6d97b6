(** * Proofs for C43, C44: correlation forms. *)
From Coq Require Import Reals Lra.
From Verif Require Import Base BaseLemmas ReaderModel ReaderMain SimModel CheckModel CheckSpec CheckProofs.
Open Scope nat_scope.

Lemma form_iff t r s w :
  let rand := forallb pos r && forallb iszero s in let randsys := forallb pos r && forallb pos s in
  let wm := (0 <? w)%Z && forallb iszero s in let wsys := (0 <? w)%Z && forallb pos s in
  let agree := ((t =? 1)%Z && rand) || ((t =? 2)%Z && randsys) || ((t =? 3)%Z && wm) || ((t =? 4)%Z && wsys) in
  let one := (rand && (negb randsys && negb wm && negb wsys)) || (randsys && (negb rand && negb wm) && negb wsys)
             || (wm && (negb rand && negb randsys && negb wsys)) || (wsys && (negb rand && negb randsys && negb wm)) in
  agree && one = true <-> form t r s w /\ forall t', form t' r s w -> t' = t.
Proof.
  intros rand randsys wm wsys agree one.
  assert (P : forall l, forallb pos l = true <-> Forall (Rlt 0) l) by (intros l; rewrite Forall_forall; apply all_iff; intros; apply pos_iff).
  assert (Z0 : forall l, forallb iszero l = true <-> Forall (eq 0%R) l) by (intros l; rewrite Forall_forall; apply all_iff; intros; apply iszero_iff).
  assert (F : forall t', form t' r s w <-> (t' = 1%Z /\ rand = true) \/ (t' = 2%Z /\ randsys = true) \/ (t' = 3%Z /\ wm = true) \/ (t' = 4%Z /\ wsys = true)).
  { intros t'. unfold form, rand, randsys, wm, wsys. rewrite !Bool.andb_true_iff, !P, !Z0, Z.ltb_lt. tauto. }
  rewrite F. assert (U : (forall t', form t' r s w -> t' = t) <-> (rand = true -> t = 1%Z) /\ (randsys = true -> t = 2%Z) /\ (wm = true -> t = 3%Z) /\ (wsys = true -> t = 4%Z)).
  { split.
    - intros H. repeat split; intros E; symmetry; apply H, F; tauto.
    - intros (A & B & C & D) t' Ht. apply F in Ht. destruct Ht as [(-> & E)|[(-> & E)|[(-> & E)|(-> & E)]]]; symmetry; auto. }
  rewrite U. clear F U. clearbody rand randsys wm wsys. subst agree one.
  destruct (Z.eqb_spec t 1) as [->|N1]; [|destruct (Z.eqb_spec t 2) as [->|N2]; [|destruct (Z.eqb_spec t 3) as [->|N3]; [|destruct (Z.eqb_spec t 4) as [->|N4]]]];
  destruct rand, randsys, wm, wsys; cbn; split; intros H; try discriminate; try reflexivity;
    try (decompose [and or] H; congruence);
    try (exfalso; destruct H as (H1 & H2 & H3 & H4 & H5); try specialize (H2 eq_refl); try specialize (H3 eq_refl); try specialize (H4 eq_refl); try specialize (H5 eq_refl); discriminate || (destruct H1 as [(? & ?)|[(? & ?)|[(? & ?)|(? & ?)]]]; congruence));
    try (split; [tauto|]; repeat split; intros; congruence).
Qed.

Lemma column_iff rows col c : mapM (fun row : list R => get row col) rows = Ok c <-> is_column rows col c.
Proof.
  split.
  - intros E. split; [apply (mapM_length _ _ _ E)|]. intros i r Hi. destruct (mapM_nth _ _ _ _ _ E Hi) as (b & Eb & Hb). rewrite Hb. unfold get in Eb. destruct (nth_error r col); congruence.
  - revert c. induction rows as [|r rows IH]; intros c (HL & H).
    + destruct c; [auto|discriminate].
    + destruct c as [|x c]; [discriminate|]. cbn [mapM]. pose proof (H 0 r eq_refl) as H0. cbn in H0. unfold get at 1. rewrite <- H0. cbn [bind].
      rewrite (IH c); [auto|]. split; [cbn in HL; lia|]. intros i r' Hi. apply (H (S i) r' Hi).
Qed.

Definition col_good (ut : list Z) (ur us : list (list R)) (wuse : list Z) (col : nat) : Prop :=
  exists t r s w, nth_error ut col = Some t /\ is_column ur col r /\ is_column us col s /\ nth_error wuse col = Some w /\ form t r s w /\ forall t', form t' r s w -> t' = t.
Lemma column_step side ut ur us wuse lbl es col : (exists lbl', check_column side ut ur us wuse (lbl, es) col = Ok (lbl', [])) <-> es = [] /\ col_good ut ur us wuse col.
Proof.
  unfold check_column, col_good. split.
  - intros (lbl' & E). unfold get at 1 in E. destruct (nth_error ut col) as [t|]; [|discriminate]. cbn [bind] in E.
    destruct (mapM _ ur) as [r|] eqn:Er; [|discriminate]. cbn [bind] in E. destruct (mapM _ us) as [s|] eqn:Es; [|discriminate]. cbn [bind] in E.
    unfold get in E. destruct (nth_error wuse col) as [w|]; [|discriminate]. cbn [bind] in E.
    pose proof (form_iff t r s w) as F. cbv zeta in F.
    match type of F with (?a && ?b = true <-> _) => set (agree := a) in *; set (one := b) in * end.
    destruct (agree && one || (lbl || negb (t =? 4)%Z)) in E; [|discriminate]. injection E as _ E. apply app_nil2 in E. destruct E as (E0 & E). apply app_nil2 in E. destruct E as (E1 & E2).
    apply errif_nil, Bool.negb_false_iff in E1, E2. split; [auto|]. exists t, r, s, w. apply column_iff in Er, Es. do 4 (split; [auto|]). apply F. rewrite E1, E2. auto.
  - intros (-> & t & r & s & w & Et & Er & Es & Ew & F). apply column_iff in Er, Es. unfold get at 1. rewrite Et. cbn [bind]. rewrite Er, Es. cbn [bind]. unfold get. rewrite Ew. cbn [bind].
    pose proof (form_iff t r s w) as G. cbv zeta in G.
    match type of G with (?a && ?b = true <-> _) => set (agree := a) in *; set (one := b) in * end.
    apply G in F. rewrite F. cbn [orb]. apply andb_prop in F. destruct F as (F1 & F2). rewrite F1, F2. eexists. reflexivity.
Qed.
Lemma columns_fold side ut ur us wuse cols : forall lbl es, (exists lbl', foldM (check_column side ut ur us wuse) cols (lbl, es) = Ok (lbl', [])) <-> es = [] /\ forall c, In c cols -> col_good ut ur us wuse c.
Proof.
  induction cols as [|c cols IH]; intros lbl es; cbn [foldM].
  - split; [intros (l & E); injection E as _ ->; split; [auto|intros ? []]|intros (-> & _); eauto].
  - split.
    + intros (l & E). destruct (check_column side ut ur us wuse (lbl, es) c) as [(lbl1 & es1)|] eqn:E1; [|discriminate]. cbn [bind] in E.
      destruct (proj1 (IH lbl1 es1) (ex_intro _ l E)) as (-> & H). destruct (proj1 (column_step side ut ur us wuse lbl es c) (ex_intro _ lbl1 E1)) as (-> & G). split; [auto|]. intros c' [<-|Hc]; auto.
    + intros (-> & H). destruct (proj2 (column_step side ut ur us wuse lbl [] c)) as (lbl1 & E1); [split; [auto|apply H; left; auto]|]. rewrite E1. cbn [bind]. apply IH. split; [auto|]. intros c' Hc. apply H. right. auto.
Qed.

Lemma used_list f n d m : wf_nc f -> In n w_names -> (w_variables f -> declared f n [d] int_types) -> w_or_none f -> size f d m ->
  exists l, (if inside n (names f) then in1 f n else Ok (repeat 0%Z m)) = Ok l /\ length l = m /\ forall col w, col < m -> (w_used f n col w <-> nth_error l col = Some w).
Proof.
  intros Hw Hn Hd [W|W] Hs.
  - destruct (decl_i1 f n d Hw (Hd W)) as (l & D & S). exists l. assert (P : present f n) by (destruct D as (v & ? & ? & _); exists v; auto).
    replace (inside n (names f)) with true by (symmetry; apply inside_in, present_in; auto). split; [apply in1_data; auto|]. split; [apply (size_fun f d); auto|].
    intros col w Hc. split.
    + intros [(l' & D' & E)|(N & _)]; [|tauto]. pose proof (data_unique _ _ _ _ Hw D D') as EQ. injection EQ as <-. auto.
    + intros E. left. eauto.
  - specialize (W n Hn). exists (repeat 0%Z m). replace (inside n (names f)) with false by (symmetry; apply inside_out; rewrite <- present_in; auto). split; [auto|]. split; [apply repeat_length|].
    intros col w Hc. rewrite (nth_error_nth' _ 0%Z) by (rewrite repeat_length; auto). rewrite nth_repeat. split.
    + intros [(l' & (v & A & B & C) & E)|(_ & ->)]; [|auto]. exfalso. apply W. exists v; auto.
    + intros E. injection E as <-. right; auto.
Qed.
Lemma ok_nil (x : res (bool * list err)) : (do st <- x;; Ok (snd st)) = Ok [] <-> exists b, x = Ok (b, []).
Proof. destruct x as [(b & l)|]; cbn; split; [intros H; injection H as ->; eauto|intros (b' & H); congruence|discriminate|intros (? & ?); discriminate]. Qed.

Theorem assignment_iff f : wf_nc f -> required f -> w_or_none f -> (check_uncertainty_assignment f = Ok [] <-> all_assigned f).
Proof.
  intros Hw Hr HW. pose proof (proj1 (required_table f) Hr) as Ht.
  assert (SUB : subset ["X1"; "X2"; "Ur1"; "Ur2"; "Us1"; "Us2"; "uncertainty_type1"; "uncertainty_type2"]%string (names f) = true).
  { apply subset_in. intros n Hn. apply present_in. assert (Hl : In n (map fst VARIABLE_DATA)) by (cbn in Hn; cbn; tauto). apply in_map_iff in Hl. destruct Hl as ((m & d & t) & E & Hi). cbn in E. subst m. destruct (Ht _ _ _ Hi) as (v & ? & ? & _). exists v; auto. }
  destruct (decl_i1 f "uncertainty_type1" "m1" Hw) as (t1 & T1 & S1); [apply Ht; cbn; tauto|].
  destruct (decl_i1 f "uncertainty_type2" "m2" Hw) as (t2 & T2 & S2); [apply Ht; cbn; tauto|].
  destruct (decl_f2 f "Ur1" "M" "m1" Hw) as (a1 & k1 & A1 & _); [apply Ht; cbn; tauto|].
  destruct (decl_f2 f "Ur2" "M" "m2" Hw) as (a2 & k2 & A2 & _); [apply Ht; cbn; tauto|].
  destruct (decl_f2 f "Us1" "M" "m1" Hw) as (b1 & k3 & B1 & _); [apply Ht; cbn; tauto|].
  destruct (decl_f2 f "Us2" "M" "m2" Hw) as (b2 & k4 & B2 & _); [apply Ht; cbn; tauto|].
  destruct (used_list f "w_matrix_use1" "m1" (length t1) Hw) as (w1 & W1 & L1 & U1); [cbn; tauto|intros (_ & _ & _ & _ & ? & _); auto|auto|auto|].
  destruct (used_list f "w_matrix_use2" "m2" (length t2) Hw) as (w2 & W2 & L2 & U2); [cbn; tauto|intros (_ & _ & _ & _ & _ & ? & _); auto|auto|auto|].
  unfold check_uncertainty_assignment. rewrite SUB, (proj1 (size_ndim f _ _ Hw) S1), (proj1 (size_ndim f _ _ Hw) S2). cbn [bind].
  rewrite (proj2 (in1_data f _ _ Hw) T1), (proj2 (in1_data f _ _ Hw) T2). cbn [bind]. rewrite W1, W2. cbn [bind].
  rewrite (proj2 (fl2_data f _ _ Hw) A1), (proj2 (fl2_data f _ _ Hw) A2), (proj2 (fl2_data f _ _ Hw) B1), (proj2 (fl2_data f _ _ Hw) B2). cbn [bind].
  assert (G1 : forall c, c < length t1 -> (assigned f "1" c <-> col_good t1 a1 b1 w1 c)).
  { intros c Hc. unfold assigned, col_good. cbn [append]. split.
    - intros (ts & t & urs & uss & ur & us & w & D1 & E1 & D2 & E2 & D3 & E3 & E4 & F). pose proof (data_unique _ _ _ _ Hw T1 D1) as Q1. pose proof (data_unique _ _ _ _ Hw A1 D2) as Q2. pose proof (data_unique _ _ _ _ Hw B1 D3) as Q3.
      injection Q1 as <-. injection Q2 as <-. injection Q3 as <-. apply U1 in E4; [|auto]. exists t, ur, us, w. tauto.
    - intros (t & r & s & w & E1 & E2 & E3 & E4 & F). exists t1, t, a1, b1, r, s, w. apply U1 in E4; [|auto]. tauto. }
  assert (G2 : forall c, c < length t2 -> (assigned f "2" c <-> col_good t2 a2 b2 w2 c)).
  { intros c Hc. unfold assigned, col_good. cbn [append]. split.
    - intros (ts & t & urs & uss & ur & us & w & D1 & E1 & D2 & E2 & D3 & E3 & E4 & F). pose proof (data_unique _ _ _ _ Hw T2 D1) as Q1. pose proof (data_unique _ _ _ _ Hw A2 D2) as Q2. pose proof (data_unique _ _ _ _ Hw B2 D3) as Q3.
      injection Q1 as <-. injection Q2 as <-. injection Q3 as <-. apply U2 in E4; [|auto]. exists t, ur, us, w. tauto.
    - intros (t & r & s & w & E1 & E2 & E3 & E4 & F). exists t2, t, a2, b2, r, s, w. apply U2 in E4; [|auto]. tauto. }
  unfold all_assigned. split.
  - intros H. destruct (foldM (check_column 1 t1 a1 b1 w1) (seq 0 (length t1)) (false, [])) as [(l1 & e1)|] eqn:EF; [|discriminate]. cbn [bind] in H. apply ok_nil in H.
    apply columns_fold in H. destruct H as (-> & H2). destruct (proj1 (columns_fold _ _ _ _ _ _ _ _) (ex_intro _ l1 EF)) as (_ & H1). split; intros m c Hm Hc.
    + rewrite (size_fun _ _ _ _ Hw Hm S1) in Hc. apply G1; auto. apply H1, in_seq. lia.
    + rewrite (size_fun _ _ _ _ Hw Hm S2) in Hc. apply G2; auto. apply H2, in_seq. lia.
  - intros (H1 & H2). destruct (proj2 (columns_fold 1 t1 a1 b1 w1 (seq 0 (length t1)) false [])) as (l1 & EF).
    { split; [auto|]. intros c Hc. apply in_seq in Hc. apply G1; [lia|]. apply (H1 _ c S1). lia. }
    rewrite EF. cbn [bind]. apply ok_nil, columns_fold. split; [auto|]. intros c Hc. apply in_seq in Hc. apply G2; [lia|]. apply (H2 _ c S2). lia.
Qed.
(** Us2 is not negative either. *)
Lemma assigned_nonneg f : wf_nc f -> required f -> all_assigned f -> forall rows r x, data f "Us2" (Arr2 rows) -> In r rows -> In x r -> (0 <= x)%R.
Proof.
  intros Hw Hr (_ & HA) rows r x D Hi Hx. pose proof (proj1 (required_table f) Hr) as Ht.
  destruct (decl_f2 f "Us2" "M" "m2" Hw) as (b2 & k4 & B2 & _ & S & L); [apply Ht; cbn; tauto|]. pose proof (data_unique _ _ _ _ Hw D B2) as E. injection E as <-.
  apply In_nth_error in Hx. destruct Hx as (c & Hc). assert (c < k4) by (rewrite <- (L r Hi); apply nth_error_Some; congruence).
  destruct (HA k4 c S H) as (ts & t & urs & uss & ur & us & w & _ & _ & _ & _ & D3 & (_ & E3) & _ & F & _). cbn [append] in D3. pose proof (data_unique _ _ _ _ Hw D D3) as E. injection E as <-.
  apply In_nth_error in Hi. destruct Hi as (i & Hi). specialize (E3 i r Hi). rewrite Hc in E3. apply nth_error_In in E3.
  unfold form in F. destruct F as [(_ & _ & F)|[(_ & _ & F)|[(_ & _ & F)|(_ & _ & F)]]]; rewrite Forall_forall in F; specialize (F x E3); lra.
Qed.
