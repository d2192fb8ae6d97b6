(** * Proofs for C43, C72, C73. *)
From Coq Require Import Reals Lra.
From Verif Require Import Base BaseLemmas ReaderModel ReaderMain SimModel UncModel CheckModel CheckSpec CheckProofs CheckProofs2 CheckProofs3.
Open Scope nat_scope.

(** ** Reports *)
Lemma in_errif e' b e : In e' (errif b e) <-> b = true /\ e' = e.
Proof. destruct b; cbn; [split; [intros [<-|[]]; auto|intros (_ & ->); auto]|split; [intros []|intros (? & _); discriminate]]. Qed.
Lemma step_report side ut ur us wuse lbl es col lbl' es' : check_column side ut ur us wuse (lbl, es) col = Ok (lbl', es') ->
  forall s c, reported es' s c <-> reported es s c \/ (s = side /\ c = col /\ ~ col_good ut ur us wuse col).
Proof.
  intros E s c. unfold check_column in E. unfold get at 1 in E. destruct (nth_error ut col) as [t|] eqn:Et; cbn [bind] in E; [|discriminate E].
  destruct (mapM _ ur) as [r|] eqn:Er; cbn [bind] in E; [|discriminate E]. destruct (mapM _ us) as [s'|] eqn:Es; cbn [bind] in E; [|discriminate E].
  unfold get in E. destruct (nth_error wuse col) as [w|] eqn:Ew; cbn [bind] in E; [|discriminate E].
  pose proof (form_iff t r s' w) as F. cbv zeta in F.
  match type of F with (?a && ?b = true <-> _) => set (agree := a) in *; set (one := b) in * end.
  assert (G : col_good ut ur us wuse col <-> agree = true /\ one = true).
  { rewrite <- Bool.andb_true_iff, F. apply column_iff in Er, Es. unfold col_good. split.
    - intros (t0 & r0 & s0 & w0 & A1 & (L1 & A2) & (L2 & A3) & A4 & A5). assert (t0 = t) by congruence. assert (w0 = w) by congruence.
      assert (r0 = r) by (apply nth_error_ext; intros i; destruct (nth_error ur i) as [x|] eqn:Ex; [rewrite (A2 i x Ex); symmetry; apply Er; auto|apply nth_error_None in Ex; destruct Er; rewrite (proj2 (nth_error_None r0 i)) by lia; symmetry; apply nth_error_None; lia]).
      assert (s0 = s') by (apply nth_error_ext; intros i; destruct (nth_error us i) as [x|] eqn:Ex; [rewrite (A3 i x Ex); symmetry; apply Es; auto|apply nth_error_None in Ex; destruct Es; rewrite (proj2 (nth_error_None s0 i)) by lia; symmetry; apply nth_error_None; lia]).
      subst. auto.
    - intros H. exists t, r, s', w. auto. }
  rewrite G. clear F G. clearbody agree one. destruct (agree && one || (lbl || negb (t =? 4)%Z)); [|discriminate E]. injection E as _ <-.
  unfold reported. rewrite !in_app_iff, !in_errif, !Bool.negb_true_iff. destruct agree, one; intuition congruence.
Qed.
Lemma fold_report side ut ur us wuse cols : forall lbl es lbl' es', foldM (check_column side ut ur us wuse) cols (lbl, es) = Ok (lbl', es') ->
  forall s c, reported es' s c <-> reported es s c \/ (s = side /\ In c cols /\ ~ col_good ut ur us wuse c).
Proof.
  induction cols as [|a cols IH]; intros lbl es lbl' es' E s c; cbn [foldM] in E.
  - injection E as _ <-. cbn. tauto.
  - destruct (check_column side ut ur us wuse (lbl, es) a) as [(l1 & e1)|] eqn:E1; [|discriminate]. cbn [bind] in E. rewrite (IH _ _ _ _ E), (step_report _ _ _ _ _ _ _ _ _ _ E1). cbn [In]. split.
    + intros [[H|(-> & -> & H)]|(-> & H1 & H2)]; auto 7.
    + intros [H|(-> & [<-|H1] & H2)]; auto 7.
Qed.
Lemma step_ok side ut ur us wuse lbl es col t r s w : nth_error ut col = Some t -> is_column ur col r -> is_column us col s -> nth_error wuse col = Some w -> lbl || negb (t =? 4)%Z = true ->
  exists es', check_column side ut ur us wuse (lbl, es) col = Ok (true, es').
Proof.
  intros Et Er Es Ew HL. apply column_iff in Er, Es. unfold check_column, get. rewrite Et. cbn [bind]. unfold get in Er, Es. rewrite Er, Es. cbn [bind]. rewrite Ew. cbn [bind]. rewrite HL, Bool.orb_true_r. eauto.
Qed.
Lemma columns_exist rows m : (forall r : list R, In r rows -> length r = m) -> forall col, col < m -> exists c, is_column rows col c.
Proof.
  intros H col Hc. destruct (mapM_ok_ex (fun row : list R => get row col) rows) as (c & E).
  - intros r Hr. unfold get. destruct (nth_error r col) eqn:En; [eauto|]. apply nth_error_None in En. rewrite (H r Hr) in En. lia.
  - exists c. apply column_iff. auto.
Qed.
Lemma fold_ok side ut ur us wuse m cols : length ut = m -> length wuse = m -> (forall r, In r ur -> length r = m) -> (forall r, In r us -> length r = m) -> (forall c, In c cols -> c < m) ->
  forall lbl es, (lbl = true \/ exists c0 t, hd_error cols = Some c0 /\ nth_error ut c0 = Some t /\ t <> 4%Z) \/ cols = [] -> exists lbl' es', foldM (check_column side ut ur us wuse) cols (lbl, es) = Ok (lbl', es') /\ (lbl = true \/ cols <> [] -> lbl' = true).
Proof.
  intros L1 L2 L3 L4. induction cols as [|c cols IH]; intros Hc lbl es HH; cbn [foldM].
  - exists lbl, es. split; [auto|]. tauto.
  - assert (Hcm : c < m) by (apply Hc; left; auto). destruct (columns_exist ur m L3 c Hcm) as (r & Er). destruct (columns_exist us m L4 c Hcm) as (s & Es).
    destruct (nth_error ut c) as [t|] eqn:Et; [|apply nth_error_None in Et; lia]. destruct (nth_error wuse c) as [w|] eqn:Ew; [|apply nth_error_None in Ew; lia].
    destruct (step_ok side ut ur us wuse lbl es c t r s w Et Er Es Ew) as (es1 & E1).
    { destruct HH as [[->|(c0 & t0 & E0 & Et0 & Hn)]|HH]; [auto| |discriminate]. cbn in E0. injection E0 as <-. assert (t0 = t) by congruence. subst t0. apply Z.eqb_neq in Hn. rewrite Hn, Bool.orb_true_r. auto. }
    rewrite E1. cbn [bind]. destruct (IH (fun x Hx => Hc x (or_intror Hx)) true es1) as (l2 & e2 & E2 & H2); [auto|]. exists l2, e2. split; [auto|]. intros _. apply H2. auto.
Qed.
(** With a type other than 4 for the first covariate, the assignment check returns, and names exactly the covariates whose declared type is not right. *)
Theorem assignment_report f m1 m2 ts t : wf_nc f -> required f -> w_or_none f -> size f "m1" m1 -> size f "m2" m2 -> data f "uncertainty_type1" (IArr1 ts) -> nth_error ts 0 = Some t -> t <> 4%Z ->
  exists es, check_uncertainty_assignment f = Ok es /\ forall side col, reported es side col <-> covariate f side col /\ ~ assigned f (side_name side) col.
Proof.
  intros Hw Hr HW M1 M2 DT Ht0 Hn4. pose proof (proj1 (required_table f) Hr) as Ht.
  assert (SUB : subset ["X1"; "X2"; "Ur1"; "Ur2"; "Us1"; "Us2"; "uncertainty_type1"; "uncertainty_type2"]%string (names f) = true).
  { apply subset_in. intros n Hn. apply present_in. assert (Hl : In n (map fst VARIABLE_DATA)) by (cbn in Hn; cbn; tauto). apply in_map_iff in Hl. destruct Hl as ((m & d & t') & E & Hi). cbn in E. subst m. destruct (Ht _ _ _ Hi) as (v & ? & ? & _). exists v; auto. }
  destruct (decl_i1 f "uncertainty_type1" "m1" Hw) as (t1 & T1 & S1); [apply Ht; cbn; tauto|].
  destruct (decl_i1 f "uncertainty_type2" "m2" Hw) as (t2 & T2 & S2); [apply Ht; cbn; tauto|].
  destruct (decl_f2 f "Ur1" "M" "m1" Hw) as (a1 & k1 & A1 & _ & SA1 & LA1); [apply Ht; cbn; tauto|].
  destruct (decl_f2 f "Ur2" "M" "m2" Hw) as (a2 & k2 & A2 & _ & SA2 & LA2); [apply Ht; cbn; tauto|].
  destruct (decl_f2 f "Us1" "M" "m1" Hw) as (b1 & k3 & B1 & _ & SB1 & LB1); [apply Ht; cbn; tauto|].
  destruct (decl_f2 f "Us2" "M" "m2" Hw) as (b2 & k4 & B2 & _ & SB2 & LB2); [apply Ht; cbn; tauto|].
  pose proof (size_fun _ _ _ _ Hw S1 M1) as Q1. pose proof (size_fun _ _ _ _ Hw S2 M2) as Q2. pose proof (size_fun _ _ _ _ Hw SA1 M1) as Q3. pose proof (size_fun _ _ _ _ Hw SA2 M2) as Q4. pose proof (size_fun _ _ _ _ Hw SB1 M1) as Q5. pose proof (size_fun _ _ _ _ Hw SB2 M2) as Q6. subst k1 k2 k3 k4.
  pose proof (data_unique _ _ _ _ Hw T1 DT) as Q. injection Q as <-.
  destruct (used_list f "w_matrix_use1" "m1" (length t1) Hw) as (w1 & W1 & L1 & U1); [cbn; tauto|intros (_ & _ & _ & _ & ? & _); auto|auto|auto|].
  destruct (used_list f "w_matrix_use2" "m2" (length t2) Hw) as (w2 & W2 & L2 & U2); [cbn; tauto|intros (_ & _ & _ & _ & _ & ? & _); auto|auto|auto|].
  unfold check_uncertainty_assignment. rewrite SUB, (proj1 (size_ndim f _ _ Hw) S1), (proj1 (size_ndim f _ _ Hw) S2). cbn [bind].
  rewrite (proj2 (in1_data f _ _ Hw) T1), (proj2 (in1_data f _ _ Hw) T2). cbn [bind]. rewrite W1, W2. cbn [bind].
  rewrite (proj2 (fl2_data f _ _ Hw) A1), (proj2 (fl2_data f _ _ Hw) A2), (proj2 (fl2_data f _ _ Hw) B1), (proj2 (fl2_data f _ _ Hw) B2). cbn [bind].
  assert (G1 : forall c, c < length t1 -> (assigned f "1" c <-> col_good t1 a1 b1 w1 c)).
  { intros c Hc. unfold assigned, col_good. cbn [append]. split.
    - intros (ts & t' & urs & uss & ur & us & w & D1 & E1 & D2 & E2 & D3 & E3 & E4 & F). pose proof (data_unique _ _ _ _ Hw T1 D1) as R1. pose proof (data_unique _ _ _ _ Hw A1 D2) as R2. pose proof (data_unique _ _ _ _ Hw B1 D3) as R3.
      injection R1 as <-. injection R2 as <-. injection R3 as <-. apply U1 in E4; [|auto]. exists t', ur, us, w. tauto.
    - intros (t' & r & s & w & E1 & E2 & E3 & E4 & F). exists t1, t', a1, b1, r, s, w. apply U1 in E4; [|auto]. tauto. }
  assert (G2 : forall c, c < length t2 -> (assigned f "2" c <-> col_good t2 a2 b2 w2 c)).
  { intros c Hc. unfold assigned, col_good. cbn [append]. split.
    - intros (ts & t' & urs & uss & ur & us & w & D1 & E1 & D2 & E2 & D3 & E3 & E4 & F). pose proof (data_unique _ _ _ _ Hw T2 D1) as R1. pose proof (data_unique _ _ _ _ Hw A2 D2) as R2. pose proof (data_unique _ _ _ _ Hw B2 D3) as R3.
      injection R1 as <-. injection R2 as <-. injection R3 as <-. apply U2 in E4; [|auto]. exists t', ur, us, w. tauto.
    - intros (t' & r & s & w & E1 & E2 & E3 & E4 & F). exists t2, t', a2, b2, r, s, w. apply U2 in E4; [|auto]. tauto. }
  assert (HN : length t1 <> 0) by (destruct t1; [discriminate|cbn; lia]).
  destruct (fold_ok 1 t1 a1 b1 w1 m1 (seq 0 (length t1)) Q1 ltac:(lia) LA1 LB1 ltac:(intros c Hc; apply in_seq in Hc; lia) false []) as (l1 & e1 & E1 & H1).
  { left. right. exists 0, t. split; [destruct t1; [discriminate|reflexivity]|auto]. }
  rewrite E1. cbn [bind]. assert (l1 = true) by (apply H1; right; destruct (length t1); [lia|discriminate]). subst l1.
  destruct (fold_ok 2 t2 a2 b2 w2 m2 (seq 0 (length t2)) Q2 ltac:(lia) LA2 LB2 ltac:(intros c Hc; apply in_seq in Hc; lia) true e1) as (l2 & e2 & E2 & _); [auto|].
  rewrite E2. cbn [bind snd]. exists e2. split; [auto|]. intros side col. rewrite (fold_report _ _ _ _ _ _ _ _ _ _ E2), (fold_report _ _ _ _ _ _ _ _ _ _ E1). rewrite !in_seq. unfold covariate. split.
  - intros [[[[]|[]]|(-> & Hc & Hg)]|(-> & Hc & Hg)]; cbn [side_name Nat.eqb append].
    + split; [split; [auto|exists m1; split; [auto|lia]]|]. rewrite G1 by lia. auto.
    + split; [split; [auto|exists m2; split; [auto|lia]]|]. rewrite G2 by lia. auto.
  - intros (([->| ->] & m & Hm & Hc) & Hg); cbn [side_name Nat.eqb append] in *.
    + pose proof (size_fun _ _ _ _ Hw Hm M1). subst m. left. right. split; [auto|]. split; [lia|]. rewrite <- G1 by lia. auto.
    + pose proof (size_fun _ _ _ _ Hw Hm M2). subst m. right. split; [auto|]. split; [lia|]. rewrite <- G2 by lia. auto.
Qed.
(** If the first covariate is declared type 4, wrongly, the check crashes. *)
Theorem assignment_crash f ts m : wf_nc f -> required f -> w_or_none f -> size f "m1" m -> 0 < m -> data f "uncertainty_type1" (IArr1 ts) -> nth_error ts 0 = Some 4%Z -> ~ assigned f "1" 0 ->
  check_uncertainty_assignment f = Raise UnboundLocalError.
Proof.
  intros Hw Hr HW M1 Hm DT Ht0 HA. pose proof (proj1 (required_table f) Hr) as Ht.
  assert (SUB : subset ["X1"; "X2"; "Ur1"; "Ur2"; "Us1"; "Us2"; "uncertainty_type1"; "uncertainty_type2"]%string (names f) = true).
  { apply subset_in. intros n Hn. apply present_in. assert (Hl : In n (map fst VARIABLE_DATA)) by (cbn in Hn; cbn; tauto). apply in_map_iff in Hl. destruct Hl as ((m' & d & t') & E & Hi). cbn in E. subst m'. destruct (Ht _ _ _ Hi) as (v & ? & ? & _). exists v; auto. }
  destruct (decl_i1 f "uncertainty_type1" "m1" Hw) as (t1 & T1 & S1); [apply Ht; cbn; tauto|].
  destruct (decl_i1 f "uncertainty_type2" "m2" Hw) as (t2 & T2 & S2); [apply Ht; cbn; tauto|].
  destruct (decl_f2 f "Ur1" "M" "m1" Hw) as (a1 & k1 & A1 & _ & SA1 & LA1); [apply Ht; cbn; tauto|].
  destruct (decl_f2 f "Us1" "M" "m1" Hw) as (b1 & k3 & B1 & _ & SB1 & LB1); [apply Ht; cbn; tauto|].
  pose proof (size_fun _ _ _ _ Hw S1 M1) as Q1. pose proof (size_fun _ _ _ _ Hw SA1 M1) as Q3. pose proof (size_fun _ _ _ _ Hw SB1 M1) as Q5. subst k1 k3.
  pose proof (data_unique _ _ _ _ Hw T1 DT) as Q. injection Q as <-.
  destruct (used_list f "w_matrix_use1" "m1" (length t1) Hw) as (w1 & W1 & L1 & U1); [cbn; tauto|intros (_ & _ & _ & _ & ? & _); auto|auto|auto|].
  destruct (used_list f "w_matrix_use2" "m2" (length t2) Hw) as (w2 & W2 & L2 & U2); [cbn; tauto|intros (_ & _ & _ & _ & _ & ? & _); auto|auto|auto|].
  unfold check_uncertainty_assignment. rewrite SUB, (proj1 (size_ndim f _ _ Hw) S1), (proj1 (size_ndim f _ _ Hw) S2). cbn [bind].
  rewrite (proj2 (in1_data f _ _ Hw) T1), (proj2 (in1_data f _ _ Hw) T2). cbn [bind]. rewrite W1, W2. cbn [bind].
  rewrite (proj2 (fl2_data f _ _ Hw) A1), (proj2 (fl2_data f _ _ Hw) B1). cbn [bind].
  destruct (length t1) as [|k] eqn:EL; [lia|]. cbn [seq foldM].
  replace (check_column 1 t1 a1 b1 w1 (false, []) 0) with (@Raise (bool * list err) UnboundLocalError); [reflexivity|]. symmetry.
  destruct (columns_exist a1 m LA1 0 Hm) as (r & Er). destruct (columns_exist b1 m LB1 0 Hm) as (s & Es). destruct (nth_error w1 0) as [w|] eqn:Ew; [|apply nth_error_None in Ew; lia].
  pose proof Er as Er'. pose proof Es as Es'. apply column_iff in Er, Es. unfold check_column, get. rewrite Ht0. cbn [bind]. unfold get in Er, Es. rewrite Er, Es. cbn [bind]. rewrite Ew. cbn [bind].
  match goal with |- (if ?a && ?b || ?l then _ else _) = _ => destruct (a && b) eqn:EB end; [|reflexivity].
  pose proof (form_iff 4 r s w) as F. cbv zeta in F.
  exfalso. apply HA. unfold assigned. cbn [append]. exists t1, 4%Z, a1, b1, r, s, w. do 6 (split; [auto|]). split; [apply U1; [lia|auto]|]. apply F. exact EB.
Qed.
(** Files without W matrices, with the required variables, and whose first covariate is not declared type 4: the check returns. *)
Theorem check_returns f m1 m2 ts t : wf_nc f -> required f -> (forall n, In n w_names -> ~ present f n) -> size f "m1" m1 -> size f "m2" m2 -> data f "uncertainty_type1" (IArr1 ts) -> nth_error ts 0 = Some t -> t <> 4%Z ->
  exists es, check f = Ok es /\ forall side col, reported es side col <-> covariate f side col /\ ~ assigned f (side_name side) col.
Proof.
  intros Hw Hr HN M1 M2 DT Ht0 H4. destruct (assignment_report f m1 m2 ts t Hw Hr (or_intror HN) M1 M2 DT Ht0 H4) as (e8 & E8 & HE).
  assert (SW : subset (map fst W_VARIABLE_DATA) (names f) = false).
  { destruct (subset (map fst W_VARIABLE_DATA) (names f)) eqn:E; [|reflexivity]. exfalso. rewrite subset_in in E. apply (HN "w_matrix_nnz"%string); [cbn; tauto|]. apply present_in, E. cbn; tauto. }
  pose proof (proj1 (required_table f) Hr) as Ht.
  destruct (decl_f1 f "Kr" "M" Hw) as (kr & K1 & SK1); [apply Ht; cbn; tauto|].
  destruct (decl_f1 f "Ks" "M" Hw) as (ks & K2 & SK2); [apply Ht; cbn; tauto|].
  pose proof (size_fun _ _ _ _ Hw SK1 SK2) as LK.
  destruct (decl_f2 f "Ur1" "M" "m1" Hw) as (a1 & k1 & A1 & _); [apply Ht; cbn; tauto|].
  destruct (decl_f2 f "Ur2" "M" "m2" Hw) as (a2 & k2 & A2 & _); [apply Ht; cbn; tauto|].
  destruct (decl_f2 f "Us1" "M" "m1" Hw) as (b1 & k3 & B1 & _); [apply Ht; cbn; tauto|].
  assert (V : exists e6, check_variable_values f = Ok e6 /\ forall e, In e e6 -> match e with EForm _ _ | EOneForm _ _ => False | _ => True end).
  { unfold check_variable_values. rewrite (proj2 (fl1_data f _ _ Hw) K1), (proj2 (fl1_data f _ _ Hw) K2). cbn [bind mapM]. rewrite (proj2 (fl2_data f _ _ Hw) A1), (proj2 (fl2_data f _ _ Hw) A2), (proj2 (fl2_data f _ _ Hw) B1). cbn [bind].
    rewrite (proj2 (Nat.eqb_eq _ _) LK). destruct (subset ["Kr"; "Ks"]%string (names f)); destruct (subset ["Ur1"; "Ur2"; "Us1"; "Ur2"]%string (names f)); cbn [bind]; (eexists; split; [reflexivity|]); intros e He; cbn [concat] in He; rewrite ?in_app_iff in He;
    repeat (match goal with H : _ \/ _ |- _ => destruct H as [H|H] | H : In _ (errif _ _) |- _ => apply in_errif in H; destruct H as (_ & ->); exact Logic.I | H : In _ [] |- _ => destruct H end). }
  destruct V as (e6 & V & HV). unfold check, check_w_matrix_variable_dimensions, check_w_variable_values. rewrite SW, V, E8. cbn [bind]. eexists. split; [reflexivity|].
  intros side col. rewrite <- HE. unfold reported. rewrite !in_app_iff.
  assert (N1 : forall e, In e (check_variable_included f) -> match e with EForm _ _ | EOneForm _ _ => False | _ => True end).
  { intros e He. unfold check_variable_included in He. apply in_app_or in He. destruct He as [He|He]; apply in_errif in He; destruct He as (_ & ->); exact Logic.I. }
  assert (N2 : forall e, In e (check_variable_dtype f) -> match e with EForm _ _ | EOneForm _ _ => False | _ => True end).
  { intros e He. unfold check_variable_dtype in He. apply in_flat_map in He. destruct He as (v & _ & He). destruct (spec_of (v_name v)) as [[d t']|]; [apply in_errif in He; destruct He as (_ & ->); exact Logic.I|destruct He]. }
  assert (N3 : forall e, In e (check_variable_dimension f) -> match e with EForm _ _ | EOneForm _ _ => False | _ => True end).
  { intros e He. unfold check_variable_dimension in He. apply in_flat_map in He. destruct He as (v & _ & He). destruct (spec_of (v_name v)) as [[d t']|]; [apply in_errif in He; destruct He as (_ & ->); exact Logic.I|destruct He]. }
  assert (N4 : forall e, In e (check_attributes f) -> match e with EForm _ _ | EOneForm _ _ => False | _ => True end).
  { intros e He. unfold check_attributes in He. apply in_app_or in He. destruct He as [He|He].
    - apply in_flat_map in He. destruct He as (v & _ & He). apply in_errif in He. destruct He as (_ & ->); exact Logic.I.
    - destruct (lookup _ (nc_attrs f)); [|destruct He]. destruct (lookup _ (nc_attrs f)); [|destruct He]. apply in_errif in He. destruct He as (_ & ->); exact Logic.I. }
  split.
  - intros [H|H]; decompose [or] H; auto; exfalso;
      match goal with H : In _ (check_variable_included _) |- _ => exact (N1 _ H) | H : In _ (check_variable_dtype _) |- _ => exact (N2 _ H) | H : In _ (check_variable_dimension _) |- _ => exact (N3 _ H) | H : In _ (check_attributes _) |- _ => exact (N4 _ H) | H : In _ e6 |- _ => exact (HV _ H) | H : In _ [] |- _ => destruct H end.
  - intros [H|H]; tauto.
Qed.
