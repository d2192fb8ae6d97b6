(** * C43, C44, C72, C73: the input-file checker (tools/harmonisation_input_checker.py). *)
From Coq Require Import Reals Lra.
From Verif Require Import Base BaseLemmas ReaderModel UncModel SimModel CheckModel CheckSpec CheckProofs CheckProofs2 CheckProofs3 CheckProofs4 CheckProofs5.
Open Scope nat_scope.

(** ** Example file: one match-up, one covariate per sensor, W matrix 1 for the covariate of sensor 1;
    [rows]: the row pointers, [ty]: type declared for that covariate. *)
Definition exfile (ty : Z) (rows : list (list Z)) : ncfile :=
  mkNc [("M", 1); ("m1", 1); ("m2", 1); ("w_matrix_count", 1); ("w_matrix_row_count", 2); ("w_matrix_nnz_sum", 1); ("u_matrix_count", 1); ("u_matrix_row_count_sum", 1)]%string
    [mkVar "X1" ["M"; "m1"] "float64" (Arr2 [[1%R]]); mkVar "X2" ["M"; "m2"] "float64" (Arr2 [[1%R]]); mkVar "Ur1" ["M"; "m1"] "float64" (Arr2 [[0%R]]); mkVar "Ur2" ["M"; "m2"] "float64" (Arr2 [[1%R]]);
     mkVar "Us1" ["M"; "m1"] "float64" (Arr2 [[0%R]]); mkVar "Us2" ["M"; "m2"] "float64" (Arr2 [[0%R]]); mkVar "K" ["M"] "float64" (Arr1 [1%R]); mkVar "Kr" ["M"] "float64" (Arr1 [1%R]); mkVar "Ks" ["M"] "float64" (Arr1 [0%R]);
     mkVar "time1" ["M"] "float64" (Arr1 [1%R]); mkVar "time2" ["M"] "float64" (Arr1 [1%R]); mkVar "uncertainty_type1" ["m1"] "int32" (IArr1 [ty]); mkVar "uncertainty_type2" ["m2"] "int32" (IArr1 [1%Z]);
     mkVar "w_matrix_nnz" ["w_matrix_count"] "int32" (IArr1 [1%Z]); mkVar "w_matrix_row" ["w_matrix_count"; "w_matrix_row_count"] "int32" (IArr2 rows); mkVar "w_matrix_col" ["w_matrix_nnz_sum"] "int32" (IArr1 [0%Z]);
     mkVar "w_matrix_val" ["w_matrix_nnz_sum"] "float64" (Arr1 [1%R]); mkVar "w_matrix_use1" ["m1"] "int32" (IArr1 [1%Z]); mkVar "w_matrix_use2" ["m2"] "int32" (IArr1 [0%Z]);
     mkVar "u_matrix_row_count" ["u_matrix_count"] "int32" (IArr1 [1%Z]); mkVar "u_matrix_val" ["u_matrix_row_count_sum"] "float64" (Arr1 [1%R]); mkVar "u_matrix_use1" ["m1"] "int32" (IArr1 [1%Z]); mkVar "u_matrix_use2" ["m2"] "int32" (IArr1 [0%Z])]%string
    [("sensor_1_name", "A"); ("sensor_2_name", "B")]%string.
Ltac inlist := cbn; repeat (first [left; reflexivity | right]).
Lemma has_declared f n v d t : find (fun v => String.eqb (v_name v) n) (nc_vars f) = Some v -> v_dims v = d -> In (v_dtype v) t -> declared f n d t.
Proof. intros H Hd Ht. apply find_some in H. destruct H as (Hi & He). apply String.eqb_eq in He. exists v. auto. Qed.
Lemma has_data f n v a : find (fun v => String.eqb (v_name v) n) (nc_vars f) = Some v -> v_data v = a -> data f n a.
Proof. intros H Hd. apply find_some in H. destruct H as (Hi & He). apply String.eqb_eq in He. exists v. auto. Qed.
Ltac hasvar := first [eapply has_declared; [reflexivity|reflexivity|cbn; auto] | eapply has_data; reflexivity].
Ltac nodup := cbn; repeat constructor; cbn; intuition discriminate.
Lemma exfile_wf ty a b : wf_nc (exfile ty [[a; b]]).
Proof.
  split; [nodup|]. split; [nodup|]. split; [nodup|]. intros v Hv. cbn in Hv.
  repeat (destruct Hv as [<-|Hv]; [unfold fits, size; cbn; split; [tauto|]; first [eexists; split; [reflexivity|]; tauto | exists "M"%string, "m1"%string, 1; intuition (subst; reflexivity) | exists "M"%string, "m2"%string, 1; intuition (subst; reflexivity) | exists "w_matrix_count"%string, "w_matrix_row_count"%string, 2; intuition (subst; reflexivity)]|]).
  destruct Hv.
Qed.
Lemma exfile_required ty rows : required (exfile ty rows).
Proof. unfold required. repeat (match goal with |- _ /\ _ => split end); hasvar. Qed.
Lemma exfile_w ty rows : w_variables (exfile ty rows).
Proof. unfold w_variables. repeat (match goal with |- _ /\ _ => split end); hasvar. Qed.
Lemma exfile_assigned a b : all_assigned (exfile 3 [[a; b]]).
Proof.
  assert (F3 : forall t', form t' [0%R] [0%R] 1%Z -> t' = 3%Z).
  { intros t' [(-> & H & _)|[(-> & H & _)|[(-> & _)|(-> & _ & H)]]]; [inversion H; lra|inversion H; lra|reflexivity|inversion H; lra]. }
  assert (F1 : forall t', form t' [1%R] [0%R] 0%Z -> t' = 1%Z).
  { intros t' [(-> & H & _)|[(-> & _ & H)|[(-> & H & _)|(-> & H & _)]]]; [reflexivity|inversion H; lra|lia|lia]. }
  assert (C : forall x : R, is_column [[x]] 0 [x]).
  { intros x. split; [reflexivity|]. intros i r Hi. destruct i as [|i]; [injection Hi as <-; reflexivity|destruct i; discriminate]. }
  split; intros m col Hm Hc.
  - assert (m = 1) by (apply (size_fun _ _ _ _ (exfile_wf 3 a b) Hm); unfold size; cbn; tauto). assert (col = 0) by lia. subst. unfold assigned. cbn [append].
    exists [3%Z], 3%Z, [[0%R]], [[0%R]], [0%R], [0%R], 1%Z. split; [hasvar|]. split; [reflexivity|]. split; [hasvar|]. split; [apply C|]. split; [hasvar|]. split; [apply C|].
    split; [left; exists [1%Z]; split; [hasvar|reflexivity]|]. split; [|exact F3]. right. right. left. split; [reflexivity|]. split; [lia|]. constructor; [reflexivity|constructor].
  - assert (m = 1) by (apply (size_fun _ _ _ _ (exfile_wf 3 a b) Hm); unfold size; cbn; tauto). assert (col = 0) by lia. subst. unfold assigned. cbn [append].
    exists [1%Z], 1%Z, [[1%R]], [[0%R]], [1%R], [0%R], 0%Z. split; [hasvar|]. split; [reflexivity|]. split; [hasvar|]. split; [apply C|]. split; [hasvar|]. split; [apply C|].
    split; [left; exists [0%Z]; split; [hasvar|reflexivity]|]. split; [|exact F1]. left. split; [reflexivity|]. split; (constructor; [try lra; reflexivity|constructor]).
Qed.
Lemma exfile_acceptable a b : (0 <= a)%Z -> (0 <= b)%Z -> acceptable (exfile 3 [[a; b]]).
Proof.
  intros Ha Hb. split; [apply exfile_required|]. split; [left; split; [apply exfile_w|]|].
  - exists 1, 1, 1, 2, 1, 1, [1%Z], [[a; b]], [0%Z], [1%Z], [0%Z], [1%Z], [1%R], [1%Z], [0%Z].
    split. { do 6 (split; [unfold size; inlist|]). do 8 (split; [hasvar|]). hasvar. }
    split; [discriminate|]. split; [discriminate|]. cbn [app].
    assert (N : numbered [1%Z; 0%Z] 1). { split; [intros x [<-|[<-|[]]]; lia|]. intros k Hk. left. lia. }
    do 2 (split; [exact N|]). do 3 (split; [reflexivity|]).
    split. { intros i w u H1 H2. rewrite H1 in H2. injection H2 as <-. tauto. }
    split. { intros n [<-|[]]; lia. } split. { cbn. intros n [<-|[<-|[]]]; lia. } split. { intros n [<-|[]]; lia. } split. { intros n [<-|[]]; lia. }
    split. { intros x [<-|[]]; lra. }
    intros k n Hk. destruct k as [|k]; [|destruct k; discriminate]. injection Hk as <-. exists 0%Z. split; [split; [left; reflexivity|intros x [<-|[]]; lia]|].
    intros i u H1 H2. destruct i as [|[|i]]; cbn in H1, H2; [injection H2 as <-; reflexivity|discriminate|destruct i; discriminate].
  - split. { exists "A"%string, "B"%string. split; [inlist|]. split; [inlist|discriminate]. }
    split. { intros kr ks H1 H2. pose proof (data_unique _ _ _ (Arr1 [1%R]) (exfile_wf 3 a b) H1 ltac:(hasvar)) as Q1. pose proof (data_unique _ _ _ (Arr1 [0%R]) (exfile_wf 3 a b) H2 ltac:(hasvar)) as Q2. injection Q1 as ->. injection Q2 as ->.
      intros [|i] r s E1 E2; [|destruct i; discriminate]. injection E1 as <-. injection E2 as <-. split; [lra|]. split; [lra|left; lra]. }
    split; [|apply exfile_assigned].
    intros n rows r x Hn HD Hr Hx. assert (Q : rows = [[0%R]] \/ rows = [[1%R]]).
    { pose proof (exfile_wf 3 a b) as Hw. destruct Hn as [<-|[<-|[<-|[<-|[]]]]].
      - pose proof (data_unique _ _ _ (Arr2 [[0%R]]) Hw HD ltac:(hasvar)) as Q. injection Q as ->. auto.
      - pose proof (data_unique _ _ _ (Arr2 [[1%R]]) Hw HD ltac:(hasvar)) as Q. injection Q as ->. auto.
      - pose proof (data_unique _ _ _ (Arr2 [[0%R]]) Hw HD ltac:(hasvar)) as Q. injection Q as ->. auto.
      - pose proof (data_unique _ _ _ (Arr2 [[0%R]]) Hw HD ltac:(hasvar)) as Q. injection Q as ->. auto. }
    destruct Q as [-> | ->]; destruct Hr as [<-|[]]; destruct Hx as [<-|[]]; lra.
Qed.

(** ** C43 *)
(** The assignment check finds no error exactly if every covariate's declared type is the form, the only one, of its data. *)
Theorem C43_uncertainty_assignment : forall f, wf_nc f -> required f -> w_or_none f -> (check_uncertainty_assignment f = Ok [] <-> all_assigned f).
Proof. exact assignment_iff. Qed.
(** Otherwise the report names exactly the wrong covariates (first covariate not declared type 4: see C73). *)
Theorem C43_report : forall f m1 m2 ts t, wf_nc f -> required f -> w_or_none f -> size f "m1" m1 -> size f "m2" m2 -> data f "uncertainty_type1" (IArr1 ts) -> nth_error ts 0 = Some t -> t <> 4%Z ->
  exists es, check_uncertainty_assignment f = Ok es /\ forall side col, reported es side col <-> covariate f side col /\ ~ assigned f (side_name side) col.
Proof. exact assignment_report. Qed.
Print Assumptions C43_uncertainty_assignment.
Print Assumptions C43_report.
Example C43_example : let f := exfile 3 [[0; 1]]%Z in wf_nc f /\ required f /\ w_or_none f /\ all_assigned f.
Proof. cbv zeta. split; [apply exfile_wf|]. split; [apply exfile_required|]. split; [left; apply exfile_w|apply exfile_assigned]. Qed.
(** With type 1 declared instead, the covariate is wrong, and named. *)
Lemma exfile_wrong ty rows : ty <> 3%Z -> wf_nc (exfile ty rows) -> ~ assigned (exfile ty rows) "1" 0.
Proof.
  intros Ht Hw (ts & t & urs & uss & ur & us & w & D1 & E1 & D2 & E2 & D3 & E3 & E4 & F & _). cbn [append] in *.
  pose proof (data_unique _ _ _ (IArr1 [ty]) Hw D1 ltac:(hasvar)) as Q1. injection Q1 as ->. injection E1 as <-.
  pose proof (data_unique _ _ _ (Arr2 [[0%R]]) Hw D2 ltac:(hasvar)) as Q2. injection Q2 as ->. pose proof (data_unique _ _ _ (Arr2 [[0%R]]) Hw D3 ltac:(hasvar)) as Q3. injection Q3 as ->.
  destruct E2 as (L2 & E2). specialize (E2 0 _ eq_refl). destruct ur as [|x [|y ur]]; try discriminate. injection E2 as ->.
  destruct E3 as (L3 & E3). specialize (E3 0 _ eq_refl). destruct us as [|x [|y us]]; try discriminate. injection E3 as ->.
  destruct F as [(-> & H & _)|[(-> & H & _)|[(-> & _)|(-> & _ & H)]]]; [inversion H; lra|inversion H; lra|auto|inversion H; lra].
Qed.
Example C43_report_example : exists es, check_uncertainty_assignment (exfile 1 [[0; 1]]%Z) = Ok es /\ reported es 1 0.
Proof.
  assert (Hw := exfile_wf 1 0 1). destruct (C43_report (exfile 1 [[0; 1]]%Z) 1 1 [1%Z] 1%Z Hw (exfile_required _ _) (or_introl (exfile_w _ _))) as (es & E & H); [unfold size; cbn; tauto|unfold size; cbn; tauto|hasvar|reflexivity|lia|].
  exists es. split; [exact E|]. apply H. split; [split; [auto|exists 1; split; [unfold size; cbn; tauto|lia]]|]. cbn [side_name Nat.eqb]. apply exfile_wrong; [lia|auto].
Qed.

(** ** C44 *)
(** The checker accepts a file, i.e. returns no error, exactly if the file meets the format and its values are consistent. *)
Theorem C44_acceptance : forall f, wf_nc f -> (check f = Ok [] <-> acceptable f).
Proof. exact check_iff. Qed.
Print Assumptions C44_acceptance.
Example C44_example : check (exfile 3 [[0; 1]]%Z) = Ok [].
Proof. apply C44_acceptance; [apply exfile_wf|apply exfile_acceptable; lia]. Qed.
(** The same with an uncertainty type the data do not have is not accepted. *)
Example C44_example_rejected : check (exfile 1 [[0; 1]]%Z) <> Ok [].
Proof.
  intros H. apply C44_acceptance in H; [|apply exfile_wf]. destruct H as (_ & _ & _ & _ & _ & (H & _)).
  apply (exfile_wrong 1 [[0; 1]]%Z); [lia|apply exfile_wf|]. apply (H 1); [unfold size; cbn; tauto|lia].
Qed.

(** ** C72 *)
(** Files accepted are readable: the matrices used by a covariate are there, with M rows and as many columns as there are uncertainties.
    Missing: the row pointers are not checked. *)
Theorem C72_readable_partial : forall f mv M i k u, wf_nc f -> check f = Ok [] -> w_variables f -> row_pointers f -> read_matvars f mv -> size f "M" M ->
  nth_error (wuse1 R mv ++ wuse2 R mv) i = Some k -> nth_error (uuse1 R mv ++ uuse2 R mv) i = Some u -> k <> 0 ->
  exists w uv, open_w_matrix R mv k = Ok w /\ open_u_matrix R mv u = Ok uv /\ c_nrows R w = M /\ c_ncols R w = length uv.
Proof. intros f mv M i k u Hw Hc. apply (check_iff f Hw) in Hc. exact (reading f mv M i k u Hw Hc). Qed.
(** An accepted file whose W matrix cannot be read: row pointers [5, 7] for a matrix of one row with one entry. *)
Theorem C72_readable_refuted : exists f mv, wf_nc f /\ check f = Ok [] /\ w_variables f /\ read_matvars f mv /\ nth_error (wuse1 R mv ++ wuse2 R mv) 0 = Some 1 /\ open_w_matrix R mv 1 = Raise ValueError.
Proof.
  exists (exfile 3 [[5; 7]]%Z). eexists. split; [apply exfile_wf|]. split; [apply check_iff; [apply exfile_wf|apply exfile_acceptable; lia]|]. split; [apply exfile_w|].
  split. { exists [1%Z], [[5; 7]]%Z, [0%Z], [1%R], [1%Z], [0%Z], [1%Z], [1%R], [1%Z], [0%Z]. split; [|reflexivity]. do 9 (split; [hasvar|]). hasvar. }
  split; reflexivity.
Qed.
Print Assumptions C72_readable_partial.
Print Assumptions C72_readable_refuted.
Example C72_example : let f := exfile 3 [[0; 1]]%Z in exists mv, row_pointers f /\ read_matvars f mv /\ nth_error (wuse1 R mv ++ wuse2 R mv) 0 = Some 1.
Proof.
  cbv zeta. eexists. split.
  - intros nnz rows k r n D1 D2 Er En. pose proof (data_unique _ _ _ (IArr1 [1%Z]) (exfile_wf 3 0 1) D1 ltac:(hasvar)) as Q1. injection Q1 as ->.
    pose proof (data_unique _ _ _ (IArr2 [[0; 1]]%Z) (exfile_wf 3 0 1) D2 ltac:(hasvar)) as Q2. injection Q2 as ->. destruct k as [|k]; [|destruct k; discriminate]. injection Er as <-. injection En as <-. split; [reflexivity|cbn; lia].
  - split; [|shelve]. exists [1%Z], [[0; 1]]%Z, [0%Z], [1%R], [1%Z], [0%Z], [1%Z], [1%R], [1%Z], [0%Z]. split; [|reflexivity]. do 9 (split; [hasvar|]). hasvar.
  Unshelve. reflexivity.
Qed.

(** ** C73 *)
(** Without W matrices, the check of a file with the required variables returns, naming exactly the wrongly declared covariates, unless the first covariate is declared type 4. *)
Theorem C73_report_partial : forall f m1 m2 ts t, wf_nc f -> required f -> (forall n, In n w_names -> ~ present f n) -> size f "m1" m1 -> size f "m2" m2 -> data f "uncertainty_type1" (IArr1 ts) -> nth_error ts 0 = Some t -> t <> 4%Z ->
  exists es, check f = Ok es /\ forall side col, reported es side col <-> covariate f side col /\ ~ assigned f (side_name side) col.
Proof. exact check_returns. Qed.
(** A file whose first covariate is wrongly declared type 4 is not reported: the check crashes. *)
Theorem C73_report_refuted : forall f ts m, wf_nc f -> required f -> w_or_none f -> size f "m1" m -> 0 < m -> data f "uncertainty_type1" (IArr1 ts) -> nth_error ts 0 = Some 4%Z -> ~ assigned f "1" 0 ->
  check_uncertainty_assignment f = Raise UnboundLocalError /\ forall es, check f <> Ok es.
Proof.
  intros f ts m Hw Hr HW Hm Hm0 Hd Ht Ha. pose proof (assignment_crash f ts m Hw Hr HW Hm Hm0 Hd Ht Ha) as E. split; [exact E|].
  intros es H. unfold check in H. rewrite E in H. destruct (check_w_matrix_variable_dimensions f); [|discriminate]. destruct (check_variable_values f); [|discriminate]. destruct (check_w_variable_values f); discriminate.
Qed.
Print Assumptions C73_report_partial.
Print Assumptions C73_report_refuted.
Example C73_example : forall es, check (exfile 4 [[0; 1]]%Z) <> Ok es.
Proof.
  apply (C73_report_refuted (exfile 4 [[0; 1]]%Z) [4%Z] 1); [apply exfile_wf|apply exfile_required|left; apply exfile_w|unfold size; cbn; tauto|lia|hasvar|reflexivity|].
  apply exfile_wrong; [lia|apply exfile_wf].
Qed.
Example C73_partial_example : let f := mkNc (nc_dims (exfile 1 [])) (firstn 13 (nc_vars (exfile 1 []))) (nc_attrs (exfile 1 [])) in
  wf_nc f /\ required f /\ (forall n, In n w_names -> ~ present f n) /\ size f "m1" 1 /\ size f "m2" 1 /\ data f "uncertainty_type1" (IArr1 [1%Z]).
Proof.
  cbv zeta. cbn [exfile nc_dims nc_vars nc_attrs firstn]. split.
  { split; [nodup|]. split; [nodup|]. split; [nodup|]. intros v Hv. cbn in Hv.
    repeat (destruct Hv as [<-|Hv]; [unfold fits, size; cbn; split; [tauto|]; first [eexists; split; [reflexivity|]; tauto | exists "M"%string, "m1"%string, 1; intuition (subst; reflexivity) | exists "M"%string, "m2"%string, 1; intuition (subst; reflexivity)]|]).
    destruct Hv. }
  split; [unfold required; repeat (match goal with |- _ /\ _ => split end); hasvar|].
  split; [|split; [unfold size; cbn; tauto|split; [unfold size; cbn; tauto|hasvar]]].
  intros n Hn (v & Hv & <-). cbn in Hv. repeat (destruct Hv as [<-|Hv]; [cbn in Hn; intuition discriminate|]). destruct Hv.
Qed.
