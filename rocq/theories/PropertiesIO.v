(** * C106-C109: writing match-up files, checking them, and reading them back (MatchUpWriter.py, harmonisation_input_checker.py,
    MatchUpReader.py together).  Vocabulary: IOSpec.v, CheckSpec.v, ReaderSpec.v.  Models: IOModel.v, CheckModel.v, ReaderModel.v, UncModel.v. *)
From Coq Require Import Reals Lra.
From Verif Require Import Base BaseLemmas ReaderModel ReaderSpec UncModel UnckModel SimModel CheckModel CheckSpec CheckProofs CheckProofs3 IOModel IOSpec IOProofs IOProofs2 IOProofs3 IOProofs4 IOProofs5.
Open Scope nat_scope.

(** ** C106 *)
(** Data of consistent shapes are written to a valid netCDF file, which the checker accepts exactly if the values are consistent. *)
Theorem C106_written_acceptance : forall f4 trunc p w, well_shaped p ->
  exists f, write_input_file f4 trunc (args_of p w) = Ok f /\ wf_nc f /\ (check f = Ok [] <-> good_values p).
Proof. intros f4 trunc p w H. exists (file_of f4 trunc p). split; [apply written; exact H|]. split; [apply file_wf; exact H|apply accepted; exact H]. Qed.
Print Assumptions C106_written_acceptance.

(** ** C107 *)
(** What was written is what is read: data, uncertainties, K, times, uncertainties of K, additional variables. *)
Theorem C107_round_trip : forall f4 trunc (T : Type) nanV (zeroT : T) f32 i32 todate isfill ord ordn,
  (forall l x, In x (ordn l) <-> In x l) -> (forall l x, In x (ord l) <-> In x l) -> forall ps w, match_set ps -> (forall p, In p ps -> simple_types p) ->
  exists fs o, mapM (fun p => write_input_file f4 trunc (args_of p w)) ps = Ok fs /\ open_files nanV zeroT f32 i32 todate isfill ord ordn fs = Ok o /\
  forall n p, 1 <= n -> nth_error ps (n - 1) = Some p ->
    (forall sd cov, 1 <= cov <= p_m p sd ->
       (exists col, ReaderSpec.is_column (p_X p sd) cov col /\ getVariableData R T (o_mu o) cov (p_name p sd) (Some n) = Ok (map f32 col)) /\
       exists b k u, nth_error (get_block_idxs (mu_idx R T (o_mu o))) b = Some (k, n, cov) /\ nth_error (sensors (mu_idx R T (o_mu o))) k = Some (p_name p sd) /\
         nth_error (o_unc o) b = Some (Some u) /\ unc_given p sd cov u) /\
    (forall r, r < p_M p -> nth_error (mu_ks R T (o_mu o)) (rows_before ps n + r) = nth_error (p_K p) r) /\
    (forall sd, getSensorTime R T (o_mu o) (Z.of_nat n) (p_name p sd) = Ok (Some (map todate (p_time p sd)))) /\
    (exists k, nth_error (o_unck o) (n - 1) = Some k /\ unck (p_Kr p) (p_Ks p) = Ok k) /\
    (forall v l, In v (p_more p) -> ad_dtype v = "f8"%string -> ad_dim v = ["M"]%string -> ad_data v = D1 l ->
       ~ In (ad_name v) ["across_track_index1"; "across_track_index2"; "along_track_index1"; "along_track_index2"]%string ->
       getAdditionalData R T (o_mu o) (ad_name v) (Some (Z.of_nat n)) = Ok (map (fun x => if isfill x then nanV else x) l)).
Proof. intros f4 trunc T nanV zeroT f32 i32 todate isfill ord ordn H1 H2. exact (round_trip f4 trunc nanV zeroT f32 i32 todate isfill ord ordn H1 H2). Qed.
Print Assumptions C107_round_trip.

(** Example: two match-up series A-B (two match-ups, types 1 and 2, an additional variable) and B-C (one). *)
Definition exp1 : mdata := mkData 2 (fun sd => match sd with Side1 => 2 | Side2 => 1 end) (fun sd => match sd with Side1 => "A" | Side2 => "B" end)%string
  (fun sd => match sd with Side1 => [[1; 2]; [3; 4]] | Side2 => [[5]; [6]] end)%R
  (fun sd => match sd with Side1 => [[1; 1]; [2; 2]] | Side2 => [[1]; [1]] end)%R
  (fun sd => match sd with Side1 => [[0; 3]; [0; 3]] | Side2 => [[0]; [0]] end)%R
  (fun sd => match sd with Side1 => [1; 2] | Side2 => [1] end)%Z (fun _ => [100; 101])%R [1; 2]%R [1; 0]%R [0; 1]%R
  [mkAdd "lon" "f8" ["M"]%string (D1 [10; 20]%R); mkAdd "flag" "i4" ["m1"]%string (DI [7; 8]%Z)].
Definition exp2 : mdata := mkData 1 (fun _ => 1) (fun sd => match sd with Side1 => "B" | Side2 => "C" end)%string
  (fun _ => [[7]])%R (fun _ => [[1]])%R (fun _ => [[0]])%R (fun _ => [1])%Z (fun _ => [5])%R [1]%R [1]%R [0]%R [].
Ltac mat := split; [reflexivity|]; let r := fresh in let H := fresh in intros r H; cbn in H; repeat (destruct H as [<-|H]; [reflexivity|]); destruct H.
Lemma exp1_shaped : well_shaped exp1.
Proof.
  split.
  { intros [|]; (split; [mat|split; [mat|split; [mat|split; reflexivity]]]). }
  do 3 (split; [reflexivity|]). split; [cbn; repeat constructor; cbn; intuition discriminate|].
  intros v [<-|[<-|[]]]; (split; [cbn; intuition discriminate|]).
  - exists "M"%string. split; [reflexivity|]. left. auto.
  - exists "m1"%string. split; [reflexivity|]. right; left. auto.
Qed.
Lemma exp2_shaped : well_shaped exp2.
Proof.
  split.
  { intros [|]; (split; [mat|split; [mat|split; [mat|split; reflexivity]]]). }
  do 3 (split; [reflexivity|]). split; [constructor|]. intros v [].
Qed.
Lemma exp_set : match_set [exp1; exp2].
Proof.
  split; [discriminate|]. split.
  - intros p [<-|[<-|[]]]; (split; [|discriminate]); [apply exp1_shaped|apply exp2_shaped].
  - intros p p' sd sd' [<-|[<-|[]]] [<-|[<-|[]]]; destruct sd, sd'; cbn; congruence.
Qed.
Example C107_example : match_set [exp1; exp2] /\ forall p, In p [exp1; exp2] -> simple_types p.
Proof. split; [apply exp_set|]. intros p [<-|[<-|[]]] [|] ty; cbn; intuition lia. Qed.
Example C106_example : well_shaped exp1 /\ good_values exp1.
Proof.
  split; [apply exp1_shaped|]. split; [discriminate|]. split.
  - intros [|[|i]] r s H1 H2; cbn in H1, H2; try (destruct i; discriminate); injection H1 as <-; injection H2 as <-; repeat split; lra.
  - intros sd cov ty ur us Hc Ht C1 C2. split; [discriminate|].
    destruct C1 as (L1 & C1). destruct C2 as (L2 & C2).
    assert (K : (sd = Side1 /\ (cov = 1 \/ cov = 2)) \/ (sd = Side2 /\ cov = 1)).
    { destruct sd; [left|right]; (split; [reflexivity|]); destruct cov as [|[|[|cov]]]; try lia; cbn in Ht; try discriminate; destruct cov; discriminate. }
    destruct K as [(-> & [-> | ->])|(-> & ->)]; cbn in *; injection Ht as <-;
      destruct ur as [|a [|b [|]]]; try discriminate; destruct us as [|c [|d [|]]]; try discriminate;
      pose proof (C1 0 _ eq_refl) as X1; pose proof (C1 1 _ eq_refl) as X2; pose proof (C2 0 _ eq_refl) as X3; pose proof (C2 1 _ eq_refl) as X4; cbn in X1, X2, X3, X4;
      injection X1 as ->; injection X2 as ->; injection X3 as ->; injection X4 as ->;
      [left|right|left]; (split; [reflexivity|]); split; repeat constructor; try reflexivity; lra.
Qed.

(** ** C108 *)
(** Files that the checker accepts and that agree on the number of covariates of each sensor can be opened, and the object holds their data with
    uncertainties of the declared types.  Missing: the checker looks neither at row pointers (C72) nor at the number of match-ups with type 4. *)
Theorem C108_accepted_files_open_partial : forall (T : Type) nanV (zeroT : T) f32 i32 todate isfill ord ordn,
  (forall l x, In x (ordn l) <-> In x l) -> forall fs, fs <> [] ->
  (forall f, In f fs -> wf_nc f /\ check f = Ok [] /\ (w_variables f -> row_pointers f) /\ two_rows f) -> agree fs ->
  exists o, open_files nanV zeroT f32 i32 todate isfill ord ordn fs = Ok o /\
  forall n f sd s m cov rows, 1 <= n -> nth_error fs (n - 1) = Some f -> file_sensor f sd s -> size f ("m" ++ snum sd) m -> 1 <= cov <= m -> data f ("X" ++ snum sd) (Arr2 rows) ->
    exists col b k u ts t, ReaderSpec.is_column rows cov col /\ getVariableData R T (o_mu o) cov s (Some n) = Ok (map f32 col) /\
      nth_error (get_block_idxs (mu_idx R T (o_mu o))) b = Some (k, n, cov) /\ nth_error (sensors (mu_idx R T (o_mu o))) k = Some s /\
      nth_error (o_unc o) b = Some (Some u) /\ data f ("uncertainty_type" ++ snum sd) (IArr1 ts) /\ nth_error ts (cov - 1) = Some t /\ Z.of_nat (typeID R (u_kind R u)) = t.
Proof. intros T nanV zeroT f32 i32 todate isfill ord ordn. exact (accepted_open nanV zeroT f32 i32 todate isfill ord ordn). Qed.
Print Assumptions C108_accepted_files_open_partial.

(** An accepted file that cannot be opened: one match-up, a covariate of type 4. *)
Definition exfile4 : ncfile :=
  mkNc [("M", 1); ("m1", 1); ("m2", 1); ("w_matrix_count", 1); ("w_matrix_row_count", 2); ("w_matrix_nnz_sum", 1); ("u_matrix_count", 1); ("u_matrix_row_count_sum", 1)]%string
    [mkVar "X1" ["M"; "m1"] "float64" (Arr2 [[1%R]]); mkVar "X2" ["M"; "m2"] "float64" (Arr2 [[1%R]]); mkVar "Ur1" ["M"; "m1"] "float64" (Arr2 [[0%R]]); mkVar "Ur2" ["M"; "m2"] "float64" (Arr2 [[1%R]]);
     mkVar "Us1" ["M"; "m1"] "float64" (Arr2 [[1%R]]); mkVar "Us2" ["M"; "m2"] "float64" (Arr2 [[0%R]]); mkVar "K" ["M"] "float64" (Arr1 [1%R]); mkVar "Kr" ["M"] "float64" (Arr1 [1%R]); mkVar "Ks" ["M"] "float64" (Arr1 [0%R]);
     mkVar "time1" ["M"] "float64" (Arr1 [1%R]); mkVar "time2" ["M"] "float64" (Arr1 [1%R]); mkVar "uncertainty_type1" ["m1"] "int32" (IArr1 [4%Z]); mkVar "uncertainty_type2" ["m2"] "int32" (IArr1 [1%Z]);
     mkVar "w_matrix_nnz" ["w_matrix_count"] "int32" (IArr1 [1%Z]); mkVar "w_matrix_row" ["w_matrix_count"; "w_matrix_row_count"] "int32" (IArr2 [[0; 1]]%Z); mkVar "w_matrix_col" ["w_matrix_nnz_sum"] "int32" (IArr1 [0%Z]);
     mkVar "w_matrix_val" ["w_matrix_nnz_sum"] "float64" (Arr1 [1%R]); mkVar "w_matrix_use1" ["m1"] "int32" (IArr1 [1%Z]); mkVar "w_matrix_use2" ["m2"] "int32" (IArr1 [0%Z]);
     mkVar "u_matrix_row_count" ["u_matrix_count"] "int32" (IArr1 [1%Z]); mkVar "u_matrix_val" ["u_matrix_row_count_sum"] "float64" (Arr1 [1%R]); mkVar "u_matrix_use1" ["m1"] "int32" (IArr1 [1%Z]); mkVar "u_matrix_use2" ["m2"] "int32" (IArr1 [0%Z])]%string
    [("sensor_1_name", "A"); ("sensor_2_name", "B")]%string.
Lemma has_declared' f n v d t : find (fun v => String.eqb (v_name v) n) (nc_vars f) = Some v -> v_dims v = d -> In (v_dtype v) t -> declared f n d t.
Proof. intros H Hd Ht. apply find_some in H. destruct H as (Hi & He). apply String.eqb_eq in He. exists v. auto. Qed.
Lemma has_data' f n v a : find (fun v => String.eqb (v_name v) n) (nc_vars f) = Some v -> v_data v = a -> data f n a.
Proof. intros H Hd. apply find_some in H. destruct H as (Hi & He). apply String.eqb_eq in He. exists v. auto. Qed.
Ltac hv := first [eapply has_declared'; [reflexivity|reflexivity|cbn; auto] | eapply has_data'; reflexivity].
Lemma exfile4_wf : wf_nc exfile4.
Proof.
  split; [cbn; repeat constructor; cbn; intuition discriminate|]. split; [cbn; repeat constructor; cbn; intuition discriminate|]. split; [cbn; repeat constructor; cbn; intuition discriminate|]. intros v Hv. cbn in Hv.
  repeat (destruct Hv as [<-|Hv]; [unfold fits, size; cbn; split; [tauto|]; first [eexists; split; [reflexivity|]; tauto | exists "M"%string, "m1"%string, 1; intuition (subst; reflexivity) | exists "M"%string, "m2"%string, 1; intuition (subst; reflexivity) | exists "w_matrix_count"%string, "w_matrix_row_count"%string, 2; intuition (subst; reflexivity)]|]).
  destruct Hv.
Qed.
Lemma exfile4_accepted : check exfile4 = Ok [].
Proof.
  apply check_iff; [apply exfile4_wf|]. pose proof exfile4_wf as Hw.
  split; [unfold required; repeat (match goal with |- _ /\ _ => split end); hv|]. split; [left; split; [unfold w_variables; repeat (match goal with |- _ /\ _ => split end); hv|]|].
  - exists 1, 1, 1, 2, 1, 1, [1%Z], [[0; 1]]%Z, [0%Z], [1%Z], [0%Z], [1%Z], [1%R], [1%Z], [0%Z].
    split. { do 6 (split; [unfold size; cbn; tauto|]). do 8 (split; [hv|]). hv. }
    split; [discriminate|]. split; [discriminate|]. cbn [app].
    assert (N : numbered [1%Z; 0%Z] 1). { split; [intros x [<-|[<-|[]]]; lia|]. intros k Hk. left. lia. }
    do 2 (split; [exact N|]). do 3 (split; [reflexivity|]).
    split. { intros i w u H1 H2. rewrite H1 in H2. injection H2 as <-. tauto. }
    split. { intros n [<-|[]]; lia. } split. { cbn. intros n [<-|[<-|[]]]; lia. } split. { intros n [<-|[]]; lia. } split. { intros n [<-|[]]; lia. }
    split. { intros x [<-|[]]; lra. }
    intros k n Hk. destruct k as [|k]; [|destruct k; discriminate]. injection Hk as <-. exists 0%Z. split; [split; [left; reflexivity|intros x [<-|[]]; lia]|].
    intros i u H1 H2. destruct i as [|[|i]]; cbn in H1, H2; [injection H2 as <-; reflexivity|discriminate|destruct i; discriminate].
  - split. { exists "A"%string, "B"%string. split; [cbn; tauto|]. split; [cbn; tauto|discriminate]. }
    split. { intros kr ks H1 H2. pose proof (data_unique _ _ _ (Arr1 [1%R]) Hw H1 ltac:(hv)) as Q1. pose proof (data_unique _ _ _ (Arr1 [0%R]) Hw H2 ltac:(hv)) as Q2. injection Q1 as ->. injection Q2 as ->.
      intros [|i] r s E1 E2; [|destruct i; discriminate]. injection E1 as <-. injection E2 as <-. split; [lra|]. split; [lra|left; lra]. }
    split.
    { intros n rows r x Hn HD Hr Hx. assert (Q : rows = [[0%R]] \/ rows = [[1%R]]).
      { destruct Hn as [<-|[<-|[<-|[<-|[]]]]].
        - pose proof (data_unique _ _ _ (Arr2 [[0%R]]) Hw HD ltac:(hv)) as Q. injection Q as ->. auto.
        - pose proof (data_unique _ _ _ (Arr2 [[1%R]]) Hw HD ltac:(hv)) as Q. injection Q as ->. auto.
        - pose proof (data_unique _ _ _ (Arr2 [[1%R]]) Hw HD ltac:(hv)) as Q. injection Q as ->. auto.
        - pose proof (data_unique _ _ _ (Arr2 [[0%R]]) Hw HD ltac:(hv)) as Q. injection Q as ->. auto. }
      destruct Q as [-> | ->]; destruct Hr as [<-|[]]; destruct Hx as [<-|[]]; lra. }
    assert (F4 : forall t', form t' [0%R] [1%R] 1%Z -> t' = 4%Z).
    { intros t' [(-> & H & _)|[(-> & H & _)|[(-> & _ & H)|(-> & _)]]]; [inversion H; lra|inversion H; lra|inversion H; lra|reflexivity]. }
    assert (F1 : forall t', form t' [1%R] [0%R] 0%Z -> t' = 1%Z).
    { intros t' [(-> & H & _)|[(-> & _ & H)|[(-> & H & _)|(-> & H & _)]]]; [reflexivity|inversion H; lra|lia|lia]. }
    assert (C : forall x : R, CheckSpec.is_column [[x]] 0 [x]).
    { intros x. split; [reflexivity|]. intros i r Hi. destruct i as [|i]; [injection Hi as <-; reflexivity|destruct i; discriminate]. }
    split; intros m col Hm Hc.
    + assert (m = 1) by (apply (size_fun _ _ _ _ Hw Hm); unfold size; cbn; tauto). assert (col = 0) by lia. subst. unfold assigned. cbn [append].
      exists [4%Z], 4%Z, [[0%R]], [[1%R]], [0%R], [1%R], 1%Z. split; [hv|]. split; [reflexivity|]. split; [hv|]. split; [apply C|]. split; [hv|]. split; [apply C|].
      split; [left; exists [1%Z]; split; [hv|reflexivity]|]. split; [|exact F4]. right. right. right. split; [reflexivity|]. split; [lia|]. constructor; [lra|constructor].
    + assert (m = 1) by (apply (size_fun _ _ _ _ Hw Hm); unfold size; cbn; tauto). assert (col = 0) by lia. subst. unfold assigned. cbn [append].
      exists [1%Z], 1%Z, [[1%R]], [[0%R]], [1%R], [0%R], 0%Z. split; [hv|]. split; [reflexivity|]. split; [hv|]. split; [apply C|]. split; [hv|]. split; [apply C|].
      split; [left; exists [0%Z]; split; [hv|reflexivity]|]. split; [|exact F1]. left. split; [reflexivity|]. split; (constructor; [try lra; reflexivity|constructor]).
Qed.
Theorem C108_accepted_files_open_refuted : exists f, wf_nc f /\ check f = Ok [] /\ w_variables f /\ row_pointers f /\ agree [f] /\
  forall (T : Type) nanV (zeroT : T) f32 i32 todate isfill, open_files nanV zeroT f32 i32 todate isfill (fun l => l) (fun l => l) [f] = Raise IndexError.
Proof.
  exists exfile4. split; [apply exfile4_wf|]. split; [apply exfile4_accepted|]. split; [unfold w_variables; repeat (match goal with |- _ /\ _ => split end); hv|]. split; [|split].
  - intros nnz rows k r n D1 D2 Er En. pose proof (data_unique _ _ _ (IArr1 [1%Z]) exfile4_wf D1 ltac:(hv)) as Q1. injection Q1 as ->.
    pose proof (data_unique _ _ _ (IArr2 [[0; 1]]%Z) exfile4_wf D2 ltac:(hv)) as Q2. injection Q2 as ->. destruct k as [|k]; [|destruct k; discriminate]. injection Er as <-. injection En as <-. split; [reflexivity|cbn; lia].
  - intros f f' sd sd' s m m' [<-|[]] [<-|[]] _ _ Hm Hm'. assert (m = 1) by (destruct sd; apply (size_fun _ _ _ _ exfile4_wf Hm); unfold size; cbn; tauto). assert (m' = 1) by (destruct sd'; apply (size_fun _ _ _ _ exfile4_wf Hm'); unfold size; cbn; tauto). congruence.
  - intros. reflexivity.
Qed.
Print Assumptions C108_accepted_files_open_refuted.
(** Written files with consistent values are examples of the hypotheses of the partial theorem. *)
Example C108_example : forall f4 trunc, let f := file_of f4 trunc exp1 in wf_nc f /\ check f = Ok [] /\ (w_variables f -> row_pointers f) /\ two_rows f /\ agree [f].
Proof.
  intros f4 trunc f. pose proof (file_wf f4 trunc exp1 exp1_shaped) as Hw. split; [exact Hw|]. split; [apply accepted; [apply exp1_shaped|apply C106_example]|]. split; [|split].
  - intros ((v & Hv & En & _) & _). exfalso. apply (file_now f4 trunc exp1 "w_matrix_nnz" exp1_shaped); [cbn; tauto|exists v; auto].
  - intros sd l M HD Hi _. pose proof (data_unique _ _ _ _ Hw HD (d_type f4 trunc exp1 sd)) as Q. injection Q as ->. destruct sd; cbn in Hi; lia.
  - intros f1 f2 sd sd' s m m' [<-|[]] [<-|[]] H1 H2 Hm Hm'. pose proof (size_fun _ _ _ _ Hw Hm (d_m f4 trunc exp1 sd)) as E1. pose proof (size_fun _ _ _ _ Hw Hm' (d_m f4 trunc exp1 sd')) as E2. subst.
    destruct sd, sd'; try reflexivity; exfalso; unfold file_sensor in H1, H2; cbn in H1, H2; intuition congruence.
Qed.

(** ** C109 *)
(** W matrices handed to the writer are not written: the file is as without them, and if a covariate is declared to have structured
    errors (type 3 or 4) the file is neither accepted by the checker nor can it be opened. *)
Theorem C109_w_matrices_written_refuted : forall f4 trunc p w sd cov (T : Type) nanV (zeroT : T) f32 i32 todate isfill ord ordn, well_shaped p -> 1 <= cov ->
  nth_error (p_type p sd) (cov - 1) = Some 3%Z \/ nth_error (p_type p sd) (cov - 1) = Some 4%Z ->
  exists f, write_input_file f4 trunc (args_of p w) = Ok f /\ write_input_file f4 trunc (args_of p None) = Ok f /\ (forall n, In n w_names -> ~ present f n) /\
    check f <> Ok [] /\ forall o, open_files nanV zeroT f32 i32 todate isfill ord ordn [f] <> Ok o.
Proof.
  intros f4 trunc p w sd cov T nanV zeroT f32 i32 todate isfill ord ordn Hw Hc Ht. exists (file_of f4 trunc p). split; [apply written; exact Hw|]. split; [apply written; exact Hw|].
  split; [intros n; apply file_now; exact Hw|]. split; [eapply structured_rejected; eauto|]. eapply structured_unopened; eauto.
Qed.
Print Assumptions C109_w_matrices_written_refuted.
Example C109_example : let p := mkData 1 (fun _ => 1) (p_name exp2) (p_X exp2) (p_Ur exp2) (p_Us exp2) (fun _ => [3])%Z (p_time exp2) [1]%R [1]%R [0]%R [] in well_shaped p /\ nth_error (p_type p Side1) (1 - 1) = Some 3%Z.
Proof.
  cbv zeta. split; [|reflexivity]. split.
  { intros [|]; (split; [mat|split; [mat|split; [mat|split; reflexivity]]]). }
  do 3 (split; [reflexivity|]). split; [constructor|]. intros v [].
Qed.
(** writeMatchUp writes no file (by definition: the method is a stub, MatchUpWriter.py:44-47). *)
Example C109_writeMatchUp : forall (MU : Type) (mu : MU) path fs p, writeMatchUp mu path fs p = fs p.
Proof. reflexivity. Qed.
