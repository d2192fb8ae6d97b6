(** * C89-C95: conversion of AVHRR match-up files (tools/AVHRR_to_updated_spec.py). *)
From Coq Require Import Reals Lra Sorted.
From Verif Require Import Base BaseLemmas ReaderModel UncModel TransformModel GNModel WModel WSpec AvModel AvSpec AvProofs AvProofs2 AvProofs3 AvProofs4 AvProofs5 AvProofs6 AvProofs7.
Open Scope nat_scope.

(** ** C89 *)
(** Every input file gives six files. *)
Theorem C89_six_files : forall torad f k1 k2 band bt ref_bt, good_input torad f k1 k2 band bt ref_bt ->
  exists ref idx files, sensor1_is f ref /\ kept f idx /\ idx <> [] /\ av_main torad f None = Ok files /\ length files = 6.
Proof.
  intros torad f k1 k2 band bt ref_bt G. destruct (conversion_ex torad f k1 k2 band bt ref_bt G) as (ref & idx & files & A & B & C & D & E). exists ref, idx, files. do 4 (split; [assumption|]).
  destruct E as (p & n1 & n2 & c1 & c2 & W1 & u1 & v1 & W2 & u2 & v2 & _ & _ & _ & _ & _ & _ & _ & _ & E). destruct (p_dirs p). rewrite E. reflexivity.
Qed.
(** The files hold the usable match-ups, in their order and with all variables aligned: the first, third and fifth with four quantities of sensor 2,
    the others with five. *)
Theorem C89_match_ups : forall torad f k1 k2 band bt ref_bt ref idx files j o, good_input torad f k1 k2 band bt ref_bt -> sensor1_is f ref -> kept f idx -> av_main torad f None = Ok files ->
  nth_error files j = Some o -> let m2 := if Nat.even j then 4 else 5 in holds f idx (m1_of ref m2) m2 o.
Proof.
  intros torad f k1 k2 band bt ref_bt ref idx files j o G HR HK E Hj.
  destruct (conversion_all torad f k1 k2 band bt ref_bt ref idx files G HR HK E) as (p & n1 & n2 & c1 & c2 & W1 & u1 & v1 & W2 & u2 & v2 & RD & S1 & S2 & _ & _ & _ & _ & _ & EF). destruct (p_dirs p) as (d3, d4). cbv zeta in EF. subst files.
  do 6 (destruct j as [|j]; [cbn [nth_error] in Hj; injection Hj as <-; cbn [Nat.even]; apply (holds_ok torad G HK RD); auto|]). destruct j; discriminate.
Qed.
Print Assumptions C89_six_files.
Print Assumptions C89_match_ups.

(** Three match-ups, the second with an unknown scan-line uncertainty. *)
Definition exrow (ref : bool) (x : R) : list fl := map Some [x; x + 1; x + 2]%R ++ (if ref then None else Some x) :: map Some [x; x; x + 1; x + 2; x; x + 5]%R.
Definition exav (ref : bool) : avin :=
  let col := map Some [1; 2; 3]%R in let rows := map (exrow ref) [10; 20; 30]%R in let u := [[Some 1; Some 2]; [Some 1; None]; [Some 2; Some 3]]%R in
  mkAvin rows rows rows col col col 19 18 [0; 1 / 2; 1]%R [0; 1 / 2; 1]%R u u u u
    [("latitude"%string, col); ("BT11"%string, map Some [280; 290; 300]%R); ("ref_BT11"%string, map Some [281; 291; 301]%R); ("junk"%string, col)].
Definition exrad (s : option string) (l : list fl) : res (list fl) := Ok (map (option_map (fun x => x / 10)%R) l).
Lemma exav_good ref : good_input exrad (exav ref) 2 2 11 (map Some [280; 290; 300]%R) (Some (map Some [281; 291; 301]%R)).
Proof.
  constructor.
  - constructor; try reflexivity; try discriminate; try (split; [reflexivity|]; cbn; destruct ref; intuition (subst; reflexivity)).
    intros n v H. cbn in H. repeat (destruct H as [H|H]; [injection H as <- <-; reflexivity|]). destruct H.
  - constructor; [cbn; repeat (constructor; [cbn [In]; intuition discriminate|]); constructor|]. exists "1"%char, "1"%char, 1%Z, 1%Z. do 5 (split; [reflexivity|]).
    intros n H. cbn in H. intros C. repeat (destruct H as [<-|H]; [first [discriminate C|left; reflexivity|right; reflexivity]|]). destruct H.
  - intros b _. split; eexists; reflexivity.
  - exists 0. split; [cbn; lia|]. assert (C : forall u, nth_error u 0 = Some [Some 1; Some 2]%R -> complete u 0) by (intros u Hu; eexists; split; [exact Hu|cbn [In]; intuition discriminate]). repeat split; apply C; reflexivity.
Qed.
Lemma exav_kept ref : kept (exav ref) [0; 2].
Proof.
  split; [repeat constructor|]. assert (C : forall u, u = [[Some 1; Some 2]; [Some 1; None]; [Some 2; Some 3]]%R -> forall i, complete u i <-> i = 0 \/ i = 2).
  { intros u -> i. unfold complete. split.
    - intros (r & Hr & Hn). destruct i as [|[|[|i]]]; auto; [|destruct i; discriminate]. injection Hr as <-. exfalso. apply Hn. cbn; auto.
    - intros [->| ->]; eexists; (split; [reflexivity|cbn [In]; intuition discriminate]). }
  intros i. unfold usable. rewrite (C (a_uS1 (exav ref))), (C (a_uI1 (exav ref))), (C (a_uS2 (exav ref))), (C (a_uI2 (exav ref))) by reflexivity. change (n_matchups (exav ref)) with 3. cbn [In]. intuition lia.
Qed.
Lemma exav_ref ref : sensor1_is (exav ref) ref.
Proof. destruct ref; cbn; [eexists; split; reflexivity|eexists; eexists; split; reflexivity]. Qed.
Lemma exav_files ref : exists files, av_main exrad (exav ref) None = Ok files /\ length files = 6.
Proof. destruct (C89_six_files _ _ _ _ _ _ _ (exav_good ref)) as (r & i & files & _ & _ & _ & E & L). eauto. Qed.
Example C89_example : forall ref, exists files o, av_main exrad (exav ref) None = Ok files /\ nth_error files 5 = Some o /\ o_K o = [Some 1; Some 3]%R /\ lookup "lat2"%string (o_adds o) = Some [Some 1; Some 3]%R /\ o_s2 o = "n18"%string.
Proof.
  intros ref. destruct (exav_files ref) as (files & E & L). destruct (nth_error files 5) as [o|] eqn:Eo; [|apply nth_error_None in Eo; lia]. exists files, o. do 2 (split; [auto|]).
  pose proof (C89_match_ups _ _ _ _ _ _ _ ref [0; 2] files 5 o (exav_good ref) (exav_ref ref) (exav_kept ref) E Eo) as H. cbv zeta in H. destruct H. rewrite h_K. split; [reflexivity|]. split; [rewrite (h_geo "latitude"%string "lat2"%string) by (left; reflexivity); reflexivity|].
  cbn in h_s2. congruence.
Qed.

(** ** C90 *)
(** The first four files describe space and target counts as rolling averages of the scan lines of the kept match-ups. *)
Theorem C90_rolling_averages : forall torad f k1 k2 band bt ref_bt ref idx files j o, good_input torad f k1 k2 band bt ref_bt -> sensor1_is f ref -> kept f idx -> av_main torad f None = Ok files ->
  j < 4 -> nth_error files j = Some o -> exists mv, o_W o = Some mv /\
    (forall c, c < 2 -> averaged_column mv (wuse2 R mv) (uuse2 R mv) (at_ 0%R idx (a_t2 f)) (scan_lines (a_uS2 f) (a_uI2 f) c idx) c) /\
    (ref = false -> forall c, c < 2 -> averaged_column mv (wuse1 R mv) (uuse1 R mv) (at_ 0%R idx (a_t1 f)) (scan_lines (a_uS1 f) (a_uI1 f) c idx) c).
Proof.
  intros torad f k1 k2 band bt ref_bt ref idx files j o G HR HK E Hj4 Hj.
  destruct (conversion_all torad f k1 k2 band bt ref_bt ref idx files G HR HK E) as (p & n1 & n2 & c1 & c2 & W1 & u1 & v1 & W2 & u2 & v2 & RD & S1 & S2 & WM & _ & _ & _ & _ & EF). destruct (p_dirs p) as (d3, d4). cbv zeta in EF. subst files.
  do 4 (destruct j as [|j]; [cbn [nth_error] in Hj; injection Hj as <-;
    match goal with |- exists mv, o_W (outf p ?dir (m1_of ref ?m) ?m n1 n2 ?a ?b ?c ?d ?e ?g _) = _ /\ _ =>
      destruct (averaged_ok torad f k1 k2 band bt ref_bt ref idx p W1 u1 v1 W2 u2 v2 dir m n1 n2 a b c d e g G HK RD WM) as (mv & Q1 & Q2 & Q3 & _); [auto|]; exists mv; auto end|]). lia.
Qed.
Print Assumptions C90_rolling_averages.
Example C90_example : forall ref, exists files o mv, av_main exrad (exav ref) None = Ok files /\ nth_error files 1 = Some o /\ o_W o = Some mv /\
  averaged_column mv (wuse2 R mv) (uuse2 R mv) [0; 1]%R [[1; 2]; [2; 3]]%R 0.
Proof.
  intros ref. destruct (exav_files ref) as (files & E & L). destruct (nth_error files 1) as [o|] eqn:Eo; [|apply nth_error_None in Eo; lia].
  destruct (C90_rolling_averages _ _ _ _ _ _ _ ref [0; 2] files 1 o (exav_good ref) (exav_ref ref) (exav_kept ref) E) as (mv & H1 & H2 & _); [lia|auto|]. exists files, o, mv. do 3 (split; [auto|]). apply (H2 0). lia.
Qed.

(** ** C91 *)
(** Violated: the nominal measurands are the brightness temperatures, the radiances computed are dropped. *)
Theorem C91_nominal_measurand_refuted : forall torad f k1 k2 band bt ref_bt ref idx files o, good_input torad f k1 k2 band bt ref_bt -> sensor1_is f ref -> kept f idx -> av_main torad f None = Ok files -> In o files ->
  (lookup "nominal_measurand2"%string (o_adds o) = Some (at_ None idx bt) /\ lookup "nominal_measurand1"%string (o_adds o) = option_map (at_ None idx) ref_bt) /\
  forall rad i, torad (get_new_name (a_s2 f)) bt = Ok rad -> In i idx -> nth i rad None <> nth i bt None -> lookup "nominal_measurand2"%string (o_adds o) <> Some (at_ None idx rad).
Proof.
  intros torad f k1 k2 band bt ref_bt ref idx files o G HR HK E Ho.
  destruct (conversion_all torad f k1 k2 band bt ref_bt ref idx files G HR HK E) as (p & n1 & n2 & c1 & c2 & W1 & u1 & v1 & W2 & u2 & v2 & RD & S1 & S2 & _ & _ & _ & _ & _ & EF). destruct (p_dirs p) as (d3, d4). cbv zeta in EF. subst files.
  assert (Q : lookup "nominal_measurand2"%string (o_adds o) = Some (at_ None idx bt) /\ lookup "nominal_measurand1"%string (o_adds o) = option_map (at_ None idx) ref_bt) by (cbn [In] in Ho; do 6 (destruct Ho as [<-|Ho]; [exact (nominal_ok torad G HK RD _ _ _ _ _ _ _ _ _ _ _)|]); destruct Ho).
  split; [exact Q|]. intros rad i _ Hi Hne H. destruct Q as (Q & _). rewrite Q in H. injection H as H. apply Hne. symmetry. unfold at_ in H. clear - H Hi. induction idx as [|x l IH]; [destruct Hi|]. cbn [map] in H. injection H as H1 H2. destruct Hi as [->|Hi]; auto.
Qed.
Print Assumptions C91_nominal_measurand_refuted.
Example C91_example_refuted : forall ref, exists files o, av_main exrad (exav ref) None = Ok files /\ In o files /\ exrad (Some "n18"%string) (map Some [280; 290; 300]%R) = Ok (map Some [280 / 10; 290 / 10; 300 / 10]%R) /\
  lookup "nominal_measurand2"%string (o_adds o) = Some [Some 280; Some 300]%R.
Proof.
  intros ref. destruct (exav_files ref) as (files & E & L). destruct files as [|o files]; [discriminate|]. exists (o :: files), o. split; [auto|]. split; [left; auto|]. split; [reflexivity|].
  apply (C91_nominal_measurand_refuted _ _ _ _ _ _ _ ref [0; 2] _ o (exav_good ref) (exav_ref ref) (exav_kept ref) E). left; auto.
Qed.

(** ** C92 *)
(** Violated: with a temperature limit no file is written at all. *)
Theorem C92_temperature_limit_refuted : forall torad f k1 k2 band bt ref_bt l, good_input torad f k1 k2 band bt ref_bt -> av_main torad f (Some l) = Raise KeyError.
Proof. intros torad f k1 k2 band bt ref_bt l G. exact (limit_keyerror torad f band bt ref_bt l (gi_bt _ _ _ _ _ _ _ G) (gi_rad _ _ _ _ _ _ _ G)). Qed.
(** The selection itself treats the limit correctly. *)
Theorem C92_selection_partial : forall u11 u12 u21 u22 bt l mask, valid_mask u11 u12 u21 u22 (Some (bt, l)) = Ok mask -> length u11 = length u12 -> length u11 = length u21 -> length u11 = length u22 ->
  length mask = length u11 /\ forall i, nth_error mask i = Some true <->
    (complete u11 i /\ complete u12 i /\ complete u21 i /\ complete u22 i) /\ exists b, nth_error bt i = Some b /\ forall x, b = Some x -> (l <= x)%R.
Proof.
  intros u11 u12 u21 u22 bt l mask H L1 L2 L3. destruct (mask_spec _ _ _ _ _ _ H L1 L2 L3) as (A & B). split; [auto|]. intros i. rewrite (B i). tauto.
Qed.
Print Assumptions C92_temperature_limit_refuted.
Print Assumptions C92_selection_partial.
Example C92_example_refuted : forall ref, av_main exrad (exav ref) (Some 285%R) = Raise KeyError.
Proof. intros ref. exact (C92_temperature_limit_refuted _ _ _ _ _ _ _ 285%R (exav_good ref)). Qed.
Example C92_example : exists mask, valid_mask [[Some 1]; [Some 1]; [None]]%R [[Some 1]; [Some 1]; [Some 1]]%R [[Some 1]; [Some 1]; [Some 1]]%R [[Some 1]; [Some 1]; [Some 1]]%R (Some (map Some [280; 290; 300]%R, 285%R)) = Ok mask /\ nth_error mask 1 = Some true.
Proof.
  eexists. split; [reflexivity|]. cbn. destruct (Rlt_dec 290 285); [lra|reflexivity].
Qed.

(** ** C93 *)
(** 11 and 12 micrometres: directories 101 (three parameters) and 102 (four parameters). *)
Theorem C93_directories_partial : forall torad f k1 k2 band bt ref_bt files, good_input torad f k1 k2 band bt ref_bt -> band <> 37%Z -> av_main torad f None = Ok files ->
  map o_dir files = ["AVHRR_REAL_101_RSW_"; "AVHRR_REAL_102_RSW_"; "AVHRR_REAL_101_R_W_"; "AVHRR_REAL_102_R_W_"; "AVHRR_REAL_101_R___"; "AVHRR_REAL_102_R___"]%string.
Proof.
  intros torad f k1 k2 band bt ref_bt files G _ E. destruct (conversion_ex torad f k1 k2 band bt ref_bt G) as (ref & idx & files' & _ & _ & _ & E' & C). rewrite E in E'. injection E' as <-.
  destruct C as (p & n1 & n2 & c1 & c2 & W1 & u1 & v1 & W2 & u2 & v2 & RD & _ & _ & _ & _ & _ & _ & _ & EF). rewrite (r_dirs _ _ _ _ _ _ _ _ _ RD) in EF. cbn in EF. subst files. reflexivity.
Qed.
(** Violated for 3.7 micrometres: the files are written to the directories of the other channels. *)
Theorem C93_band_37_refuted : forall torad f k1 k2 bt ref_bt files, good_input torad f k1 k2 37 bt ref_bt -> av_main torad f None = Ok files ->
  map o_dir files = ["AVHRR_REAL_101_RSW_"; "AVHRR_REAL_102_RSW_"; "AVHRR_REAL_101_R_W_"; "AVHRR_REAL_102_R_W_"; "AVHRR_REAL_101_R___"; "AVHRR_REAL_102_R___"]%string.
Proof.
  intros torad f k1 k2 bt ref_bt files G E. destruct (conversion_ex torad f k1 k2 37 bt ref_bt G) as (ref & idx & files' & _ & _ & _ & E' & C). rewrite E in E'. injection E' as <-.
  destruct C as (p & n1 & n2 & c1 & c2 & W1 & u1 & v1 & W2 & u2 & v2 & RD & _ & _ & _ & _ & _ & _ & _ & EF). rewrite (r_dirs _ _ _ _ _ _ _ _ _ RD) in EF. cbn in EF. subst files. reflexivity.
Qed.
Print Assumptions C93_directories_partial.
Print Assumptions C93_band_37_refuted.
Definition exav37 : avin := let f := exav false in mkAvin (a_H f) (a_Us f) (a_Ur f) (a_K f) (a_Kr f) (a_Ks f) 19 18 (a_t1 f) (a_t2 f) (a_uS1 f) (a_uI1 f) (a_uS2 f) (a_uI2 f) [("BT37"%string, map Some [280; 290; 300]%R)].
Example C93_example_refuted : exists files, av_main exrad exav37 None = Ok files /\ nth_error (map o_dir files) 0 = Some "AVHRR_REAL_101_RSW_"%string.
Proof.
  assert (G : good_input exrad exav37 2 2 37 (map Some [280; 290; 300]%R) None).
  { destruct (exav_good false) as [F _ _ S]. constructor.
    - destruct F. constructor; auto. intros n v [H|[]]. injection H as <- <-. reflexivity.
    - constructor; [cbn; repeat (constructor; [cbn [In]; intuition discriminate|]); constructor|]. exists "3"%char, "7"%char, 3%Z, 7%Z. do 5 (split; [reflexivity|]). intros n [<-|[]] _. left; reflexivity.
    - intros b H. discriminate H.
    - exact S. }
  destruct (C89_six_files _ _ _ _ _ _ _ G) as (ref & idx & files & _ & _ & _ & E & _). exists files. split; [auto|]. rewrite (C93_band_37_refuted _ _ _ _ _ _ _ G E). reflexivity.
Qed.
Example C93_example : exists files, av_main exrad (exav true) None = Ok files /\ nth_error (map o_dir files) 1 = Some "AVHRR_REAL_102_RSW_"%string.
Proof. destruct (exav_files true) as (files & E & _). exists files. split; [auto|]. rewrite (C93_directories_partial _ _ _ _ _ _ _ _ (exav_good true) ltac:(discriminate) E). reflexivity. Qed.

(** ** C94 *)
(** The files without structured effects: the random uncertainty written for a rolling average is the sum of the contributions of its scan lines. *)
Theorem C94_sums_partial : forall torad f k1 k2 band bt ref_bt ref idx files j o o' mv, good_input torad f k1 k2 band bt ref_bt -> sensor1_is f ref -> kept f idx -> av_main torad f None = Ok files ->
  j < 2 -> nth_error files j = Some o -> nth_error files (j + 4) = Some o' -> o_W o = Some mv ->
  (forall c, c < 2 -> summed_column mv (wuse2 R mv) (uuse2 R mv) (o_Ur2 o') c) /\ (ref = false -> forall c, c < 2 -> summed_column mv (wuse1 R mv) (uuse1 R mv) (o_Ur1 o') c).
Proof.
  intros torad f k1 k2 band bt ref_bt ref idx files j o o' mv G HR HK E Hj Ho Ho' Hmv.
  destruct (conversion_all torad f k1 k2 band bt ref_bt ref idx files G HR HK E) as (p & n1 & n2 & c1 & c2 & W1 & u1 & v1 & W2 & u2 & v2 & RD & S1 & S2 & WM & C2 & C1 & _ & _ & EF). destruct (p_dirs p) as (d3, d4). cbv zeta in EF. subst files.
  assert (N : forall ws us W u v rows rows' m (wuse uuse : list nat), combined W u v rows rows' -> m = 4 \/ m = 5 ->
     (exists w a b, nth_error wuse 0 = Some w /\ nth_error wuse 1 = Some w /\ open_w_matrix R ws w = Ok W /\ nth_error uuse 0 = Some a /\ nth_error uuse 1 = Some b /\ open_u_matrix R us a = Ok u /\ open_u_matrix R us b = Ok v) -> ws = us ->
     forall c, c < 2 -> summed_column ws wuse uuse (map (firstn m) rows') c).
  { intros ws us W u v rows rows' m wuse uuse C Hm (w & a & b & A1 & A2 & A3 & A4 & A5 & A6 & A7) -> c Hc.
    assert (Q : forall i r, nth_error (map (firstn m) rows') i = Some r -> nth_error r 0 = Some (Some (rsum (contributions W u i))) /\ nth_error r 1 = Some (Some (rsum (contributions W v i)))).
    { intros i r Hr. destruct (nth_error (map (firstn m) rows) i) as [r'|] eqn:Er; [destruct (combined_cols _ _ _ _ _ _ _ _ _ C Hm Hr Er) as (_ & B1 & B2 & _); auto|].
      exfalso. apply nth_error_None in Er. assert (Hl : nth_error (map (firstn m) rows') i <> None) by congruence. apply nth_error_Some in Hl. rewrite map_length in *. destruct C as (L & _). lia. }
    destruct c as [|[|]]; [| |lia]; [exists w, a, W, u|exists w, b, W, v]; do 4 (split; [assumption|]); intros i r Hr; apply (Q i r Hr). }
  destruct j as [|[|]]; [| |lia]; cbn [nth_error Nat.add] in Ho, Ho'; injection Ho as <-; injection Ho' as <-.
  - destruct (averaged_ok torad f k1 k2 band bt ref_bt ref idx p W1 u1 v1 W2 u2 v2 (dirname d3 "RSW_") 4 n1 n2 (p_Ur1 p) (p_Ur2 p) (p_Us1 p) (p_Us2 p) (types1 ref) types2 G HK RD WM (or_introl eq_refl)) as (mv' & Q1 & _ & _ & Q2 & Q3). rewrite Hmv in Q1. injection Q1 as <-.
    split; [apply (N mv mv W2 u2 v2 (p_Ur2 p) c2 4); auto|]. intros ->. apply (N mv mv W1 u1 v1 (p_Ur1 p) c1 4); auto.
  - destruct (averaged_ok torad f k1 k2 band bt ref_bt ref idx p W1 u1 v1 W2 u2 v2 (dirname d4 "RSW_") 5 n1 n2 (p_Ur1 p) (p_Ur2 p) (p_Us1 p) (p_Us2 p) (types1 ref) types2 G HK RD WM (or_intror eq_refl)) as (mv' & Q1 & _ & _ & Q2 & Q3). rewrite Hmv in Q1. injection Q1 as <-.
    split; [apply (N mv mv W2 u2 v2 (p_Ur2 p) c2 5); auto|]. intros ->. apply (N mv mv W1 u1 v1 (p_Ur1 p) c1 5); auto.
Qed.
(** That is never less than the standard uncertainty of an average of independent scan lines. *)
Theorem C94_upper_bound_partial : forall W u i, (forall x, In x (contributions W u i) -> (0 <= x)%R) -> (quadratic_sum (contributions W u i) <= rsum (contributions W u i))%R.
Proof. intros W u i H. apply quadratic_le. exact H. Qed.
(** Violated: as soon as two scan lines contribute, it is not that standard uncertainty. *)
Theorem C94_standard_uncertainty_refuted : forall mv wuse uuse ur c w k W u i r a b x y, summed_column mv wuse uuse ur c ->
  nth_error wuse c = Some w -> nth_error uuse c = Some k -> open_w_matrix R mv w = Ok W -> open_u_matrix R mv k = Ok u -> nth_error ur i = Some r ->
  (forall x, In x (contributions W u i) -> (0 <= x)%R) -> a < b -> nth_error (contributions W u i) a = Some x -> nth_error (contributions W u i) b = Some y -> (0 < x)%R -> (0 < y)%R ->
  exists v, nth_error r c = Some (Some v) /\ (quadratic_sum (contributions W u i) < v)%R.
Proof.
  intros mv wuse uuse ur c w k W u i r a b x y (w' & k' & W' & u' & A1 & A2 & A3 & A4 & A5) B1 B2 B3 B4 Hr Hp Hab Ha Hb Hx Hy.
  rewrite A1 in B1. injection B1 as <-. rewrite A2 in B2. injection B2 as <-. rewrite A3 in B3. injection B3 as <-. rewrite A4 in B4. injection B4 as <-.
  eexists. split; [apply (A5 _ _ Hr)|]. eapply quadratic_lt; eauto.
Qed.
Print Assumptions C94_sums_partial.
Print Assumptions C94_upper_bound_partial.
Print Assumptions C94_standard_uncertainty_refuted.
Example C94_example : forall ref, exists files o o' mv, av_main exrad (exav ref) None = Ok files /\ nth_error files 1 = Some o /\ nth_error files 5 = Some o' /\ o_W o = Some mv /\ summed_column mv (wuse2 R mv) (uuse2 R mv) (o_Ur2 o') 0.
Proof.
  intros ref. destruct (exav_files ref) as (files & E & L). destruct (nth_error files 1) as [o|] eqn:Eo; [|apply nth_error_None in Eo; lia]. destruct (nth_error files 5) as [o'|] eqn:Eo'; [|apply nth_error_None in Eo'; lia].
  destruct (C90_rolling_averages _ _ _ _ _ _ _ ref [0; 2] files 1 o (exav_good ref) (exav_ref ref) (exav_kept ref) E) as (mv & H1 & _); [lia|auto|]. exists files, o, o', mv. do 4 (split; [auto|]).
  apply (C94_sums_partial _ _ _ _ _ _ _ ref [0; 2] files 1 o o' mv (exav_good ref) (exav_ref ref) (exav_kept ref) E); auto.
Qed.
(** Two scan lines with weight 1/2 and uncertainty 1: sum 1, standard uncertainty sqrt (1/2). *)
Example C94_example_refuted : exists W u, contributions W u 0 = [1 / 2; 1 / 2]%R /\ (quadratic_sum (contributions W u 0) < rsum (contributions W u 0))%R.
Proof.
  exists (mkCsr R [1 / 2; 1 / 2]%R [0; 1] [0; 2] 1 2), [1; 1]%R.
  assert (E : contributions (mkCsr R [1 / 2; 1 / 2]%R [0; 1] [0; 2] 1 2) [1; 1]%R 0 = [1 / 2; 1 / 2]%R) by (cbn; repeat (f_equal; try lra)).
  split; [exact E|]. rewrite E. apply (quadratic_lt _ 0 1 (1 / 2) (1 / 2)); [cbn; intuition (subst; lra)|lia|reflexivity|reflexivity|lra|lra].
Qed.

(** ** C95 *)
(** Files 1-2: all effects; 3-4: no systematic effects; 5-6: random effects only. *)
Theorem C95_effects : forall torad f k1 k2 band bt ref_bt ref idx files j o, good_input torad f k1 k2 band bt ref_bt -> sensor1_is f ref -> kept f idx -> av_main torad f None = Ok files ->
  nth_error files j = Some o -> let m2 := if Nat.even j then 4 else 5 in
  (j < 2 -> full_file f ref idx (m1_of ref m2) m2 o) /\ (2 <= j < 4 -> structured_file f ref idx (m1_of ref m2) m2 o) /\ (4 <= j -> random_file f ref idx (m1_of ref m2) m2 o).
Proof.
  intros torad f k1 k2 band bt ref_bt ref idx files j o G HR HK E Hj.
  destruct (conversion_all torad f k1 k2 band bt ref_bt ref idx files G HR HK E) as (p & n1 & n2 & c1 & c2 & W1 & u1 & v1 & W2 & u2 & v2 & RD & S1 & S2 & WM & C2 & C1 & Q1 & Q2 & EF). destruct (p_dirs p) as (d3, d4). cbv zeta in EF. subst files.
  do 2 (destruct j as [|j]; [cbn [nth_error] in Hj; injection Hj as <-; cbn [Nat.even]; (split; [intros _; apply (full_ok torad G HK RD); auto|split; intros; lia])|]).
  do 2 (destruct j as [|j]; [cbn [nth_error] in Hj; injection Hj as <-; cbn [Nat.even]; (split; [intros; lia|split; [intros _; apply (structured_ok torad G HK RD); auto|intros; lia]])|]).
  do 2 (destruct j as [|j]; [cbn [nth_error] in Hj; injection Hj as <-; cbn [Nat.even]; (split; [intros; lia|split; [intros; lia|intros _; apply (random_ok torad G HK RD _ _ _ _ c1 c2 W1 u1 v1 W2 u2 v2); auto]])|]).
  destruct j; discriminate.
Qed.
Print Assumptions C95_effects.
Example C95_example : exists files o, av_main exrad (exav false) None = Ok files /\ nth_error files 2 = Some o /\ o_ut2 o = [3; 3; 1; 1] /\ o_Us2 o = [[Some 0; Some 0; Some 0; Some 0]; [Some 0; Some 0; Some 0; Some 0]]%R.
Proof.
  destruct (exav_files false) as (files & E & L). destruct (nth_error files 2) as [o|] eqn:Eo; [|apply nth_error_None in Eo; lia]. exists files, o. do 2 (split; [auto|]).
  destruct (C95_effects _ _ _ _ _ _ _ false [0; 2] files 2 o (exav_good false) (exav_ref false) (exav_kept false) E Eo) as (_ & H & _). destruct H; [lia|]. split; [exact sf_ut2|exact sf_us2].
Qed.
