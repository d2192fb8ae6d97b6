(** * Result files: C32, C33, C34, C61, C62, C63. *)
From Coq Require Import Permutation.
From Verif Require Import Base BaseLemmas ReaderModel SampleSpec HRModel HRSpec HRText HRProofs.

(** ** C32 *)
Theorem C32_no_file_is_output_and_residual : forall name,
  (is_output name = true <-> re_match output_rule name) /\ (is_residual name = true <-> re_match residual_rule name) /\
  ~ (is_output name = true /\ is_residual name = true).
Proof.
  intros name. split; [apply output_iff|]. split; [apply residual_iff|]. intros (H1 & H2). apply (not_both name).
  split; [apply output_iff; auto|apply residual_iff; auto].
Qed.
Theorem C32_saved_files_are_recognised : forall out, harm_name out ->
  is_output out = true /\ forall s1 s2, one_line s1 -> one_line s2 -> is_residual (res_name out s1 s2) = true.
Proof. intros out H. split; [apply saved_output; auto|]. intros. apply saved_residual; auto. Qed.
Print Assumptions C32_no_file_is_output_and_residual.
Print Assumptions C32_saved_files_are_recognised.
Lemma one_lineb s : forallb (fun c => negb (Ascii.eqb c newline)) (tx s) = true -> one_line s.
Proof. intros H Hn. rewrite forallb_forall in H. specialize (H _ Hn). rewrite Ascii.eqb_refl in H. discriminate. Qed.
Lemma no_sub sub s : contains (tx sub) (tx s) = false -> ~ has_sub sub s.
Proof. intros H (a & b & ->). rewrite !tx_app in H. assert (E : contains (tx sub) (tx a ++ tx sub ++ tx b) = true) by (apply contains_spec; eauto). congruence. Qed.
Example C32_case : harm_name "harm_out_3.nc" /\ res_name "harm_out_3.nc" "n19" "n18" = "harm_out_3_res_n19_n18.nc"%string.
Proof.
  split; [|reflexivity]. split; [apply one_lineb; reflexivity|]. split; [apply no_sub; reflexivity|]. exists "_out_3"%string. reflexivity.
Qed.

(** ** C34 *)
Theorem C34_labels_survive : forall ls, (forall l, In l ls -> clean_label l) ->
  exists rows, write_labels ls = Ok rows /\ (forall row, In row rows -> length row = 80) /\ read_labels rows = ls.
Proof.
  intros ls H. destruct (labels_roundtrip ls H) as (rows & E & E2). exists rows. split; [auto|]. split; [|auto].
  unfold write_labels in E. destruct (forallb _ _) eqn:F; [|discriminate]. injection E as <-. rewrite forallb_forall in F. intros row Hr. apply Nat.eqb_eq. apply F. auto.
Qed.
(** A label longer than the width is an error, not a truncation. *)
Theorem C34_long_label_is_an_error : forall ls l, In l ls -> 80 < String.length l -> write_labels ls = Raise ValueError.
Proof.
  intros ls l Hl H. unfold write_labels. destruct (forallb _ _) eqn:F; [|reflexivity]. exfalso. rewrite forallb_forall in F.
  specialize (F (pad (tx l)) (in_map (fun l => pad (tx l)) _ _ Hl)). apply Nat.eqb_eq in F. unfold pad in F. rewrite app_length, repeat_length, tx_len in F. unfold max_l_name in F. lia.
Qed.
Print Assumptions C34_labels_survive.
Print Assumptions C34_long_label_is_an_error.
Example C34_case : exists rows, write_labels ["n19"; "metop a"; ""]%string = Ok rows /\ read_labels rows = ["n19"; "metop a"; ""]%string.
Proof. eexists. split; [reflexivity|]. vm_compute. reflexivity. Qed.

(** ** C33 *)
Theorem C33_one_file_per_series : forall (V A : Type) (fillV : V) out (r : result V A) d0 d1,
  harm_name out -> wf_result r -> distinct_pairs r -> save V A fillV out true r d0 = Ok d1 ->
  (forall i s1 s2, series_names (h_idx V A r) i s1 s2 ->
     exists M X k, lookup (res_name out s1 s2) d1 = Some (FRes V A (mkRes V s1 s2 M X k)) /\
       nth_error (rx_Nm (h_idx V A r)) i = Some M /\ is_block (rx_cNm (h_idx V A r)) (h_ks V A r) i k /\ length k = M) /\
  (forall i j s1 s2 t1 t2, series_names (h_idx V A r) i s1 s2 -> series_names (h_idx V A r) j t1 t2 ->
     res_name out s1 s2 = res_name out t1 t2 -> i = j).
Proof. intros V A fillV out r d0 d1 Ho W D H. split; [eapply saved_files; eauto|]. intros. eapply files_distinct; eauto. Qed.
(** The name of the residual file of sensors s1 and s2, written beside harm<mid>.nc. *)
Theorem C33_residual_names : forall mid s1 s2,
  res_name ("harm" ++ mid ++ ".nc")%string s1 s2 = ("harm" ++ mid ++ "_res_" ++ s1 ++ "_" ++ s2 ++ ".nc")%string.
Proof. intros mid s1 s2. rewrite (res_name_harm _ s1 s2 mid eq_refl). apply tx_inj. rewrite !tx_app, <- !app_assoc. reflexivity. Qed.
Theorem C33_saved_results_are_opened : forall (V A : Type) (zeroV fillV : V) (str_attr : string -> A) out (r : result V A) d0,
  harm_name out -> wf_result r -> distinct_pairs r -> h_values V A r = None -> rx_Nm (h_idx V A r) <> [] ->
  (forall l, In l (h_sens V A r) -> clean_label l) -> free_attrs (h_attrs V A r) ->
  (forall s, In s (rx_sensors (h_idx V A r)) -> one_line s) -> no_results d0 ->
  exists d1, save V A fillV out true r d0 = Ok d1 /\
    forall listing, Permutation d1 listing ->
      exists r' order, open_result V A zeroV str_attr listing = Ok r' /\ same_results r r' order.
Proof. intros V A zeroV fillV sa out r d0. apply save_open. Qed.
Print Assumptions C33_one_file_per_series.
Print Assumptions C33_residual_names.
Print Assumptions C33_saved_results_are_opened.

Open Scope string_scope.
Definition hx_idx (Im : list (nat * nat)) (Nm : list nat) (b : option blocks_t) : ridx :=
  mkRidx Nm (cumul 0 Nm) Im ["ref"; "n19"; "n18"] [1; 2; 2] b.
Definition hx_blocks : blocks_t :=
  mkBlocks [0; 1; 1; 2; 1; 1; 2] [1; 1; 2; 2; 1; 2; 2] [1; 1; 1; 1; 2; 2; 2] [1; 1; 1; 1; 1; 1; 1] [0; 1; 2; 3; 4; 5; 6; 7].
Definition hx (Im : list (nat * nat)) (Nm : list nat) (values : option (list nat)) (ks : list nat) : result nat string :=
  mkResult nat string [11; 12; 13] ["n19"; "n19"; "n18"] [[1; 0; 0]; [0; 2; 0]; [0; 0; 3]] "3.5" "2" "0.17" (hx_idx Im Nm (Some hx_blocks)) values ks [("comment", "run 7")].
Definition hr := hx [(0, 1); (1, 2)] [2; 1] None [100; 101; 102].
Lemma hx_wf Im Nm values ks : length Im = length Nm -> (forall i p, nth_error Im i = Some p -> fst p < 3 /\ snd p < 3) -> length ks = list_sum Nm ->
  wf_result (hx Im Nm values ks).
Proof. intros H1 H2 H3. constructor; cbn; auto. discriminate. Qed.
Lemma hr_wf : wf_result hr.
Proof. apply hx_wf; [reflexivity| |reflexivity]. intros [|[|[|i]]] p H; cbn in H; try discriminate; injection H as <-; cbn; lia. Qed.
Lemma hr_distinct : distinct_pairs hr.
Proof.
  intros i j s1 s2 t1 t2 (p & Hp & H1 & H2) (q & Hq & H3 & H4) H. cbn in Hp, Hq, H1, H2, H3, H4.
  destruct i as [|[|i]]; cbn in Hp; [| |destruct i; discriminate]; injection Hp as <-; (destruct j as [|[|j]]; cbn in Hq; [| |destruct j; discriminate]); injection Hq as <-; cbn in *; auto;
    injection H1 as <-; injection H2 as <-; injection H3 as <-; injection H4 as <-; discriminate.
Qed.
(** The hypotheses of C33 hold, and the two theorems say something: *)
Example C33_case : exists d1 r', save nat string 999 "harm_out.nc" true hr [("readme.txt", FOther nat string)] = Ok d1 /\
  lookup "harm_out_res_n19_n18.nc" d1 = Some (FRes nat string (mkRes nat "n19" "n18" 1 None [102])) /\
  open_result nat string 0 (fun s => s) (rev d1) = Ok r' /\ same_results hr r' [1; 0] /\ h_ks nat string r' = [102; 100; 101].
Proof.
  eexists. eexists. split; [vm_compute; reflexivity|]. split; [vm_compute; reflexivity|]. split; [vm_compute; reflexivity|]. split; [|reflexivity].
  do 6 (split; [reflexivity|]). split; [cbn; constructor|]. split; [reflexivity|]. split; [reflexivity|].
  intros j i H. destruct j as [|[|j]]; [| |destruct j; discriminate]; injection H as <-; (split; [reflexivity|split]).
  - intros s1 s2 (p & Hp & H1 & H2). injection Hp as <-. injection H1 as <-. injection H2 as <-. exists (0, 1). repeat split.
  - intros k (lo & hi & H1 & H2 & _ & ->). injection H1 as <-. injection H2 as <-. exists 0, 1. cbn. repeat split; lia.
  - intros s1 s2 (p & Hp & H1 & H2). injection Hp as <-. injection H1 as <-. injection H2 as <-. exists (2, 0). repeat split.
  - intros k (lo & hi & H1 & H2 & _ & ->). injection H1 as <-. injection H2 as <-. exists 1, 3. cbn. repeat split; lia.
Qed.
Example C33_hypotheses : harm_name "harm_out.nc" /\ wf_result hr /\ distinct_pairs hr /\ (forall l, In l (h_sens nat string hr) -> clean_label l) /\
  free_attrs (h_attrs nat string hr) /\ (forall s, In s (rx_sensors (h_idx nat string hr)) -> one_line s).
Proof.
  split; [split; [apply one_lineb; reflexivity|split; [apply no_sub; reflexivity|exists "_out"; reflexivity]]|]. split; [apply hr_wf|]. split; [apply hr_distinct|].
  split; [|split].
  - assert (C : forall l, String.length l <= 80 -> forallb (fun c => negb (is_blank c) && negb (is_nul c)) (tx l) = true -> clean_label l).
    { intros l Hl H. rewrite forallb_forall in H. split; [auto|]. split; [|split].
      - intros Hi. apply H in Hi. discriminate.
      - intros c s E Hb. assert (Hi : In c (tx l)) by (rewrite E; left; auto). apply H in Hi. apply blank_iff in Hb. rewrite Hb in Hi. discriminate.
      - intros c s E Hb. assert (Hi : In c (tx l)) by (rewrite E; apply in_or_app; right; left; auto). apply H in Hi. apply blank_iff in Hb. rewrite Hb in Hi. discriminate. }
    cbn. intros l [<-|[<-|[<-|[]]]]; (apply C; [cbn; lia|reflexivity]).
  - cbn. intros k v [E|[]]. injection E as <- <-. cbn. intuition discriminate.
  - cbn. intros s [<-|[<-|[<-|[]]]]; apply one_lineb; reflexivity.
Qed.

(** ** C61: names *)
Theorem C61_result_name_with_res_refuted : exists out, (exists mid, out = "harm" ++ mid ++ ".nc") /\
  is_output out = false /\ is_residual out = true /\
  forall d1, save nat string 999 out false hr [] = Ok d1 -> open_output_only nat string d1 = Raise IOError.
Proof.
  exists "harm_resampled.nc". split; [exists "_resampled"; reflexivity|]. split; [reflexivity|]. split; [reflexivity|].
  intros d1 H. vm_compute in H. injection H as <-. reflexivity.
Qed.
Theorem C61_other_files_refuted : exists name, (~ exists p, name = p ++ ".nc") /\ is_output name = true /\
  forall d1 f, save nat string 999 "harm_out.nc" false hr [] = Ok d1 -> open_output_only nat string ((name, f) :: d1) = Raise IOError.
Proof.
  exists "harm_out.nc.tmp". split; [|split; [reflexivity|]].
  - intros (p & H). apply (f_equal (fun s => rev (tx s))) in H. rewrite tx_app, rev_app_distr in H. discriminate.
  - intros d1 f H. vm_compute in H. injection H as <-. reflexivity.
Qed.
Print Assumptions C61_result_name_with_res_refuted.
Print Assumptions C61_other_files_refuted.

(** ** C62: what is lost when saving *)
(** X residuals are not stored, whatever they are: every stored value is the fill value. *)
Theorem C62_X_residuals_refuted : forall (V A : Type) (fillV : V) (r : result V A) b values i n M m rows,
  res_X V A fillV r b values i n M = Ok (m, rows) -> rows = repeat (repeat fillV m) M.
Proof.
  intros V A fillV r b values i n M m rows H. unfold res_X in H. destruct (get _ _); cbn [bind] in H; [|discriminate].
  destruct (mapM _ _); cbn [bind] in H; [|discriminate]. injection H as <- <-. reflexivity.
Qed.
Definition hr_x := hx [(0, 1); (1, 2)] [1; 1] (Some [1; 2; 3; 4; 5; 6; 7]) [100; 101].
Example C62_case : exists d1, save nat string 999 "harm_out.nc" true hr_x [] = Ok d1 /\
  lookup "harm_out_res_ref_n19.nc" d1 = Some (FRes nat string (mkRes nat "ref" "n19" 1 (Some ((1, [[999]]), (2, [[999; 999]]))) [100])).
Proof. eexists. split; vm_compute; reflexivity. Qed.
(** Two series of one pair of sensors, or of pairs whose joined names agree, share one file. *)
Definition hr_twice := hx [(1, 2); (1, 2)] [2; 1] None [100; 101; 102].
Theorem C62_same_pair_refuted : wf_result hr_twice /\ exists d1, save nat string 999 "harm_out.nc" true hr_twice [] = Ok d1 /\
  map fst d1 = ["harm_out.nc"; "harm_out_res_n19_n18.nc"] /\
  lookup "harm_out_res_n19_n18.nc" d1 = Some (FRes nat string (mkRes nat "n19" "n18" 1 None [102])).
Proof.
  split.
  - apply hx_wf; [reflexivity| |reflexivity]. intros [|[|[|i]]] p H; cbn in H; try discriminate; injection H as <-; cbn; lia.
  - eexists. split; [vm_compute; reflexivity|]. split; reflexivity.
Qed.
Theorem C62_joined_names_refuted : forall out, res_name out "n19_avhrr" "n18" = res_name out "n19" "avhrr_n18".
Proof.
  intros out. unfold res_name. do 4 (apply (f_equal (String.append _))). reflexivity.
Qed.
Print Assumptions C62_X_residuals_refuted.
Print Assumptions C62_same_pair_refuted.
Print Assumptions C62_joined_names_refuted.

(** ** C63: opening *)
(** Without residual files, the output file alone gives back everything saved in it, the additional attributes too (their names are not
    those of the required ones and do not begin with an underscore). *)
Theorem C63_output_file_partial : forall (V A : Type) (fillV : V) out (r : result V A) d0, harm_name out ->
  (forall l, In l (h_sens V A r) -> clean_label l) -> free_attrs (h_attrs V A r) -> NoDup (map fst (h_attrs V A r)) ->
  (forall k v, In (k, v) (h_attrs V A r) -> ~ exists k', k = "_" ++ k') -> no_results d0 ->
  exists d1, save V A fillV out false r d0 = Ok d1 /\ forall listing, Permutation d1 listing ->
    open_output_only V A listing = Ok (h_par V A r, h_sens V A r, h_cov V A r, (h_cost V A r, h_dof V A r, h_p V A r), h_attrs V A r).
Proof. intros V A fillV out r d0. apply save_open_output. Qed.
Print Assumptions C63_output_file_partial.
Example C63_output_case : exists d1, save nat string 999 "harm_out.nc" false hr [] = Ok d1 /\
  open_output_only nat string d1 = Ok (h_par nat string hr, h_sens nat string hr, h_cov nat string hr, (h_cost nat string hr, h_dof nat string hr, h_p nat string hr), [("comment", "run 7")]).
Proof. eexists. split; vm_compute; reflexivity. Qed.
(** Additional attributes are replaced by those of a residual file. *)
Theorem C63_attributes_refuted : exists d1 r', save nat string 999 "harm_out.nc" true hr [] = Ok d1 /\
  open_result nat string 0 (fun s => s) d1 = Ok r' /\ h_attrs nat string hr = [("comment", "run 7")] /\
  h_attrs nat string r' = [("sensor_1_name", "ref"); ("sensor_2_name", "n19")].
Proof. eexists. eexists. split; [vm_compute; reflexivity|]. split; [vm_compute; reflexivity|]. split; reflexivity. Qed.
(** A result opened from files without X residuals cannot be saved with residuals again. *)
Theorem C63_cannot_be_saved_again_refuted : forall (V A : Type) (zeroV fillV : V) (sa : string -> A) listing r' out d0,
  open_result V A zeroV sa listing = Ok r' -> h_values V A r' = None -> forall d1, save V A fillV out true r' d0 <> Ok d1.
Proof.
  intros V A zeroV fillV sa listing r' out d0 H HV d1 HS.
  assert (Hb : rx_blocks (h_idx V A r') = None).
  { unfold open_result in H. destruct (find_output V A listing) as [f|]; cbn [bind] in H; [|discriminate]. destruct (open_output V A f) as [[[[[par sens] cov] [[c dof] p]] at_]|]; cbn [bind] in H; [|discriminate].
    destruct (find_residuals V A listing) as [fs|]; cbn [bind] in H; [|discriminate]. destruct (open_res V A zeroV sa fs) as [[[[vals ks] ix] at2]|] eqn:E; cbn [bind] in H; [|discriminate].
    injection H as <-. cbn [h_values h_idx] in *. subst vals. unfold open_res in E. destruct (mapM (as_res V A) fs) as [rs|]; cbn [bind] in E; [|discriminate].
    destruct (get rs 0) as [f0|]; cbn [bind] in E; [|discriminate]. destruct (res_index V rs) as [ix'|]; cbn [bind] in E; [|discriminate].
    destruct (rx_blocks ix') as [b|] eqn:Eb; cbn [bind] in E.
    - destruct (read_X V zeroV b rs (rx_Im ix')); cbn [bind] in E; [|discriminate]. destruct (read_k V zeroV rs (rx_cNm ix')); cbn [bind] in E; discriminate.
    - destruct (read_k V zeroV rs (rx_cNm ix')); cbn [bind] in E; [|discriminate]. injection E as _ <- _. exact Eb. }
  unfold save in HS. destruct (out_of V A r'); cbn [bind] in HS; [|discriminate]. unfold write_res in HS. rewrite Hb in HS. discriminate.
Qed.
(** A directory without residual files cannot be opened with the default arguments. *)
Theorem C63_no_residual_files_refuted : exists d1, save nat string 999 "harm_out.nc" false hr [] = Ok d1 /\
  open_result nat string 0 (fun s => s) d1 = Raise TypeError.
Proof. eexists. split; vm_compute; reflexivity. Qed.
(** Whether files with X residuals can be opened depends on the order in which the directory is listed. *)
Theorem C63_listing_order_refuted : exists d1, save nat string 999 "harm_out.nc" true hr_x [] = Ok d1 /\
  (exists r', open_result nat string 0 (fun s => s) d1 = Ok r') /\ open_result nat string 0 (fun s => s) (rev d1) = Raise ValueError.
Proof.
  eexists. split; [vm_compute; reflexivity|]. split; [eexists; vm_compute; reflexivity|vm_compute; reflexivity].
Qed.
Print Assumptions C63_attributes_refuted.
Print Assumptions C63_cannot_be_saved_again_refuted.
Print Assumptions C63_no_residual_files_refuted.
Print Assumptions C63_listing_order_refuted.
