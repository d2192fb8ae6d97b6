(** * C140-C147: files of the conversion tools, the input checker and the reader. *)
From Coq Require Import Reals Lra.
From Verif Require Import Base BaseLemmas ReaderModel ReaderSpec UncModel UncSpec UnckModel WModel WSpec AvModel AvSpec CheckModel CheckSpec HRModel PmhModel PmhSpec PropertiesPmh PropertiesAv IOModel IOSpec IOProofs IOProofs2 ConvModel ConvSpec ConvSpec2
  ConvProofs2 ConvProofs3 ConvProofs6 ConvProofs9 ConvProofs10 ConvProofs15 ConvProofs17.
Open Scope nat_scope.

(** ** C140 *)
(** A file of the format with two microwave sensors is converted, keeps its data except the random uncertainties of the averaged covariates and the types, and is accepted iff its uncertainties suit the types of the instruments. *)
Theorem C140_microwave_accepted : forall f32 trunc f p a, base_file f p -> (forall sd, mw_name (a sd) (p_name p sd)) -> a Side2 <> Ref -> p_M p <> 0 -> (forall sd, p_m p sd = mw_covariates (a sd)) ->
  exists g mv, mw_file f32 trunc f = Ok g /\ has_file g (mw_converted p a) mv /\ row_pointers g /\ (check g = Ok [] <-> mw_good p a).
Proof. intros f32 trunc f p a Hb Hn. exact (mw_accepted' f32 trunc f p a Hb (Hn Side1) (Hn Side2)). Qed.
Print Assumptions C140_microwave_accepted.
(** NOAA-18 as the reference of NOAA-19, two match-ups. *)
Definition cx_row (sd : side) (u : nat) : list R :=
  match sd, u with Side1, 1 => [0] | Side1, _ => [1] | Side2, 1 => [0; 0; 1; 1; 1; 1; 1; 0; 1] | Side2, _ => [1; 1; 1; 1; 1; 1; 1; 1; 1] end%R.
Definition cx_sensor (sd : side) : instrument := match sd with Side1 => Ref | Side2 => MHS end.
Definition cx_data (n : side -> string) : mdata :=
  mkData 2 (fun sd => mw_covariates (cx_sensor sd)) n (fun sd => [cx_row sd 0; cx_row sd 0]) (fun sd => [cx_row sd 0; cx_row sd 0]) (fun sd => [cx_row sd 1; cx_row sd 1])
    (fun sd => match sd with Side1 => [1] | Side2 => [1; 1; 2; 2; 2; 2; 2; 1; 2] end%Z) (fun _ => [0; 1]%R) [1; 2]%R [1; 1]%R [0; 0]%R [].
Definition cx_names (sd : side) : string := match sd with Side1 => "18" | Side2 => "19" end.
Definition cx_names2 (sd : side) : string := match sd with Side1 => "18" | Side2 => "ma" end.
Lemma cx_shaped n : well_shaped (cx_data n).
Proof.
  split; [|split; [reflexivity|split; [reflexivity|split; [reflexivity|split; [constructor|intros v []]]]]].
  assert (M : forall sd u, matrix [cx_row sd u; cx_row sd u] 2 (mw_covariates (cx_sensor sd))) by (intros sd u; split; [reflexivity|]; intros r [<- |[<- |[]]]; destruct sd, u as [|[|]]; reflexivity).
  intros sd. split; [exact (M sd 0)|]. split; [exact (M sd 0)|]. split; [exact (M sd 1)|]. destruct sd; split; reflexivity.
Qed.
Lemma cx_base n : base_file (file_as (fun x => x) (fun _ => 0%Z) "float64" (cx_data n)) (cx_data n).
Proof. apply as_base; [cbn; tauto|apply cx_shaped]. Qed.
Lemma col_in rows c col x : CheckSpec.is_column rows c col -> In x col -> exists r, In r rows /\ nth_error r c = Some x.
Proof.
  intros (L & H) Hx. apply In_nth_error in Hx. destruct Hx as (i & Hi). destruct (nth_error rows i) as [r|] eqn:Er; [|exfalso; apply nth_error_None in Er; rewrite <- L in Er; apply nth_error_None in Er; congruence].
  exists r. split; [eapply nth_error_In; eauto|]. rewrite <- (H i r Er). exact Hi.
Qed.
Lemma cx_good n : n Side1 <> n Side2 -> mw_good (cx_data n) cx_sensor.
Proof.
  intros Hn. split; [exact Hn|]. split.
  - intros i r s. cbn [cx_data p_Kr p_Ks]. destruct i as [|[|i]]; cbn; [| |destruct i; discriminate]; intros [= <-] [= <-]; lra.
  - intros sd. split.
    + intros Ha r c x. cbn [cx_data p_Ur hd_error]. intros [= <-] Hc. destruct sd; [destruct Ha; reflexivity|]. do 3 (destruct c as [|c]; [cbn; intros [= <-]; lra|]). lia.
    + intros c ur us Hc H1 H2.
      assert (Q1 : forall x, In x ur -> nth_error (cx_row sd 0) c = Some x) by (intros x Hx; destruct (col_in _ _ _ _ H1 Hx) as (r & [<- |[<- |[]]] & E); exact E).
      assert (Q2 : forall x, In x us -> nth_error (cx_row sd 1) c = Some x) by (intros x Hx; destruct (col_in _ _ _ _ H2 Hx) as (r & [<- |[<- |[]]] & E); exact E).
      unfold mw_column. cbn [cx_data p_m] in Hc. destruct sd; cbn [cx_sensor mw_covariates averaged] in *.
      * destruct c; [|lia]. cbn. split; apply Forall_forall; intros x Hx; [apply Q1 in Hx|apply Q2 in Hx]; cbn in Hx; injection Hx as <-; lra.
      * do 9 (destruct c as [|c]; [cbn; repeat split; apply Forall_forall; intros x Hx; first [apply Q2 in Hx; cbn in Hx; injection Hx as <-; lra|apply Q1 in Hx; cbn in Hx; injection Hx as <-; lra]|]). lia.
Qed.
Example C140_example : exists g, mw_file (fun x => x) (fun _ => 0%Z) (file_as (fun x => x) (fun _ => 0%Z) "float64" (cx_data cx_names)) = Ok g /\ check g = Ok [] /\ data g "uncertainty_type2" (IArr1 [3; 3; 4; 4; 4; 4; 4; 1; 2]%Z).
Proof.
  destruct (C140_microwave_accepted (fun x => x) (fun _ => 0%Z) _ _ cx_sensor (cx_base cx_names)) as (g & mv & E & HF & _ & HC).
  - intros [|]; cbn; tauto.
  - discriminate.
  - discriminate.
  - reflexivity.
  - exists g. split; [exact E|]. split; [apply HC, cx_good; discriminate|]. exact (hf_type _ _ _ HF Side2).
Qed.

(** ** C141 *)
(** Converted files with good data are accepted and open together: every column holds its data and has the uncertainty type of the instrument. *)
Theorem C141_microwave_opens : forall (T : Type) nanV (zeroT : T) f32 i32 todate isfill ord ordn ft trunc, (forall l x, In x (ordn l) <-> In x l) -> forall l : list (ncfile * mdata * (side -> instrument)), l <> [] ->
  (forall f p a, In (f, p, a) l -> base_file f p /\ (forall sd, mw_name (a sd) (p_name p sd)) /\ a Side2 <> Ref /\ 2 <= p_M p /\ (forall sd, p_m p sd = mw_covariates (a sd)) /\ mw_good p a) ->
  exists gs o, mapM (fun x => mw_file ft trunc (fst (fst x))) l = Ok gs /\ (forall g, In g gs -> check g = Ok []) /\ open_files nanV zeroT f32 i32 todate isfill ord ordn gs = Ok o /\
  forall n f p a sd cov, 1 <= n -> nth_error l (n - 1) = Some (f, p, a) -> 1 <= cov <= p_m p sd ->
    exists col b k u, ReaderSpec.is_column (p_X p sd) cov col /\ getVariableData R T (o_mu o) cov (p_name p sd) (Some n) = Ok (map f32 col) /\
      nth_error (get_block_idxs (mu_idx R T (o_mu o))) b = Some (k, n, cov) /\ nth_error (sensors (mu_idx R T (o_mu o))) k = Some (p_name p sd) /\
      nth_error (o_unc o) b = Some (Some u) /\ Z.of_nat (typeID R (u_kind R u)) = mw_type_of (a sd) (cov - 1).
Proof. intros. apply mw_open; assumption. Qed.
Print Assumptions C141_microwave_opens.
Definition cx_list : list (ncfile * mdata * (side -> instrument)) := map (fun n => (file_as (fun x => x) (fun _ => 0%Z) "float64" (cx_data n), cx_data n, cx_sensor)) [cx_names; cx_names2].
Example C141_example : exists gs o, mapM (fun x => mw_file (fun x => x) (fun _ => 0%Z) (fst (fst x))) cx_list = Ok gs /\ open_files 0%R 0%R (fun x => x) (fun x => x) (fun x => x) (fun _ => false) (fun l => l) (fun l => l) gs = Ok o /\
  getVariableData R R (o_mu o) 3 "ma" (Some 2) = Ok [1; 1]%R.
Proof.
  destruct (C141_microwave_opens R 0%R 0%R (fun x => x) (fun x => x) (fun x => x) (fun _ => false) (fun l => l) (fun l => l) (fun x => x) (fun _ => 0%Z) (fun l x => iff_refl _) cx_list) as (gs & o & E & _ & EO & H).
  - discriminate.
  - intros f p a Hi. cbn [cx_list map] in Hi. destruct Hi as [Hi|[Hi|[]]]; injection Hi as <- <- <-; (split; [apply cx_base|]; split; [intros [|]; cbn; tauto|]; split; [discriminate|]; split; [cbn; lia|]; split; [reflexivity|apply cx_good; discriminate]).
  - exists gs, o. split; [exact E|]. split; [exact EO|]. destruct (H 2 _ _ _ Side2 3 ltac:(lia) eq_refl ltac:(cbn; lia)) as (col & _ & _ & _ & (L & HC) & HG & _). rewrite map_id in HG. change (p_name (cx_data cx_names2) Side2) with "ma"%string in HG. rewrite HG. f_equal.
    pose proof (HC 0 _ eq_refl) as Q0. pose proof (HC 1 _ eq_refl) as Q1. cbn in Q0, Q1. do 3 (destruct col as [|? col]; try discriminate). cbn in *. congruence.
Qed.

(** ** C142 *)
(** A file converted from PMH tables keeps the rows of its pair; it is accepted iff the pair has two sensors and as many match-ups as the last pair, and the uncertainties given are positive
    (of the averaged covariates: of the first). *)
Theorem C142_pmh_accepted : forall pyfloat pyint f32 trunc vals w pams uncs dir d at_ im ns at' uref vs k, open_data_pams pyfloat pyint pams = Ok (im, ns, at') -> open_data_uncs pyfloat pyint uncs = Ok (uref, vs, k) ->
  (forall r, In r vals -> length r = w) -> run_conversion pyfloat pyint vals pams uncs dir = Ok (d, at_) -> length im = length ns ->
  forall i a b rest n last f, nth_error im i = Some (a :: b :: rest) -> nth_error ns i = Some n -> nth_error ns (length ns - 1) = Some last -> find_file (file_name (a :: b :: rest)) d = Some f ->
  exists g mv, umat R (uf_u R (p_file f)) = Some mv /\ pmh_nc f32 trunc f = Ok g /\ has_file g (pmh_data f) (smv f32 mv) /\ row_pointers g /\ (check g = Ok [] <-> pmh_good f32 uref k vs a b n last).
Proof. intros. eapply pmh_accepted; eassumption. Qed.
Print Assumptions C142_pmh_accepted.
Lemma ex_good : forall a b n, a <> b -> pmh_good (fun x => x) 3 9 exvs a b n n.
Proof.
  intros a b n Hab. split; [exact Hab|]. split; [reflexivity|]. split; [lra|]. split; [intros _; lra|]. split; [|exists 0, (mkUvar 4 0 2 3); cbn; split; [reflexivity|split; [reflexivity|split; [lra|intros; lia]]]].
  intros v [<- |[<- |[]]]; cbn; intros H; [lia|]. split; [lra|discriminate].
Qed.
Example C142_example : exists d f g, run_conversion exfloat exint exvals (expams "2" "2") exuncs [] = Ok (d, [[7]; [8]]%R) /\ find_file (tx "0_1.nc") d = Some f /\ pmh_nc (fun x => x) (fun _ => 0%Z) f = Ok g /\ check g = Ok [].
Proof.
  destruct C98_example as (d & HS & f & f' & F1 & _). exists d, f.
  destruct (C142_pmh_accepted exfloat exint (fun x => x) (fun _ => 0%Z) exvals 5 _ _ _ d _ _ _ _ _ _ _ expams22 exuncs_read exvals_rect4 HS eq_refl 0 (tx "0") (tx "1") [] 2%Z 2%Z f eq_refl eq_refl eq_refl F1) as (g & mv & _ & E & _ & _ & HC).
  exists g. split; [exact HS|]. split; [exact F1|]. split; [exact E|]. apply HC, ex_good. discriminate.
Qed.

(** ** C143 *)
(** Violated: the files of a conversion are not all accepted; pairs of one and of three match-ups give a first file that is rejected. *)
Theorem C143_all_accepted_refuted : exists vals pams uncs d atrue f g, run_conversion exfloat exint vals pams uncs [] = Ok (d, atrue) /\ find_file (tx "0_1.nc") d = Some f /\ pmh_nc (fun x => x) (fun _ => 0%Z) f = Ok g /\ check g <> Ok [].
Proof.
  destruct exim_ok as (N1 & N2 & N3), exvs_ok as (V1 & V2 & V3).
  assert (HS : exists d, run_conversion exfloat exint exvals (expams "1" "3") exuncs [] = Ok (d, [[7]; [8]]%R)).
  { apply (proj2 (C101_converted_iff exfloat exint exvals 5 _ _ _ _ _ _ _ _ _ expams13 exuncs_read exvals_rect4 ltac:(cbn; lia) ltac:(cbn; lia) N3 eq_refl ltac:(intros z [<-|[<-|[]]]; lia) ltac:(cbn; lia) N2 N1 V1 V2)).
    split; [exact V3|]. intros [|[|i]] [|[|j]] a b Hij; cbn; intros Ha Hb; try lia; try (destruct i; discriminate); try (destruct j; discriminate); left; congruence. }
  destruct HS as (d & HS).
  destruct (proj2 (proj2 (C98_files_hold_the_rows exfloat exint _ 5 _ _ _ _ _ _ _ _ _ _ _ expams13 exuncs_read exvals_rect4 HS)) 0 _ _ eq_refl eq_refl) as (a & b & rest & f & A1 & A2 & A3 & A4). injection A1 as <- <- _.
  destruct (C142_pmh_accepted exfloat exint (fun x => x) (fun _ => 0%Z) exvals 5 _ _ _ d _ _ _ _ _ _ _ expams13 exuncs_read exvals_rect4 HS eq_refl 0 (tx "0") (tx "1") [] 1%Z 3%Z f eq_refl eq_refl eq_refl A3) as (g & mv & _ & E & _ & _ & HC).
  exists exvals, (expams "1" "3"), exuncs, d, [[7]; [8]]%R, f, g. split; [exact HS|]. split; [exact A3|]. split; [exact E|]. intros H. apply HC in H. destruct H as (_ & H & _). discriminate.
Qed.
Print Assumptions C143_all_accepted_refuted.

(** ** C144 *)
(** The first four files of an AVHRR conversion hold the values computed, in single precision, with W matrices; accepted iff the uncertainties are as the types declare and those of the scan lines positive. *)
Theorem C144_avhrr_accepted : forall torad f32 trunc nanV f k1 k2 band bt ref_bt ref idx files j o, good_input torad f k1 k2 band bt ref_bt -> sensor1_is f ref -> kept f idx -> av_main torad f None = Ok files ->
  f32 0%R = 0%R -> j < 4 -> nth_error files j = Some o ->
  exists g mv, o_W o = Some mv /\ av_nc f32 trunc nanV o = Ok g /\ has_file g (mapped f32 (av_data nanV o)) (smv f32 mv) /\ row_pointers g /\
    (check g = Ok [] <-> declared_values (mapped f32 (av_data nanV o)) /\ forall x, In x (u_val R mv) -> (0 < f32 x)%R).
Proof. intros. eapply av_accepted; eassumption. Qed.
Print Assumptions C144_avhrr_accepted.
(** ** C145 *)
(** The last two files have no W matrices. *)
Theorem C145_avhrr_plain_accepted : forall torad f32 trunc nanV f k1 k2 band bt ref_bt ref idx files j o, good_input torad f k1 k2 band bt ref_bt -> sensor1_is f ref -> kept f idx -> av_main torad f None = Ok files ->
  4 <= j -> nth_error files j = Some o ->
  exists g, o_W o = None /\ av_nc f32 trunc nanV o = Ok g /\ base_file g (mapped f32 (av_data nanV o)) /\ (check g = Ok [] <-> declared_values (mapped f32 (av_data nanV o))).
Proof. intros. eapply av_plain_accepted; eassumption. Qed.
Print Assumptions C145_avhrr_plain_accepted.
(** ** C146 *)
(** The files without systematic effects are accepted whenever the input has two sensors, uncertainties of K and positive random uncertainties. *)
Theorem C146_avhrr_structured : forall torad f32 trunc nanV f k1 k2 band bt ref_bt ref idx files j o, good_input torad f k1 k2 band bt ref_bt -> sensor1_is f ref -> kept f idx -> av_main torad f None = Ok files ->
  f32 0%R = 0%R -> 2 <= j < 4 -> nth_error files j = Some o -> av_positive f32 nanV f ref idx (if Nat.even j then 4 else 5) -> exists g, av_nc f32 trunc nanV o = Ok g /\ check g = Ok [].
Proof. intros. eapply av_structured; eassumption. Qed.
Print Assumptions C146_avhrr_structured.
(** ** C147 *)
(** The files with all effects are then accepted iff the input file gives no systematic uncertainty of the first three quantities (counts) and positive ones of the others: they are copied unchecked. *)
Theorem C147_avhrr_full : forall torad f32 trunc nanV f k1 k2 band bt ref_bt ref idx files j o, good_input torad f k1 k2 band bt ref_bt -> sensor1_is f ref -> kept f idx -> av_main torad f None = Ok files ->
  f32 0%R = 0%R -> j < 2 -> nth_error files j = Some o -> let m2 := if Nat.even j then 4 else 5 in av_positive f32 nanV f ref idx m2 ->
  exists g, av_nc f32 trunc nanV o = Ok g /\ (check g = Ok [] <-> av_systematic f32 nanV f ref idx m2).
Proof.
  intros torad f32 trunc nanV f k1 k2 band bt ref_bt ref idx files j o G HR HK E F0 Hj Ho m2 AP.
  destruct (C144_avhrr_accepted torad f32 trunc nanV f k1 k2 band bt ref_bt ref idx files j o G HR HK E F0 ltac:(lia) Ho) as (g & _ & _ & EG & _). exists g. split; [exact EG|]. split.
  - intros HC. eapply av_full_necessary; eassumption.
  - intros AS. assert (Q : exists g, av_nc f32 trunc nanV o = Ok g /\ check g = Ok []) by (eapply av_full_sufficient; eassumption). destruct Q as (g' & EG' & HC). congruence.
Qed.
Print Assumptions C147_avhrr_full.

(** Example of PropertiesAv: all its uncertainties are positive. *)
Lemma exav_positive ref m2 : m2 = 4 \/ m2 = 5 -> av_positive (fun x => x) 0 (exav ref) ref [0; 2] m2.
Proof.
  intros Hm. constructor.
  - discriminate.
  - intros i [<- |[<- |[]]]; cbn; lra.
  - intros i c x Hi Hc. destruct Hi as [<- |[<- |[]]]; cbn [exav a_Ur map nth]; destruct ref; unfold PropertiesAv.exrow; cbn [map app]; do 10 (destruct c as [|c]; [cbn [nth_error]; intros [= <-]; first [cbn [val]; lra|exfalso; cbn in Hc; lia]|]); destruct c; discriminate.
  - intros i rows x Hi Hr. assert (E : rows = [[Some 1; Some 2]; [Some 1; None]; [Some 2; Some 3]]%R) by (cbn in Hr; intuition congruence). rewrite E. destruct Hi as [<- |[<- |[]]]; cbn [nth In]; intros [[= <-]|[[= <-]|[]]]; lra.
Qed.
Example C146_example : forall ref, exists files o g, av_main exrad (exav ref) None = Ok files /\ nth_error files 3 = Some o /\ av_nc (fun x => x) (fun _ => 0%Z) 0 o = Ok g /\ check g = Ok [].
Proof.
  intros ref. destruct (exav_files ref) as (files & E & L). destruct (nth_error files 3) as [o|] eqn:Eo; [|apply nth_error_None in Eo; lia].
  destruct (C146_avhrr_structured exrad (fun x => x) (fun _ => 0%Z) 0%R _ _ _ _ _ _ ref [0; 2] files 3 o (exav_good ref) (exav_ref ref) (exav_kept ref) E eq_refl ltac:(lia) Eo (exav_positive ref 5 (or_intror eq_refl))) as (g & EG & HC). exists files, o, g. auto.
Qed.
(** Its file with all effects is rejected; without systematic uncertainties of the counts it is accepted. *)
Example C147_example_rejected : forall ref, exists files o g, av_main exrad (exav ref) None = Ok files /\ nth_error files 0 = Some o /\ av_nc (fun x => x) (fun _ => 0%Z) 0 o = Ok g /\ check g <> Ok [].
Proof.
  intros ref. destruct (exav_files ref) as (files & E & L). destruct (nth_error files 0) as [o|] eqn:Eo; [|apply nth_error_None in Eo; lia].
  destruct (C147_avhrr_full exrad (fun x => x) (fun _ => 0%Z) 0%R _ _ _ _ _ _ ref [0; 2] files 0 o (exav_good ref) (exav_ref ref) (exav_kept ref) E eq_refl ltac:(lia) Eo (exav_positive ref 4 (or_introl eq_refl))) as (g & EG & HC).
  exists files, o, g. do 3 (split; [assumption|]). intros H. apply HC in H. destruct (H 0 5 (Some 10)%R (or_introl eq_refl)) as (Q & _); [destruct ref; reflexivity|]. assert (NS : no_sys ref 5) by (unfold no_sys; lia). specialize (Q NS). cbn [val] in Q. lra.
Qed.
Definition exsys : list fl := map Some [0; 0; 0; 1; 1; 0; 0; 0; 1; 1]%R.
Definition exav_s (ref : bool) : avin := let f := exav ref in mkAvin (a_H f) [exsys; exsys; exsys] (a_Ur f) (a_K f) (a_Kr f) (a_Ks f) 19 18 (a_t1 f) (a_t2 f) (a_uS1 f) (a_uI1 f) (a_uS2 f) (a_uI2 f) (a_adds f).
Lemma exav_s_good ref : good_input exrad (exav_s ref) 2 2 11 (map Some [280; 290; 300]%R) (Some (map Some [281; 291; 301]%R)).
Proof.
  destruct (exav_good ref) as [F B C S]. constructor; [|destruct B; constructor; auto|exact C|exact S].
  destruct F. constructor; auto. split; [reflexivity|]. intros r [<- |[<- |[<- |[]]]]; reflexivity.
Qed.
Example C147_example : forall ref, exists files o g, av_main exrad (exav_s ref) None = Ok files /\ nth_error files 1 = Some o /\ av_nc (fun x => x) (fun _ => 0%Z) 0 o = Ok g /\ check g = Ok [].
Proof.
  intros ref. destruct (C89_six_files _ _ _ _ _ _ _ (exav_s_good ref)) as (ref' & idx & files & HR & HK & _ & E & L).
  assert (ref' = ref) by (eapply AvProofs6.sensor1_unique; [exact HR|exact (exav_ref ref)]). subst ref'. assert (idx = [0; 2]) by (eapply AvProofs6.kept_unique; [exact HK|exact (exav_kept ref)]). subst idx.
  destruct (nth_error files 1) as [o|] eqn:Eo; [|apply nth_error_None in Eo; lia].
  assert (AP : av_positive (fun x => x) 0 (exav_s ref) ref [0; 2] 5) by (destruct (exav_positive ref 5 (or_intror eq_refl)); constructor; auto).
  destruct (C147_avhrr_full exrad (fun x => x) (fun _ => 0%Z) 0%R _ _ _ _ _ _ ref [0; 2] files 1 o (exav_s_good ref) HR HK E eq_refl ltac:(lia) Eo AP) as (g & EG & HC).
  exists files, o, g. do 3 (split; [assumption|]). apply HC. change (if Nat.even 1 then 4 else 5) with 5. intros i c x Hi Hx. unfold no_sys, sys. assert (Hx' : nth_error exsys c = Some x) by (destruct Hi as [<- |[<- |[]]]; exact Hx).
  unfold exsys in Hx'. do 10 (destruct c as [|c]; [cbn in Hx'; injection Hx' as <-; cbn [val]; split; intros; first [lra|exfalso; lia]|]). destruct c; discriminate.
Qed.
(** The conditions of C144 and C145 are met by this example. *)
Example C144_example : forall ref, exists files o mv g, av_main exrad (exav ref) None = Ok files /\ nth_error files 0 = Some o /\ o_W o = Some mv /\ av_nc (fun x => x) (fun _ => 0%Z) 0 o = Ok g /\ data g "time1" (Arr1 [0; 1]%R).
Proof.
  intros ref. destruct (exav_files ref) as (files & E & L). destruct (nth_error files 0) as [o|] eqn:Eo; [|apply nth_error_None in Eo; lia].
  destruct (C144_avhrr_accepted exrad (fun x => x) (fun _ => 0%Z) 0%R _ _ _ _ _ _ ref [0; 2] files 0 o (exav_good ref) (exav_ref ref) (exav_kept ref) E eq_refl ltac:(lia) Eo) as (g & mv & EW & EG & HF & _).
  exists files, o, mv, g. do 4 (split; [assumption|]). pose proof (hf_time _ _ _ HF Side1) as HT. cbn [mapped av_data p_time] in HT. pose proof (C89_match_ups _ _ _ _ _ _ _ ref [0; 2] files 0 o (exav_good ref) (exav_ref ref) (exav_kept ref) E Eo) as HH. cbv zeta in HH. rewrite (h_t1 _ _ _ _ _ HH) in HT. exact HT.
Qed.
Example C145_example : forall ref, exists files o g, av_main exrad (exav ref) None = Ok files /\ nth_error files 5 = Some o /\ av_nc (fun x => x) (fun _ => 0%Z) 0 o = Ok g /\ data g "time2" (Arr1 [0; 1]%R).
Proof.
  intros ref. destruct (exav_files ref) as (files & E & L). destruct (nth_error files 5) as [o|] eqn:Eo; [|apply nth_error_None in Eo; lia].
  destruct (C145_avhrr_plain_accepted exrad (fun x => x) (fun _ => 0%Z) 0%R _ _ _ _ _ _ ref [0; 2] files 5 o (exav_good ref) (exav_ref ref) (exav_kept ref) E ltac:(lia) Eo) as (g & EW & EG & HF & _).
  exists files, o, g. do 3 (split; [assumption|]). pose proof (bf_time _ _ HF Side2) as HT. cbn [mapped av_data p_time] in HT. pose proof (C89_match_ups _ _ _ _ _ _ _ ref [0; 2] files 5 o (exav_good ref) (exav_ref ref) (exav_kept ref) E Eo) as HH. cbv zeta in HH. rewrite (h_t2 _ _ _ _ _ HH) in HT. exact HT.
Qed.
