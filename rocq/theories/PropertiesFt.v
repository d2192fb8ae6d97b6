(** Properties C172-C177: time stamps, names and units of the datasets the Fortran demonstration
    program writes. *)
From Verif Require Import Base FtModel FtSpec FtProofs FtProofs2.
From Coq Require Import QArith Qround.
Open Scope string_scope.
Open Scope nat_scope.
Open Scope list_scope.

(** ** C172: a Unix time is written as the Gregorian date and the time of day it falls on *)
Theorem C172_time_stamp : forall uts, int32_time uts ->
  exists d, falls_on (Qfloor uts / 86400) d /\
    iso_date_and_time uts =
      Ok (iso_text d (Qfloor uts mod 86400 / 3600) (Qfloor uts mod 3600 / 60) (Qfloor uts mod 60)).
Proof. exact iso_correct. Qed.
Print Assumptions C172_time_stamp.

Theorem C172_one_date : forall n d d', falls_on n d -> falls_on n d' -> d = d'.
Proof. exact falls_on_unique. Qed.
Print Assumptions C172_one_date.

Example C172_example :
  int32_time (951827696 # 1) /\ iso_date_and_time (951827696 # 1) = Ok "20000229T123456Z".
Proof. split; [unfold int32_time; cbn; lia|vm_compute; reflexivity]. Qed.
Example C172_example_before :
  int32_time (-1 # 2) /\ iso_date_and_time (-1 # 2) = Ok "19691231T235959Z".
Proof. split; [unfold int32_time; cbn; lia|vm_compute; reflexivity]. Qed.

(** ** C173: every time has a time stamp -- not from 19 January 2038 on *)
Theorem C173_every_time_refuted :
  ~ (forall uts, exists text, iso_date_and_time uts = Ok text).
Proof. intro H. destruct (H (2147483648 # 1)) as [t E]. vm_compute in E. discriminate. Qed.
Print Assumptions C173_every_time_refuted.

Theorem C173_up_to_2038 : forall uts, int32_time uts -> exists text, iso_date_and_time uts = Ok text.
Proof. intros uts H. destruct (iso_correct uts H) as (d & _ & E). now exists (iso_text d (Qfloor uts mod 86400 / 3600) (Qfloor uts mod 3600 / 60) (Qfloor uts mod 60)). Qed.
Print Assumptions C173_up_to_2038.
Example C173_last : iso_date_and_time (2147483647 # 1) = Ok "20380119T031407Z".
Proof. vm_compute. reflexivity. Qed.

(** ** C174: without a configured name, the names of the datasets are made of the job's settings *)
Theorem C174_parameter_name : forall c ext b e,
  length (n_parameter c) = 512 ->
  length (underscored (fs "harm" :: map trim
    [n_software c; n_version c; n_tag c; n_job c; n_dataset c; b; e]) ++ trim ext) <= 512 ->
  holds 512 (get_parameter_dataset_name c ext b e)
    (underscored (fs "harm" :: map trim
      [n_software c; n_version c; n_tag c; n_job c; n_dataset c; b; e]) ++ trim ext).
Proof. exact parameter_name. Qed.
Print Assumptions C174_parameter_name.

Theorem C174_residuals_name : forall c ext b e si sj,
  trim (n_residuals c) = [] ->
  length (underscored (fs "harm" :: map trim
    [n_software c; n_version c; n_tag c; n_job c; n_dataset c; b; e; fs "res"; si; sj]) ++ trim ext) <= 512 ->
  holds 512 (get_residuals_dataset_name c ext b e si sj)
    (underscored (fs "harm" :: map trim
      [n_software c; n_version c; n_tag c; n_job c; n_dataset c; b; e; fs "res"; si; sj]) ++ trim ext).
Proof. exact residuals_name. Qed.
Print Assumptions C174_residuals_name.

Definition ex_names (p r : fstr) : names :=
  mkNames (fassign 512 p) (fassign 512 r) (fs "FO  ") (fs "1.3") (fs "abc ") (fs "01  ") (fs "AVHRR ").
Example C174_example :
  length (n_parameter (ex_names [] [])) = 512 /\
  holds 512 (get_parameter_dataset_name (ex_names [] []) (fs ".nc") (fs "2000") (fs "2001"))
    (fs "harm_FO_1.3_abc_01_AVHRR_2000_2001.nc") /\
  trim (n_residuals (ex_names [] [])) = [] /\
  holds 512 (get_residuals_dataset_name (ex_names [] []) (fs ".nc") (fs "2000") (fs "2001") (fs "m02 ") (fs "n19"))
    (fs "harm_FO_1.3_abc_01_AVHRR_2000_2001_res_m02_n19.nc").
Proof. vm_compute. repeat split; reflexivity. Qed.

(** ** C175: residuals of different sensor pairs are written into different datasets *)
Theorem C175_distinct_pairs : forall c ext b e si sj si' sj',
  trim (n_residuals c) = [] -> trim ext <> [] ->
  length (underscored (fs "harm" :: map trim
    [n_software c; n_version c; n_tag c; n_job c; n_dataset c; b; e; fs "res"; si; sj]) ++ trim ext) <= 512 ->
  length (underscored (fs "harm" :: map trim
    [n_software c; n_version c; n_tag c; n_job c; n_dataset c; b; e; fs "res"; si'; sj']) ++ trim ext) <= 512 ->
  ~ In "_"%char (trim si) -> ~ In "_"%char (trim si') ->
  get_residuals_dataset_name c ext b e si sj = get_residuals_dataset_name c ext b e si' sj' ->
  trim si = trim si' /\ trim sj = trim sj'.
Proof. exact residuals_distinct. Qed.
Print Assumptions C175_distinct_pairs.

Example C175_example :
  get_residuals_dataset_name (ex_names [] []) (fs ".nc") (fs "2000") (fs "2001") (fs "m02") (fs "n19")
  <> get_residuals_dataset_name (ex_names [] []) (fs ".nc") (fs "2000") (fs "2001") (fs "n19") (fs "m02").
Proof. vm_compute. discriminate. Qed.

(** For names with an underscore, or a configured name, the claim fails. *)
Theorem C175_underscore_refuted :
  ~ (forall c ext b e si sj si' sj',
       trim (n_residuals c) = [] ->
       get_residuals_dataset_name c ext b e si sj = get_residuals_dataset_name c ext b e si' sj' ->
       trim si = trim si' /\ trim sj = trim sj').
Proof.
  intro H. destruct (H (ex_names [] []) (fs ".nc") [] [] (fs "a_b") (fs "c") (fs "a") (fs "b_c")) as [E _];
    [vm_compute; reflexivity..|]. vm_compute in E. discriminate.
Qed.
Print Assumptions C175_underscore_refuted.

(** ** C176: a configured name is used *)
Theorem C176_residuals_configured_refuted : forall c ext b e si sj si' sj',
  length (n_residuals c) = 512 -> trim (n_residuals c) <> [] ->
  get_residuals_dataset_name c ext b e si sj = get_residuals_dataset_name c ext b e si' sj'
  /\ get_residuals_dataset_name c ext b e si sj = n_residuals c.
Proof. intros. now rewrite !residuals_name_configured. Qed.
Print Assumptions C176_residuals_configured_refuted.

Theorem C176_parameter_configured_refuted : forall c p ext b e,
  length (n_parameter c) = 512 -> length p = 512 ->
  get_parameter_dataset_name (mkNames p (n_residuals c) (n_software c) (n_version c) (n_tag c) (n_job c) (n_dataset c)) ext b e
  = get_parameter_dataset_name c ext b e.
Proof. exact parameter_name_ignored. Qed.
Print Assumptions C176_parameter_configured_refuted.

Example C176_example :
  get_residuals_dataset_name (ex_names [] (fs "my")) (fs ".nc") (fs "2000") (fs "2001") (fs "a") (fs "b")
  = fassign 512 (fs "my") /\
  get_parameter_dataset_name (ex_names (fs "my") []) (fs ".nc") (fs "2000") (fs "2001")
  = fassign 512 (fs "harm_FO_1.3_abc_01_AVHRR_2000_2001.nc").
Proof. vm_compute. split; reflexivity. Qed.

(** ** C177: each variable of the residuals dataset carries its unit *)
Theorem C177_units_partial : forall time_unit u, trim u <> [] ->
  residuals_units time_unit u V_t = Some time_unit /\
  (forall v, In v [V_k_res; V_meas_i; V_meas_j; V_meas_i_unc_q; V_meas_j_unc_q; V_meas_i_unc_x; V_meas_j_unc_x] ->
     residuals_units time_unit u v = Some u).
Proof.
  intros time_unit u H. split; [now rewrite units_given|]. intros v Hv. rewrite units_given by exact H.
  cbn in Hv. repeat (destruct Hv as [Hv|Hv]; [subst v; reflexivity|]). destruct Hv.
Qed.
Print Assumptions C177_units_partial.

(** The uncertainty of the residual carries the unit of its weight, and the weight none. *)
Theorem C177_uncertainty_unit_refuted : forall time_unit u, trim u <> [] ->
  residuals_units time_unit u V_k_res_unc = Some (fs "1 / " ++ u) /\
  residuals_units time_unit u V_k_res_weights = None.
Proof. intros time_unit u H. now rewrite !units_given. Qed.
Print Assumptions C177_uncertainty_unit_refuted.
Example C177_example : trim (fs "K ") <> [] /\
  residuals_units (fs "s") (fs "K") V_k_res = Some (fs "K").
Proof. split; [vm_compute; discriminate|vm_compute; reflexivity]. Qed.
