(** Model of the Fortran demonstration program (harmonisation_meiv_demo/src/main/fortran/gpl): the
    writing of the parameter dataset and of the residuals datasets (mod_writer.F90, with
    mod_nc.F90), and the parameter dataset of the demonstration (demo.F90).

    "error stop" and every error status of netCDF are [Raise OtherError].  Names are without
    trailing blanks (the code trims them).  Descriptions and units are not modelled (for the units
    see FtModel); of the checks of netCDF on names, only that they are neither empty nor taken. *)
From Coq Require Import String.
From Verif Require Import Base FoModel FrModel FdModel.
From Coq Require Import Reals.
Open Scope string_scope.
Open Scope nat_scope.
Open Scope list_scope.

(** ** mod_nc.F90 *)

Inductive nctype : Set := NInt | NFloat | NDouble | NChar.
(** A rank-2 array: its two sizes and its elements. *)
Record matrix := mkMatrix { mx_1 : nat; mx_2 : nat; mx_elt : nat -> nat -> R }.
Inductive ncdata := DInt (l : list Z) | DReal (l : list R) | DText (l : list string) | DMatrix (a : matrix).
Inductive ncatt := AText (s : string) | AInt (z : Z) | AReal (x : R).
(** Dimensions and variables have the identifiers 1, 2, ... (Fortran interface). *)
Record ncvar := mkVar { v_name : string; v_type : nctype; v_dims : list nat; v_data : option ncdata }.
Record ncfile := mkNc {
  nc_atts : list (string * ncatt); nc_dims : list (string * nat); nc_vars : list ncvar; nc_defining : bool }.
(** mod_nc.F90:156-165: create_dataset; a file of that name is replaced. *)
Definition create_dataset : ncfile := mkNc [] [] [] true.
(** mod_nc.F90:169-175: finish_dataset. *)
Definition finish_dataset (f : ncfile) : ncfile := mkNc (nc_atts f) (nc_dims f) (nc_vars f) false.

Definition taken {A} (l : list (string * A)) (n : string) : bool := existsb (fun p => String.eqb (fst p) n) l.
Definition bad_name (used : list string) (n : string) : bool :=
  String.eqb n "" || existsb (String.eqb n) used.

(** mod_nc.F90:603-650: an attribute that exists is replaced. *)
Definition add_global_attribute (f : ncfile) (n : string) (a : ncatt) : res ncfile :=
  if String.eqb n "" then Raise OtherError
  else
    let l := if taken (nc_atts f) n
             then map (fun p => if String.eqb (fst p) n then (n, a) else p) (nc_atts f)
             else nc_atts f ++ [(n, a)] in
    Ok (mkNc l (nc_dims f) (nc_vars f) (nc_defining f)).

(** mod_nc.F90:182-190: add_dimension_int.  Simplification: a length of 0, which makes an unlimited
    dimension, is refused. *)
Definition add_dimension (f : ncfile) (n : string) (len : nat) : res (ncfile * nat) :=
  if bad_name (map fst (nc_dims f)) n || (len =? 0) then Raise OtherError
  else Ok (mkNc (nc_atts f) (nc_dims f ++ [(n, len)]) (nc_vars f) (nc_defining f), S (length (nc_dims f))).

(** mod_nc.F90:192-201: my_inq_dimlen. *)
Definition inq_dimlen (f : ncfile) (dimid : nat) : res nat :=
  match dimid with
  | 0 => Raise OtherError
  | S k => match nth_error (nc_dims f) k with Some p => Ok (snd p) | None => Raise OtherError end
  end.
(** mod_nc.F90:1393-1411: assert_dimension. *)
Definition assert_dimension (expected actual : nat) : res unit :=
  if expected =? actual then Ok tt else Raise OtherError.
(** nf_def_var *)
Definition def_var (f : ncfile) (n : string) (ty : nctype) (dimids : list nat) : res (ncfile * nat) :=
  if bad_name (map v_name (nc_vars f)) n then Raise OtherError
  else Ok (mkNc (nc_atts f) (nc_dims f) (nc_vars f ++ [mkVar n ty dimids None]) (nc_defining f),
           S (length (nc_vars f))).
(** mod_nc.F90:304-395: add_variable_vector_*. *)
Definition add_vector (f : ncfile) (n : string) (ty : nctype) (size dimid : nat) : res (ncfile * nat) :=
  do llen <- inq_dimlen f dimid;;
  do _ <- assert_dimension llen size;;
  def_var f n ty [dimid].
(** mod_nc.F90:397-417: add_variable_vector_text. *)
Definition add_text (f : ncfile) (n : string) (size lenid dimid : nat) : res (ncfile * nat) :=
  do llen <- inq_dimlen f dimid;;
  do _ <- assert_dimension llen size;;
  def_var f n NChar [lenid; dimid].
(** mod_nc.F90:419-450: add_variable_matrix_real__dp. *)
Definition add_matrix (f : ncfile) (n : string) (a : matrix) (rowid colid : nat) : res (ncfile * nat) :=
  do l1 <- inq_dimlen f rowid;;
  do l2 <- inq_dimlen f colid;;
  do _ <- assert_dimension l1 (mx_1 a);;
  do _ <- assert_dimension l2 (mx_2 a);;
  def_var f n NDouble [rowid; colid].

(** The conversion into single precision; the error of netCDF for numbers out of range is not
    modelled. *)
Section Round.
Variable round : R -> R.
Definition stored (ty : nctype) (d : ncdata) : ncdata :=
  match ty, d with NFloat, DReal l => DReal (map round l) | _, _ => d end.

(** nf_put_var_*, nf90_put_var: the file must be in data mode. *)
Definition put_var (f : ncfile) (varid : nat) (d : ncdata) : res ncfile :=
  match varid with
  | 0 => Raise OtherError
  | S k =>
      match nth_error (nc_vars f) k with
      | None => Raise OtherError
      | Some v =>
          if nc_defining f then Raise OtherError
          else Ok (mkNc (nc_atts f) (nc_dims f)
                     (upd k (mkVar (v_name v) (v_type v) (v_dims v) (Some (stored (v_type v) d))) (nc_vars f))
                     false)
      end
  end.
(** mod_nc.F90:1195-1391: write_variable_*: the variable must have the rank and the sizes of the
    data. *)
Definition write_variable (f : ncfile) (varid : nat) (d : ncdata) : res ncfile :=
  match varid with
  | 0 => Raise OtherError
  | S k =>
      match nth_error (nc_vars f) k with
      | None => Raise OtherError
      | Some v =>
          match d, v_dims v with
          | DInt l, [i] => do n <- inq_dimlen f i;; do _ <- assert_dimension n (length l);; put_var f varid d
          | DReal l, [i] => do n <- inq_dimlen f i;; do _ <- assert_dimension n (length l);; put_var f varid d
          | DText l, [_; i] => do n <- inq_dimlen f i;; do _ <- assert_dimension n (length l);; put_var f varid d
          | DMatrix a, [i; j] =>
              do n1 <- inq_dimlen f i;; do n2 <- inq_dimlen f j;;
              do _ <- assert_dimension n1 (mx_1 a);; do _ <- assert_dimension n2 (mx_2 a);;
              put_var f varid d
          | _, _ => Raise OtherError
          end
      end
  end.

(** ** mod_type.F90 *)

(** mod_type.F90:99-116: matchup_statistics_t. *)
Record statistics := mkStatistics {
  s_m : Z; s_cost : R; s_cost_reduced : R; s_cost_p_value : R; s_cost_matchup : R; s_cost_sensors : R;
  s_mean : R; s_sdev : R }.
(** mod_type.F90:143-186: parameter_dataset_t. *)
Record parameter_dataset := mkPd {
  p_n : nat; p_nmatchup : nat; p_nsensor : nat; p_nconfig : nat;
  p_x : list R; p_xu : list R; p_xc : matrix; p_xr : matrix; p_add_offsets : list R; p_scale_factors : list R;
  p_x_names : list string; p_eqn_ids : list Z; p_eqn_n : list Z; p_eqn_o : list Z; p_eqn_y : list R;
  p_sensor_names : list string; p_matchup_statistics : list statistics; p_matchup_sensor_names : list string;
  p_begin : string; p_end : string; p_statistics : statistics; p_uuids : list string }.
(** mod_type.F90:189-225: residuals_dataset_t, without the two arrays that are not written. *)
Record residuals_dataset := mkRd {
  r_m : nat; r_t : list R; r_k_res : list R; r_k_res_unc : list R; r_k_res_weights : list R;
  r_meas_i : list R; r_meas_j : list R; r_meas_i_unc_q : list R; r_meas_j_unc_q : list R;
  r_meas_i_unc_x : list R; r_meas_j_unc_x : list R;
  r_begin : string; r_end : string; r_sensor_i : string; r_sensor_j : string; r_uuid : string }.

(** mod_config.F90:141-171, 135: the values of attributes that come from the configuration. *)
Record config := mkConfig {
  c_software : string; c_version : string; c_tag : string; c_job : string; c_job_id : string; c_dataset_id : string }.

(** ** mod_writer.F90.  The names are the defaults of mod_config.F90:150-403. *)

Definition add_atts (f : ncfile) (l : list (string * ncatt)) : res ncfile :=
  foldM (fun f p => add_global_attribute f (fst p) (snd p)) l f.
(** mod_writer.F90:259-272. *)
Definition att_matchup_dataset (c : config) (b e : string) : list (string * ncatt) :=
  [("matchup_dataset", AText (c_dataset_id c)); ("matchup_dataset_begin", AText b); ("matchup_dataset_end", AText e)].
(** mod_writer.F90:274-287. *)
Definition att_statistics (s : statistics) : list (string * ncatt) :=
  [("number_of_matchups", AInt (s_m s)); ("cost", AReal (s_cost s)); ("cost_p_value", AReal (s_cost_p_value s));
   ("cost_reduced", AReal (s_cost_reduced s)); ("cost_matchup", AReal (s_cost_matchup s));
   ("cost_sensors", AReal (s_cost_sensors s)); ("K_res_mean", AReal (s_mean s)); ("K_res_sdev", AReal (s_sdev s))].
(** mod_writer.F90:289-298. *)
Definition att_software_and_job (c : config) : list (string * ncatt) :=
  [("software", AText (c_software c)); ("software_version", AText (c_version c)); ("software_tag", AText (c_tag c));
   ("job", AText (c_job c)); ("job_id", AText (c_job_id c))].

(** mod_writer.F90:374-399: add_statistics; the identifiers m_id, cost_id, cost_reduced_id, mean_id,
    sdev_id. *)
Definition add_statistics (f : ncfile) (l : list statistics) (dimid : nat) : res (ncfile * (nat * nat * nat * nat * nat)) :=
  let size := length l in
  do r <- add_vector f "number_of_matchups" NInt size dimid;; let '(f, m_id) := r in
  do r <- add_vector f "cost" NDouble size dimid;; let '(f, cost_id) := r in
  do r <- add_vector f "cost_reduced" NDouble size dimid;; let '(f, cost_reduced_id) := r in
  do r <- add_vector f "K_res_mean" NDouble size dimid;; let '(f, mean_id) := r in
  do r <- add_vector f "K_res_sdev" NDouble size dimid;; let '(f, sdev_id) := r in
  Ok (f, (m_id, cost_id, cost_reduced_id, mean_id, sdev_id)).
(** mod_writer.F90:401-437: write_statistics. *)
Definition write_statistics (f : ncfile) (ids : nat * nat * nat * nat * nat) (l : list statistics) : res ncfile :=
  let '(m_id, cost_id, cost_reduced_id, mean_id, sdev_id) := ids in
  do f <- write_variable f m_id (DInt (map s_m l));;
  do f <- write_variable f cost_id (DReal (map s_cost l));;
  do f <- write_variable f cost_reduced_id (DReal (map s_cost_reduced l));;
  do f <- write_variable f mean_id (DReal (map s_mean l));;
  write_variable f sdev_id (DReal (map s_sdev l)).

(** mod_writer.F90:53-167: write_parameter_dataset_nc; the result is the file. *)
Definition write_parameter_dataset (c : config) (ds : parameter_dataset) (uuid : string) : res ncfile :=
  let must_write_config := 0 <? p_nconfig ds in
  do f <- add_atts create_dataset
            (att_matchup_dataset c (p_begin ds) (p_end ds) ++ att_statistics (p_statistics ds) ++
             att_software_and_job c ++ [("uuid", AText uuid)]);;
  do r <- add_dimension f "l_name" 80;; let '(f, lname_id) := r in
  do r <- add_dimension f "l_uuid" 36;; let '(f, luuid_id) := r in
  do r <- add_dimension f "n" (p_n ds);; let '(f, n_id) := r in
  do r <- add_dimension f "n_sensor_pair" (p_nmatchup ds);; let '(f, npair_id) := r in
  do r <- add_dimension f "n_sensor" (p_nsensor ds);; let '(f, nsensor_id) := r in
  do r <- (if must_write_config then add_dimension f "n_config" (p_nconfig ds) else Ok (f, 0));;
  let '(f, nconfig_id) := r in
  do r <- add_vector f "parameter" NDouble (length (p_x ds)) n_id;; let '(f, x_id) := r in
  do r <- add_vector f "parameter_uncertainty" NDouble (length (p_xu ds)) n_id;; let '(f, xu_id) := r in
  do r <- add_matrix f "parameter_covariance_matrix" (p_xc ds) n_id n_id;; let '(f, xc_id) := r in
  do r <- add_matrix f "parameter_correlation_matrix" (p_xr ds) n_id n_id;; let '(f, xr_id) := r in
  do r <- add_vector f "parameter_add_offset" NDouble (length (p_add_offsets ds)) n_id;; let '(f, x_add_offset_id) := r in
  do r <- add_vector f "parameter_scale_factor" NDouble (length (p_scale_factors ds)) n_id;; let '(f, x_scale_factor_id) := r in
  do r <- add_text f "parameter_name" (length (p_x_names ds)) lname_id n_id;; let '(f, x_name_id) := r in
  do r <- add_vector f "sensor_equation_id" NInt (length (p_eqn_ids ds)) nsensor_id;; let '(f, sensor_eqn_id) := r in
  do r <- add_vector f "sensor_equation_parameter_count" NInt (length (p_eqn_n ds)) nsensor_id;; let '(f, sensor_eqn_n_id) := r in
  do r <- (if must_write_config then
             do r <- add_vector f "sensor_equation_config_count" NInt (length (p_eqn_o ds)) nsensor_id;; let '(f, o_id) := r in
             do r <- add_vector f "sensor_equation_config" NDouble (length (p_eqn_y ds)) nconfig_id;; let '(f, y_id) := r in
             Ok (f, o_id, y_id)
           else Ok (f, 0, 0));;
  let '(f, sensor_eqn_o_id, sensor_eqn_y_id) := r in
  do r <- add_text f "sensor_name" (length (p_sensor_names ds)) lname_id nsensor_id;; let '(f, sensor_name_id) := r in
  do r <- add_statistics f (p_matchup_statistics ds) npair_id;; let '(f, stat_ids) := r in
  do r <- add_text f "matchup_sensor_names" (length (p_matchup_sensor_names ds)) lname_id npair_id;;
  let '(f, matchup_sensor_pairs_id) := r in
  do r <- add_text f "matchup_dataset_uuid" (length (p_uuids ds)) luuid_id npair_id;;
  let '(f, matchup_dataset_uuids_id) := r in
  let f := finish_dataset f in
  do f <- write_variable f x_id (DReal (p_x ds));;
  do f <- write_variable f xu_id (DReal (p_xu ds));;
  do f <- write_variable f xc_id (DMatrix (p_xc ds));;
  do f <- write_variable f xr_id (DMatrix (p_xr ds));;
  do f <- write_variable f x_add_offset_id (DReal (p_add_offsets ds));;
  do f <- write_variable f x_scale_factor_id (DReal (p_scale_factors ds));;
  do f <- write_variable f x_name_id (DText (p_x_names ds));;
  do f <- write_variable f sensor_eqn_id (DInt (p_eqn_ids ds));;
  do f <- write_variable f sensor_eqn_n_id (DInt (p_eqn_n ds));;
  do f <- (if must_write_config then
             do f <- write_variable f sensor_eqn_o_id (DInt (p_eqn_o ds));;
             write_variable f sensor_eqn_y_id (DReal (p_eqn_y ds))
           else Ok f);;
  do f <- write_variable f sensor_name_id (DText (p_sensor_names ds));;
  do f <- write_statistics f stat_ids (p_matchup_statistics ds);;
  do f <- write_variable f matchup_sensor_pairs_id (DText (p_matchup_sensor_names ds));;
  write_variable f matchup_dataset_uuids_id (DText (p_uuids ds)).

(** mod_writer.F90:169-257: write_residuals_dataset_nc.  [m]: one variable of type "float". *)
Definition write_residuals_dataset (c : config) (ds : residuals_dataset) (uuid : string) : res ncfile :=
  do f <- add_atts create_dataset
            (att_matchup_dataset c (r_begin ds) (r_end ds) ++ [("matchup_dataset_uuid", AText (r_uuid ds));
             ("sensor_1_name", AText (r_sensor_i ds)); ("sensor_2_name", AText (r_sensor_j ds))] ++
             att_software_and_job c ++ [("uuid", AText uuid)]);;
  do r <- add_dimension f "M" (r_m ds);; let '(f, m_id) := r in
  do r <- add_vector f "t" NFloat (length (r_t ds)) m_id;; let '(f, t_id) := r in
  do r <- add_vector f "K_res" NFloat (length (r_k_res ds)) m_id;; let '(f, k_res_id) := r in
  do r <- add_vector f "K_res_uncertainty" NFloat (length (r_k_res_unc ds)) m_id;; let '(f, k_res_unc_id) := r in
  do r <- add_vector f "K_res_weights" NFloat (length (r_k_res_weights ds)) m_id;; let '(f, k_res_weights_id) := r in
  do r <- add_vector f "measurand1" NFloat (length (r_meas_i ds)) m_id;; let '(f, meas_i_id) := r in
  do r <- add_vector f "measurand2" NFloat (length (r_meas_j ds)) m_id;; let '(f, meas_j_id) := r in
  do r <- add_vector f "measurand1_uncertainty_tel" NFloat (length (r_meas_i_unc_q ds)) m_id;; let '(f, meas_i_unc_q_id) := r in
  do r <- add_vector f "measurand2_uncertainty_tel" NFloat (length (r_meas_j_unc_q ds)) m_id;; let '(f, meas_j_unc_q_id) := r in
  do r <- add_vector f "measurand1_uncertainty_cal" NFloat (length (r_meas_i_unc_x ds)) m_id;; let '(f, meas_i_unc_x_id) := r in
  do r <- add_vector f "measurand2_uncertainty_cal" NFloat (length (r_meas_j_unc_x ds)) m_id;; let '(f, meas_j_unc_x_id) := r in
  let f := finish_dataset f in
  do f <- write_variable f t_id (DReal (r_t ds));;
  do f <- write_variable f k_res_id (DReal (map round (r_k_res ds)));;
  do f <- write_variable f k_res_unc_id (DReal (map round (r_k_res_unc ds)));;
  do f <- write_variable f k_res_weights_id (DReal (map round (r_k_res_weights ds)));;
  do f <- write_variable f meas_i_id (DReal (map round (r_meas_i ds)));;
  do f <- write_variable f meas_j_id (DReal (map round (r_meas_j ds)));;
  do f <- write_variable f meas_i_unc_q_id (DReal (map round (r_meas_i_unc_q ds)));;
  do f <- write_variable f meas_j_unc_q_id (DReal (map round (r_meas_j_unc_q ds)));;
  do f <- write_variable f meas_i_unc_x_id (DReal (map round (r_meas_i_unc_x ds)));;
  write_variable f meas_j_unc_x_id (DReal (map round (r_meas_j_unc_x ds))).
End Round.

(** ** demo.F90 *)

Open Scope R_scope.
(** demo.F90:93-123: the parameter dataset of the demonstration; the sizes of the constructors are
    those of the code.  [dates]: begin_date and end_date are "". *)
Definition demo_dataset (n : nat) (x : list R) (xc : nat -> nat -> R) : parameter_dataset :=
  let l := correlation_elements n xc in
  let xr := fun i j => nth ((i - 1) + (j - 1) * n)%nat l 0 in
  let all := mkStatistics 30000 15000 (1/2) 1 15000 0 0 1 in
  let one := mkStatistics 10000 5000 (1/2) 1 5000 0 0 1 in
  let other := "9cab83ea-4f89-45d1-91ad-d9a17f225583"%string in
  mkPd n 3 4 0 x (uncertainties n xc) (mkMatrix n n xc) (mkMatrix n n xr) (repeat 0 n) (repeat 1 n)
    ["1/1"; "1/2"; "1/3"; "2/1"; "2/2"; "2/3"; "3/1"; "3/2"; "3/3"]%string
    [0; 101; 101; 101]%Z [0; 3; 3; 3]%Z [] [] ["0"; "1"; "2"; "3"]%string
    [one; one; one] ["0 1"; "1 2"; "2 3"]%string "" "" all [other; other; other].
(** demo.F90:139-153: x = 0, xc = 0.1 with 0.5 on the diagonal. *)
Definition demo_xc (i j : nat) : R := if (i =? j)%nat then 1/2 else 1/10.
(** demo.F90:127-154: what the demonstration writes after reading; the result of reading is the
    number of parameters. *)
Definition demo_write (round : R -> R) (c : config) (ss : sensors) : res ncfile :=
  let n := parameter_count ss in
  write_parameter_dataset round c (demo_dataset n (repeat 0 n) demo_xc) "02b650e8-d476-48fc-881b-71ad0ea8c025".
