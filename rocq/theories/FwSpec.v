(** What the datasets written by the Fortran demonstration program contain. *)
From Coq Require Import String.
From Verif Require Import Base FdModel FwModel.
From Coq Require Import Reals.
Open Scope string_scope.
Open Scope nat_scope.
Open Scope list_scope.

(** The name of dimension i of a file. *)
Definition dim_name (f : ncfile) (i : nat) : option string :=
  match i with 0 => None | S k => option_map fst (nth_error (nc_dims f) k) end.
(** A variable of a file as a reader sees it: name, type, dimensions and data. *)
Definition seen (f : ncfile) (v : ncvar) : string * nctype * list (option string) * option ncdata :=
  (v_name v, v_type v, map (dim_name f) (v_dims v), v_data v).
(** The global attributes, dimensions and variables of a complete file. *)
Definition contains (f : ncfile) (atts : list (string * ncatt)) (dims : list (string * nat))
    (vars : list (string * nctype * list string * ncdata)) : Prop :=
  nc_defining f = false /\ nc_atts f = atts /\ nc_dims f = dims /\
  map (seen f) (nc_vars f) = map (fun p => let '(n, ty, ds, d) := p in (n, ty, map Some ds, Some d)) vars.

Definition is_square (a : matrix) (n : nat) : Prop := mx_1 a = n /\ mx_2 a = n.
(** The arrays of a parameter dataset have the declared sizes. *)
Definition well_sized (ds : parameter_dataset) : Prop :=
  let n := p_n ds in
  (length (p_x ds) = n /\ length (p_xu ds) = n /\ is_square (p_xc ds) n /\ is_square (p_xr ds) n /\
   length (p_add_offsets ds) = n /\ length (p_scale_factors ds) = n /\ length (p_x_names ds) = n) /\
  (length (p_eqn_ids ds) = p_nsensor ds /\ length (p_eqn_n ds) = p_nsensor ds /\
   length (p_sensor_names ds) = p_nsensor ds) /\
  (length (p_matchup_statistics ds) = p_nmatchup ds /\ length (p_matchup_sensor_names ds) = p_nmatchup ds /\
   length (p_uuids ds) = p_nmatchup ds) /\
  (p_nconfig ds <> 0 -> length (p_eqn_o ds) = p_nsensor ds /\ length (p_eqn_y ds) = p_nconfig ds).
(** It has parameters, match-up datasets and sensors. *)
Definition not_empty (ds : parameter_dataset) : Prop := p_n ds <> 0 /\ p_nmatchup ds <> 0 /\ p_nsensor ds <> 0.

Definition parameter_atts (c : config) (ds : parameter_dataset) (uuid : string) : list (string * ncatt) :=
  let s := p_statistics ds in
  [("matchup_dataset", AText (c_dataset_id c)); ("matchup_dataset_begin", AText (p_begin ds));
   ("matchup_dataset_end", AText (p_end ds));
   ("number_of_matchups", AInt (s_m s)); ("cost", AReal (s_cost s)); ("cost_p_value", AReal (s_cost_p_value s));
   ("cost_reduced", AReal (s_cost_reduced s)); ("cost_matchup", AReal (s_cost_matchup s));
   ("cost_sensors", AReal (s_cost_sensors s)); ("K_res_mean", AReal (s_mean s)); ("K_res_sdev", AReal (s_sdev s));
   ("software", AText (c_software c)); ("software_version", AText (c_version c)); ("software_tag", AText (c_tag c));
   ("job", AText (c_job c)); ("job_id", AText (c_job_id c)); ("uuid", AText uuid)].
Definition parameter_dims (ds : parameter_dataset) : list (string * nat) :=
  [("l_name", 80); ("l_uuid", 36); ("n", p_n ds); ("n_sensor_pair", p_nmatchup ds); ("n_sensor", p_nsensor ds)] ++
  (if p_nconfig ds =? 0 then [] else [("n_config", p_nconfig ds)]).
Definition parameter_vars (ds : parameter_dataset) : list (string * nctype * list string * ncdata) :=
  let st := p_matchup_statistics ds in
  [("parameter", NDouble, ["n"], DReal (p_x ds));
   ("parameter_uncertainty", NDouble, ["n"], DReal (p_xu ds));
   ("parameter_covariance_matrix", NDouble, ["n"; "n"], DMatrix (p_xc ds));
   ("parameter_correlation_matrix", NDouble, ["n"; "n"], DMatrix (p_xr ds));
   ("parameter_add_offset", NDouble, ["n"], DReal (p_add_offsets ds));
   ("parameter_scale_factor", NDouble, ["n"], DReal (p_scale_factors ds));
   ("parameter_name", NChar, ["l_name"; "n"], DText (p_x_names ds));
   ("sensor_equation_id", NInt, ["n_sensor"], DInt (p_eqn_ids ds));
   ("sensor_equation_parameter_count", NInt, ["n_sensor"], DInt (p_eqn_n ds))] ++
  (if p_nconfig ds =? 0 then []
   else [("sensor_equation_config_count", NInt, ["n_sensor"], DInt (p_eqn_o ds));
         ("sensor_equation_config", NDouble, ["n_config"], DReal (p_eqn_y ds))]) ++
  [("sensor_name", NChar, ["l_name"; "n_sensor"], DText (p_sensor_names ds));
   ("number_of_matchups", NInt, ["n_sensor_pair"], DInt (map s_m st));
   ("cost", NDouble, ["n_sensor_pair"], DReal (map s_cost st));
   ("cost_reduced", NDouble, ["n_sensor_pair"], DReal (map s_cost_reduced st));
   ("K_res_mean", NDouble, ["n_sensor_pair"], DReal (map s_mean st));
   ("K_res_sdev", NDouble, ["n_sensor_pair"], DReal (map s_sdev st));
   ("matchup_sensor_names", NChar, ["l_name"; "n_sensor_pair"], DText (p_matchup_sensor_names ds));
   ("matchup_dataset_uuid", NChar, ["l_uuid"; "n_sensor_pair"], DText (p_uuids ds))].

(** The same for a residuals dataset. *)
Definition residuals_sized (ds : residuals_dataset) : Prop :=
  let m := r_m ds in
  length (r_t ds) = m /\ length (r_k_res ds) = m /\ length (r_k_res_unc ds) = m /\ length (r_k_res_weights ds) = m /\
  length (r_meas_i ds) = m /\ length (r_meas_j ds) = m /\ length (r_meas_i_unc_q ds) = m /\
  length (r_meas_j_unc_q ds) = m /\ length (r_meas_i_unc_x ds) = m /\ length (r_meas_j_unc_x ds) = m.
Definition residuals_atts (c : config) (ds : residuals_dataset) (uuid : string) : list (string * ncatt) :=
  [("matchup_dataset", AText (c_dataset_id c)); ("matchup_dataset_begin", AText (r_begin ds));
   ("matchup_dataset_end", AText (r_end ds)); ("matchup_dataset_uuid", AText (r_uuid ds));
   ("sensor_1_name", AText (r_sensor_i ds)); ("sensor_2_name", AText (r_sensor_j ds));
   ("software", AText (c_software c)); ("software_version", AText (c_version c)); ("software_tag", AText (c_tag c));
   ("job", AText (c_job c)); ("job_id", AText (c_job_id c)); ("uuid", AText uuid)].
Definition residuals_vars (round : R -> R) (ds : residuals_dataset) : list (string * nctype * list string * ncdata) :=
  map (fun p => (fst p, NFloat, ["M"], DReal (map round (snd p))))
    [("t", r_t ds); ("K_res", r_k_res ds); ("K_res_uncertainty", r_k_res_unc ds); ("K_res_weights", r_k_res_weights ds);
     ("measurand1", r_meas_i ds); ("measurand2", r_meas_j ds);
     ("measurand1_uncertainty_tel", r_meas_i_unc_q ds); ("measurand2_uncertainty_tel", r_meas_j_unc_q ds);
     ("measurand1_uncertainty_cal", r_meas_i_unc_x ds); ("measurand2_uncertainty_cal", r_meas_j_unc_x ds)].
