(** Model of the Fortran demonstration program (harmonisation_meiv_demo/src/main/fortran/gpl): the
    time stamps (mod_time.F90), the names of the datasets written (mod_config.F90) and the units of
    the residuals dataset (mod_writer.F90).

    Fortran integers are modelled by [Z]; integer division truncates towards zero ([Z.quot],
    [Z.rem]).  The default integer has 32 bits: where a real number is converted into a default
    integer the model raises OverflowError (as [OtherError]) when the value does not fit; in Fortran
    the result is then undefined. *)
From Verif Require Import Base.
From Coq Require Import QArith Qround.
Open Scope string_scope.
Open Scope nat_scope.
Open Scope list_scope.

(** ** mod_time.F90 *)

(** mod_time.F90:83,95: int( floor( x ) ) with the default integer kind. *)
Definition floor32 (x : Q) : res Z :=
  let z := Qfloor x in
  if ((-2147483648 <=? z) && (z <=? 2147483647))%Z then Ok z else Raise OtherError.

(** mod_time.F90:70-80: constants from Richards (2013), and :86-92: year, month and day of a Julian
    day number. *)
Definition richards (jdn : Z) : Z * Z * Z :=
  let f := (jdn + 1401 + Z.quot (Z.quot (4 * jdn + 274277) 146097 * 3) 4 + -38)%Z in
  let e := (4 * f + 3)%Z in
  let g := Z.quot (Z.rem e 1461) 4 in
  let h := (5 * g + 2)%Z in
  let day := (Z.quot (Z.rem h 153) 5 + 1)%Z in
  let month := (Z.rem (Z.quot h 153 + 2) 12 + 1)%Z in
  let year := (Z.quot e 1461 - 4716 + Z.quot (12 + 2 - month) 12)%Z in
  (year, month, day).

(** mod_time.F90:67,82-83: the Julian day number of a Unix time.  Simplification: the division and
    the addition in double precision are exact. *)
Definition julian_day (uts : Q) : res Z :=
  floor32 ((4881175 # 2) + uts / 86400 + (1 # 2))%Q.

(** mod_time.F90:95-101: hour, minute, seconds. *)
Definition clock (t : Z) : Z * Z * Z :=
  let secs := Z.rem t 86400 in
  let secs := if (secs <? 0)%Z then (secs + 86400)%Z else secs in
  let hour := Z.quot secs 3600 in
  let minute := Z.quot (secs - hour * 3600) 60 in
  (hour, minute, (secs - hour * 3600 - minute * 60)%Z).

(** The edit descriptor iw.w: w decimal digits, or w asterisks when the number does not fit (a
    negative number with w digits never fits). *)
Definition dec (z : Z) : string := String (ascii_of_nat (48 + Z.to_nat z)) "".
Fixpoint zeros_dec (w : nat) (z : Z) : string :=
  match w with
  | 0 => ""
  | S w' => (zeros_dec w' (z / 10)%Z ++ dec (z mod 10)%Z)%string
  end.
Fixpoint stars (w : nat) : string := match w with 0 => "" | S w' => String "*" (stars w') end.
Definition edit_i (w : nat) (z : Z) : string :=
  if ((0 <=? z) && (z <? 10 ^ Z.of_nat w))%Z then zeros_dec w z else stars w.

(** mod_time.F90:54-109: iso_date_and_time. *)
Definition iso_date_and_time (uts : Q) : res string :=
  do jdn <- julian_day uts;;
  let '(year, month, day) := richards jdn in
  do t <- floor32 uts;;
  let '(hour, minute, secs) := clock t in
  let date := (year * 10000 + month * 100 + day)%Z in
  let time := (hour * 10000 + minute * 100 + secs)%Z in
  Ok (edit_i 8 date ++ "T" ++ edit_i 6 time ++ "Z")%string.

(** ** mod_config.F90 *)

(** A Fortran character value.  A variable of length n holds exactly n characters. *)
Definition fstr := list ascii.
Definition fs (s : string) : fstr := list_ascii_of_string s.
(** mod_type.F90:36: TYPE_MAX_LEN_PATH. *)
Definition path_len : nat := 512.
(** Assignment to a variable of length n: padded with blanks, or truncated. *)
Definition fassign (n : nat) (s : fstr) : fstr := firstn n (s ++ repeat " "%char (n - length s)).
(** trim: without trailing blanks. *)
Fixpoint ltrim (s : fstr) : fstr :=
  match s with
  | [] => []
  | c :: s' => if Ascii.eqb c " " then ltrim s' else s
  end.
Definition trim (s : fstr) : fstr := rev (ltrim (rev s)).
(** Comparison of character values: the shorter one is padded with blanks. *)
Definition feq (a b : fstr) : bool :=
  if list_eq_dec ascii_dec (trim a) (trim b) then true else false.

(** The configuration variables the names are made of. *)
Record names := mkNames {
  n_parameter : fstr;   (** config_name_parameter_dataset *)
  n_residuals : fstr;   (** config_name_residuals_dataset *)
  n_software : fstr; n_version : fstr; n_tag : fstr; n_job : fstr; n_dataset : fstr }.

(** mod_config.F90:555-562 = :589-596: the name is extended part by part in a variable of length
    TYPE_MAX_LEN_PATH. *)
Definition extend (name part : fstr) : fstr := fassign path_len (trim name ++ "_"%char :: trim part).
Definition default_stem (c : names) (begin_date end_date : fstr) : fstr :=
  fold_left extend [n_software c; n_version c; n_tag c; n_job c; n_dataset c; begin_date; end_date]
    (fassign path_len (fs "harm")).

(** mod_config.F90:545-567: get_parameter_dataset_name; the test is on len( ), the declared length. *)
Definition get_parameter_dataset_name (c : names) (ext begin_date end_date : fstr) : fstr :=
  if 0 <? length (n_parameter c)
  then fassign path_len (trim (default_stem c begin_date end_date) ++ trim ext)
  else fassign path_len (trim (n_parameter c) ++ trim ext).

(** mod_config.F90:577-604: get_residuals_dataset_name. *)
Definition get_residuals_dataset_name (c : names) (ext begin_date end_date si sj : fstr) : fstr :=
  if feq (n_residuals c) []
  then
    let name := extend (default_stem c begin_date end_date) (fs "res") in
    let name := extend name si in
    let name := extend name sj in
    fassign path_len (trim name ++ trim ext)
  else fassign path_len (n_residuals c ++ "_"%char :: trim si ++ fs "_" ++ trim sj ++ trim ext).

(** ** mod_writer.F90 *)

(** The variables of the residuals dataset, by their identifiers. *)
Inductive res_var : Set :=
| V_t | V_k_res | V_k_res_unc | V_k_res_weights | V_meas_i | V_meas_j
| V_meas_i_unc_q | V_meas_j_unc_q | V_meas_i_unc_x | V_meas_j_unc_x.
Definition res_var_eqb (a b : res_var) : bool :=
  match a, b with
  | V_t, V_t | V_k_res, V_k_res | V_k_res_unc, V_k_res_unc | V_k_res_weights, V_k_res_weights
  | V_meas_i, V_meas_i | V_meas_j, V_meas_j | V_meas_i_unc_q, V_meas_i_unc_q
  | V_meas_j_unc_q, V_meas_j_unc_q | V_meas_i_unc_x, V_meas_i_unc_x | V_meas_j_unc_x, V_meas_j_unc_x
    => true
  | _, _ => false
  end.
(** The "units" attributes: adding an attribute that exists replaces its value. *)
Definition units := res_var -> option fstr.
Definition add_units (v : res_var) (u : fstr) (a : units) : units :=
  fun w => if res_var_eqb w v then Some u else a w.

(** mod_writer.F90:208,227-237: the units of the residuals dataset. *)
Definition residuals_units (time_unit enable_unit : fstr) : units :=
  let a := add_units V_t time_unit (fun _ => None) in
  if negb (feq enable_unit []) then
    let a := add_units V_k_res enable_unit a in
    let a := add_units V_k_res_unc enable_unit a in
    let a := add_units V_k_res_unc (fs "1 / " ++ enable_unit) a in
    let a := add_units V_meas_i enable_unit a in
    let a := add_units V_meas_j enable_unit a in
    let a := add_units V_meas_i_unc_q enable_unit a in
    let a := add_units V_meas_j_unc_q enable_unit a in
    let a := add_units V_meas_i_unc_x enable_unit a in
    add_units V_meas_j_unc_x enable_unit a
  else a.
