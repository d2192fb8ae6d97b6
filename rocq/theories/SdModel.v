(** * Registered sensor data: harmonisation_eiv/harmonisation/sensor_data (SensorDataFactory.py and the modules it imports), and the import of
    a sensor data file (MatchUpReader.open_sensor_data).

    Paths below are relative to /repo/harmonisation_eiv/harmonisation/sensor_data.  Sensor functions get the covariates as columns (EvalModel.smodel)
    and return the derivatives as columns; the Python functions have rows.  Decimal constants are exact.  Python's [float] and the conversion of
    an across-track index to a list index are parameters. *)
From Coq Require Import Reals Ascii.
From Verif Require Import Base ReaderModel SensorModel EvalModel InstModel HRModel PmhModel FullModel.
Open Scope nat_scope.

(** Rows of an array given by columns; the number of rows is that of the first column. *)
Definition rows_of (X : list (list R)) : list (list R) := map (fun i => map (fun c => nth i c 0%R) X) (seq 0 (length (hd [] X))).
(** The [w] columns of an array given by rows. *)
Definition cols_of (w : nat) (J : list (list R)) : list (list R) := map (fun j => map (fun r => nth j r 0%R) J) (seq 0 w).

Section Sd.
Context {T : Type} (toint : R -> Z) (pyfloat : text -> res R).

(** ** Sensor functions *)
(** AVHRR/AVHRR_sensor_models.py:23-50 and MW/MW_sensor_models.py:42-66: the first column, no derivatives. *)
Definition ref_function : smodel T := fun X _ _ _ _ _ => do r <- column_ref (rows_of X);; Ok (r, None).
(** HIRS/HIRS_sensor_models.py:40-64: the first row. *)
Definition hirs_ref_function : smodel T := fun X _ _ _ _ _ => do r <- hirs_ref (rows_of X);; Ok (r, None).
(** AVHRR/AVHRR_sensor_models.py; columns of J: the covariates and parameters (InstModel). *)
Definition avhrr_function (k : avhrr) : smodel T := fun X a _ _ _ _ =>
  do q <- avhrr_call k (rows_of X) a;; Ok (fst q, Some (cols_of (avhrr_vars k + length a) (snd q))).
(** HIRS/HIRS_sensor_models.py:67-130 *)
Definition hirs_function : smodel T := fun X a c _ _ _ => do q <- vectorised (hirs_3 c) (rows_of X) a;; Ok (fst q, Some (cols_of 8 (snd q))).
(** MW/MW_sensor_models.py:68-169; without across-track indices [for i in None] raises. *)
Definition mw_function : smodel T := fun X a c xt _ _ =>
  match xt with
  | None => Raise TypeError
  | Some l => do q <- mw_3_rows c (map toint l) (rows_of X) a;; Ok (fst q, Some (cols_of 12 (snd q)))
  end.

(** ** Entries *)
(** An entry of SENSOR_DATA: what the reader uses, and "sensor_model_variables_num", "..._labels", "..._names".  "nominal_measurand_label" is not used. *)
Record registered := mkReg { g_entry : sentry R R (smodel T) amodel; g_num : nat; g_labels : list string; g_names : list string }.
Definition reg (p c : list R) (f : smodel T) (num : nat) (labels names : list string) : registered := mkReg (mkSentry R R (smodel T) amodel p c f None None) num labels names.
Definition table : Type := list (string * registered).
(** The SENSOR_DATA dictionary as the reader sees it. *)
Definition dict_of (t : table) : sensor_dict (T := T) := map (fun p => (fst p, g_entry (snd p))) t.

(** AVHRR/AVHRR_11um_3_sensor_data.py:31-38, likewise the other AVHRR modules *)
Definition ref_entry : registered := reg [] [] ref_function 1 ["L_{ref}"]%string ["Lref"]%string.
Definition labels4 : list string := ["\bar{C}_{S}"; "\bar{C}_{ICT}"; "C_E"; "L_{ICT}"]%string.
Definition names4 : list string := ["C_S"; "C_ICT"; "C_E"; "L_ICT"]%string.
(** AVHRR_11um_3_sensor_data.py:42-49 and (five variables) AVHRR_11um_4_sensor_data.py:41-48 *)
Definition avhrr_entry (k : avhrr) (p : list R) : registered :=
  let more s := if avhrr_vars k =? 5 then [s] else [] in reg p [] (avhrr_function k) (avhrr_vars k) (labels4 ++ more "T_o"%string) (names4 ++ more "T_o"%string).
Definition avhrr_refs : list string := ["aatsr"; "atsr2"; "atsr1"]%string.
Definition avhrr_sensors : list string := ["m02"; "n19"; "n18"; "n17"; "n16"; "n15"; "n14"; "n12"; "n11"; "n10"; "n09"; "n08"; "n07"]%string.
(** AVHRR_{11um,12um}_3[_rescaled], AVHRR_{11um,12um}_4[_rescaled], AVHRR_37um_2[_rescaled], AVHRR_37um_3[_rescaled] _sensor_data.py:26-49 *)
Definition avhrr_table (k : avhrr) : table :=
  map (fun s => (s, ref_entry)) avhrr_refs ++ map (fun s => (s, avhrr_entry k (repeat 0%R (avhrr_declared_params k)))) avhrr_sensors.
(** AVHRR_sim_3_sensor_data.py:25-129 *)
Definition sim_ref : registered := reg [] [] ref_function 1 ["$L_{ref}$"]%string ["Lref"]%string.
Definition sim3_table : table :=
  let later := [1802 / 1000; - (631 / 100000); 19 / 1000000]%R in
  ("m02"%string, sim_ref) :: map (fun q => (fst q, avhrr_entry A3 (snd q)))
    [("n19", [- (245 / 100); 392 / 10000; 78 / 10000000]%R); ("n18", [1227 / 1000; - (14 / 10000); 218 / 10000000]%R); ("n17", [2479 / 1000; - (157 / 10000); 34 / 1000000]%R);
     ("n16", [191 / 100; - (95 / 10000); 96 / 10000000]%R); ("n15", later); ("n14", later); ("n12", later); ("n11", later); ("n10", later); ("n09", later); ("n08", later); ("n07", later)]%string.
(** test_sim/test_sim.py:27-51 *)
Definition test_table : table := map (fun s => (s, ref_entry)) ["0"]%string ++ map (fun s => (s, avhrr_entry A3 [0; 0; 0]%R)) ["1"; "2"; "3"]%string.

(** ** HIRS *)
(** Assignment to a key of a dictionary. *)
Fixpoint dset {A} (d : list (text * A)) (k : text) (v : A) : list (text * A) :=
  match d with [] => [(k, v)] | (k', v') :: r => if teqb k' k then (k', v) :: r else (k', v') :: dset r k v end.
Definition dget {A} (d : list (text * A)) (k : text) : res A := match find (fun p => teqb (fst p) k) d with Some p => Ok (snd p) | None => Raise KeyError end.
(** HIRS/HIRS_config_functions.py:27-46; the header line is skipped. *)
Definition coeff_line (d : list (text * list R)) (p : nat * text) : res (list (text * list R)) :=
  if fst p =? 0 then Ok d
  else let w := split (snd p) in do n <- get w 0;; do l <- mapM pyfloat (slice 1 4 w);; Ok (dset d n l).
Definition read_coeff_data (lines : list text) : res (list (text * list R)) := foldM coeff_line (enumerate lines) [].
Definition hirs_sensors : list string := ["ma"; "mb"; "n19"; "n18"; "n17"; "n16"; "n15"; "n14"; "n12"; "n11"; "n10"; "n09"; "n08"; "n07"; "n06"; "tn"]%string.
(** HIRS_config_functions.py:48-83 with the text of coeffs/coef_ch<n>.dat *)
Definition hirs_entry (c : list R) : registered :=
  reg [0; 0; 0]%R c hirs_function 5 ["\bar{C}_{S}"; "\bar{C}_{IWCT}"; "C_E"; "T_{ICT}"; "R_{\mathrm{self}}"]%string ["C_S"; "C_ICT"; "C_E"; "T_ICT"; "R_self"]%string.
Definition hirs_table (lines : list text) : res table :=
  do d <- read_coeff_data lines;;
  do l <- mapM (fun s => do c <- dget d (tx s);; Ok (s, hirs_entry c)) hirs_sensors;;
  Ok (("iasi"%string, reg [] [] hirs_ref_function 1 ["L_{ref}"]%string ["Lref"]%string) :: l).

(** ** Microwave sounders *)
(** MW/MW____Ch03_3_sensor_data.py:27-72, MW/MW_consts.py:3-16, :29-30 *)
Definition mw_names : list string := ["C_S"; "C_IWCT"; "T_IWCT1"; "T_IWCT2"; "T_IWCT3"; "T_IWCT4"; "T_IWCT5"; "C_E"; "T_LO"]%string.
Definition mw_labels (c s : string) : list string :=
  [c; s; "\bar{T}_{IWCT, 1}"; "\bar{T}_{IWCT, 2}"; "\bar{T}_{IWCT, 3}"; "\bar{T}_{IWCT, 4}"; "\bar{T}_{IWCT, 5}"]%string.
Definition mw_const (w : list R) : list R := (repeat 1 90 ++ w ++ [IZR 183310000000; 0; 1; 0])%R.
Definition amsub_entry : registered :=
  reg [0; 0; 0]%R (mw_const [1; 1; 1; 1; 1; 0; 1]%R) mw_function 9 (mw_labels "$\bar{C}_{S}$" "$\bar{C}_{IWCT}$" ++ ["$C_{E}$"; "$T_{LO}$"]%string) mw_names.
Definition mhs_entry : registered :=
  reg [0; 0; 0]%R (mw_const [2; 1; 1; 1; 1]%R) mw_function 9 (mw_labels "\bar{C}_{S}" "\bar{C}_{IWCT}" ++ ["C_E"; "T_{LO}"]%string) mw_names.
Definition mw_table : table :=
  [("18", reg [] [] ref_function 1 ["BT_{ref}"]%string ["BTref"]%string); ("A", mhs_entry); ("B", mhs_entry); ("19", mhs_entry); ("17", amsub_entry); ("16", amsub_entry); ("15", amsub_entry)]%string.
End Sd.

(** ** Importing a sensor data file *)
Section Import.
Context {D : Type}.
(** The interpreter: imported modules with their SENSOR_DATA, and sys.path. *)
Record interp := mkInterp { sys_modules : list (string * D); sys_path : list string }.
(** Sensor data files: directory and module name to the SENSOR_DATA of the file <directory>/<name>.py.  A path is given as directory, base name
    and extension; dotted names (packages), modules without SENSOR_DATA and built-in modules are left out. *)
Definition disk : Type := string -> string -> option D.
(** importlib.import_module: a module imported before is not read again; otherwise the first directory of sys.path that has it. *)
Definition import_module (fs : disk) (s : interp) (name : string) : res (D * interp) :=
  match lookup name (sys_modules s) with
  | Some d => Ok (d, s)
  | None => match find (fun p => match fs p name with Some _ => true | None => false end) (sys_path s) with
            | None => Raise OtherError
            | Some p => match fs p name with Some d => Ok (d, mkInterp ((name, d) :: sys_modules s) (sys_path s)) | None => Raise OtherError end
            end
  end.
(** MatchUpReader.py:555-575: the extension of the path plays no part. *)
Definition open_sensor_data (fs : disk) (s : interp) (dir name : string) : res (D * interp) :=
  import_module fs (mkInterp (sys_modules s) (dir :: sys_path s)) name.
(** Successive calls in one process (an import that fails leaves sys.path changed); the files may be changed between the calls. *)
Fixpoint opens (s : interp) (calls : list (disk * (string * string))) : list (res D) :=
  match calls with
  | [] => []
  | (fs, (dir, name)) :: r => match open_sensor_data fs s dir name with
      | Ok (d, s') => Ok d :: opens s' r
      | Raise e => Raise e :: opens (mkInterp (sys_modules s) (dir :: sys_path s)) r
      end
  end.
End Import.
