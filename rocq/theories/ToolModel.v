(** Model of the job scripts of tools/ (PCsolver.py, initialGNsolver.py,
    fullEIVsolver_covariance_analytical.py, fullEIVsolver_covariance_montecarlo.py), of the console
    script harm_comp_plot.py with tools/HarmonisationCompPlottingOp.py, and of
    HarmonisationVis.plot_compare_calibration.  No proofs. *)
From Verif Require Import Base ReaderModel.
Open Scope string_scope.
Open Scope nat_scope.
Open Scope list_scope.

(** ** Scripts: names used and constructors called *)

(** The public names of tools/common.py (imports :6-18, :32, definitions :35, 46, 127, 175, 202, 267,
    292), which is what "from common import *" binds: the module has no __all__. *)
Definition common_names : list string :=
  ["ConfigParser"; "logging"; "argparse"; "importlib"; "os"; "listdir"; "makedirs"; "isfile";
   "abspath"; "split"; "pjoin"; "sys"; "errno"; "SensorDataFactory"; "software_short_name";
   "ListSensors"; "parse_cmdline"; "configure_logging"; "read_parsed_cmdline"; "read_job_file";
   "import_file"; "try_makedirs"].

(** What a script does: call a global name, construct an object with keyword arguments, call a method
    of it. *)
Inductive step :=
| Call (name : string)
| New (class : string) (keywords : list string)
| Method (name : string).

(** Constructor parameters (self left out): HarmonisationOp.py:72; HarmonisationCompPlottingOp.py:96. *)
Definition parameters (class : string) : list string :=
  if String.eqb class "HarmonisationComparisonPlottingOp"
  then ["dataset_dir"; "sensor_data"; "output_dir"] else [].

(** One step in namespace [ns]; [does n] is what calling [n] does (Ok or an exception).  A global name
    that is not bound raises NameError, an unexpected keyword TypeError. *)
Definition exec (ns : list string) (does : string -> res unit) (s : step) : res unit :=
  match s with
  | Call n => if existsb (String.eqb n) ns then does n else Raise NameError
  | New c kw => if existsb (String.eqb c) ns then
                  if forallb (fun k => existsb (String.eqb k) (parameters c)) kw then Ok tt
                  else Raise TypeError
                else Raise NameError
  | Method n => does n
  end.
Definition run_script (ns : list string) (does : string -> res unit) (l : list step) : res unit :=
  foldM (fun _ s => exec ns does s) l tt.

(** The common beginning: PCsolver.py:53-75, initialGNsolver.py:53-75 (the covariance scripts differ
    only after the second name, see below); the optional import of a data reader is left out. *)
Definition op_keywords : list string :=
  ["dataset_paths"; "sensor_data_path"; "output_dir"; "software_cfg"; "data_reader"].
(** PCsolver.py:39-91 *)
Definition pc_script : list step :=
  [Call "read_software_cfg"; Call "read_job_cfg"; Call "get_dataset_paths"; Call "basename";
   Call "makedirs"; New "HarmonisationOp" op_keywords; Method "runPC"].
(** initialGNsolver.py:39-91 *)
Definition initial_script : list step :=
  [Call "read_software_cfg"; Call "read_job_cfg"; Call "get_dataset_paths"; Call "basename";
   Call "makedirs"; New "HarmonisationOp" op_keywords; Method "calculate_GNOp_initial"].
(** fullEIVsolver_covariance_analytical.py:30-91; [element]: with i and j given. *)
Definition analytical_script (element : bool) : list step :=
  [Call "read_software_cfg"; Call "read_job_cfg"; Call "get_dataset_paths"; Call "basename";
   Call "get_harm_paths"; New "HarmonisationOp" op_keywords;
   Method (if element then "calculate_parameter_covariance_ij" else "combine_parameter_covariance_ij")].
(** fullEIVsolver_covariance_montecarlo.py:31-91; [trial]: with a trial number. *)
Definition montecarlo_script (trial : bool) : list step :=
  [Call "read_software_cfg"; Call "read_job_cfg"; Call "get_dataset_paths"; Call "import_file";
   Call "basename"; Call "makedirs";
   New "HarmonisationOp" ["dataset_paths"; "output_dir"; "software_cfg"; "data_reader"];
   Method (if trial then "run_mc_trial" else "combine_parameter_covariance_ij")].
(** harm_comp_plot.py:35-53 *)
Definition comp_plot_script : list step :=
  [Call "read_parsed_cmdline";
   New "HarmonisationComparisonPlottingOp" ["dataset_paths"; "sensor_data_path"; "output_dir"];
   Method "run"].

(** The names bound in the job scripts (their import lines) and in harm_comp_plot.py:13-15. *)
Definition job_names : list string :=
  common_names ++ ["makedirs"; "basename"; "argv"; "HarmonisationOp"; "array"; "savetxt"; "Dataset";
                   "HarmonisationResult"; "GNAlgo"].
Definition comp_plot_names : list string := common_names ++ ["HarmonisationComparisonPlottingOp"].

(** ** HarmonisationVis.plot_compare_calibration, the loop over series (HarmonisationVis.py:268-292) *)
Section Compare.
Variable A : Type.

(** set(a) == set(b) *)
Definition same_set (a b : list string) : bool :=
  forallb (fun x => existsb (String.eqb x) b) a && forallb (fun x => existsb (String.eqb x) a) b.

(** One plot: the sensor in the file name and title, and the two data columns plotted against each
    other (difference and first measurand; the error bars are sliced in the same way). *)
Record plot := mkPlot { p_sensor : string; p_diff : list A; p_meas : list A }.

(** Column [i] of an array with two columns. *)
Definition column2 (i : nat) (l : list (A * A)) : list A :=
  map (fun r => if i =? 0 then fst r else snd r) l.

(** HarmonisationVis.py:273-291, body of the while loop for series [i_mu]. *)
Definition series_plots (ix : idx_t) (meas diff : list (A * A)) (i_mu : nat) : res (list plot) :=
  do istart <- get (cNm ix) i_mu;;
  do iend <- get (cNm ix) (i_mu + 1);;
  do pr <- get (Im ix) i_mu;;
  mapM (fun p : nat * nat =>
      do name <- get (sensors ix) (snd p);;
      Ok (mkPlot name (column2 (fst p) (slice istart iend diff)) (column2 (fst p) (slice istart iend meas))))
    [(0, fst pr); (1, snd pr)].

(** HarmonisationVis.py:269-292: while set(plotted_sensors) != set(sensors).  [fuel] bounds the number
    of turns (an IndexError ends the loop at the latest after the last series). *)
Fixpoint compare_loop (fuel : nat) (ix : idx_t) (meas diff : list (A * A)) (i_mu : nat) (done : list plot)
  : res (list plot) :=
  if same_set (map p_sensor done) (sensors ix) then Ok done
  else match fuel with
       | 0 => Raise OtherError
       | S fuel =>
           do ps <- series_plots ix meas diff i_mu;;
           compare_loop fuel ix meas diff (i_mu + 1) (done ++ ps)
       end.
Definition compare_plots (ix : idx_t) (meas diff : list (A * A)) : res (list plot) :=
  compare_loop (length (Im ix) + 1) ix meas diff 0 [].
End Compare.
