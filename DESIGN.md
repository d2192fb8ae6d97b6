# Formal model of FIDUCEO/Harmonisation: design

## 1. Technique

The Python (2.7) code is modelled *shallowly*, function by function, as total computable Gallina functions in
`rocq/theories/*Model.v`. Every definition cites the file and lines of /repo it models and says where it simplifies.

* Python exceptions are values: `res A := Ok a | Raise e` (`Base.v`); loops are `foldM`/`mapM` over lists, or recursion
  with the code's own iteration bound (solver loops) — no artificial bound on sizes or steps appears in a theorem.
* Lists model Python lists and 1-D numpy arrays; numpy slices, slice assignment, negative indices, broadcasting of
  length-1 arrays and the exceptions of the library calls are defined in `Base.v` and where they are first used.
* Bookkeeping code (reader, sampling, layout) is polymorphic in the element type; arithmetic uses the standard library's reals `R`.
* Objects that the code shares (dictionaries, cached attributes) are modelled by explicit state when a property is about
  histories of calls (HistModel, VisModel, SaveModel).
* What the code does not determine is universally quantified: random numbers (`smp`, draws), the iteration order of Python
  sets and dictionaries (`ord`), user supplied sensor functions, library routines (inner solvers in GNModel, cholesky/lstsq
  in PCModel, `float`/`int` of a word in PmhModel), float32 casts (`f32`).

Files: `*Model.v` model, no proofs; `*Spec.v` vocabulary in which the theorems are stated, independent of how the code
computes; `*Proofs*.v` (and `GN*.v`, `PC*.v`, ...) lemmas; `Properties*.v` the theorems, each closed by a short proof, followed by
`Print Assumptions` and by concrete non-trivial cases (`Example`) that meet the hypotheses.

Where a property of the list turns out to be false of the code, the theorem `Cnn_..._refuted` proves the violation for a
concrete input (or for all inputs of a kind), and the finding is listed in section 6. If a useful part holds, it is proved as
`Cnn_..._partial` or as a property of its own.

Theorems are tested against wrong programs: `seeded/LOG.jsonl` records, for each deliberate change of a model definition, the
claim it breaks and the theorems that stopped proving.

## 2. Trusted base

* The Coq 8.16.1 kernel (with `vm_compute` in a few examples). No axioms, functors, module types or plugins of our own;
  libraries used: the standard library, and Coquelicot (lemmas about derivatives only; it adds no axioms of its own).
* The standard library axioms listed per theorem in section 5.
* The reading of the Python source: the model is hand written from /repo and the code was never run. Semantics of Python 2.7, numpy,
  scipy.sparse, netCDF4 are those written in `Base.v` and in the comments of the models.
* Not modelled anywhere: IEEE-754 rounding and overflow (arithmetic is exact real arithmetic; where a float32/float64 cast is
  relevant it is an arbitrary function), NaN except where a model says so (AvModel, BTModel, MinresModel), netCDF storage itself
  (a file is a record of its variables), logging, plotting, process and OS behaviour, performance.

## 3. What is modelled

H = harmonisation_eiv/harmonisation.

| model | code in /repo | left out |
|---|---|---|
| ReaderModel, MuModel | H/core/matchup/matchupIO/{MatchUpReader,MatchUp}.py: layout, values, K, times, optional indices, additional values, accessors | netCDF I/O, logging |
| UncModel, UnckModel | MatchUpReader.py: uncertainties, W and u matrices; Uncertainty.py; tools/W_matrix_functions.py return_w_matrix_variables | |
| SensorModel | MatchUpReader.extract_sensor_data, MatchUp.setSensorData | importing the sensor data module |
| SampleModel | Sample2Ind.py, cython_lib_sample2ind.pyx, SampleMatchUp.py | float rounding of sampling factors |
| TransformModel, HistModel | Transform2NormInd.py (run, reverse), unconvert_Xs (Python and Cython), aliasing of idx and _original_idx | |
| EvalModel | matchup_maths.py | |
| GNModel, SaveModel | GN_algo.py: residual, Jacobian products, GN loop, covariance, save/open | float32; the inner solvers are arguments (see Lsmr/MinresModel) |
| LsmrModel, MinresModel | pykrylov_lsmr.py, pykrylov_minres.py | preconditioners, printing, histories |
| PCModel | pc_algo.py | LAPACK/scipy routines are arguments |
| HRModel | HarmonisationResult.py | additional variables |
| VisModel | HarmonisationVis.py: the cached quantities | the plots |
| OpModel | H/tools/{HarmonisationOp,common,full_eiv_solver,fullEIVsolver_covariance_analytical}.py | argparse, logging |
| SimModel | SimulateMatchUp.py, H/core/utils/stats.py | |
| InstModel, CompModel | sensor_data/{AVHRR,HIRS,MW}/*_sensor_models.py, AVHRR_sensor_models_cython.pyx | |
| DirModel | open_nc_datasets, tools/simulation_set_true_K.py, tools/simulated_AVHRR.py | |
| CheckModel | tools/harmonisation_input_checker.py | order of the messages |
| WModel | tools/generate_w_matrices.py, tools/MW_add_W_matrices.py | |
| BTModel | tools/convert_bt_to_radiance.py | |
| AvModel | tools/AVHRR_to_updated_spec.py | descriptions, the checker's report |
| PmhModel | tools/pmh2fiduceo.py | argparse, logging |
| IOModel | MatchUpWriter.py; opening of netCDF files as MatchUpReader.openMatchUp does | compression, descriptions, fill values, numpy broadcasting on assignment |
| EivModel | GN_algo.py run / calculate_parameter_covariance_ij with pykrylov LSMR and MINRES in place (one LSMR object for the whole run); check_symmetric of pykrylov_tools_utils.py | operators that raise; logging |
| FullModel | MatchUpReader.openMatchUp with path_sensor_data (files, uncertainties and sensor data together), HarmonisationEIVPC.run, HarmonisationEIV.run with and without pc_input: the composition of IOModel, SensorModel, SampleModel, TransformModel, PCModel and EivModel | gn_input; saving of intermediate files; Routines.v holds no code of the package but exact routines that meet the assumptions made of numpy and scipy |
| LsfModel | lsf/fullEIVsolverLSF.sh as a transition system with the jobs it submits (element files, output file, logs), any schedule; lsf/fullEIVsolverLSF_MCtrials.sh: its two waiting loops | names and contents of the generated scripts and logs; result files of the first two jobs; shell errors when the solver job leaves no output file (phase Broken); the other shell scripts |
| KtModel | pykrylov_tools_utils.py: roots_quadratic, check_symmetric, check_positive_definite (with the state of numpy's generator) | complex operators; negative zero |
| MvModel | MatchUpVis.py: samples of scatter plots and their caches, labels, plot_Y_X_binned_line with the overall limits; HarmonisationVis.plot_compare_calibration (loop over series); the parts of plot_scatter that can fail or drop points | NaN data, drawing; the float64 rounding of the number of samples |
| ConvModel | the netCDF files written by MW_add_W_matrices.py:run, pmh2fiduceo.py and AVHRR_to_updated_spec.py (through append_W_to_input_file and write_input_file) as input of harmonisation_input_checker and MatchUpReader | NaN (a number nanV); dtype of the additional variables; single precision is a parameter |
| SdModel | sensor_data: the AVHRR, HIRS and MW dictionaries and SensorDataFactory, read_coeff_data; MatchUpReader.open_sensor_data with the module cache | float(); labels of measurands; packages and modules without SENSOR_DATA |
| HpcModel | HarmonisationEIV.run with save_directory_GNOp and with gn_input, HarmonisationOp.calculate_GNOp_initial, calculate_parameter_covariance_ij and the options of run | text format of the element files; HarmonisationOp.__init__ takes no arguments, so the job scripts cannot construct it (finding): the methods are modelled as library functions |
| ReprModel | MatchUp.__repr__ | the text is a list of pieces (literal text, number, name list, value, line of dashes as long as a given text); number formats are not modelled |
| McModel | HarmonisationOp: residual mean/variance update, get_parameters_mc, parameter statistics, the start of run_mc_trial | the solver of a trial; exact reals |
| ToolModel | main of PCsolver, initialGNsolver, fullEIVsolver_covariance_* and harm_comp_plot as the sequence of names they call; HarmonisationVis.plot_compare_calibration | what the called functions do (a parameter); the drawing |
| TrainModel | training/workshop_2019: Uncertainty_Functions.Scan and CombinedDa, the map of the regridding lecture, the retrieval and its uncertainty in the FCDR lecture | NaN, floating point; the figures; scipy's fits in the harmonisation lecture |
| FtModel | harmonisation_meiv_demo (Fortran): time stamps (mod_time), dataset names (mod_config), units of the residuals (mod_writer) | undefined results of integer conversion are errors; the rest of these modules |
| FoModel | harmonisation_meiv_demo: U and W matrices, banded matrices, their stores (mod_matrices) | Z matrices; out-of-bounds access is an error; arithmetic exact except for overflow |
| FrModel | harmonisation_meiv_demo: registries of match-ups (mod_matchup) and sensors (mod_sensors), checks (mod_assert), the reader of match-up datasets (mod_reader) | netCDF access: a dataset is a record of its variables; names, identifiers and Z matrices; setters are one update at the end |
| FdModel | harmonisation_meiv_demo: reading a whole job and the parameter dataset made (demo), the times of a residuals dataset (mod_writer) | names; config_job_sensor_configurations (unused by the demo); single precision below 1 and overflow |
| FwModel | harmonisation_meiv_demo: writing the parameter and residuals datasets (mod_writer, mod_nc), the parameter dataset of the demonstration (demo) | descriptions, units, rounding (a parameter), dimensions of length 0, numbers out of range of single precision |

Not modelled: drawing and the remaining plots (additional variables, densities, H/plots), GN_algo_old.py, test data and tests, the remaining training material, the
other modules of the Fortran demonstration, setup.py, the plotting and sequential shell scripts.

## 4. Properties: model, proof, status

`proved`: the whole property; `partial`: part of it is proved (theorems `_partial`) and/or it is refuted by the code (theorems `_refuted`, a finding). The statement of each property is in properties.jsonl.

| id | property | status | theorems (file) | note |
|---|---|---|---|---|
| C01 | Every covariate column of every match-up file is returned unchanged | proved | C01_columns_returned (PropertiesReader) | full, for every list of valid files with consistent covariate counts |
| C02 | The 1-D layout is a partition | proved | C02_layout (PropertiesReader); C02_every_position_in_one_block (PropertiesReader) | full |
| C03 | K, time and optional track indices are aligned by match-up series | proved | C03_series_aligned (PropertiesReader); C03_series_lengths (PropertiesReader); C03_optional_indices (PropertiesReader); C03_additional_data (PropertiesReader) | full, includes additional variables |
| C04 | No covariate column of a file is dropped or invented | partial | C04_opens_iff (PropertiesReader); C04_nothing_invented (PropertiesReader); C04_columns_kept_partial (PropertiesReader); C04_no_column_dropped_refuted (PropertiesReader); C04_self_matchup_refuted (PropertiesReader) | The property as stated is false of the code (see the _refuted witnesses): extra columns of a later file, and side 1 of a self match-up, are silently lost. Proved: exact condition for opening to succeed, nothing is invented, columns within the first file's count are kept. |
| C05 | Systematic error instances are numbered once per (sensor, covariate) | proved | C05_systematic_numbering (PropertiesUnc) | full, for what opening leaves in the object, every block list and type assignment |
| C06 | Uncertainty data is attached to the covariate it describes | partial | C06_uncertainty_attached_partial (PropertiesUnc); C06_single_matchup_type4_refuted (PropertiesUnc) | Proved for every list of valid files; refuted for a type-4 covariate in a file with a single match-up (the systematic component is read from row index 1). |
| C07 | W-matrix file encoding round-trips | proved | C07_w_matrix_roundtrip (PropertiesUnc); C07_trailing_columns_lost (PropertiesUnc); C07_empty_matrix_unreadable (PropertiesUnc) | full; also: matrices are cut after their last used column otherwise, and an all-zero matrix is unreadable |
| C08 | Combined K uncertainty is a valid normaliser | proved | C08_unck_valid (PropertiesUnc) | full, over the reals |
| C09 | Sensor parameters are attributed to the right sensor | partial | C09_parameters_attributed (PropertiesUnc); C09_succeeds_without_adjustment_entry (PropertiesUnc); C09_adjustment_model_refuted (PropertiesUnc) | parameters/constants/models: full, for every dictionary order; adjustment models: refuted (KeyError or silently ignored) |
| C10 | Per-match-up accessors pick the requested sensor's side | proved | C10_accessor_time (PropertiesReader); C10_accessor_track (PropertiesReader); C10_accessor_range (PropertiesReader) | full for match-up numbers 1..; beyond the last: IndexError |
| C100 | PMH conversion: text files are parsed faithfully | proved | C100_uncertainty_file_read (PropertiesPmh); C100_parameter_file_read (PropertiesPmh) | proved for both text files |
| C101 | PMH conversion succeeds exactly when ... | proved | C101_converted_iff (PropertiesPmh) | exact characterisation (iff) |
| C102 | PMH conversion accepts series of any sizes and covariates without averages | partial | C102_different_sizes_refuted (PropertiesPmh); C102_no_averages_refuted (PropertiesPmh) | refuted: Kr is rebound to an array of the first size, full(n, Kr) of another size raises ValueError; nW_w[0] raises IndexError without averages |
| C103 | PMH conversion: averages are represented | proved | C103_averages_represented (PropertiesPmh) | equal sizes; 'f4' storage rounding not modelled |
| C104 | PMH conversion never writes a wrong W matrix | partial | C104_wrong_matrix_size_refuted (PropertiesPmh); C104_wrong_uncertainty_refuted (PropertiesPmh) | refuted: sizes 1 then 3 give a 3-row W in the 1-row file; different uncertainties pass the check because it uses `and`; all files get the uncertainty of the first averaged covariate |
| C105 | PMH conversion uses every row | partial | C105_surplus_rows_refuted (PropertiesPmh) | refuted in general: appending rows to the table changes nothing |
| C106 | Written match-up files are valid and accepted | proved | C106_written_acceptance (PropertiesIO) | exact characterisation (iff); compression, fill values and descriptions are not modelled |
| C107 | Match-up files are read back as written | proved | C107_round_trip (PropertiesIO) | f32/todate/i32 conversions of the reader are parameters; ordering of sets is any permutation |
| C108 | Files the checker accepts can be opened | partial | C108_accepted_files_open_partial (PropertiesIO); C108_accepted_files_open_refuted (PropertiesIO) | partial: needs row pointers (not looked at by the checker, C72) and at least two match-ups for type 4; refuted without: one match-up with a type 4 covariate is accepted and cannot be opened (IndexError) |
| C109 | W matrices given to the writer are written | partial | C109_w_matrices_written_refuted (PropertiesIO) | refuted: the argument is never used; such a file is neither accepted nor can it be opened |
| C11 | Covariate extremes over all match-ups | partial | C11_extremes_with_number_partial (PropertiesReader); C11_extremes_default_always_none (PropertiesReader); C11_extremes_over_all_matchups_refuted (PropertiesReader) | refuted for the default argument (always None); proved with an explicit match-up number |
| C110 | Each Gauss-Newton step goes downhill | proved | C110_steps (PropertiesEiv) | reals for floats |
| C111 | Outcome of a full solver run | proved | C111_outcome (PropertiesEiv); C111_residuals (PropertiesEiv) | reals for floats; MINRES random vectors are a parameter |
| C112 | An estimate that is already right is returned | partial | C112_stationary_start_refuted (PropertiesEiv); C112_left_again_refuted (PropertiesEiv); C112_minimum_lost_refuted (PropertiesEiv) | refuted: a stationary start raises TypeError (LSMR leaves x None); at a stationary iterate LSMR leaves the previous vector in place, so that the step is repeated; concrete run that passes the minimum twice and ends at its start, with three times the least cost, unconverged |
| C113 | Accuracy of the covariance | proved | C113_covariance (PropertiesEiv); C113_unique (PropertiesEiv); C113_pivots (PropertiesEiv) | In exact (real) arithmetic; an entry is NaN exactly when a MINRES run gave no numbers. |
| C114 | The symmetry check never rejects a symmetric operator | proved | C114_hessian (PropertiesEiv); C114_symmetric (PropertiesEiv) | exact arithmetic |
| C115 | MINRES gives numbers unless the right-hand side is an eigenvector | proved | C115_finite (PropertiesEiv) | exact arithmetic; NaN/inf as NotANumber |
| C116 | MINRES needs at most n iterations | proved | C116_iterations (PropertiesEiv); C116_definite (PropertiesEiv) | exact arithmetic; random check vectors irrelevant |
| C117 | Accepted files and matching sensor data open to an object every later step can use | proved | C117_open_ready (PropertiesFull) | usable, describes, ready: FullSpec.v; hypotheses met by a file with a W matrix (C117_example) and by a written file |
| C118 | From files to a result | proved | C118_files_to_result (PropertiesFull); C118_data_to_result (PropertiesFull) | reals for floats; exceptions are those of C111 |
| C119 | The solver finds its own start | proved | C119_own_preconditioner (PropertiesFull) | library routines (cholesky, solve, least_squares, qr, lstsq, random.sample) as parameters with their contracts; Routines.v gives routines that meet all of them; C119_example is a complete run. least_squares is assumed to return for every sample, also an empty one (series of fewer than ten match-ups are sampled to nothing). |
| C12 | Independent sampling: sampled match-ups share no error source | proved | C12_sampled_share_no_error_source (PropertiesSample) | full, for every W matrix and every outcome of random.sample |
| C120 | Batch workflow: the covariance is combined from all elements of the run | proved | C120_complete_before_combination (PropertiesLsf); C120_never_wrong (PropertiesLsf); C120_combined_right (PropertiesLsf) | transition system of script, queue and jobs (LsfModel.v); an element file is first created, then filled |
| C121 | Batch workflow: the script ends | proved | C121_terminates (PropertiesLsf); C121_bounded_work (PropertiesLsf) | fairness: as long as some step would change something, some step that changes something is eventually taken |
| C122 | Batch workflow: a failing job is noticed | partial | C122_failing_element_refuted (PropertiesLsf) | refuted: the script waits for n x n files and polls for ever, for every schedule |
| C123 | Batch workflow: files of earlier runs are not used | partial | C123_old_elements_refuted (PropertiesLsf); C123_more_files_refuted (PropertiesLsf) | refuted: the number of files is compared with n x n; with the files of an earlier run the old matrix is written before any new element is computed, and with more files the script never gets further |
| C124 | Batch workflow: elements are read when they are complete | partial | C124_race_refuted (PropertiesLsf) | refuted: the script counts files, savetxt creates the file before it writes the number; the combination then fails and the script ends without covariance (concrete schedule, any value) |
| C125 | Batch workflow: Monte Carlo trials are combined | partial | C125_trials_combined_refuted (PropertiesLsf) | refuted: the output of find (paths) is compared with a number; false for every list of absolute paths |
| C126 | roots_quadratic: exact roots | proved | C126_roots_exact (PropertiesKt); C126_factorisation (PropertiesKt); C126_never_raises (PropertiesKt) |  |
| C127 | roots_quadratic: ill-conditioned quadratics | proved | C127_ill_conditioned (PropertiesKt) |  |
| C128 | Symmetry check: symmetric operators pass | proved | C128_symmetric_accepted (PropertiesKt); C128_minres_not_stopped (PropertiesKt); C128_not_square (PropertiesKt); C128_accepted_nearly_symmetric (PropertiesKt) |  |
| C129 | Symmetry check: only symmetric operators pass | partial | C129_only_symmetric_accepted_refuted (PropertiesKt) | Refuted: rows (1, 0.001) and (0, 1) pass for every draw. |
| C13 | Independent sampling is maximal and in file order before thinning | proved | C13_greedy_maximal (PropertiesSample); C13_thinned_order_not_kept (PropertiesSample) | full for the un-thinned selection; beyond the property, the thinned selection of a W series is not in file order (C13_thinned_order_not_kept) |
| C130 | Checking an operator does not disturb the random generator's seed | partial | C130_definiteness_keeps_seed (PropertiesKt); C130_symmetry_keeps_seed_refuted (PropertiesKt) | Refuted for check_symmetric: it calls numpy.random.seed(1), so everything drawn later is the same for every seed; holds for check_positive_definite. |
| C131 | Definiteness check | partial | C131_definite_accepted (PropertiesKt); C131_semidefinite_accepted (PropertiesKt); C131_not_square (PropertiesKt); C131_accepted_copositive (PropertiesKt); C131_accepted_definite_refuted (PropertiesKt) | The last clause is refuted: rows (1, 2), (2, 1) pass for every draw, because only vectors with non-negative components are drawn; proved instead: x'Ax > 0 for all non-negative x. |
| C132 | Scatter plots: all quantities of the same match-ups | proved | C132_points_of_same_matchups (PropertiesMv) | The number of samples is computed exactly; fill values and files without nominal measurands are excluded by hypothesis. |
| C133 | Scatter plots: number of points | proved | C133_small_datasets_complete (PropertiesMv); C133_large_datasets_shares (PropertiesMv) |  |
| C134 | Scatter plots of large data sets represent every file, no match-up twice | partial | C134_small_files_dropped_refuted (PropertiesMv); C134_points_repeated_refuted (PropertiesMv) | Both clauses refuted: files with M_i * 10000 < M get no point in any plot; indices are drawn with replacement. |
| C135 | Labels of the match-up series | proved | C135_labels (PropertiesMv) |  |
| C136 | Plots of a quantity against the sensor variables | proved | C136_binned_plots (PropertiesMv) | Proved for files without empty series; the point of largest X lies outside the last bin (bins are half-open), as in the code. |
| C137 | Plots against sensor variables: selections and constant variables | partial | C137_selection_mislabelled_refuted (PropertiesMv); C137_constant_variable_refuted (PropertiesMv) | Refuted: a selection [k] is labelled with the first series' sensors, in its own plot and in the joint legend; a variable constant in the first file raises IndexError before any plot. |
| C138 | Comparison of calibrations covers every sensor | proved | C138_comparison_plots_every_sensor (PropertiesMv) | A sensor that occurs in several of these files is plotted several times to the same file name: the last one remains. |
| C139 | Plots of the plotting tool show the harmonised calibration | partial | C139_plots_of_nominal_parameters_refuted (PropertiesMv) | Refuted: for every later history all answers are those of the nominal parameters (the tool first calls get_kres_harm_harm_musamples, which evaluates sensor 2 before the harmonised parameters are set). |
| C14 | Sampling keeps every quantity aligned | proved | C14_sampled_aligned (PropertiesSample); C14_order_kept_without_w (PropertiesSample); C14_sampling_succeeds (PropertiesSample) | full; also success for every complete object |
| C140 | Microwave conversion: files accepted by the checker | proved | C140_microwave_accepted (PropertiesConv) | NaN is stored as a number nanV; single precision is an abstract function with f32 0 = 0; additional variables have dtype f8. |
| C141 | Microwave conversion: converted files open together | proved | C141_microwave_opens (PropertiesConv) | NaN is stored as a number nanV; single precision is an abstract function with f32 0 = 0; additional variables have dtype f8. |
| C142 | PMH conversion: which files the checker accepts | proved | C142_pmh_accepted (PropertiesConv) | NaN is stored as a number nanV; single precision is an abstract function with f32 0 = 0; additional variables have dtype f8. |
| C143 | PMH conversion: all files accepted | partial | C143_all_accepted_refuted (PropertiesConv) | The file of a pair is sized by the last pair's number of match-ups in its W matrices: pairs of one and of three match-ups give a first file the checker rejects. NaN is stored as a number nanV; single precision is an abstract function with f32 0 = 0; additional variables have dtype f8. |
| C144 | AVHRR conversion: files with W matrices | proved | C144_avhrr_accepted (PropertiesConv) | NaN is stored as a number nanV; single precision is an abstract function with f32 0 = 0; additional variables have dtype f8. |
| C145 | AVHRR conversion: files without W matrices | proved | C145_avhrr_plain_accepted (PropertiesConv) | NaN is stored as a number nanV; single precision is an abstract function with f32 0 = 0; additional variables have dtype f8. |
| C146 | AVHRR conversion: files without systematic effects are accepted | proved | C146_avhrr_structured (PropertiesConv) | NaN is stored as a number nanV; single precision is an abstract function with f32 0 = 0; additional variables have dtype f8. |
| C147 | AVHRR conversion: when files with all effects are accepted | proved | C147_avhrr_full (PropertiesConv) | Finding: systematic uncertainties of counts are copied unchecked, with type 2 not declared. NaN is stored as a number nanV; single precision is an abstract function with f32 0 = 0; additional variables have dtype f8. |
| C148 | AVHRR match-ups: conversion to harmonisation | proved | C148_avhrr_end_to_end (PropertiesSd) | Single precision is an abstract function with f32 0 = 0; linear algebra routines as in C118. |
| C149 | AVHRR match-ups: harmonisation with the program's own preconditioner | proved | C149_avhrr_preconditioned (PropertiesSd) | As C148; routines and sampling as in C119. |
| C15 | Sampling respects the requested size | proved | C15_sample_size (PropertiesSample) | full |
| C150 | Every registered AVHRR sensor model can be used with converted files | partial | C150_other_models_refuted (PropertiesSd) | Finding: with the six models other than AVHRR_*_3[_rescaled] the files open, but every harmonisation raises TypeError (their functions do not take the arguments of the caller, C71). C148 is the positive part. |
| C151 | Microwave match-ups can be opened with the registered sensor data | partial | C151_microwave_partial (PropertiesSd); C151_metop_refuted (PropertiesSd) | Finding: the conversion tool calls the MetOp satellites ma and mb, the sensor data A and B: KeyError. |
| C152 | Opening a sensor data file gives the data of that file | partial | C152_own_data_partial (PropertiesSd); C152_first_file_refuted (PropertiesSd); C152_missing_file_refuted (PropertiesSd) | Finding: modules are cached by base name, and sys.path keeps the directories of earlier calls. Module names without dots. |
| C153 | HIRS coefficient tables | proved | C153_coefficients (PropertiesSd); C153_missing (PropertiesSd); C153_blank (PropertiesSd) | float() is a parameter. |
| C154 | Covariance computed by separate jobs | proved | C154_covariance_in_jobs (PropertiesHpc) | float32 storage of the direct run's covariance array and the text format of the element files are not modelled (exact reals). The combination reads one-digit indices (C35). |
| C155 | A run from the saved initial solver | partial | C155_from_initial_partial (PropertiesHpc); C155_parameters_unused (PropertiesHpc); C155_from_initial_refuted (PropertiesHpc) | True if the preconditioner's parameters are those of the sensor data file and the K values are unchanged by the transformation. Findings: the parameters of the preconditioner have no influence on a run with gn_input (it starts from the saved ones), and the K values stay untransformed (C50). |
| C156 | Options save_gn and return_covariance of the operator | partial | C156_options_refuted (PropertiesHpc) | Finding: both options (and the tolerances) are ignored: the covariance is always computed and no solver is saved. |
| C157 | Text shown for an opened dataset | proved | C157_text (PropertiesRepr); C157_opened (PropertiesRepr) |  |
| C158 | Number of series shown | partial | C158_series_refuted (PropertiesRepr) | Finding: len(idx['cNm']), one more than the number of files, for every dataset. |
| C159 | Last K value shown | partial | C159_short_partial (PropertiesRepr); C159_previous_file (PropertiesRepr); C159_last_k_refuted (PropertiesRepr) | True for series of fewer than ten match-ups. Finding: otherwise the last K shown is that of the last match-up of the file before (of the whole dataset for the first file). |
| C16 | Sampled data carries only independent uncertainty | proved | C16_only_independent_uncertainty (PropertiesSample) | full |
| C160 | Mean and variance of Monte Carlo residuals | proved | C160_residual_statistics (PropertiesTool) |  |
| C161 | Statistics of Monte Carlo parameters | partial | C161_failed_left_out_partial (PropertiesTool); C161_covariance (PropertiesTool); C161_deviation_refuted (PropertiesTool); C161_first_failed_refuted (PropertiesTool); C161_zero_result_refuted (PropertiesTool) | True for the parameters if the first trial finished and no trial gives only zeros. Findings: the standard deviation divides by N, the covariance by N-1; if the first trial failed the combination fails; a trial with only zeros is left out. combine_mc_trials unpacks eight values of a function that returns four, so that the statistics are never reached as the code stands; they are modelled as functions. |
| C162 | Start of a Monte Carlo trial | partial | C162_trial_start_refuted (PropertiesTool); C162_ks (PropertiesTool) | Finding: normal(xyza[N_var]) draws one value, around the first parameter, in place of all variables; the K values are drawn one by one. Moreover run_mc_trial reads idx['Ia'], which no index structure has (KeyError). |
| C163 | Job scripts | partial | C163_scripts_refuted (PropertiesTool); C163_constructor_refuted (PropertiesTool) | Finding: each raises NameError (functions that tools/common.py does not define), and with these defined TypeError from the constructor of HarmonisationOp. |
| C164 | Console script for comparison plots | partial | C164_comparison_refuted (PropertiesTool) | Finding: TypeError (keywords the operator does not take), for every command line that can be read. |
| C165 | Comparison plots of calibrations | proved | C165_plots (PropertiesTool); C165_files (PropertiesTool) |  |
| C166 | Regridding lecture: the window divides the image | proved | C166_divided (PropertiesTrain); C166_out_of_range (PropertiesTrain) |  |
| C167 | Regridding lecture: the window is centred | partial | C167_centre_refuted (PropertiesTrain); C167_edge_refuted (PropertiesTrain) | Finding: it is centred on the line before; a window that would just fit at the upper or left edge takes a line from the other side. |
| C168 | Regridding lecture: the map shown | proved | C168_map (PropertiesTrain); C168_equal (PropertiesTrain) |  |
| C169 | Regridding lecture: structured part | partial | C169_structured_refuted (PropertiesTrain) | Finding: str_avg sums the indices of the pixels (np.nonzero) instead of the uncertainties: it depends on the position of the window only, not on the structured uncertainties. |
| C17 | Transformation to normalised independent variables is reversible | proved | C17_reverse_undoes_run (PropertiesTransform); C17_unsolvable_not_recovered (PropertiesTransform) | Proved for all objects whose lengths fit, with non-zero uncertainties and W matrices that are solvable row by row (C17_unsolvable_not_recovered shows that this hypothesis is needed). Real numbers. |
| C170 | FCDR lecture: uncertainty propagation | partial | C170_propagation (PropertiesTrain); C170_exercise_refuted (PropertiesTrain) | True in the lecture. Finding: the exercise cell keeps the sensitivities 2 and -1 with the retrieval -1.9 + 3.6 BT4 - 2.6 BT5. |
| C171 | FCDR lecture: total uncertainty | partial | C171_total_refuted (PropertiesTrain) | Finding: the common part is not squared (both cells): right only if it is 0 or 1. |
| C172 | Fortran demonstration: time stamps | proved | C172_time_stamp (PropertiesFt); C172_one_date (PropertiesFt) |  |
| C173 | Fortran demonstration: every time has a time stamp | partial | C173_every_time_refuted (PropertiesFt); C173_up_to_2038 (PropertiesFt) | Finding: the time is converted into default integers: from 19 January 2038, 03:14:08 on the result is undefined. |
| C174 | Fortran demonstration: default dataset names | proved | C174_parameter_name (PropertiesFt); C174_residuals_name (PropertiesFt) |  |
| C175 | Fortran demonstration: one residuals dataset for each pair | partial | C175_distinct_pairs (PropertiesFt); C175_underscore_refuted (PropertiesFt) | Finding: names are joined with underscores, so pairs with underscores in the first name can share a dataset; it holds for first names without. |
| C176 | Fortran demonstration: configured dataset names | partial | C176_residuals_configured_refuted (PropertiesFt); C176_parameter_configured_refuted (PropertiesFt) | Finding: the configured residuals name is used for every pair of sensors (each dataset overwrites the last); the configured parameter name is never used (the test is on the length of a fixed-length string). |
| C177 | Fortran demonstration: units of the residuals | partial | C177_units_partial (PropertiesFt); C177_uncertainty_unit_refuted (PropertiesFt) | Finding: the uncertainty of the residuals gets the unit of the weights, and the weights get none. |
| C178 | Fortran demonstration: banded matrices | partial | C178_banded_matrix_partial (PropertiesFo); C178_banded_matrix_refuted (PropertiesFo); C178_outside_refuted (PropertiesFo) | Proved for rows stored in ascending or descending order of their columns. Finding: other rows are written over the next row or beyond the end. |
| C179 | Fortran demonstration: stores of matrices | proved | C179_w_matrices (PropertiesFo); C179_v_matrices (PropertiesFo); C179_full (PropertiesFo) |  |
| C18 | Transformed layout | proved | C18_transformed_layout (PropertiesTransform); C18_transformed_values (PropertiesTransform) | Layout and the transformed values. That the input object is unchanged is by construction of a functional model and is not claimed. |
| C180 | Fortran demonstration: numbering of match-ups | proved | C180_match_ups (PropertiesFr); C180_partition (PropertiesFr); C180_added (PropertiesFr) | Finding: the reader reports an invalid or repeated pair as 'maximum number of matchup datasets exceeded'. |
| C181 | Fortran demonstration: sensors | proved | C181_parameters (PropertiesFr); C181_neutral (PropertiesFr); C181_prior (PropertiesFr) |  |
| C182 | Fortran demonstration: records read | proved | C182_records (PropertiesFr) |  |
| C183 | Fortran demonstration: uncertainty matrices read | proved | C183_covariances (PropertiesFr); C183_kept (PropertiesFr) |  |
| C184 | Fortran demonstration: uncertainty matrices of selected columns | partial | C184_selection_refuted (PropertiesFr) | Finding: the type of column l of the dataset, not of the selected column, decides; the match-up records the type of the selected column, so type and matrices can disagree (a column marked structured without matrices). |
| C185 | Fortran demonstration: values refused | partial | C185_refused_partial (PropertiesFr); C185_refused_refuted (PropertiesFr); C185_infinite_variance_refuted (PropertiesFr) | Finding: the check of Ur2 is made on Ur1 and that of Us2 on Us1, so an infinite variance of the second sensor is stored. Proved for the other variables, and that the values of Ur2 and Us2 are finite. |
| C186 | Fortran demonstration: one dataset for each pair | proved | C186_second_time (PropertiesFr) |  |
| C187 | Fortran demonstration: a whole job | proved | C187_records (PropertiesFd); C187_matrices (PropertiesFd); C187_parameters (PropertiesFd) |  |
| C188 | Fortran demonstration: correlations written | proved | C188_recovers (PropertiesFd); C188_diagonal (PropertiesFd); C188_symmetric (PropertiesFd); C188_bounded (PropertiesFd) |  |
| C189 | Fortran demonstration: times of a residuals dataset | partial | C189_near (PropertiesFd); C189_small (PropertiesFd); C189_times_refuted (PropertiesFd) | Finding: the times variable is defined in single precision (prototype real(ds%t, cp)), so times since 1970 are off by up to 64 s and times a minute apart become equal. Proved: error at most 64 s below 2^31 s, exact for whole seconds below 2^24. |
| C19 | Estimated covariates are the reverse transformation of the solver state | proved | C19_unconvert_is_reverse (PropertiesTransform) | Python unconvert_Xs, the cython one and reverse agree on every state and parameter vector. |
| C190 | Fortran demonstration: the parameter dataset | proved | C190_written (PropertiesFw); C190_refused (PropertiesFw) | Descriptions and units are not modelled (units: FtModel); a dimension of length 0 is outside. |
| C191 | Fortran demonstration: the residuals datasets | proved | C191_written (PropertiesFw); C191_refused (PropertiesFw) | Single precision is an arbitrary idempotent rounding; the error of netCDF for numbers out of range is not modelled. The times are treated in C189. |
| C192 | Fortran demonstration: its output | proved | C192_written (PropertiesFw); C192_refused (PropertiesFw) | Capacities 0 and 1 leave no parameters; a dimension of length 0 is outside the model. |
| C193 | Microwave sounders: weights of the thermometers | partial | C193_mhs (PropertiesSd2); C193_amsub_refuted (PropertiesSd2); C193_indices (PropertiesSd2) | Finding: AMSU-B has seven registered weights 1,1,1,1,1,0,1 for five temperatures and the model reads the last five: the fourth temperature is ignored. For MHS proved. |
| C194 | Registered sensors are described | proved | C194_described (PropertiesSd2); C194_once (PropertiesSd2) |  |
| C195 | Microwave sounders: mirrored scan positions | partial | C195_amsub (PropertiesSd2); C195_mhs_partial (PropertiesSd2); C195_edge_refuted (PropertiesSd2) | Finding: positions count from 1 in the angles and from 0 in the antenna corrections, so at position 90 the first thermometer weight is used as correction: 2 for MHS. Proved for AMSU-B and for positions 2 to 89 of MHS. |
| C20 | A match-up object survives transform and reverse for use in evaluations | partial | C20_labels_kept_by_transform_partial (PropertiesEval); C20_labels_never_lost_partial (PropertiesEval); C20_labels_lost_refuted (PropertiesEval); C20_late_sensor_data_refuted (PropertiesEval); C20_replaced_sensor_data_refuted (PropertiesEval) | Proved for objects opened with their sensor data (run/reverse keep labels and data; no history loses the labels). Refuted for sensor data set after opening: reverse restores the labels of opening, so they disappear (C20_labels_lost_refuted, for every object) or belong to other data (C20_replaced_sensor_data_refuted). |
| C21 | Measurand and K evaluation is per match-up | proved | C21_measurand_per_matchup (PropertiesEval); C21_row_depends_on_its_matchup (PropertiesEval); C21_K_is_difference (PropertiesEval); C21_default_selects_all (PropertiesEval); C21_unordered_selection_not_kept (PropertiesEval) | Proved for every evaluable object, sensor function and increasing selection, real arithmetic (the code stores the measurand in float32). The numerical rounding to float32 is not modelled. |
| C22 | Gauss-Newton operator is linear | proved | C22_product_linear (PropertiesGN); C22_transpose_product_linear (PropertiesGN) | Both branches of calc_prod_JPx are total and linear for every solver built on a well-formed object (all four uncertainty types, any covariates/parameters) and sensor functions of the stated shapes. Reals, no float32 rounding. |
| C23 | The transpose product is the adjoint | proved | C23_transpose_is_adjoint (PropertiesGN) | <JP x, y> = <x, JP^T y> for all vectors; the reference sensor's first block may be type 1 or 2 (types 3/4 raise AttributeError in the code and are excluded by functions_ok). |
| C24 | Hessian operator is symmetric positive semi-definite | proved | C24_hessian_symmetric (PropertiesGN); C24_hessian_positive_semidefinite (PropertiesGN) | calc_Hx symmetric, and <x, Hx> = /JP x/^2 >= 0. |
| C25 | Residual function | proved | C25_residual (PropertiesGN); C25_residual_vanishes (PropertiesGN) | Entry-by-entry description of calc_f through TransformModel.tn_reverse and EvalModel.evaluate_K, and vanishing iff state = data and estimated K = K. |
| C26 | Jacobian product is the derivative of the residual | partial | C26_product_is_derivative_partial (PropertiesGN2); C26_reference_systematic_refuted (PropertiesGN2); C26_indices_refuted (PropertiesGN2) | Proved for every layout and sensor functions that do not use the scan/track position and time and whose derivatives are correct, when the reference sensor carries no systematic or structured effect; both exclusions are violations of the stated property by the code, with concrete witnesses: C26_reference_systematic_refuted, C26_indices_refuted. |
| C27 | Gauss-Newton loop terminates and reports convergence honestly | proved | C27_loop_bounded_and_honest (PropertiesGN); C27_run_returns (PropertiesGN) | For arbitrary inner-solver results and tolerances: bound, criteria, last iterate, cost; and totality of run. |
| C28 | Parameter covariance matrix is symmetric | proved | C28_covariance_symmetric (PropertiesGN); C28_covariance_of_exact_solver (PropertiesGN) | Symmetric for arbitrary MINRES results; with exact MINRES the matrix is the parameter block of P H^-1 P^T with nonnegative diagonal. |
| C29 | Degrees of freedom of the reported cost | partial | C29_degrees_of_freedom_partial (PropertiesGN); C29_degrees_of_freedom_refuted (PropertiesGN) | Refuted: reported dof = N_var - N_mu - N_a, instead of N_mu - N_a; equal iff N_var = 2 N_mu. Concrete run included. |
| C30 | PC covariance matrix is symmetric positive definite | proved | C30_covariance_positive_definite (PropertiesPC) | For every computed VK; that it is computed for all data in the domain of C57 is part of C57. |
| C31 | PC iteration bound | proved | C31_passes (PropertiesPC); C31_covariance_symmetric (PropertiesPC); C31_covariance_is_inverse (PropertiesPC); C31_run_returns (PropertiesPC) | Library routines (cholesky, solve, least_squares, qr, lstsq) are arguments; loop bound, continuation condition, last iterate, covariance symmetric PSD and (with exact routines) the inverse of J'J. |
| C32 | Result file classification | proved | C32_no_file_is_output_and_residual (PropertiesHR); C32_saved_files_are_recognised (PropertiesHR) | Both hand-written classifiers are proved equal to the declarative semantics of the two regular expressions. Names outside the domain: C61. |
| C33 | Saved residual files | proved | C33_one_file_per_series (PropertiesHR); C33_residual_names (PropertiesHR); C33_saved_results_are_opened (PropertiesHR) | X residuals and series sharing a sensor pair: C62. |
| C34 | Parameter sensor labels survive save and open | proved | C34_labels_survive (PropertiesHR); C34_long_label_is_an_error (PropertiesHR) | Labels up to 80 characters without surrounding blanks/NUL; longer labels raise. |
| C35 | Combining covariance elements | proved | C35_elements_combined (PropertiesOp); C35_symmetric_elements (PropertiesOp) | More than ten parameters: C64. |
| C36 | Combined Monte Carlo trials | proved | C36_running_statistics (PropertiesOp); C36_failed_trials_ignored (PropertiesOp) | Recurrence and dropping of failed trials; the surrounding function cannot run as it is (undefined get_harm_paths), see DESIGN.md. |
| C37 | Harmonised visualisation quantities | proved | C37_harmonised_answers (PropertiesVis); C37_data_restored (PropertiesVis) | Other orders of queries: C68. |
| C38 | Simulated match-ups span the observed range | proved | C38_simulation_fills_ranges (PropertiesSim); C38_empty_series_rejected (PropertiesSim) | Proved. |
| C39 | Binning | proved | C39_bin_statistics (PropertiesSim); C39_exactly_one_bin (PropertiesSim); C39_bins_exhaust_range (PropertiesSim); C39_time_average (PropertiesSim) | Proved with exact reals; nan for empty bins is None in the model. Lost boundary points: C67. |
| C40 | AVHRR sensor-model derivatives | proved | C40_avhrr_derivatives (PropertiesInst) | Exact reals; scaled parameters: C69. |
| C41 | HIRS sensor-model derivatives | proved | C41_hirs_derivatives (PropertiesInst) | Exact reals; target temperature: C70. |
| C42 | MW sensor-model derivatives | partial | C42_always_partial (PropertiesInst); C42_nominal_partial (PropertiesInst); C42_target_counts_refuted (PropertiesInst); C42_earth_counts_refuted (PropertiesInst); C42_target_temperature_refuted (PropertiesInst) | Correct at nominal parameters for space counts, a1, a2 and T_LO (partial); refuted for target counts (sign), Earth counts (extra factor), target temperatures (factor 2). |
| C43 | Checker: declared correlation forms | proved | C43_uncertainty_assignment (PropertiesCheck); C43_report (PropertiesCheck) | Exact reals, no masked values. |
| C44 | Checker: acceptance is exact | proved | C44_acceptance (PropertiesCheck) | Exact reals, no masked values; names and messages are constructors. |
| C45 | Rolling-average W matrix | proved | C45_rolling_average (PropertiesW); C45_exists (PropertiesW); C45_kernel (PropertiesW); C45_format (PropertiesW) | Exact reals (binary rounding of the 0.01 grid not modelled). |
| C46 | Brightness temperature to radiance | proved | C46_instruments (PropertiesBT); C46_array (PropertiesBT); C46_number (PropertiesBT); C46_increasing (PropertiesBT); C46_missing (PropertiesBT) | Exact reals; element-wise. |
| C47 | Plane rotation used by LSMR | proved | C47_rotation (PropertiesLsmr) | Exact reals. |
| C48 | LSMR iteration limit and stop flag | proved | C48_flags (PropertiesLsmr) | Exact reals, damp = 0 (as the Gauss-Newton solver calls it), no preconditioners. |
| C49 | A solver run never returns a previous run's solution | partial | C49_attribute_partial (PropertiesLsmr); C49_attribute_refuted (PropertiesLsmr) | Refuted: when A'b = 0 solve returns without setting the attribute, which keeps the previous call's solution or None; the Gauss-Newton solver reads its step from it. Partial: otherwise the attribute is set. |
| C50 | Restarting from saved solver data | partial | C50_restored (PropertiesSave); C50_continuation_partial (PropertiesSave); C50_residual_reopened (PropertiesSave); C50_continuation_refuted (PropertiesSave) | Refuted: the normalised K values are not saved; the re-opened solver has the K values as read, so its residual is wrong by K/u(K) - K. Partial: what is restored, and the same run when K/u(K) = K for every match-up. Assumes the saved numbers are 4-byte floats (the file stores f4). |
| C51 | Command line exclusivity | proved | C51_accepted_iff_documented (PropertiesOp) | An option counts as given when its value is non-empty (the code tests truth values); consequences of empty values: C65. |
| C52 | Plain random sampling returns a sampled object | partial | C52_random_sampling_refuted (PropertiesSample) | False of the code: run raises AttributeError for every non-empty object (attribute "form" does not exist). |
| C53 | Sampled uncertainty of averaged data | partial | C53_sampled_w_uncertainty_partial (PropertiesSample); C53_averaged_uncertainty_refuted (PropertiesSample) | False of the code (witness: a 4-point mean gets uncertainty u instead of u/2). Proved: what is computed instead. |
| C54 | Acquisition times and additional variables survive transform and reverse | partial | C54_times_lost_refuted (PropertiesTransform) | Refuted for every object: run creates a MatchUp without copying time1, time2, additional values. |
| C55 | Derivatives of the measurand can be requested | partial | C55_derivatives_refuted (PropertiesEval) | Refuted for every object: the derivative arrays are sized with idx['sensor_a'], a key no part of the code ever creates, so the call raises KeyError. |
| C56 | The solver's output: K residuals and systematic errors | proved | C56_returned_residuals_and_systematic_errors (PropertiesGN) | For arbitrary inner-solver results. Returned X residuals: not covered by the theorem. |
| C57 | Preconditioner weights are the propagated covariance | proved | C57_covariance_is_propagated (PropertiesPC) | Domain: one_effect_per_sensor; outside it see C60. |
| C58 | Preconditioner residual and Jacobian | proved | C58_weighted_residual (PropertiesPC); C58_jacobian_is_derivative (PropertiesPC) | Exact triangular solve assumed; float32 rounding not modelled. |
| C59 | Preconditioner weights belong to the current estimate | partial | C59_weights_of_current_estimate_partial (PropertiesPC); C59_stale_weights_refuted (PropertiesPC) | Holds only if the optimiser evaluates its solution last; refuted by a rejected last step. |
| C60 | Preconditioner weights for any sensor configuration | partial | C60_two_effects_refuted (PropertiesPC); C60_reference_not_first_refuted (PropertiesPC); C60_two_references_refuted (PropertiesPC) | Refuted three ways: two systematic covariates of one sensor (column overwritten), reference sensor not first (column -1 collides), two reference sensors (IndexError). |
| C61 | Any result file name | partial | C61_result_name_with_res_refuted (PropertiesHR); C61_other_files_refuted (PropertiesHR) | Refuted: harm_resampled.nc is taken for a residual file; harm_out.nc.tmp for an output file (match is not anchored at the end). |
| C62 | Everything is saved | partial | C62_X_residuals_refuted (PropertiesHR); C62_same_pair_refuted (PropertiesHR); C62_joined_names_refuted (PropertiesHR) | Refuted: X residuals are never stored (fill values); series with the same (joined) sensor names overwrite each other. |
| C63 | Opening restores the result | partial | C63_output_file_partial (PropertiesHR); C63_attributes_refuted (PropertiesHR); C63_cannot_be_saved_again_refuted (PropertiesHR); C63_no_residual_files_refuted (PropertiesHR); C63_listing_order_refuted (PropertiesHR) | Refuted: attributes replaced by those of a residual file, KeyError on saving again, TypeError without residual files, ValueError depending on listing order. |
| C64 | Combining covariance elements, any number of parameters | partial | C64_more_than_ten_parameters_refuted (PropertiesOp) | Refuted: single-character indices are read from fixed positions of the file name, ValueError for more than ten parameters. |
| C65 | Command line options have their effect | partial | C65_verbosity_ignored_refuted (PropertiesOp); C65_empty_job_file_refuted (PropertiesOp) | Refuted: show is always 0 (store_true flags are never None); -j '' is accepted with -i/-s/-o and then taken for a job file. |
| C66 | The command line solver writes its result | partial | C66_nothing_written_refuted (PropertiesOp); C66_complete_configuration_partial (PropertiesOp) | Refuted: the configuration passed by full_eiv_solver lacks job_id and matchup_dataset, KeyError after the computation, nothing is written. With a complete configuration the writing is proved to go to the documented file. |
| C67 | Binning loses no data | partial | C67_maximum_lost_refuted (PropertiesSim); C67_constant_lost_refuted (PropertiesSim); C67_boundary_times_lost_refuted (PropertiesSim) | Refuted: the largest X is in no bin of the default range; with all X equal every bin is empty; times at the start of a period are dropped. |
| C68 | Harmonised quantities in any order | partial | C68_nominal_measurands_refuted (PropertiesVis); C68_nominal_residual_refuted (PropertiesVis); C68_parameters_left_refuted (PropertiesVis); C68_order_refuted (PropertiesVis) | Refuted: get_L2_harm / get_kres_harm_harm asked first use nominal parameters and poison the cache; after a failing evaluation harmonised parameters stay in the data. |
| C69 | Scaled AVHRR models: parameter derivatives | partial | C69_scaled_parameter_refuted (PropertiesInst) | Refuted: the chain-rule factor 1/1000 is missing (all scaled models and 37_2). |
| C70 | HIRS target temperature and reference | partial | C70_hirs_temperature_refuted (PropertiesInst); C70_hirs_reference_refuted (PropertiesInst) | Refuted: twice the true derivative; the reference function takes the first row instead of the first column. |
| C71 | Registered sensor models fit their use | partial | C71_calls_refuted (PropertiesInst); C71_parameters_refuted (PropertiesInst); C71_others_partial (PropertiesInst) | Refuted: six of eight models take 1 or 4 positional arguments (TypeError); the 3.7 um registrations declare one parameter too many. Correct for the 3-parameter models. |
| C72 | Accepted files are readable | partial | C72_readable_partial (PropertiesCheck); C72_readable_refuted (PropertiesCheck) | Proved for accepted files whose row pointers start at 0 and end within the entries (partial); refuted without: the checker never looks at the values of w_matrix_row beyond their sign. |
| C73 | Checker reports instead of crashing | partial | C73_report_partial (PropertiesCheck); C73_report_refuted (PropertiesCheck) | Refuted: with a wrong type 4 for the first covariate uncertainty_str is unbound (UnboundLocalError). Partial: files without W matrices whose first covariate is not declared type 4 are reported on. |
| C74 | Rolling-average W matrix for short scan-line times | partial | C74_short_lines_refuted (PropertiesW) | Refuted: relative times are rounded to 0.01 before division, so scan lines closer than 0.005 are merged. |
| C75 | MW W-matrix variables | partial | C75_sensor2 (PropertiesW); C75_sensor1_partial (PropertiesW); C75_sensor1_refuted (PropertiesW); C75_types (PropertiesW) | Sensor 2 proved. Sensor 1: proved if both matrices have equally many columns (partial), refuted otherwise: u vectors of sensor 1 after the first take the length of those of sensor 2. |
| C76 | MW tool uses each sensor's times | partial | C76_times_refuted (PropertiesW); C76_times_partial (PropertiesW) | Refuted: time2 is read from the variable of sensor 1, so the result does not depend on the times of sensor 2. Partial: it is right with respect to the times of sensor 1. |
| C77 | Radiance to brightness temperature | partial | C77_rad2temp_refuted (PropertiesBT); C77_inverse_partial (PropertiesBT) | Refuted: every call for an existing channel raises NameError (name 'temperature'). Partial: with that name corrected the formula is the inverse. |
| C78 | The true-K tool writes to the output dataset | partial | C78_output_refuted (PropertiesDir); C78_input_refuted (PropertiesDir) | Refuted: the output paths are built from the input directory, so the input dataset is overwritten and the output is a plain copy; files are matched to series by listing order. |
| C79 | Files opened for a directory | proved | C79_directory (PropertiesDir); C79_listing_order (PropertiesDir); C79_files (PropertiesDir) | Opening itself (netCDF) is not modelled, only which paths, in which order. |
| C80 | Files opened for a list of directories | partial | C80_directories_refuted (PropertiesDir) | Refuted: the listing order is kept and every file is taken. |
| C81 | LSMR reports true norms | proved | C81_norms (PropertiesLsmr) | Exact reals, damp = 0, no preconditioners. |
| C82 | LSMR answers every least-squares problem | partial | C82_inconsistent_partial (PropertiesLsmr); C82_exact_solution_refuted (PropertiesLsmr) | Refuted: when an iterate solves Ax=b exactly, test2 divides by a zero residual norm and ZeroDivisionError is raised; so for the identity matrix and any b. Partial: an exception is always that one, and implies that Ax=b is solvable. |
| C83 | LSMR needs at most min(m, n) iterations | proved | C83_iterations (PropertiesLsmr) | Exact reals, damp = 0. |
| C84 | MINRES iteration limit and stop flag | partial | C84_flags_partial (PropertiesMinres); C84_reported_partial (PropertiesMinres); C84_nan_not_converged (PropertiesMinres); C84_converged_refuted (PropertiesMinres) | Refuted: flag 4 is set for a large condition estimate, though documented as convergence to an eigenvector, and counts as converged; the estimate is infinite whenever b'Ab = 0. Partial: the limit and the flags 0, 1, 3, 6. |
| C85 | MINRES reports the true residual norm | proved | C85_rnorm (PropertiesMinres); C85_definite (PropertiesMinres) | Exact reals, no preconditioner, no shift; hypothesis: the smallest pivot (gmin, the divisor in Acond) exceeds eps. |
| C86 | MINRES solves systems with an eigenvector as right-hand side | partial | C86_eigenvector_refuted (PropertiesMinres); C86_first_iteration_partial (PropertiesMinres) | Refuted: the flag -1 set in the first iteration does not end the loop, which only breaks for positive flags; the second iteration divides by beta = 0 and x becomes nan. Partial: with an iteration limit of 1 the solution is returned. |
| C87 | MINRES reports the norm of A r | partial | C87_arnorm_refuted (PropertiesMinres) | Refuted: the value is that of the previous iterate. |
| C88 | Covariance elements from a saved solver | proved | C88_covariance_from_saved_solver (PropertiesSave) | Assumes the saved numbers are 4-byte floats, and sensor functions that do not use the times (the transformed data have none, the re-opened have). |
| C89 | Conversion keeps the usable match-ups aligned | proved | C89_six_files (PropertiesAv); C89_match_ups (PropertiesAv) | Input files: netCDF dimensions consistent, sensors in the name table, brightness temperature variables BTcc and perhaps ref_BTcc, at least one usable match-up, conversion to radiance not raising. |
| C90 | Converted files describe space and target counts as rolling averages | proved | C90_rolling_averages (PropertiesAv) | Same hypotheses as C89. |
| C91 | Nominal measurands are radiances | partial | C91_nominal_measurand_refuted (PropertiesAv) | Refuted: return_additional_variables takes the brightness temperatures; the radiances computed before are dropped. |
| C92 | Temperature limit | partial | C92_temperature_limit_refuted (PropertiesAv); C92_selection_partial (PropertiesAv) | Refuted: the brightness temperature variable has been renamed from BT11 to BT before it is read as BT11: KeyError for every input. Partial: the mask function itself respects the limit. |
| C93 | Output directories tell the channel | partial | C93_directories_partial (PropertiesAv); C93_band_37_refuted (PropertiesAv) | Refuted for 3.7 micrometres: the band is an int, compared with the string '37'. Partial: the other channels. |
| C94 | Combined random uncertainty without structured effects | partial | C94_sums_partial (PropertiesAv); C94_upper_bound_partial (PropertiesAv); C94_standard_uncertainty_refuted (PropertiesAv) | Refuted: W times the vector of uncertainties adds contributions linearly; strictly larger than the standard uncertainty as soon as two scan lines contribute. Partial: what is written, and that it is an upper bound. |
| C95 | Effects of the six files | proved | C95_effects (PropertiesAv) | Same hypotheses as C89. |
| C96 | Compiled AVHRR models agree with the Python ones | proved | C96_compiled_agrees (PropertiesComp) | Exact reals; exceptions do not occur on arrays of the right width. |
| C97 | Compiled scaled four-parameter AVHRR model | partial | C97_compiled_scaled4_refuted (PropertiesComp) | Refuted for every match-up with a non-zero fourth parameter: the compiled function takes the temperature itself, the Python function the temperature minus 285. |
| C98 | PMH conversion: every file holds its rows of the table | proved | C98_files_hold_the_rows (PropertiesPmh) | proved for every successful conversion; float/int parsing of words and loadtxt are parameters |
| C99 | PMH conversion: the files can be read | proved | C99_converted_files_readable (PropertiesPmh) | includes the composition with the reader's uncertainty opening (C06) |

## 5. Assumptions of each theorem (output of Print Assumptions)

Axioms, all of the standard library: F = `ClassicalDedekindReals.sig_forall_dec`, N = `ClassicalDedekindReals.sig_not_dec`, C = `Classical_Prop.classic`, E = `FunctionalExtensionality.functional_extensionality_dep`. `-`: closed under the global context.

| theorem | axioms |
|---|---|
| C01_columns_returned | - |
| C02_every_position_in_one_block | - |
| C02_layout | - |
| C03_additional_data | - |
| C03_optional_indices | - |
| C03_series_aligned | - |
| C03_series_lengths | - |
| C04_columns_kept_partial | - |
| C04_no_column_dropped_refuted | - |
| C04_nothing_invented | - |
| C04_opens_iff | - |
| C04_self_matchup_refuted | - |
| C05_systematic_numbering | - |
| C06_single_matchup_type4_refuted | - |
| C06_uncertainty_attached_partial | - |
| C07_empty_matrix_unreadable | - |
| C07_trailing_columns_lost | - |
| C07_w_matrix_roundtrip | - |
| C08_unck_valid | F N E |
| C09_adjustment_model_refuted | - |
| C09_parameters_attributed | - |
| C09_succeeds_without_adjustment_entry | - |
| C10_accessor_range | - |
| C10_accessor_time | - |
| C10_accessor_track | - |
| C11_extremes_default_always_none | - |
| C11_extremes_over_all_matchups_refuted | - |
| C11_extremes_with_number_partial | - |
| C12_sampled_share_no_error_source | - |
| C13_greedy_maximal | - |
| C13_thinned_order_not_kept | - |
| C14_order_kept_without_w | - |
| C14_sampled_aligned | - |
| C14_sampling_succeeds | - |
| C15_sample_size | - |
| C16_only_independent_uncertainty | - |
| C17_reverse_undoes_run | F E |
| C17_unsolvable_not_recovered | F E |
| C18_transformed_layout | F E |
| C18_transformed_values | F E |
| C19_unconvert_is_reverse | F E |
| C20_labels_kept_by_transform_partial | F E |
| C20_labels_lost_refuted | F E |
| C20_labels_never_lost_partial | F E |
| C20_late_sensor_data_refuted | F E |
| C20_replaced_sensor_data_refuted | F E |
| C21_K_is_difference | F |
| C21_default_selects_all | - |
| C21_measurand_per_matchup | F |
| C21_row_depends_on_its_matchup | F |
| C21_unordered_selection_not_kept | F E |
| C22_product_linear | F E |
| C22_transpose_product_linear | F E |
| C23_transpose_is_adjoint | F E |
| C24_hessian_positive_semidefinite | F E |
| C24_hessian_symmetric | F E |
| C25_residual | F E |
| C25_residual_vanishes | F E |
| C26_indices_refuted | F E |
| C26_product_is_derivative_partial | F E |
| C26_reference_systematic_refuted | F E |
| C27_loop_bounded_and_honest | F N C E |
| C27_run_returns | F N C E |
| C28_covariance_of_exact_solver | F E |
| C28_covariance_symmetric | F N C E |
| C29_degrees_of_freedom_partial | F N C E |
| C29_degrees_of_freedom_refuted | F N C E |
| C30_covariance_positive_definite | F N E |
| C31_covariance_is_inverse | F N E |
| C31_covariance_symmetric | F N E |
| C31_passes | F N E |
| C31_run_returns | F N E |
| C32_no_file_is_output_and_residual | - |
| C32_saved_files_are_recognised | - |
| C33_one_file_per_series | - |
| C33_residual_names | - |
| C33_saved_results_are_opened | - |
| C34_labels_survive | - |
| C34_long_label_is_an_error | - |
| C35_elements_combined | F E |
| C35_symmetric_elements | F E |
| C36_failed_trials_ignored | F E |
| C36_running_statistics | F E |
| C37_data_restored | F |
| C37_harmonised_answers | F |
| C38_empty_series_rejected | F E |
| C38_simulation_fills_ranges | F E |
| C39_bin_statistics | F N E |
| C39_bins_exhaust_range | F E |
| C39_exactly_one_bin | F E |
| C39_time_average | F E |
| C40_avhrr_derivatives | F N C E |
| C41_hirs_derivatives | F N C E |
| C42_always_partial | F N C E |
| C42_earth_counts_refuted | F N C E |
| C42_nominal_partial | F N C E |
| C42_target_counts_refuted | F N C E |
| C42_target_temperature_refuted | F N C E |
| C43_report | F E |
| C43_uncertainty_assignment | F E |
| C44_acceptance | F E |
| C45_exists | F E |
| C45_format | F E |
| C45_kernel | F E |
| C45_rolling_average | F E |
| C46_array | F N E |
| C46_increasing | F N C E |
| C46_instruments | F E |
| C46_missing | F N E |
| C46_number | F N E |
| C47_rotation | F N E |
| C48_flags | F N E |
| C49_attribute_partial | F N E |
| C49_attribute_refuted | F N E |
| C50_continuation_partial | F N C E |
| C50_continuation_refuted | F E |
| C50_residual_reopened | F E |
| C50_restored | F |
| C51_accepted_iff_documented | - |
| C52_random_sampling_refuted | - |
| C53_averaged_uncertainty_refuted | F N E |
| C53_sampled_w_uncertainty_partial | - |
| C54_times_lost_refuted | F E |
| C55_derivatives_refuted | - |
| C56_returned_residuals_and_systematic_errors | F N C E |
| C57_covariance_is_propagated | F E |
| C58_jacobian_is_derivative | F E |
| C58_weighted_residual | F E |
| C59_stale_weights_refuted | F N E |
| C59_weights_of_current_estimate_partial | F E |
| C60_reference_not_first_refuted | F E |
| C60_two_effects_refuted | F E |
| C60_two_references_refuted | F E |
| C61_other_files_refuted | - |
| C61_result_name_with_res_refuted | - |
| C62_X_residuals_refuted | - |
| C62_joined_names_refuted | - |
| C62_same_pair_refuted | - |
| C63_attributes_refuted | - |
| C63_cannot_be_saved_again_refuted | - |
| C63_listing_order_refuted | - |
| C63_no_residual_files_refuted | - |
| C63_output_file_partial | - |
| C64_more_than_ten_parameters_refuted | F E |
| C65_empty_job_file_refuted | - |
| C65_verbosity_ignored_refuted | - |
| C66_complete_configuration_partial | - |
| C66_nothing_written_refuted | - |
| C67_boundary_times_lost_refuted | F E |
| C67_constant_lost_refuted | F N E |
| C67_maximum_lost_refuted | F E |
| C68_nominal_measurands_refuted | F |
| C68_nominal_residual_refuted | F |
| C68_order_refuted | F E |
| C68_parameters_left_refuted | F |
| C69_scaled_parameter_refuted | F N C E |
| C70_hirs_reference_refuted | F |
| C70_hirs_temperature_refuted | F N C E |
| C71_calls_refuted | F E |
| C71_others_partial | F E |
| C71_parameters_refuted | F E |
| C72_readable_partial | F E |
| C72_readable_refuted | F E |
| C73_report_partial | F E |
| C73_report_refuted | F E |
| C74_short_lines_refuted | F E |
| C75_sensor1_partial | F E |
| C75_sensor1_refuted | F E |
| C75_sensor2 | F E |
| C75_types | - |
| C76_times_partial | F E |
| C76_times_refuted | F E |
| C77_inverse_partial | F N C E |
| C77_rad2temp_refuted | F E |
| C78_input_refuted | - |
| C78_output_refuted | - |
| C79_directory | - |
| C79_files | - |
| C79_listing_order | - |
| C80_directories_refuted | - |
| C81_norms | F N E |
| C82_exact_solution_refuted | F N E |
| C82_inconsistent_partial | F N E |
| C83_iterations | F N E |
| C84_converged_refuted | F N E |
| C84_flags_partial | F N E |
| C84_nan_not_converged | F N E |
| C84_reported_partial | F N E |
| C85_definite | F N E |
| C85_rnorm | F N E |
| C86_eigenvector_refuted | F N E |
| C86_first_iteration_partial | F N E |
| C87_arnorm_refuted | F N E |
| C88_covariance_from_saved_solver | F E |
| C89_match_ups | F E |
| C89_six_files | F E |
| C90_rolling_averages | F E |
| C91_nominal_measurand_refuted | F E |
| C92_selection_partial | F E |
| C92_temperature_limit_refuted | F E |
| C93_band_37_refuted | F E |
| C93_directories_partial | F E |
| C94_standard_uncertainty_refuted | F N E |
| C94_sums_partial | F E |
| C94_upper_bound_partial | F N E |
| C95_effects | F E |
| C96_compiled_agrees | F E |
| C97_compiled_scaled4_refuted | F E |
| C98_files_hold_the_rows | F E |
| C99_converted_files_readable | F E |
| C100_parameter_file_read | F |
| C100_uncertainty_file_read | F |
| C101_converted_iff | F E |
| C102_different_sizes_refuted | F E |
| C102_no_averages_refuted | F E |
| C103_averages_represented | F E |
| C104_wrong_matrix_size_refuted | F E |
| C104_wrong_uncertainty_refuted | F E |
| C105_surplus_rows_refuted | F E |
| C106_written_acceptance | F E |
| C107_round_trip | F N E |
| C108_accepted_files_open_partial | F N E |
| C108_accepted_files_open_refuted | F N E |
| C109_w_matrices_written_refuted | F N E |
| C110_steps | F N C E |
| C111_outcome | F N C E |
| C111_residuals | F N C E |
| C112_left_again_refuted | F N C E |
| C112_minimum_lost_refuted | F N C E |
| C112_stationary_start_refuted | F N C E |
| C113_covariance | F N C E |
| C113_pivots | F N C E |
| C113_unique | F E |
| C114_hessian | F N C E |
| C114_symmetric | F N C E |
| C115_finite | F N E |
| C116_definite | F N E |
| C116_iterations | F N E |
| C117_open_ready | F N E |
| C118_data_to_result | F N C E |
| C118_files_to_result | F N C E |
| C119_own_preconditioner | F N C E |
| C120_combined_right | F E |
| C120_complete_before_combination | F E |
| C120_never_wrong | F E |
| C121_bounded_work | F E |
| C121_terminates | F E |
| C122_failing_element_refuted | F E |
| C123_more_files_refuted | F E |
| C123_old_elements_refuted | F E |
| C124_race_refuted | F E |
| C125_trials_combined_refuted | - |
| C126_factorisation | F N E |
| C126_never_raises | F N E |
| C126_roots_exact | F N E |
| C127_ill_conditioned | F N E |
| C128_accepted_nearly_symmetric | F N C E |
| C128_minres_not_stopped | F N C E |
| C128_not_square | F N C E |
| C128_symmetric_accepted | F N C E |
| C129_only_symmetric_accepted_refuted | F N C E |
| C130_definiteness_keeps_seed | F N E |
| C130_symmetry_keeps_seed_refuted | F N C E |
| C131_accepted_copositive | F N E |
| C131_accepted_definite_refuted | F N E |
| C131_definite_accepted | F N E |
| C131_not_square | F N C E |
| C131_semidefinite_accepted | F N E |
| C132_points_of_same_matchups | F E |
| C133_large_datasets_shares | F E |
| C133_small_datasets_complete | F E |
| C134_points_repeated_refuted | F E |
| C134_small_files_dropped_refuted | F E |
| C135_labels | - |
| C136_binned_plots | F N E |
| C137_constant_variable_refuted | F N E |
| C137_selection_mislabelled_refuted | F N E |
| C138_comparison_plots_every_sensor | - |
| C139_plots_of_nominal_parameters_refuted | F |
| C140_microwave_accepted | F E |
| C141_microwave_opens | F N E |
| C142_pmh_accepted | F E |
| C143_all_accepted_refuted | F E |
| C144_avhrr_accepted | F E |
| C145_avhrr_plain_accepted | F E |
| C146_avhrr_structured | F E |
| C147_avhrr_full | F E |
| C148_avhrr_end_to_end | F N C E |
| C149_avhrr_preconditioned | F N C E |
| C150_other_models_refuted | F N C E |
| C151_metop_refuted | F N E |
| C151_microwave_partial | F N E |
| C152_first_file_refuted | - |
| C152_missing_file_refuted | - |
| C152_own_data_partial | - |
| C153_blank | F N E |
| C153_coefficients | F N E |
| C153_missing | F N E |
| C154_covariance_in_jobs | F N C E |
| C155_from_initial_partial | F N C E |
| C155_from_initial_refuted | F N C E |
| C155_parameters_unused | F N C E |
| C156_options_refuted | F N C E |
| C157_opened | - |
| C157_text | - |
| C158_series_refuted | - |
| C159_last_k_refuted | - |
| C159_previous_file | - |
| C159_short_partial | - |
| C160_residual_statistics | F E |
| C161_covariance | F N E |
| C161_deviation_refuted | F N E |
| C161_failed_left_out_partial | F |
| C161_first_failed_refuted | - |
| C161_zero_result_refuted | F E |
| C162_ks | F |
| C162_trial_start_refuted | F |
| C163_constructor_refuted | - |
| C163_scripts_refuted | - |
| C164_comparison_refuted | - |
| C165_files | - |
| C165_plots | - |
| C166_divided | F |
| C166_out_of_range | F |
| C167_centre_refuted | - |
| C167_edge_refuted | - |
| C168_equal | F N E |
| C168_map | F N E |
| C169_structured_refuted | F N E |
| C170_exercise_refuted | F N E |
| C170_propagation | F N E |
| C171_total_refuted | F N E |
| C172_one_date | - |
| C172_time_stamp | - |
| C173_every_time_refuted | - |
| C173_up_to_2038 | - |
| C174_parameter_name | - |
| C174_residuals_name | - |
| C175_distinct_pairs | - |
| C175_underscore_refuted | - |
| C176_parameter_configured_refuted | - |
| C176_residuals_configured_refuted | - |
| C177_uncertainty_unit_refuted | - |
| C177_units_partial | - |
| C178_banded_matrix_partial | - |
| C178_banded_matrix_refuted | - |
| C178_outside_refuted | - |
| C179_full | - |
| C179_v_matrices | - |
| C179_w_matrices | - |
| C180_added | - |
| C180_match_ups | - |
| C180_partition | - |
| C181_neutral | - |
| C181_parameters | - |
| C181_prior | - |
| C182_records | - |
| C183_covariances | - |
| C183_kept | - |
| C184_selection_refuted | - |
| C185_infinite_variance_refuted | - |
| C185_refused_partial | - |
| C185_refused_refuted | - |
| C186_second_time | - |
| C187_matrices | - |
| C187_parameters | - |
| C187_records | - |
| C188_bounded | F N E |
| C188_diagonal | F N E |
| C188_recovers | F N E |
| C188_symmetric | F N E |
| C189_near | - |
| C189_small | - |
| C189_times_refuted | - |
| C190_refused | - |
| C190_written | - |
| C191_refused | - |
| C191_written | - |
| C192_refused | F N E |
| C192_written | F N E |
| C193_amsub_refuted | F N E |
| C193_indices | F N E |
| C193_mhs | F N E |
| C194_described | F N E |
| C194_once | F N E |
| C195_amsub | F N E |
| C195_edge_refuted | F N E |
| C195_mhs_partial | F N E |

## 6. Findings

Violations proved in the model (see the theorem named `_refuted` and the note in section 4): every property with status `partial`
whose theorems include `_refuted`.

Further disagreements between the code and its documentation found while modelling, not stated as theorems:

* `H/__init__.py`: the imports of the sub-packages are commented out, `import harmonisation` followed by attribute access fails with ImportError/AttributeError.
* `HarmonisationOp.combine_mc_trials` uses the undefined name `get_harm_paths` and unpacks 8 of 4 returned values.
* `HarmonisationEIVPC.runPC` unpacks 2 of 7 returned values and uses attributes that are never set; data of type 3/4 raise in the preconditioner.
* Tolerances given to the Gauss-Newton driver are not forwarded to the inner solvers.
* `run_mc_trial` perturbs `xyza[N_var]` (one element) and the un-normalised ks; it reads `idx["Ia"]`, which is absent.
* `W_AMSUB_T` has 7 weights of which the model reads the last 5; `const_MHS_5` has b = 0.
* The input checker's list of value variables has Ur2 twice and omits Us2.
* `convert_bt_to_radiance`: filter values 0, -1, -2 alias channels 3, 2, 1; 1-D arrays are not NaN-filled by rad2temp.
* LSMR: an exact solution raises ZeroDivisionError, a stale attribute x of an earlier solve is returned; integer conlim gives ctol 0 under Python 2.
  MINRES: flags 4 and 5 are mixed up, flag 6 for beta < 0, flag -1 does not stop, flag 7 leaves x = 0 and rnorm = 0 silently; Gauss-Newton ignores
  the flags, so that the covariance is then 0; Arnorm is that of the previous iterate.
* A saved solver loses the normalised ks and is rounded to float32.
* `AVHRR_to_updated_spec`: `updated_names` lacks satellites 6 and TIROS-N; convertBT2rad always uses channel 2; temp_lim raises KeyError for
  some bands; the nominal measurand is a brightness temperature.
* The compiled AVHRR models are never imported; the scaled 4-parameter one lacks the offset of 285.
* `MatchUpWriter.write_input_file` ignores its W matrix variables; `writeMatchUp` and two helpers return 0 without doing anything.
* `pmh2fiduceo.py` calls `main()` without its argument (TypeError when run as a script).
* Gauss-Newton run: a stationary start (e.g. data without noise and the right parameters) raises TypeError; at a stationary iterate LSMR keeps the
  vector of the previous solve, so that the last step is repeated (C112, with a concrete run that leaves the minimum twice and ends at its start).
* `PCsolver.py`, `initialGNsolver.py`, `fullEIVsolver_covariance_*.py` construct `HarmonisationOp(dataset_paths=...)`, whose `__init__` takes no
  arguments (TypeError): every job of the batch scripts fails as the package stands, so C122 applies to each of them.
* `check_symmetric` (run by MINRES by default) reseeds numpy's global generator with 1, so random numbers drawn later in the process no longer depend
  on the seed (C130); it accepts an asymmetry of 0.1 % for every draw (C129).  `check_positive_definite` draws only non-negative vectors and accepts
  the indefinite operator with rows (1, 2), (2, 1) for every draw (C131).
* Plots: a file with less than a ten-thousandth of more than 10000 match-ups disappears from all scatter plots, and points are drawn with replacement
  (C134); with a selection `mus`, plots against sensor variables carry the labels of the first series, and a constant variable raises IndexError (C137);
  the plotting tool's "harmonised" plots all show the nominal calibration (C139).
* Conversion tools against the checker: `pmh2fiduceo` files of pairs whose size differs from the last pair's are rejected (C143); `AVHRR_to_updated_spec`
  copies the systematic uncertainties of the counts unchecked, so that its files with all effects are rejected unless the input gives none (C147).
* Registered sensor data: converted AVHRR files can be harmonised with the three-parameter models only; with the six others every run raises
  TypeError (C150). The microwave tool names the MetOp satellites ma and mb, the microwave sensor data A and B: KeyError (C151); the microwave model
  raises TypeError for files without across-track indices. A sensor data file is looked up by its base name: a second file of that name (or the
  changed file) gives the data of the first, a missing one that of another directory used before (C152).
* A run with gn_input starts from the saved estimates: the parameters of the preconditioner have no influence (C155). The options save_gn,
  return_covariance (--no_covariance) and the tolerances of `HarmonisationOp.run` are ignored (C156). `run_mc_trial` reads `idx["Ia"]`, a key no index
  structure has, and unpacks 7 of 9 values.
* repr() of a dataset shows one series more than there are (C158) and, for series of ten match-ups or more, the last K of the preceding file (C159).
* Monte Carlo: std over N against covariance over N-1, failure of the first trial fails the combination, all-zero results are dropped (C161); a trial
  starts from one value around the first parameter in place of all variables (C162); combine_mc_trials unpacks eight values of four.
* All job scripts raise NameError (C163); the console script harm_comp_plot raises TypeError (C164), and with the right keywords the evaluation
  fails with the KeyError of C55.
* Training: the averaging window is centred one pixel off and wraps round at the edge (C167); the structured part is a sum of pixel indices (C169);
  the common part of the total uncertainty is not squared (C171), and the exercise propagates with the sensitivities of another retrieval (C170).
* Fortran demonstration: time stamps end in 2038 (C173); all residuals datasets get the configured name and the parameter dataset never does (C176);
  sensor names with underscores can share a dataset (C175); the units of uncertainty and weights are shifted (C177); a stored row with unsorted
  columns is written over its neighbour (C178).
* Fortran demonstration, reader: with selected columns the wrong column's uncertainty type decides (C184); huge Ur2 and Us2 are not refused (C185);
  an invalid or repeated pair is reported as a full registry (C180).
* Fortran demonstration, residuals dataset: times are stored in single precision, so times a minute apart become equal (C189).
* Microwave sensor data: AMSU-B has seven thermometer weights for five temperatures and the model reads the last five, so the fourth temperature is
  ignored (C193); the antenna correction of scan position 90 is the first thermometer weight, 2 for MHS (C195).
