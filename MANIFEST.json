{
 "claims": [
  {
   "property": "C01",
   "status": "proved",
   "theorems": [
    "C01_columns_returned"
   ],
   "note": "full, for every list of valid files with consistent covariate counts"
  },
  {
   "property": "C02",
   "status": "proved",
   "theorems": [
    "C02_layout",
    "C02_every_position_in_one_block"
   ],
   "note": "full"
  },
  {
   "property": "C03",
   "status": "proved",
   "theorems": [
    "C03_series_aligned",
    "C03_series_lengths",
    "C03_optional_indices",
    "C03_additional_data"
   ],
   "note": "full, includes additional variables"
  },
  {
   "property": "C04",
   "status": "partial",
   "theorems": [
    "C04_opens_iff",
    "C04_nothing_invented",
    "C04_columns_kept_partial",
    "C04_no_column_dropped_refuted",
    "C04_self_matchup_refuted"
   ],
   "note": "The property as stated is false of the code (see the _refuted witnesses): extra columns of a later file, and side 1 of a self match-up, are silently lost. Proved: exact condition for opening to succeed, nothing is invented, columns within the first file's count are kept."
  },
  {
   "property": "C05",
   "status": "proved",
   "theorems": [
    "C05_systematic_numbering"
   ],
   "note": "full, for what opening leaves in the object, every block list and type assignment"
  },
  {
   "property": "C06",
   "status": "partial",
   "theorems": [
    "C06_uncertainty_attached_partial",
    "C06_single_matchup_type4_refuted"
   ],
   "note": "Proved for every list of valid files; refuted for a type-4 covariate in a file with a single match-up (the systematic component is read from row index 1)."
  },
  {
   "property": "C07",
   "status": "proved",
   "theorems": [
    "C07_w_matrix_roundtrip",
    "C07_trailing_columns_lost",
    "C07_empty_matrix_unreadable"
   ],
   "note": "full; also: matrices are cut after their last used column otherwise, and an all-zero matrix is unreadable"
  },
  {
   "property": "C08",
   "status": "proved",
   "theorems": [
    "C08_unck_valid"
   ],
   "note": "full, over the reals"
  },
  {
   "property": "C09",
   "status": "partial",
   "theorems": [
    "C09_parameters_attributed",
    "C09_succeeds_without_adjustment_entry",
    "C09_adjustment_model_refuted"
   ],
   "note": "parameters/constants/models: full, for every dictionary order; adjustment models: refuted (KeyError or silently ignored)"
  },
  {
   "property": "C10",
   "status": "proved",
   "theorems": [
    "C10_accessor_time",
    "C10_accessor_track",
    "C10_accessor_range"
   ],
   "note": "full for match-up numbers 1..; beyond the last: IndexError"
  },
  {
   "property": "C100",
   "status": "proved",
   "theorems": [
    "C100_uncertainty_file_read",
    "C100_parameter_file_read"
   ],
   "note": "proved for both text files"
  },
  {
   "property": "C101",
   "status": "proved",
   "theorems": [
    "C101_converted_iff"
   ],
   "note": "exact characterisation (iff)"
  },
  {
   "property": "C102",
   "status": "partial",
   "theorems": [
    "C102_different_sizes_refuted",
    "C102_no_averages_refuted"
   ],
   "note": "refuted: Kr is rebound to an array of the first size, full(n, Kr) of another size raises ValueError; nW_w[0] raises IndexError without averages"
  },
  {
   "property": "C103",
   "status": "proved",
   "theorems": [
    "C103_averages_represented"
   ],
   "note": "equal sizes; 'f4' storage rounding not modelled"
  },
  {
   "property": "C104",
   "status": "partial",
   "theorems": [
    "C104_wrong_matrix_size_refuted",
    "C104_wrong_uncertainty_refuted"
   ],
   "note": "refuted: sizes 1 then 3 give a 3-row W in the 1-row file; different uncertainties pass the check because it uses `and`; all files get the uncertainty of the first averaged covariate"
  },
  {
   "property": "C105",
   "status": "partial",
   "theorems": [
    "C105_surplus_rows_refuted"
   ],
   "note": "refuted in general: appending rows to the table changes nothing"
  },
  {
   "property": "C106",
   "status": "proved",
   "theorems": [
    "C106_written_acceptance"
   ],
   "note": "exact characterisation (iff); compression, fill values and descriptions are not modelled"
  },
  {
   "property": "C107",
   "status": "proved",
   "theorems": [
    "C107_round_trip"
   ],
   "note": "f32/todate/i32 conversions of the reader are parameters; ordering of sets is any permutation"
  },
  {
   "property": "C108",
   "status": "partial",
   "theorems": [
    "C108_accepted_files_open_partial",
    "C108_accepted_files_open_refuted"
   ],
   "note": "partial: needs row pointers (not looked at by the checker, C72) and at least two match-ups for type 4; refuted without: one match-up with a type 4 covariate is accepted and cannot be opened (IndexError)"
  },
  {
   "property": "C109",
   "status": "partial",
   "theorems": [
    "C109_w_matrices_written_refuted"
   ],
   "note": "refuted: the argument is never used; such a file is neither accepted nor can it be opened"
  },
  {
   "property": "C11",
   "status": "partial",
   "theorems": [
    "C11_extremes_with_number_partial",
    "C11_extremes_default_always_none",
    "C11_extremes_over_all_matchups_refuted"
   ],
   "note": "refuted for the default argument (always None); proved with an explicit match-up number"
  },
  {
   "property": "C110",
   "status": "proved",
   "theorems": [
    "C110_steps"
   ],
   "note": "reals for floats"
  },
  {
   "property": "C111",
   "status": "proved",
   "theorems": [
    "C111_outcome",
    "C111_residuals"
   ],
   "note": "reals for floats; MINRES random vectors are a parameter"
  },
  {
   "property": "C112",
   "status": "partial",
   "theorems": [
    "C112_stationary_start_refuted",
    "C112_left_again_refuted",
    "C112_minimum_lost_refuted"
   ],
   "note": "refuted: a stationary start raises TypeError (LSMR leaves x None); at a stationary iterate LSMR leaves the previous vector in place, so that the step is repeated; concrete run that passes the minimum twice and ends at its start, with three times the least cost, unconverged"
  },
  {
   "property": "C113",
   "status": "proved",
   "theorems": [
    "C113_covariance",
    "C113_unique",
    "C113_pivots"
   ],
   "note": "In exact (real) arithmetic; an entry is NaN exactly when a MINRES run gave no numbers."
  },
  {
   "property": "C114",
   "status": "proved",
   "theorems": [
    "C114_hessian",
    "C114_symmetric"
   ],
   "note": "exact arithmetic"
  },
  {
   "property": "C115",
   "status": "proved",
   "theorems": [
    "C115_finite"
   ],
   "note": "exact arithmetic; NaN/inf as NotANumber"
  },
  {
   "property": "C116",
   "status": "proved",
   "theorems": [
    "C116_iterations",
    "C116_definite"
   ],
   "note": "exact arithmetic; random check vectors irrelevant"
  },
  {
   "property": "C117",
   "status": "proved",
   "theorems": [
    "C117_open_ready"
   ],
   "note": "usable, describes, ready: FullSpec.v; hypotheses met by a file with a W matrix (C117_example) and by a written file"
  },
  {
   "property": "C118",
   "status": "proved",
   "theorems": [
    "C118_files_to_result",
    "C118_data_to_result"
   ],
   "note": "reals for floats; exceptions are those of C111"
  },
  {
   "property": "C119",
   "status": "proved",
   "theorems": [
    "C119_own_preconditioner"
   ],
   "note": "library routines (cholesky, solve, least_squares, qr, lstsq, random.sample) as parameters with their contracts; Routines.v gives routines that meet all of them; C119_example is a complete run. least_squares is assumed to return for every sample, also an empty one (series of fewer than ten match-ups are sampled to nothing)."
  },
  {
   "property": "C12",
   "status": "proved",
   "theorems": [
    "C12_sampled_share_no_error_source"
   ],
   "note": "full, for every W matrix and every outcome of random.sample"
  },
  {
   "property": "C120",
   "status": "proved",
   "theorems": [
    "C120_complete_before_combination",
    "C120_never_wrong",
    "C120_combined_right"
   ],
   "note": "transition system of script, queue and jobs (LsfModel.v); an element file is first created, then filled"
  },
  {
   "property": "C121",
   "status": "proved",
   "theorems": [
    "C121_terminates",
    "C121_bounded_work"
   ],
   "note": "fairness: as long as some step would change something, some step that changes something is eventually taken"
  },
  {
   "property": "C122",
   "status": "partial",
   "theorems": [
    "C122_failing_element_refuted"
   ],
   "note": "refuted: the script waits for n x n files and polls for ever, for every schedule"
  },
  {
   "property": "C123",
   "status": "partial",
   "theorems": [
    "C123_old_elements_refuted",
    "C123_more_files_refuted"
   ],
   "note": "refuted: the number of files is compared with n x n; with the files of an earlier run the old matrix is written before any new element is computed, and with more files the script never gets further"
  },
  {
   "property": "C124",
   "status": "partial",
   "theorems": [
    "C124_race_refuted"
   ],
   "note": "refuted: the script counts files, savetxt creates the file before it writes the number; the combination then fails and the script ends without covariance (concrete schedule, any value)"
  },
  {
   "property": "C125",
   "status": "partial",
   "theorems": [
    "C125_trials_combined_refuted"
   ],
   "note": "refuted: the output of find (paths) is compared with a number; false for every list of absolute paths"
  },
  {
   "property": "C126",
   "status": "proved",
   "theorems": [
    "C126_roots_exact",
    "C126_factorisation",
    "C126_never_raises"
   ],
   "note": ""
  },
  {
   "property": "C127",
   "status": "proved",
   "theorems": [
    "C127_ill_conditioned"
   ],
   "note": ""
  },
  {
   "property": "C128",
   "status": "proved",
   "theorems": [
    "C128_symmetric_accepted",
    "C128_minres_not_stopped",
    "C128_not_square",
    "C128_accepted_nearly_symmetric"
   ],
   "note": ""
  },
  {
   "property": "C129",
   "status": "partial",
   "theorems": [
    "C129_only_symmetric_accepted_refuted"
   ],
   "note": "Refuted: rows (1, 0.001) and (0, 1) pass for every draw."
  },
  {
   "property": "C13",
   "status": "proved",
   "theorems": [
    "C13_greedy_maximal",
    "C13_thinned_order_not_kept"
   ],
   "note": "full for the un-thinned selection; beyond the property, the thinned selection of a W series is not in file order (C13_thinned_order_not_kept)"
  },
  {
   "property": "C130",
   "status": "partial",
   "theorems": [
    "C130_definiteness_keeps_seed",
    "C130_symmetry_keeps_seed_refuted"
   ],
   "note": "Refuted for check_symmetric: it calls numpy.random.seed(1), so everything drawn later is the same for every seed; holds for check_positive_definite."
  },
  {
   "property": "C131",
   "status": "partial",
   "theorems": [
    "C131_definite_accepted",
    "C131_semidefinite_accepted",
    "C131_not_square",
    "C131_accepted_copositive",
    "C131_accepted_definite_refuted"
   ],
   "note": "The last clause is refuted: rows (1, 2), (2, 1) pass for every draw, because only vectors with non-negative components are drawn; proved instead: x'Ax > 0 for all non-negative x."
  },
  {
   "property": "C132",
   "status": "proved",
   "theorems": [
    "C132_points_of_same_matchups"
   ],
   "note": "The number of samples is computed exactly; fill values and files without nominal measurands are excluded by hypothesis."
  },
  {
   "property": "C133",
   "status": "proved",
   "theorems": [
    "C133_small_datasets_complete",
    "C133_large_datasets_shares"
   ],
   "note": ""
  },
  {
   "property": "C134",
   "status": "partial",
   "theorems": [
    "C134_small_files_dropped_refuted",
    "C134_points_repeated_refuted"
   ],
   "note": "Both clauses refuted: files with M_i * 10000 < M get no point in any plot; indices are drawn with replacement."
  },
  {
   "property": "C135",
   "status": "proved",
   "theorems": [
    "C135_labels"
   ],
   "note": ""
  },
  {
   "property": "C136",
   "status": "proved",
   "theorems": [
    "C136_binned_plots"
   ],
   "note": "Proved for files without empty series; the point of largest X lies outside the last bin (bins are half-open), as in the code."
  },
  {
   "property": "C137",
   "status": "partial",
   "theorems": [
    "C137_selection_mislabelled_refuted",
    "C137_constant_variable_refuted"
   ],
   "note": "Refuted: a selection [k] is labelled with the first series' sensors, in its own plot and in the joint legend; a variable constant in the first file raises IndexError before any plot."
  },
  {
   "property": "C138",
   "status": "proved",
   "theorems": [
    "C138_comparison_plots_every_sensor"
   ],
   "note": "A sensor that occurs in several of these files is plotted several times to the same file name: the last one remains."
  },
  {
   "property": "C139",
   "status": "partial",
   "theorems": [
    "C139_plots_of_nominal_parameters_refuted"
   ],
   "note": "Refuted: for every later history all answers are those of the nominal parameters (the tool first calls get_kres_harm_harm_musamples, which evaluates sensor 2 before the harmonised parameters are set)."
  },
  {
   "property": "C14",
   "status": "proved",
   "theorems": [
    "C14_sampled_aligned",
    "C14_order_kept_without_w",
    "C14_sampling_succeeds"
   ],
   "note": "full; also success for every complete object"
  },
  {
   "property": "C140",
   "status": "proved",
   "theorems": [
    "C140_microwave_accepted"
   ],
   "note": "NaN is stored as a number nanV; single precision is an abstract function with f32 0 = 0; additional variables have dtype f8."
  },
  {
   "property": "C141",
   "status": "proved",
   "theorems": [
    "C141_microwave_opens"
   ],
   "note": "NaN is stored as a number nanV; single precision is an abstract function with f32 0 = 0; additional variables have dtype f8."
  },
  {
   "property": "C142",
   "status": "proved",
   "theorems": [
    "C142_pmh_accepted"
   ],
   "note": "NaN is stored as a number nanV; single precision is an abstract function with f32 0 = 0; additional variables have dtype f8."
  },
  {
   "property": "C143",
   "status": "partial",
   "theorems": [
    "C143_all_accepted_refuted"
   ],
   "note": "The file of a pair is sized by the last pair's number of match-ups in its W matrices: pairs of one and of three match-ups give a first file the checker rejects. NaN is stored as a number nanV; single precision is an abstract function with f32 0 = 0; additional variables have dtype f8."
  },
  {
   "property": "C144",
   "status": "proved",
   "theorems": [
    "C144_avhrr_accepted"
   ],
   "note": "NaN is stored as a number nanV; single precision is an abstract function with f32 0 = 0; additional variables have dtype f8."
  },
  {
   "property": "C145",
   "status": "proved",
   "theorems": [
    "C145_avhrr_plain_accepted"
   ],
   "note": "NaN is stored as a number nanV; single precision is an abstract function with f32 0 = 0; additional variables have dtype f8."
  },
  {
   "property": "C146",
   "status": "proved",
   "theorems": [
    "C146_avhrr_structured"
   ],
   "note": "NaN is stored as a number nanV; single precision is an abstract function with f32 0 = 0; additional variables have dtype f8."
  },
  {
   "property": "C147",
   "status": "proved",
   "theorems": [
    "C147_avhrr_full"
   ],
   "note": "Finding: systematic uncertainties of counts are copied unchecked, with type 2 not declared. NaN is stored as a number nanV; single precision is an abstract function with f32 0 = 0; additional variables have dtype f8."
  },
  {
   "property": "C148",
   "status": "proved",
   "theorems": [
    "C148_avhrr_end_to_end"
   ],
   "note": "Single precision is an abstract function with f32 0 = 0; linear algebra routines as in C118."
  },
  {
   "property": "C149",
   "status": "proved",
   "theorems": [
    "C149_avhrr_preconditioned"
   ],
   "note": "As C148; routines and sampling as in C119."
  },
  {
   "property": "C15",
   "status": "proved",
   "theorems": [
    "C15_sample_size"
   ],
   "note": "full"
  },
  {
   "property": "C150",
   "status": "partial",
   "theorems": [
    "C150_other_models_refuted"
   ],
   "note": "Finding: with the six models other than AVHRR_*_3[_rescaled] the files open, but every harmonisation raises TypeError (their functions do not take the arguments of the caller, C71). C148 is the positive part."
  },
  {
   "property": "C151",
   "status": "partial",
   "theorems": [
    "C151_microwave_partial",
    "C151_metop_refuted"
   ],
   "note": "Finding: the conversion tool calls the MetOp satellites ma and mb, the sensor data A and B: KeyError."
  },
  {
   "property": "C152",
   "status": "partial",
   "theorems": [
    "C152_own_data_partial",
    "C152_first_file_refuted",
    "C152_missing_file_refuted"
   ],
   "note": "Finding: modules are cached by base name, and sys.path keeps the directories of earlier calls. Module names without dots."
  },
  {
   "property": "C153",
   "status": "proved",
   "theorems": [
    "C153_coefficients",
    "C153_missing",
    "C153_blank"
   ],
   "note": "float() is a parameter."
  },
  {
   "property": "C154",
   "status": "proved",
   "theorems": [
    "C154_covariance_in_jobs"
   ],
   "note": "float32 storage of the direct run's covariance array and the text format of the element files are not modelled (exact reals). The combination reads one-digit indices (C35)."
  },
  {
   "property": "C155",
   "status": "partial",
   "theorems": [
    "C155_from_initial_partial",
    "C155_parameters_unused",
    "C155_from_initial_refuted"
   ],
   "note": "True if the preconditioner's parameters are those of the sensor data file and the K values are unchanged by the transformation. Findings: the parameters of the preconditioner have no influence on a run with gn_input (it starts from the saved ones), and the K values stay untransformed (C50)."
  },
  {
   "property": "C156",
   "status": "partial",
   "theorems": [
    "C156_options_refuted"
   ],
   "note": "Finding: both options (and the tolerances) are ignored: the covariance is always computed and no solver is saved."
  },
  {
   "property": "C157",
   "status": "proved",
   "theorems": [
    "C157_text",
    "C157_opened"
   ],
   "note": ""
  },
  {
   "property": "C158",
   "status": "partial",
   "theorems": [
    "C158_series_refuted"
   ],
   "note": "Finding: len(idx['cNm']), one more than the number of files, for every dataset."
  },
  {
   "property": "C159",
   "status": "partial",
   "theorems": [
    "C159_short_partial",
    "C159_previous_file",
    "C159_last_k_refuted"
   ],
   "note": "True for series of fewer than ten match-ups. Finding: otherwise the last K shown is that of the last match-up of the file before (of the whole dataset for the first file)."
  },
  {
   "property": "C16",
   "status": "proved",
   "theorems": [
    "C16_only_independent_uncertainty"
   ],
   "note": "full"
  },
  {
   "property": "C160",
   "status": "proved",
   "theorems": [
    "C160_residual_statistics"
   ],
   "note": ""
  },
  {
   "property": "C161",
   "status": "partial",
   "theorems": [
    "C161_failed_left_out_partial",
    "C161_covariance",
    "C161_deviation_refuted",
    "C161_first_failed_refuted",
    "C161_zero_result_refuted"
   ],
   "note": "True for the parameters if the first trial finished and no trial gives only zeros. Findings: the standard deviation divides by N, the covariance by N-1; if the first trial failed the combination fails; a trial with only zeros is left out. combine_mc_trials unpacks eight values of a function that returns four, so that the statistics are never reached as the code stands; they are modelled as functions."
  },
  {
   "property": "C162",
   "status": "partial",
   "theorems": [
    "C162_trial_start_refuted",
    "C162_ks"
   ],
   "note": "Finding: normal(xyza[N_var]) draws one value, around the first parameter, in place of all variables; the K values are drawn one by one. Moreover run_mc_trial reads idx['Ia'], which no index structure has (KeyError)."
  },
  {
   "property": "C163",
   "status": "partial",
   "theorems": [
    "C163_scripts_refuted",
    "C163_constructor_refuted"
   ],
   "note": "Finding: each raises NameError (functions that tools/common.py does not define), and with these defined TypeError from the constructor of HarmonisationOp."
  },
  {
   "property": "C164",
   "status": "partial",
   "theorems": [
    "C164_comparison_refuted"
   ],
   "note": "Finding: TypeError (keywords the operator does not take), for every command line that can be read."
  },
  {
   "property": "C165",
   "status": "proved",
   "theorems": [
    "C165_plots",
    "C165_files"
   ],
   "note": ""
  },
  {
   "property": "C166",
   "status": "proved",
   "theorems": [
    "C166_divided",
    "C166_out_of_range"
   ],
   "note": ""
  },
  {
   "property": "C167",
   "status": "partial",
   "theorems": [
    "C167_centre_refuted",
    "C167_edge_refuted"
   ],
   "note": "Finding: it is centred on the line before; a window that would just fit at the upper or left edge takes a line from the other side."
  },
  {
   "property": "C168",
   "status": "proved",
   "theorems": [
    "C168_map",
    "C168_equal"
   ],
   "note": ""
  },
  {
   "property": "C169",
   "status": "partial",
   "theorems": [
    "C169_structured_refuted"
   ],
   "note": "Finding: str_avg sums the indices of the pixels (np.nonzero) instead of the uncertainties: it depends on the position of the window only, not on the structured uncertainties."
  },
  {
   "property": "C17",
   "status": "proved",
   "theorems": [
    "C17_reverse_undoes_run",
    "C17_unsolvable_not_recovered"
   ],
   "note": "Proved for all objects whose lengths fit, with non-zero uncertainties and W matrices that are solvable row by row (C17_unsolvable_not_recovered shows that this hypothesis is needed). Real numbers."
  },
  {
   "property": "C170",
   "status": "partial",
   "theorems": [
    "C170_propagation",
    "C170_exercise_refuted"
   ],
   "note": "True in the lecture. Finding: the exercise cell keeps the sensitivities 2 and -1 with the retrieval -1.9 + 3.6 BT4 - 2.6 BT5."
  },
  {
   "property": "C171",
   "status": "partial",
   "theorems": [
    "C171_total_refuted"
   ],
   "note": "Finding: the common part is not squared (both cells): right only if it is 0 or 1."
  },
  {
   "property": "C172",
   "status": "proved",
   "theorems": [
    "C172_time_stamp",
    "C172_one_date"
   ],
   "note": ""
  },
  {
   "property": "C173",
   "status": "partial",
   "theorems": [
    "C173_every_time_refuted",
    "C173_up_to_2038"
   ],
   "note": "Finding: the time is converted into default integers: from 19 January 2038, 03:14:08 on the result is undefined."
  },
  {
   "property": "C174",
   "status": "proved",
   "theorems": [
    "C174_parameter_name",
    "C174_residuals_name"
   ],
   "note": ""
  },
  {
   "property": "C175",
   "status": "partial",
   "theorems": [
    "C175_distinct_pairs",
    "C175_underscore_refuted"
   ],
   "note": "Finding: names are joined with underscores, so pairs with underscores in the first name can share a dataset; it holds for first names without."
  },
  {
   "property": "C176",
   "status": "partial",
   "theorems": [
    "C176_residuals_configured_refuted",
    "C176_parameter_configured_refuted"
   ],
   "note": "Finding: the configured residuals name is used for every pair of sensors (each dataset overwrites the last); the configured parameter name is never used (the test is on the length of a fixed-length string)."
  },
  {
   "property": "C177",
   "status": "partial",
   "theorems": [
    "C177_units_partial",
    "C177_uncertainty_unit_refuted"
   ],
   "note": "Finding: the uncertainty of the residuals gets the unit of the weights, and the weights get none."
  },
  {
   "property": "C178",
   "status": "partial",
   "theorems": [
    "C178_banded_matrix_partial",
    "C178_banded_matrix_refuted",
    "C178_outside_refuted"
   ],
   "note": "Proved for rows stored in ascending or descending order of their columns. Finding: other rows are written over the next row or beyond the end."
  },
  {
   "property": "C179",
   "status": "proved",
   "theorems": [
    "C179_w_matrices",
    "C179_v_matrices",
    "C179_full"
   ],
   "note": ""
  },
  {
   "property": "C18",
   "status": "proved",
   "theorems": [
    "C18_transformed_layout",
    "C18_transformed_values"
   ],
   "note": "Layout and the transformed values. That the input object is unchanged is by construction of a functional model and is not claimed."
  },
  {
   "property": "C180",
   "status": "proved",
   "theorems": [
    "C180_match_ups",
    "C180_partition",
    "C180_added"
   ],
   "note": "Finding: the reader reports an invalid or repeated pair as 'maximum number of matchup datasets exceeded'."
  },
  {
   "property": "C181",
   "status": "proved",
   "theorems": [
    "C181_parameters",
    "C181_neutral",
    "C181_prior"
   ],
   "note": ""
  },
  {
   "property": "C182",
   "status": "proved",
   "theorems": [
    "C182_records"
   ],
   "note": ""
  },
  {
   "property": "C183",
   "status": "proved",
   "theorems": [
    "C183_covariances",
    "C183_kept"
   ],
   "note": ""
  },
  {
   "property": "C184",
   "status": "partial",
   "theorems": [
    "C184_selection_refuted"
   ],
   "note": "Finding: the type of column l of the dataset, not of the selected column, decides; the match-up records the type of the selected column, so type and matrices can disagree (a column marked structured without matrices)."
  },
  {
   "property": "C185",
   "status": "partial",
   "theorems": [
    "C185_refused_partial",
    "C185_refused_refuted",
    "C185_infinite_variance_refuted"
   ],
   "note": "Finding: the check of Ur2 is made on Ur1 and that of Us2 on Us1, so an infinite variance of the second sensor is stored. Proved for the other variables, and that the values of Ur2 and Us2 are finite."
  },
  {
   "property": "C186",
   "status": "proved",
   "theorems": [
    "C186_second_time"
   ],
   "note": ""
  },
  {
   "property": "C187",
   "status": "proved",
   "theorems": [
    "C187_records",
    "C187_matrices",
    "C187_parameters"
   ],
   "note": ""
  },
  {
   "property": "C188",
   "status": "proved",
   "theorems": [
    "C188_recovers",
    "C188_diagonal",
    "C188_symmetric",
    "C188_bounded"
   ],
   "note": ""
  },
  {
   "property": "C189",
   "status": "partial",
   "theorems": [
    "C189_near",
    "C189_small",
    "C189_times_refuted"
   ],
   "note": "Finding: the times variable is defined in single precision (prototype real(ds%t, cp)), so times since 1970 are off by up to 64 s and times a minute apart become equal. Proved: error at most 64 s below 2^31 s, exact for whole seconds below 2^24."
  },
  {
   "property": "C19",
   "status": "proved",
   "theorems": [
    "C19_unconvert_is_reverse"
   ],
   "note": "Python unconvert_Xs, the cython one and reverse agree on every state and parameter vector."
  },
  {
   "property": "C190",
   "status": "proved",
   "theorems": [
    "C190_written",
    "C190_refused"
   ],
   "note": "Descriptions and units are not modelled (units: FtModel); a dimension of length 0 is outside."
  },
  {
   "property": "C191",
   "status": "proved",
   "theorems": [
    "C191_written",
    "C191_refused"
   ],
   "note": "Single precision is an arbitrary idempotent rounding; the error of netCDF for numbers out of range is not modelled. The times are treated in C189."
  },
  {
   "property": "C192",
   "status": "proved",
   "theorems": [
    "C192_written",
    "C192_refused"
   ],
   "note": "Capacities 0 and 1 leave no parameters; a dimension of length 0 is outside the model."
  },
  {
   "property": "C193",
   "status": "partial",
   "theorems": [
    "C193_mhs",
    "C193_amsub_refuted",
    "C193_indices"
   ],
   "note": "Finding: AMSU-B has seven registered weights 1,1,1,1,1,0,1 for five temperatures and the model reads the last five: the fourth temperature is ignored. For MHS proved."
  },
  {
   "property": "C194",
   "status": "proved",
   "theorems": [
    "C194_described",
    "C194_once"
   ],
   "note": ""
  },
  {
   "property": "C195",
   "status": "partial",
   "theorems": [
    "C195_amsub",
    "C195_mhs_partial",
    "C195_edge_refuted"
   ],
   "note": "Finding: positions count from 1 in the angles and from 0 in the antenna corrections, so at position 90 the first thermometer weight is used as correction: 2 for MHS. Proved for AMSU-B and for positions 2 to 89 of MHS."
  },
  {
   "property": "C20",
   "status": "partial",
   "theorems": [
    "C20_labels_kept_by_transform_partial",
    "C20_labels_never_lost_partial",
    "C20_labels_lost_refuted",
    "C20_late_sensor_data_refuted",
    "C20_replaced_sensor_data_refuted"
   ],
   "note": "Proved for objects opened with their sensor data (run/reverse keep labels and data; no history loses the labels). Refuted for sensor data set after opening: reverse restores the labels of opening, so they disappear (C20_labels_lost_refuted, for every object) or belong to other data (C20_replaced_sensor_data_refuted)."
  },
  {
   "property": "C21",
   "status": "proved",
   "theorems": [
    "C21_measurand_per_matchup",
    "C21_row_depends_on_its_matchup",
    "C21_K_is_difference",
    "C21_default_selects_all",
    "C21_unordered_selection_not_kept"
   ],
   "note": "Proved for every evaluable object, sensor function and increasing selection, real arithmetic (the code stores the measurand in float32). The numerical rounding to float32 is not modelled."
  },
  {
   "property": "C22",
   "status": "proved",
   "theorems": [
    "C22_product_linear",
    "C22_transpose_product_linear"
   ],
   "note": "Both branches of calc_prod_JPx are total and linear for every solver built on a well-formed object (all four uncertainty types, any covariates/parameters) and sensor functions of the stated shapes. Reals, no float32 rounding."
  },
  {
   "property": "C23",
   "status": "proved",
   "theorems": [
    "C23_transpose_is_adjoint"
   ],
   "note": "<JP x, y> = <x, JP^T y> for all vectors; the reference sensor's first block may be type 1 or 2 (types 3/4 raise AttributeError in the code and are excluded by functions_ok)."
  },
  {
   "property": "C24",
   "status": "proved",
   "theorems": [
    "C24_hessian_symmetric",
    "C24_hessian_positive_semidefinite"
   ],
   "note": "calc_Hx symmetric, and <x, Hx> = |JP x|^2 >= 0."
  },
  {
   "property": "C25",
   "status": "proved",
   "theorems": [
    "C25_residual",
    "C25_residual_vanishes"
   ],
   "note": "Entry-by-entry description of calc_f through TransformModel.tn_reverse and EvalModel.evaluate_K, and vanishing iff state = data and estimated K = K."
  },
  {
   "property": "C26",
   "status": "partial",
   "theorems": [
    "C26_product_is_derivative_partial",
    "C26_reference_systematic_refuted",
    "C26_indices_refuted"
   ],
   "note": "Proved for every layout and sensor functions that do not use the scan/track position and time and whose derivatives are correct, when the reference sensor carries no systematic or structured effect; both exclusions are violations of the stated property by the code, with concrete witnesses: C26_reference_systematic_refuted, C26_indices_refuted."
  },
  {
   "property": "C27",
   "status": "proved",
   "theorems": [
    "C27_loop_bounded_and_honest",
    "C27_run_returns"
   ],
   "note": "For arbitrary inner-solver results and tolerances: bound, criteria, last iterate, cost; and totality of run."
  },
  {
   "property": "C28",
   "status": "proved",
   "theorems": [
    "C28_covariance_symmetric",
    "C28_covariance_of_exact_solver"
   ],
   "note": "Symmetric for arbitrary MINRES results; with exact MINRES the matrix is the parameter block of P H^-1 P^T with nonnegative diagonal."
  },
  {
   "property": "C29",
   "status": "partial",
   "theorems": [
    "C29_degrees_of_freedom_partial",
    "C29_degrees_of_freedom_refuted"
   ],
   "note": "Refuted: reported dof = N_var - N_mu - N_a, instead of N_mu - N_a; equal iff N_var = 2 N_mu. Concrete run included."
  },
  {
   "property": "C30",
   "status": "proved",
   "theorems": [
    "C30_covariance_positive_definite"
   ],
   "note": "For every computed VK; that it is computed for all data in the domain of C57 is part of C57."
  },
  {
   "property": "C31",
   "status": "proved",
   "theorems": [
    "C31_passes",
    "C31_covariance_symmetric",
    "C31_covariance_is_inverse",
    "C31_run_returns"
   ],
   "note": "Library routines (cholesky, solve, least_squares, qr, lstsq) are arguments; loop bound, continuation condition, last iterate, covariance symmetric PSD and (with exact routines) the inverse of J'J."
  },
  {
   "property": "C32",
   "status": "proved",
   "theorems": [
    "C32_no_file_is_output_and_residual",
    "C32_saved_files_are_recognised"
   ],
   "note": "Both hand-written classifiers are proved equal to the declarative semantics of the two regular expressions. Names outside the domain: C61."
  },
  {
   "property": "C33",
   "status": "proved",
   "theorems": [
    "C33_one_file_per_series",
    "C33_residual_names",
    "C33_saved_results_are_opened"
   ],
   "note": "X residuals and series sharing a sensor pair: C62."
  },
  {
   "property": "C34",
   "status": "proved",
   "theorems": [
    "C34_labels_survive",
    "C34_long_label_is_an_error"
   ],
   "note": "Labels up to 80 characters without surrounding blanks/NUL; longer labels raise."
  },
  {
   "property": "C35",
   "status": "proved",
   "theorems": [
    "C35_elements_combined",
    "C35_symmetric_elements"
   ],
   "note": "More than ten parameters: C64."
  },
  {
   "property": "C36",
   "status": "proved",
   "theorems": [
    "C36_running_statistics",
    "C36_failed_trials_ignored"
   ],
   "note": "Recurrence and dropping of failed trials; the surrounding function cannot run as it is (undefined get_harm_paths), see DESIGN.md."
  },
  {
   "property": "C37",
   "status": "proved",
   "theorems": [
    "C37_harmonised_answers",
    "C37_data_restored"
   ],
   "note": "Other orders of queries: C68."
  },
  {
   "property": "C38",
   "status": "proved",
   "theorems": [
    "C38_simulation_fills_ranges",
    "C38_empty_series_rejected"
   ],
   "note": "Proved."
  },
  {
   "property": "C39",
   "status": "proved",
   "theorems": [
    "C39_bin_statistics",
    "C39_exactly_one_bin",
    "C39_bins_exhaust_range",
    "C39_time_average"
   ],
   "note": "Proved with exact reals; nan for empty bins is None in the model. Lost boundary points: C67."
  },
  {
   "property": "C40",
   "status": "proved",
   "theorems": [
    "C40_avhrr_derivatives"
   ],
   "note": "Exact reals; scaled parameters: C69."
  },
  {
   "property": "C41",
   "status": "proved",
   "theorems": [
    "C41_hirs_derivatives"
   ],
   "note": "Exact reals; target temperature: C70."
  },
  {
   "property": "C42",
   "status": "partial",
   "theorems": [
    "C42_always_partial",
    "C42_nominal_partial",
    "C42_target_counts_refuted",
    "C42_earth_counts_refuted",
    "C42_target_temperature_refuted"
   ],
   "note": "Correct at nominal parameters for space counts, a1, a2 and T_LO (partial); refuted for target counts (sign), Earth counts (extra factor), target temperatures (factor 2)."
  },
  {
   "property": "C43",
   "status": "proved",
   "theorems": [
    "C43_uncertainty_assignment",
    "C43_report"
   ],
   "note": "Exact reals, no masked values."
  },
  {
   "property": "C44",
   "status": "proved",
   "theorems": [
    "C44_acceptance"
   ],
   "note": "Exact reals, no masked values; names and messages are constructors."
  },
  {
   "property": "C45",
   "status": "proved",
   "theorems": [
    "C45_rolling_average",
    "C45_exists",
    "C45_kernel",
    "C45_format"
   ],
   "note": "Exact reals (binary rounding of the 0.01 grid not modelled)."
  },
  {
   "property": "C46",
   "status": "proved",
   "theorems": [
    "C46_instruments",
    "C46_array",
    "C46_number",
    "C46_increasing",
    "C46_missing"
   ],
   "note": "Exact reals; element-wise."
  },
  {
   "property": "C47",
   "status": "proved",
   "theorems": [
    "C47_rotation"
   ],
   "note": "Exact reals."
  },
  {
   "property": "C48",
   "status": "proved",
   "theorems": [
    "C48_flags"
   ],
   "note": "Exact reals, damp = 0 (as the Gauss-Newton solver calls it), no preconditioners."
  },
  {
   "property": "C49",
   "status": "partial",
   "theorems": [
    "C49_attribute_partial",
    "C49_attribute_refuted"
   ],
   "note": "Refuted: when A'b = 0 solve returns without setting the attribute, which keeps the previous call's solution or None; the Gauss-Newton solver reads its step from it. Partial: otherwise the attribute is set."
  },
  {
   "property": "C50",
   "status": "partial",
   "theorems": [
    "C50_restored",
    "C50_continuation_partial",
    "C50_residual_reopened",
    "C50_continuation_refuted"
   ],
   "note": "Refuted: the normalised K values are not saved; the re-opened solver has the K values as read, so its residual is wrong by K/u(K) - K. Partial: what is restored, and the same run when K/u(K) = K for every match-up. Assumes the saved numbers are 4-byte floats (the file stores f4)."
  },
  {
   "property": "C51",
   "status": "proved",
   "theorems": [
    "C51_accepted_iff_documented"
   ],
   "note": "An option counts as given when its value is non-empty (the code tests truth values); consequences of empty values: C65."
  },
  {
   "property": "C52",
   "status": "partial",
   "theorems": [
    "C52_random_sampling_refuted"
   ],
   "note": "False of the code: run raises AttributeError for every non-empty object (attribute \"form\" does not exist)."
  },
  {
   "property": "C53",
   "status": "partial",
   "theorems": [
    "C53_sampled_w_uncertainty_partial",
    "C53_averaged_uncertainty_refuted"
   ],
   "note": "False of the code (witness: a 4-point mean gets uncertainty u instead of u/2). Proved: what is computed instead."
  },
  {
   "property": "C54",
   "status": "partial",
   "theorems": [
    "C54_times_lost_refuted"
   ],
   "note": "Refuted for every object: run creates a MatchUp without copying time1, time2, additional values."
  },
  {
   "property": "C55",
   "status": "partial",
   "theorems": [
    "C55_derivatives_refuted"
   ],
   "note": "Refuted for every object: the derivative arrays are sized with idx['sensor_a'], a key no part of the code ever creates, so the call raises KeyError."
  },
  {
   "property": "C56",
   "status": "proved",
   "theorems": [
    "C56_returned_residuals_and_systematic_errors"
   ],
   "note": "For arbitrary inner-solver results. Returned X residuals: not covered by the theorem."
  },
  {
   "property": "C57",
   "status": "proved",
   "theorems": [
    "C57_covariance_is_propagated"
   ],
   "note": "Domain: one_effect_per_sensor; outside it see C60."
  },
  {
   "property": "C58",
   "status": "proved",
   "theorems": [
    "C58_weighted_residual",
    "C58_jacobian_is_derivative"
   ],
   "note": "Exact triangular solve assumed; float32 rounding not modelled."
  },
  {
   "property": "C59",
   "status": "partial",
   "theorems": [
    "C59_weights_of_current_estimate_partial",
    "C59_stale_weights_refuted"
   ],
   "note": "Holds only if the optimiser evaluates its solution last; refuted by a rejected last step."
  },
  {
   "property": "C60",
   "status": "partial",
   "theorems": [
    "C60_two_effects_refuted",
    "C60_reference_not_first_refuted",
    "C60_two_references_refuted"
   ],
   "note": "Refuted three ways: two systematic covariates of one sensor (column overwritten), reference sensor not first (column -1 collides), two reference sensors (IndexError)."
  },
  {
   "property": "C61",
   "status": "partial",
   "theorems": [
    "C61_result_name_with_res_refuted",
    "C61_other_files_refuted"
   ],
   "note": "Refuted: harm_resampled.nc is taken for a residual file; harm_out.nc.tmp for an output file (match is not anchored at the end)."
  },
  {
   "property": "C62",
   "status": "partial",
   "theorems": [
    "C62_X_residuals_refuted",
    "C62_same_pair_refuted",
    "C62_joined_names_refuted"
   ],
   "note": "Refuted: X residuals are never stored (fill values); series with the same (joined) sensor names overwrite each other."
  },
  {
   "property": "C63",
   "status": "partial",
   "theorems": [
    "C63_output_file_partial",
    "C63_attributes_refuted",
    "C63_cannot_be_saved_again_refuted",
    "C63_no_residual_files_refuted",
    "C63_listing_order_refuted"
   ],
   "note": "Refuted: attributes replaced by those of a residual file, KeyError on saving again, TypeError without residual files, ValueError depending on listing order."
  },
  {
   "property": "C64",
   "status": "partial",
   "theorems": [
    "C64_more_than_ten_parameters_refuted"
   ],
   "note": "Refuted: single-character indices are read from fixed positions of the file name, ValueError for more than ten parameters."
  },
  {
   "property": "C65",
   "status": "partial",
   "theorems": [
    "C65_verbosity_ignored_refuted",
    "C65_empty_job_file_refuted"
   ],
   "note": "Refuted: show is always 0 (store_true flags are never None); -j '' is accepted with -i/-s/-o and then taken for a job file."
  },
  {
   "property": "C66",
   "status": "partial",
   "theorems": [
    "C66_nothing_written_refuted",
    "C66_complete_configuration_partial"
   ],
   "note": "Refuted: the configuration passed by full_eiv_solver lacks job_id and matchup_dataset, KeyError after the computation, nothing is written. With a complete configuration the writing is proved to go to the documented file."
  },
  {
   "property": "C67",
   "status": "partial",
   "theorems": [
    "C67_maximum_lost_refuted",
    "C67_constant_lost_refuted",
    "C67_boundary_times_lost_refuted"
   ],
   "note": "Refuted: the largest X is in no bin of the default range; with all X equal every bin is empty; times at the start of a period are dropped."
  },
  {
   "property": "C68",
   "status": "partial",
   "theorems": [
    "C68_nominal_measurands_refuted",
    "C68_nominal_residual_refuted",
    "C68_parameters_left_refuted",
    "C68_order_refuted"
   ],
   "note": "Refuted: get_L2_harm / get_kres_harm_harm asked first use nominal parameters and poison the cache; after a failing evaluation harmonised parameters stay in the data."
  },
  {
   "property": "C69",
   "status": "partial",
   "theorems": [
    "C69_scaled_parameter_refuted"
   ],
   "note": "Refuted: the chain-rule factor 1/1000 is missing (all scaled models and 37_2)."
  },
  {
   "property": "C70",
   "status": "partial",
   "theorems": [
    "C70_hirs_temperature_refuted",
    "C70_hirs_reference_refuted"
   ],
   "note": "Refuted: twice the true derivative; the reference function takes the first row instead of the first column."
  },
  {
   "property": "C71",
   "status": "partial",
   "theorems": [
    "C71_calls_refuted",
    "C71_parameters_refuted",
    "C71_others_partial"
   ],
   "note": "Refuted: six of eight models take 1 or 4 positional arguments (TypeError); the 3.7 um registrations declare one parameter too many. Correct for the 3-parameter models."
  },
  {
   "property": "C72",
   "status": "partial",
   "theorems": [
    "C72_readable_partial",
    "C72_readable_refuted"
   ],
   "note": "Proved for accepted files whose row pointers start at 0 and end within the entries (partial); refuted without: the checker never looks at the values of w_matrix_row beyond their sign."
  },
  {
   "property": "C73",
   "status": "partial",
   "theorems": [
    "C73_report_partial",
    "C73_report_refuted"
   ],
   "note": "Refuted: with a wrong type 4 for the first covariate uncertainty_str is unbound (UnboundLocalError). Partial: files without W matrices whose first covariate is not declared type 4 are reported on."
  },
  {
   "property": "C74",
   "status": "partial",
   "theorems": [
    "C74_short_lines_refuted"
   ],
   "note": "Refuted: relative times are rounded to 0.01 before division, so scan lines closer than 0.005 are merged."
  },
  {
   "property": "C75",
   "status": "partial",
   "theorems": [
    "C75_sensor2",
    "C75_sensor1_partial",
    "C75_sensor1_refuted",
    "C75_types"
   ],
   "note": "Sensor 2 proved. Sensor 1: proved if both matrices have equally many columns (partial), refuted otherwise: u vectors of sensor 1 after the first take the length of those of sensor 2."
  },
  {
   "property": "C76",
   "status": "partial",
   "theorems": [
    "C76_times_refuted",
    "C76_times_partial"
   ],
   "note": "Refuted: time2 is read from the variable of sensor 1, so the result does not depend on the times of sensor 2. Partial: it is right with respect to the times of sensor 1."
  },
  {
   "property": "C77",
   "status": "partial",
   "theorems": [
    "C77_rad2temp_refuted",
    "C77_inverse_partial"
   ],
   "note": "Refuted: every call for an existing channel raises NameError (name 'temperature'). Partial: with that name corrected the formula is the inverse."
  },
  {
   "property": "C78",
   "status": "partial",
   "theorems": [
    "C78_output_refuted",
    "C78_input_refuted"
   ],
   "note": "Refuted: the output paths are built from the input directory, so the input dataset is overwritten and the output is a plain copy; files are matched to series by listing order."
  },
  {
   "property": "C79",
   "status": "proved",
   "theorems": [
    "C79_directory",
    "C79_listing_order",
    "C79_files"
   ],
   "note": "Opening itself (netCDF) is not modelled, only which paths, in which order."
  },
  {
   "property": "C80",
   "status": "partial",
   "theorems": [
    "C80_directories_refuted"
   ],
   "note": "Refuted: the listing order is kept and every file is taken."
  },
  {
   "property": "C81",
   "status": "proved",
   "theorems": [
    "C81_norms"
   ],
   "note": "Exact reals, damp = 0, no preconditioners."
  },
  {
   "property": "C82",
   "status": "partial",
   "theorems": [
    "C82_inconsistent_partial",
    "C82_exact_solution_refuted"
   ],
   "note": "Refuted: when an iterate solves Ax=b exactly, test2 divides by a zero residual norm and ZeroDivisionError is raised; so for the identity matrix and any b. Partial: an exception is always that one, and implies that Ax=b is solvable."
  },
  {
   "property": "C83",
   "status": "proved",
   "theorems": [
    "C83_iterations"
   ],
   "note": "Exact reals, damp = 0."
  },
  {
   "property": "C84",
   "status": "partial",
   "theorems": [
    "C84_flags_partial",
    "C84_reported_partial",
    "C84_nan_not_converged",
    "C84_converged_refuted"
   ],
   "note": "Refuted: flag 4 is set for a large condition estimate, though documented as convergence to an eigenvector, and counts as converged; the estimate is infinite whenever b'Ab = 0. Partial: the limit and the flags 0, 1, 3, 6."
  },
  {
   "property": "C85",
   "status": "proved",
   "theorems": [
    "C85_rnorm",
    "C85_definite"
   ],
   "note": "Exact reals, no preconditioner, no shift; hypothesis: the smallest pivot (gmin, the divisor in Acond) exceeds eps."
  },
  {
   "property": "C86",
   "status": "partial",
   "theorems": [
    "C86_eigenvector_refuted",
    "C86_first_iteration_partial"
   ],
   "note": "Refuted: the flag -1 set in the first iteration does not end the loop, which only breaks for positive flags; the second iteration divides by beta = 0 and x becomes nan. Partial: with an iteration limit of 1 the solution is returned."
  },
  {
   "property": "C87",
   "status": "partial",
   "theorems": [
    "C87_arnorm_refuted"
   ],
   "note": "Refuted: the value is that of the previous iterate."
  },
  {
   "property": "C88",
   "status": "proved",
   "theorems": [
    "C88_covariance_from_saved_solver"
   ],
   "note": "Assumes the saved numbers are 4-byte floats, and sensor functions that do not use the times (the transformed data have none, the re-opened have)."
  },
  {
   "property": "C89",
   "status": "proved",
   "theorems": [
    "C89_six_files",
    "C89_match_ups"
   ],
   "note": "Input files: netCDF dimensions consistent, sensors in the name table, brightness temperature variables BTcc and perhaps ref_BTcc, at least one usable match-up, conversion to radiance not raising."
  },
  {
   "property": "C90",
   "status": "proved",
   "theorems": [
    "C90_rolling_averages"
   ],
   "note": "Same hypotheses as C89."
  },
  {
   "property": "C91",
   "status": "partial",
   "theorems": [
    "C91_nominal_measurand_refuted"
   ],
   "note": "Refuted: return_additional_variables takes the brightness temperatures; the radiances computed before are dropped."
  },
  {
   "property": "C92",
   "status": "partial",
   "theorems": [
    "C92_temperature_limit_refuted",
    "C92_selection_partial"
   ],
   "note": "Refuted: the brightness temperature variable has been renamed from BT11 to BT before it is read as BT11: KeyError for every input. Partial: the mask function itself respects the limit."
  },
  {
   "property": "C93",
   "status": "partial",
   "theorems": [
    "C93_directories_partial",
    "C93_band_37_refuted"
   ],
   "note": "Refuted for 3.7 micrometres: the band is an int, compared with the string '37'. Partial: the other channels."
  },
  {
   "property": "C94",
   "status": "partial",
   "theorems": [
    "C94_sums_partial",
    "C94_upper_bound_partial",
    "C94_standard_uncertainty_refuted"
   ],
   "note": "Refuted: W times the vector of uncertainties adds contributions linearly; strictly larger than the standard uncertainty as soon as two scan lines contribute. Partial: what is written, and that it is an upper bound."
  },
  {
   "property": "C95",
   "status": "proved",
   "theorems": [
    "C95_effects"
   ],
   "note": "Same hypotheses as C89."
  },
  {
   "property": "C96",
   "status": "proved",
   "theorems": [
    "C96_compiled_agrees"
   ],
   "note": "Exact reals; exceptions do not occur on arrays of the right width."
  },
  {
   "property": "C97",
   "status": "partial",
   "theorems": [
    "C97_compiled_scaled4_refuted"
   ],
   "note": "Refuted for every match-up with a non-zero fourth parameter: the compiled function takes the temperature itself, the Python function the temperature minus 285."
  },
  {
   "property": "C98",
   "status": "proved",
   "theorems": [
    "C98_files_hold_the_rows"
   ],
   "note": "proved for every successful conversion; float/int parsing of words and loadtxt are parameters"
  },
  {
   "property": "C99",
   "status": "proved",
   "theorems": [
    "C99_converted_files_readable"
   ],
   "note": "includes the composition with the reader's uncertainty opening (C06)"
  }
 ]
}