{"id": "C01", "title": "Every covariate column of every match-up file is returned unchanged", "statement": "After openMatchUp on match-up files whose two sensors differ and whose covariate counts per sensor agree between files, asking the MatchUp for the data of (sensor name, covariate number, match-up number) returns exactly the corresponding column of that file's X1 or X2, all rows, in file order, and asking for a combination no file has raises ValueError.", "quantifier": "all finite lists of match-up files, any numbers of sensors, covariates and match-ups (including empty series), all valid and invalid requests", "why_tests_cant": "the data of all files are interleaved into one 1-D array at offsets computed from all files; a test fixes one configuration of sensors/covariates/sizes", "anchors": ["harmonisation_eiv/harmonisation/core/matchup/matchupIO/MatchUpReader.py:get_idx_from_nc_datasets, open_values_from_nc_datasets, get_block_idxs", "harmonisation_eiv/harmonisation/core/matchup/matchupIO/MatchUp.py:getVariableData"]}
{"id": "C02", "title": "The 1-D layout is a partition", "statement": "The layout computed from the files (block boundaries, and per block the sensor, match-up series and covariate) is consistent: all descriptor lists have one entry per block, boundaries start at 0, are non-decreasing, consecutive boundaries differ by the number of match-ups of the block's series, and each (sensor, series, covariate) present in the files owns exactly one block; hence every element of the array belongs to exactly one such triple.", "quantifier": "all lists of match-up files (sensor pairs, covariate counts, match-up counts)", "why_tests_cant": "combinatorial over unboundedly many configurations", "anchors": ["harmonisation_eiv/harmonisation/core/matchup/matchupIO/MatchUpReader.py:get_idx_* functions"]}
{"id": "C03", "title": "K, time and optional track indices are aligned by match-up series", "statement": "For each series m and each row r of its file, element cNm[m]+r of ks, time1, time2 is that row's K, time1, time2; an optional track-index array is None iff no file has it, otherwise row values for the files that have it and NaN over the whole range of files that do not; per-series accessors return exactly the rows of that series.", "quantifier": "all lists of files, including files of different sizes and with/without optional variables", "why_tests_cant": "alignment across arbitrary numbers of series; tests use a fixed pair of files", "anchors": ["harmonisation_eiv/harmonisation/core/matchup/matchupIO/MatchUpReader.py:open_ks_from_nc_datasets, open_time_from_nc_datasets, open_optional_index_from_nc_datasets", "harmonisation_eiv/harmonisation/core/matchup/matchupIO/MatchUp.py:getSensorTime, getSensorAcrossTrackIndex, getSensorAlongTrackIndex"]}
{"id": "C04", "title": "No covariate column of a file is dropped or invented", "statement": "Opening a set of files either raises an exception or every column of every X1/X2 is present in the opened object.", "quantifier": "all lists of files, including those in which a sensor has different numbers of covariates in different files", "why_tests_cant": "requires considering all inconsistent inputs", "anchors": ["harmonisation_eiv/harmonisation/core/matchup/matchupIO/MatchUpReader.py:get_idx_sensors_from_nc_datasets, open_values_from_nc_datasets"]}
{"id": "C05", "title": "Systematic error instances are numbered once per (sensor, covariate)", "statement": "After opening uncertainties, the instance numbers of the systematic error variables are exactly 1..n; two blocks with a systematic component have the same number iff they are the same covariate of the same sensor; blocks without a systematic component have none.", "quantifier": "all lists of blocks and all assignments of uncertainty types", "why_tests_cant": "global numbering over arbitrary many blocks", "anchors": ["harmonisation_eiv/harmonisation/core/matchup/matchupIO/MatchUpReader.py:open_unc_from_nc_datasets"]}
{"id": "C06", "title": "Uncertainty data is attached to the covariate it describes", "statement": "For each column of each file the opened uncertainty has the declared type; its random (and systematic) component is that file's Ur (Us) column, and for correlated types the W matrix and u vector it points at are those the file declares for that column through w_matrix_use/u_matrix_use.", "quantifier": "all lists of files and all uncertainty-type / matrix-use tables", "why_tests_cant": "index bookkeeping across files, unbounded configurations", "anchors": ["harmonisation_eiv/harmonisation/core/matchup/matchupIO/MatchUpReader.py:open_unc_from_nc_datasets, open_matrix_idxs_from_nc_datasets, _open_w_matrix, _open_u_matrix", "harmonisation_eiv/harmonisation/core/matchup/matchupIO/Uncertainty.py:Uncertainty"]}
{"id": "C07", "title": "W-matrix file encoding round-trips", "statement": "Packing any non-empty sequence of sparse weighting matrices (equal row counts, last column used) and u vectors into the file variables w_matrix_nnz/row/col/val and u_matrix_row_count/val and reading matrix number i back returns the i-th matrix and vector unchanged; without the last-column condition trailing empty columns are lost.", "quantifier": "all sequences of CSR matrices and vectors", "why_tests_cant": "encode/decode over unbounded data", "anchors": ["tools/W_matrix_functions.py:return_w_matrix_variables", "harmonisation_eiv/harmonisation/core/matchup/matchupIO/MatchUpReader.py:_open_w_matrix, _open_u_matrix"]}
{"id": "C08", "title": "Combined K uncertainty is a valid normaliser", "statement": "The uncertainty of K per match-up is the quadrature sum of Kr and Ks: it is at least each of them in magnitude, and is non-zero iff one of them is non-zero.", "quantifier": "all real Kr, Ks vectors", "why_tests_cant": "for all real inputs", "anchors": ["harmonisation_eiv/harmonisation/core/matchup/matchupIO/MatchUpReader.py:open_unck_from_nc_datasets"]}
{"id": "C09", "title": "Sensor parameters are attributed to the right sensor", "statement": "After setting sensor data, selecting the parameters labelled with a sensor's name gives exactly that sensor's list of parameters in order, for every sensor of the match-up, irrespective of dictionary order and of extra sensors in the file; likewise for constants.", "quantifier": "all sensor-data dictionaries in all iteration orders, all sensor lists", "why_tests_cant": "dictionary order is unspecified in Python 2; tests see one order", "anchors": ["harmonisation_eiv/harmonisation/core/matchup/matchupIO/MatchUpReader.py:extract_sensor_data", "harmonisation_eiv/harmonisation/core/matchup/matchupIO/MatchUp.py:setSensorData"]}
{"id": "C10", "title": "Per-match-up accessors pick the requested sensor's side", "statement": "getSensorTime / getSensorAcrossTrackIndex / getSensorAlongTrackIndex return the side-1 slice if the sensor is first in the pair, the side-2 slice if second, and raise IndexError/ValueError otherwise.", "quantifier": "all pairs, all sensors, all series", "why_tests_cant": "all configurations", "anchors": ["harmonisation_eiv/harmonisation/core/matchup/matchupIO/MatchUp.py:getSensorTime, getSensorAcrossTrackIndex, getSensorAlongTrackIndex"]}
{"id": "C100", "title": "PMH conversion: text files are parsed faithfully", "statement": "data_uncs.txt written as title/value lines (any words in the titles, any white space) gives exactly the listed uncertainties, types and kernel sizes; data_pams.txt gives exactly the listed pairs, numbers and true parameters provided no data line contains a section title.", "quantifier": "every list of variables, pairs, numbers and parameters and every layout of white space", "why_tests_cant": "unbounded number of lines and spaces", "anchors": ["tools/pmh2fiduceo.py:open_data_uncs", "tools/pmh2fiduceo.py:open_data_pams"]}
{"id": "C101", "title": "PMH conversion succeeds exactly when ...", "statement": "For a well-formed table with enough rows and one averaging kernel, the conversion succeeds if and only if there is an averaged covariate and every number of match-ups is 1 or equal to all later ones.", "quantifier": "every well-formed input", "why_tests_cant": "the condition on the sizes ranges over all lists", "anchors": ["tools/pmh2fiduceo.py:run_conversion", "tools/pmh2fiduceo.py:write_input_file"]}
{"id": "C102", "title": "PMH conversion accepts series of any sizes and covariates without averages", "statement": "Well-formed inputs with series of different sizes, or without averaged covariates, are converted.", "quantifier": "every well-formed input", "why_tests_cant": "tests would have to hit the rebinding of Kr", "anchors": ["tools/pmh2fiduceo.py:run_conversion", "tools/pmh2fiduceo.py:write_input_file"]}
{"id": "C103", "title": "PMH conversion: averages are represented", "statement": "With series of equal size and one averaging kernel, every file contains for every averaged covariate of both sensors the W matrix of the rolling average over its own match-up times and the uncertainty of the covariate for each scan line.", "quantifier": "every successful conversion with equal sizes and one kernel", "why_tests_cant": "entries of the matrices for any number of match-ups and any kernel size", "anchors": ["tools/pmh2fiduceo.py:run_conversion", "tools/pmh2fiduceo.py:write_input_file", "tools/pmh2fiduceo.py:generate_rolling_average_w_matrix"]}
{"id": "C104", "title": "PMH conversion never writes a wrong W matrix", "statement": "Whenever the conversion succeeds, every file represents its averages; kernels it cannot represent are refused.", "quantifier": "every successful conversion", "why_tests_cant": "needs unequal sizes or uncertainties", "anchors": ["tools/pmh2fiduceo.py:run_conversion", "tools/pmh2fiduceo.py:write_input_file"]}
{"id": "C105", "title": "PMH conversion uses every row", "statement": "Rows of the table beyond the announced number of match-ups are reported.", "quantifier": "every table", "why_tests_cant": "a silent drop shows only with surplus rows", "anchors": ["tools/pmh2fiduceo.py:run_conversion", "tools/pmh2fiduceo.py:write_input_file"]}
{"id": "C106", "title": "Written match-up files are valid and accepted", "statement": "Data of consistent shapes given to write_input_file are written to a valid file, and harmonisation_input_checker accepts that file exactly if the values are consistent (different sensor names, non-negative uncertainties, at least one uncertainty of K positive, random/systematic columns of the form of the declared uncertainty type 1 or 2).", "quantifier": "all data sets of consistent shapes, all additional variables with names that are not in use", "why_tests_cant": "both directions of the acceptance range over all values and all shapes", "anchors": ["harmonisation_eiv/harmonisation/core/matchup/matchupIO/MatchUpWriter.py:write_input_file", "tools/harmonisation_input_checker.py:main"]}
{"id": "C107", "title": "Match-up files are read back as written", "statement": "A set of data written with write_input_file (uncertainty types 1 and 2) can be opened, and every accessor returns what was written: covariates of each sensor, their uncertainties with type, K, times, the uncertainties of K, and additional variables of type f8.", "quantifier": "all lists of data sets that agree on the number of covariates per sensor", "why_tests_cant": "the layout of the arrays depends on all series at once", "anchors": ["harmonisation_eiv/harmonisation/core/matchup/matchupIO/MatchUpWriter.py:write_input_file", "harmonisation_eiv/harmonisation/core/matchup/matchupIO/MatchUpReader.py:openMatchUp"]}
{"id": "C108", "title": "Files the checker accepts can be opened", "statement": "A set of files each accepted by harmonisation_input_checker that agree on the number of covariates of each sensor can be opened, with the data they contain and uncertainties of the declared types.", "quantifier": "all sets of valid netCDF files accepted by the checker", "why_tests_cant": "must hold for any file the checker accepts, including ones no test wrote", "anchors": ["tools/harmonisation_input_checker.py:main", "harmonisation_eiv/harmonisation/core/matchup/matchupIO/MatchUpReader.py:openMatchUp"]}
{"id": "C109", "title": "W matrices given to the writer are written", "statement": "A data set with covariates of uncertainty type 3 or 4 and W matrix variables given to write_input_file is written to a file that contains the W matrices, so that it is accepted and can be opened.", "quantifier": "every data set with a covariate of type 3 or 4, whatever the W variables", "why_tests_cant": "unbounded data", "anchors": ["harmonisation_eiv/harmonisation/core/matchup/matchupIO/MatchUpWriter.py:write_input_file", "tools/harmonisation_input_checker.py:main", "harmonisation_eiv/harmonisation/core/matchup/matchupIO/MatchUpReader.py:openMatchUp"]}
{"id": "C11", "title": "Covariate extremes over all match-ups", "statement": "getVariableDataMax/Min without match-up number give the extreme over all match-ups of that sensor's covariate.", "quantifier": "all opened match-up objects", "why_tests_cant": "for all data; the default argument path", "anchors": ["harmonisation_eiv/harmonisation/core/matchup/matchupIO/MatchUp.py:getVariableDataMax, getVariableDataMin, getVariableData"]}
{"id": "C110", "title": "Each Gauss-Newton step goes downhill", "statement": "In a run of the errors-in-variables solver with its LSMR in place, each step taken at an estimate where the gradient does not vanish makes the linearised cost strictly smaller than the cost and, if the derivatives of the sensor model are right, is a direction of descent of the cost itself.", "quantifier": "all data sets, sensor models, starts, tolerances, at every iteration of every run", "why_tests_cant": "ranges over all histories of iterates", "anchors": ["harmonisation_eiv/harmonisation/core/matchup/matchupToolbox/harmonisation/harmonisationProcessing/harmonisation_eiv/GN_algo.py:run", "harmonisation_eiv/harmonisation/core/matchup/matchupToolbox/harmonisation/harmonisationProcessing/harmonisation_eiv/pykrylov_lsmr.py:solve"]}
{"id": "C111", "title": "Outcome of a full solver run", "statement": "A run of the solver (LSMR and MINRES in place) either ends with the estimate of the first iteration that fulfils a convergence criterion (or the last of n_vars iterations, then unconverged) with the parameters, cost, covariance, residuals and systematic errors belonging to that estimate, or raises TypeError at a stationary start, or ZeroDivisionError when the linearised problem at an iterate can be solved exactly; nothing else happens.", "quantifier": "all data sets of consistent shapes, all starts and tolerances", "why_tests_cant": "all runs of an iteration whose length depends on the data", "anchors": ["harmonisation_eiv/harmonisation/core/matchup/matchupToolbox/harmonisation/harmonisationProcessing/harmonisation_eiv/GN_algo.py:run", "harmonisation_eiv/harmonisation/core/matchup/matchupToolbox/harmonisation/harmonisationProcessing/harmonisation_eiv/pykrylov_lsmr.py:solve", "harmonisation_eiv/harmonisation/core/matchup/matchupToolbox/harmonisation/harmonisationProcessing/harmonisation_eiv/pykrylov_minres.py:solve"]}
{"id": "C112", "title": "An estimate that is already right is returned", "statement": "A run that starts from, or reaches, an estimate where the gradient of the cost vanishes returns that estimate.", "quantifier": "all data sets with such a start or iterate", "why_tests_cant": "needs the exact point, and the state kept between two solves", "anchors": ["harmonisation_eiv/harmonisation/core/matchup/matchupToolbox/harmonisation/harmonisationProcessing/harmonisation_eiv/GN_algo.py:run", "harmonisation_eiv/harmonisation/core/matchup/matchupToolbox/harmonisation/harmonisationProcessing/harmonisation_eiv/pykrylov_lsmr.py:solve"]}
{"id": "C113", "title": "Accuracy of the covariance", "statement": "Each entry of the covariance returned by the solver is symmetric and differs from the exact entry of the inverse Hessian (which exists and is unique) by at most the mean of the MINRES residual norms times the norms of the exact solutions.", "quantifier": "all data sets for which no eigenvalue of the Hessian is as small as the machine epsilon", "why_tests_cant": "all sizes, all Hessians", "anchors": ["harmonisation_eiv/harmonisation/core/matchup/matchupToolbox/harmonisation/harmonisationProcessing/harmonisation_eiv/GN_algo.py:calculate_parameter_covariance_ij", "harmonisation_eiv/harmonisation/core/matchup/matchupToolbox/harmonisation/harmonisationProcessing/harmonisation_eiv/pykrylov_minres.py:solve"]}
{"id": "C114", "title": "The symmetry check never rejects a symmetric operator", "statement": "The check made by MINRES before it starts accepts every symmetric operator, in particular the Hessian of the Gauss-Newton solver, whatever the random vectors drawn.", "quantifier": "all symmetric matrices of every size, all random vectors", "why_tests_cant": "random draws", "anchors": ["harmonisation_eiv/harmonisation/core/matchup/matchupToolbox/harmonisation/harmonisationProcessing/harmonisation_eiv/pykrylov_tools_utils.py:check_symmetric"]}
{"id": "C115", "title": "MINRES gives numbers unless the right-hand side is an eigenvector", "statement": "MINRES gives finite numbers for every operator and right-hand side b that is not zero unless b is numerically an eigenvector (norm of Av - (v.Av)v with v = b/|b| at most 10 eps |b|).", "quantifier": "all operators, right-hand sides, tolerances, limits", "why_tests_cant": "a division by a quantity that depends on all iterations", "anchors": ["harmonisation_eiv/harmonisation/core/matchup/matchupToolbox/harmonisation/harmonisationProcessing/harmonisation_eiv/pykrylov_minres.py:solve"]}
{"id": "C116", "title": "MINRES needs at most n iterations", "statement": "MINRES on a symmetric operator with n unknowns ends after at most n iterations if its pivots stay above eps; it reports that the limit was reached only if the limit is below n.", "quantifier": "all symmetric operators of all sizes, all right-hand sides, tolerances and limits", "why_tests_cant": "finite termination in exact arithmetic holds for every n", "anchors": ["harmonisation_eiv/harmonisation/core/matchup/matchupToolbox/harmonisation/harmonisationProcessing/harmonisation_eiv/pykrylov_minres.py:solve"]}
{"id": "C117", "title": "Accepted files and matching sensor data open to an object every later step can use", "statement": "Files that the checker accepts (with ordered row pointers, two match-ups where a covariate has type 4 and a covariate per side), that agree on the number of covariates of each sensor, opened with sensor data that describe every sensor in them (a function that accepts the covariates of the sensor and returns a value for each match-up), open without an exception, and the object has all sizes, indices, uncertainties and functions in the form sampling, transformation, preconditioner and solver need.", "quantifier": "all non-empty sets of such files, all dictionaries of sensor data, all orders of Python sets and dictionaries", "why_tests_cant": "all file sets; the requirements are spread over five modules", "anchors": ["harmonisation_eiv/harmonisation/core/matchup/matchupIO/MatchUpReader.py:openMatchUp", "harmonisation_eiv/harmonisation/core/matchup/matchupIO/MatchUpReader.py:extract_sensor_data", "tools/harmonisation_input_checker.py"]}
{"id": "C118", "title": "From files to a result", "statement": "Harmonising such files, or match-up data written with the package's writer, from any given preconditioner result with a positive definite covariance, either returns a result labelled with the sensors of the sensor data, whose parameters are those of the first iteration that meets the convergence criteria (or of the last allowed one, then unconverged), with as many parameters as labels, or raises TypeError at a stationary start or ZeroDivisionError where the linearised problem is exactly solvable; nothing else happens.", "quantifier": "all such file sets, sensor data, start parameters and covariances", "why_tests_cant": "whole-program behaviour for every input", "anchors": ["harmonisation_eiv/harmonisation/core/matchup/matchupIO/MatchUpReader.py:openMatchUp", "harmonisation_eiv/harmonisation/core/matchup/matchupToolbox/harmonisation/harmonisationProcessing/harmonisation_eiv/HarmonisationEIV.py:run", "harmonisation_eiv/harmonisation/core/matchup/matchupToolbox/harmonisation/harmonisationProcessing/harmonisation_eiv/GN_algo.py:run"]}
{"id": "C119", "title": "The solver finds its own start", "statement": "Harmonising such files without a given preconditioner result first runs the preconditioner on a sample of a tenth of the match-ups; it returns one parameter per sensor data parameter, and if the sampled match-ups determine the parameters (the columns of derivatives are independent) its covariance is positive definite and the run ends as in C118.", "quantifier": "all such file sets with filled W matrix rows, all samples, all library routines that work exactly", "why_tests_cant": "all random samples, all inputs", "anchors": ["harmonisation_eiv/harmonisation/core/matchup/matchupIO/MatchUpReader.py:openMatchUp", "harmonisation_eiv/harmonisation/core/matchup/matchupToolbox/harmonisation/harmonisationProcessing/harmonisation_eiv/HarmonisationEIV.py:run", "harmonisation_eiv/harmonisation/core/matchup/matchupToolbox/harmonisation/harmonisationProcessing/harmonisation_eiv_pc/HarmonisationEIVPC.py:run", "harmonisation_eiv/harmonisation/core/matchup/matchupProcessing/sample2ind/Sample2Ind.py"]}
{"id": "C12", "title": "Independent sampling: sampled match-ups share no error source", "statement": "Whatever the W matrices, any two distinct match-ups selected by the independent sampling of a series use disjoint sets of columns in every W matrix of that series.", "quantifier": "all sparse W matrices, all random subsampling choices", "why_tests_cant": "for all sparsity patterns and all random draws", "anchors": ["harmonisation_eiv/harmonisation/core/matchup/matchupProcessing/sample2ind/Sample2Ind.py:Sample2Ind.return_valid_sample_idxs, get_sample_idxs", "harmonisation_eiv/harmonisation/core/matchup/matchupProcessing/sample2ind/cython_lib_sample2ind.pyx"]}
{"id": "C120", "title": "Batch workflow: the covariance is combined from all elements of the run", "statement": "When the batch script for the full solver is started with an output directory without element files, then whatever the order in which the queueing system runs the jobs and the script polls, the combination of the covariance elements is submitted only when the files of all n x n elements exist; the matrix in the output file is never anything but the symmetrised matrix of the elements computed by the jobs of the run; and it is written (up to ten parameters) if no element job is active when the combination runs.", "quantifier": "all numbers of parameters, element values, schedules of script and jobs, earlier contents of the output file", "why_tests_cant": "needs all interleavings of script, queueing system and jobs", "anchors": ["harmonisation_eiv/lsf/fullEIVsolverLSF.sh", "harmonisation_eiv/harmonisation/tools/fullEIVsolver_covariance_analytical.py:main", "harmonisation_eiv/harmonisation/tools/HarmonisationOp.py:combine_parameter_covariance_ij"]}
{"id": "C121", "title": "Batch workflow: the script ends", "statement": "If every job succeeds and there are no element files to begin with, then for every fair schedule the script reaches its end, and at most 3 n^2 + 10 steps (submissions, job steps, successful polls) are made in any schedule.", "quantifier": "all numbers of parameters, all endless schedules that do not idle for ever while something can be done", "why_tests_cant": "liveness over all schedules", "anchors": ["harmonisation_eiv/lsf/fullEIVsolverLSF.sh", "harmonisation_eiv/harmonisation/tools/fullEIVsolver_covariance_analytical.py:main", "harmonisation_eiv/harmonisation/tools/HarmonisationOp.py:combine_parameter_covariance_ij"]}
{"id": "C122", "title": "Batch workflow: a failing job is noticed", "statement": "If the computation of a covariance element fails the script ends (with an error or without that element).", "quantifier": "all failing elements, all schedules", "why_tests_cant": "all crash points and schedules", "anchors": ["harmonisation_eiv/lsf/fullEIVsolverLSF.sh", "harmonisation_eiv/harmonisation/tools/fullEIVsolver_covariance_analytical.py:main", "harmonisation_eiv/harmonisation/tools/HarmonisationOp.py:combine_parameter_covariance_ij"]}
{"id": "C123", "title": "Batch workflow: files of earlier runs are not used", "statement": "Starting the script again with an output directory that holds element files of an earlier run gives the covariance of the new run.", "quantifier": "all earlier and new element values, all schedules", "why_tests_cant": "histories of runs", "anchors": ["harmonisation_eiv/lsf/fullEIVsolverLSF.sh", "harmonisation_eiv/harmonisation/tools/fullEIVsolver_covariance_analytical.py:main", "harmonisation_eiv/harmonisation/tools/HarmonisationOp.py:combine_parameter_covariance_ij"]}
{"id": "C124", "title": "Batch workflow: elements are read when they are complete", "statement": "If all jobs succeed the covariance matrix is in the output file when the script ends.", "quantifier": "all schedules", "why_tests_cant": "needs a rare interleaving", "anchors": ["harmonisation_eiv/lsf/fullEIVsolverLSF.sh", "harmonisation_eiv/harmonisation/tools/fullEIVsolver_covariance_analytical.py:main", "harmonisation_eiv/harmonisation/tools/HarmonisationOp.py:combine_parameter_covariance_ij"]}
{"id": "C125", "title": "Batch workflow: Monte Carlo trials are combined", "statement": "When the files of all Monte Carlo trials exist the script combines them.", "quantifier": "all numbers of trials, all histories of directory contents", "why_tests_cant": "all histories", "anchors": ["harmonisation_eiv/lsf/fullEIVsolverLSF_MCtrials.sh"]}
{"id": "C126", "title": "roots_quadratic: exact roots", "statement": "roots_quadratic never raises; for a polynomial of degree at most two that is not identically zero and, if quadratic, not classified as ill-conditioned by the tolerance, the returned list contains exactly its real roots, whatever the number of refinements; a quadratic with non-negative discriminant gets two entries that give its factorisation.", "quantifier": "all real coefficients, tolerances, numbers of refinements", "why_tests_cant": "all coefficients and refinement counts", "anchors": ["harmonisation_eiv/harmonisation/core/matchup/matchupToolbox/harmonisation/harmonisationProcessing/harmonisation_eiv/pykrylov_tools_utils.py:roots_quadratic"]}
{"id": "C127", "title": "roots_quadratic: ill-conditioned quadratics", "statement": "For a quadratic classified as ill-conditioned with a tolerance of at most 1/4, the two numbers returned approximate its two real roots: the errors are at most 3 |r1| (2 tol)^nitref with r1 the root smaller in modulus, and the residuals at most |q0| tol^nitref.", "quantifier": "all real coefficients with |q0 q2| <= tol q1^2, tolerances up to 1/4, numbers of refinements", "why_tests_cant": "convergence bound for every number of Newton steps", "anchors": ["harmonisation_eiv/harmonisation/core/matchup/matchupToolbox/harmonisation/harmonisationProcessing/harmonisation_eiv/pykrylov_tools_utils.py:roots_quadratic"]}
{"id": "C128", "title": "Symmetry check: symmetric operators pass", "statement": "check_symmetric accepts every symmetric operator whatever vectors are drawn (so MINRES with check=True behaves on it as without the check), refuses every non-square one, and an operator it accepts for all possible draws satisfies |A - A'|_F^2 <= 2 eps^(1/3) (|A|_F^2 + n eps).", "quantifier": "all sizes, operators, random streams, numbers of repeats", "why_tests_cant": "all operators and random draws", "anchors": ["harmonisation_eiv/harmonisation/core/matchup/matchupToolbox/harmonisation/harmonisationProcessing/harmonisation_eiv/pykrylov_tools_utils.py:check_symmetric", "harmonisation_eiv/harmonisation/core/matchup/matchupToolbox/harmonisation/harmonisationProcessing/harmonisation_eiv/pykrylov_minres.py:Minres.solve"]}
{"id": "C129", "title": "Symmetry check: only symmetric operators pass", "statement": "An operator that the symmetry check accepts for every possible draw is symmetric.", "quantifier": "all sizes, operators", "why_tests_cant": "all operators and random draws", "anchors": ["harmonisation_eiv/harmonisation/core/matchup/matchupToolbox/harmonisation/harmonisationProcessing/harmonisation_eiv/pykrylov_tools_utils.py:check_symmetric"]}
{"id": "C13", "title": "Independent sampling is maximal and in file order before thinning", "statement": "The greedy pass before random thinning selects a maximal set: each match-up not selected shares a column with a selected one of smaller index; selected indices are strictly increasing and the first match-up is always selected.", "quantifier": "all sparse W matrices", "why_tests_cant": "for all sparsity patterns", "anchors": ["harmonisation_eiv/harmonisation/core/matchup/matchupProcessing/sample2ind/Sample2Ind.py:get_sample_idxs", "harmonisation_eiv/harmonisation/core/matchup/matchupProcessing/sample2ind/cython_lib_sample2ind.pyx"]}
{"id": "C130", "title": "Checking an operator does not disturb the random generator's seed", "statement": "The random numbers a caller draws after checking an operator (as MINRES does) come from the stream the caller had seeded.", "quantifier": "all operators, generator states", "why_tests_cant": "histories of the global generator", "anchors": ["harmonisation_eiv/harmonisation/core/matchup/matchupToolbox/harmonisation/harmonisationProcessing/harmonisation_eiv/pykrylov_tools_utils.py:check_symmetric", "harmonisation_eiv/harmonisation/core/matchup/matchupToolbox/harmonisation/harmonisationProcessing/harmonisation_eiv/pykrylov_tools_utils.py:check_positive_definite"]}
{"id": "C131", "title": "Definiteness check", "statement": "check_positive_definite accepts positive definite operators (no zero vector drawn), with semi=True positive semi-definite ones, refuses non-square ones; and an operator accepted for all draws is positive definite.", "quantifier": "all sizes, operators, random streams, repeats", "why_tests_cant": "all operators and random draws", "anchors": ["harmonisation_eiv/harmonisation/core/matchup/matchupToolbox/harmonisation/harmonisationProcessing/harmonisation_eiv/pykrylov_tools_utils.py:check_positive_definite"]}
{"id": "C132", "title": "Scatter plots: all quantities of the same match-ups", "statement": "For files with nominal measurands, whatever quantities (nominal measurands, K residuals, times) are asked for and in whatever order, the sampled values of all of them belong to one and the same choice of match-ups, file by file and in the order of the file, and the number of samples reported is the size of that choice.", "quantifier": "all sets of readable files, random numbers, histories of queries", "why_tests_cant": "all histories of cached queries and all random draws", "anchors": ["harmonisation_eiv/harmonisation/core/matchup/matchupVis/MatchUpVis.py:MatchUpVis.get_i_musamples", "harmonisation_eiv/harmonisation/core/matchup/matchupVis/MatchUpVis.py:MatchUpVis.musample_values", "harmonisation_eiv/harmonisation/core/matchup/matchupVis/MatchUpVis.py:MatchUpVis.get_musamples_total"]}
{"id": "C133", "title": "Scatter plots: number of points", "statement": "With at most 10000 match-ups in total every match-up is plotted once, in order; with more, every file contributes floor(10000 M_i / M) points, at most 10000 altogether.", "quantifier": "all sets of readable files, random numbers, histories of queries", "why_tests_cant": "all data set sizes", "anchors": ["harmonisation_eiv/harmonisation/core/matchup/matchupVis/MatchUpVis.py:MatchUpVis.get_i_musamples"]}
{"id": "C134", "title": "Scatter plots of large data sets represent every file, no match-up twice", "statement": "In a data set of more than 10000 match-ups every non-empty file contributes points, and the points are of different match-ups.", "quantifier": "all sets of readable files, random numbers", "why_tests_cant": "all data set sizes and random draws", "anchors": ["harmonisation_eiv/harmonisation/core/matchup/matchupVis/MatchUpVis.py:MatchUpVis.get_i_musamples"]}
{"id": "C135", "title": "Labels of the match-up series", "statement": "The legend labels and file name suffixes are, file by file, the names of the two sensors of the file.", "quantifier": "all sets of readable files", "why_tests_cant": "all sets of files", "anchors": ["harmonisation_eiv/harmonisation/core/matchup/matchupVis/MatchUpVis.py:MatchUpVis.get_mu_labels", "harmonisation_eiv/harmonisation/core/matchup/matchupVis/MatchUpVis.py:MatchUpVis.get_mu_fname_suffix"]}
{"id": "C136", "title": "Plots of a quantity against the sensor variables", "statement": "If the second sensor of every file has the same number of variables and each variable takes at least two values in every file, then for each variable there is one plot per file, with the file's own data binned into 50 bins over the range of the variable, labelled with the file's sensors and the variable, and one plot with a line per file, labelled correctly and on common bins over the overall range; each line shows mean and standard deviation of the non-empty bins.", "quantifier": "all sets of files, values, names", "why_tests_cant": "all numbers of files, variables, match-ups", "anchors": ["harmonisation_eiv/harmonisation/core/matchup/matchupVis/MatchUpVis.py:MatchUpVis.plot_Y_X_binned_line", "harmonisation_eiv/harmonisation/core/matchup/matchupVis/MatchUpVis.py:MatchUpVis.set_Xmax_Xmin", "harmonisation_eiv/harmonisation/core/utils/stats.py:bin"]}
{"id": "C137", "title": "Plots against sensor variables: selections and constant variables", "statement": "The same holds for a selection of match-up series and when a variable is constant in a file.", "quantifier": "all selections, all files", "why_tests_cant": "all selections", "anchors": ["harmonisation_eiv/harmonisation/core/matchup/matchupVis/MatchUpVis.py:MatchUpVis.plot_Y_X_binned_line"]}
{"id": "C138", "title": "Comparison of calibrations covers every sensor", "statement": "plot_compare_calibration terminates and plots every sensor with the columns of its own side of the match-ups, using the files up to the first one after which every sensor has been plotted.", "quantifier": "all sets of readable files, simulation sizes, measurands", "why_tests_cant": "all sensor pairings", "anchors": ["harmonisation_eiv/harmonisation/core/matchup/matchupToolbox/harmonisation/harmonisationVis/HarmonisationVis.py:HarmonisationVis.plot_compare_calibration"]}
{"id": "C139", "title": "Plots of the plotting tool show the harmonised calibration", "statement": "In the sequence of plots made by the plotting tool, which begins with the harmonised K residual, the harmonised quantities are evaluated with the harmonised parameters.", "quantifier": "all match-up data, parameters, later queries", "why_tests_cant": "all histories of cached queries", "anchors": ["harmonisation_eiv/harmonisation/tools/HarmonisationPlottingOp.py:HarmonisationPlottingOp.run", "harmonisation_eiv/harmonisation/core/matchup/matchupToolbox/harmonisation/harmonisationVis/HarmonisationVis.py:HarmonisationVis.get_kres_harm_harm"]}
{"id": "C14", "title": "Sampling keeps every quantity aligned", "statement": "In the sampled object, position j of each series holds, for every covariate block, K, K uncertainty, both times, and track indices, the data of one and the same original match-up, and different positions hold different original match-ups.", "quantifier": "all match-up objects, sampling fractions and random draws", "why_tests_cant": "for all data and all random draws", "anchors": ["harmonisation_eiv/harmonisation/core/matchup/matchupProcessing/sample2ind/Sample2Ind.py:Sample2Ind.run"]}
{"id": "C140", "title": "Microwave conversion: files accepted by the checker", "statement": "Every file of the input format between two known microwave sensors is converted; the result keeps the data except the random uncertainties of the averaged covariates and the uncertainty types, and is accepted by the input checker if and only if the uncertainties suit the types of the instruments.", "quantifier": "all well-formed files, numbers of match-ups, sensor pairs", "why_tests_cant": "all file contents", "anchors": ["tools/MW_add_W_matrices.py:run", "tools/W_matrix_functions.py:append_W_to_input_file", "tools/harmonisation_input_checker.py"]}
{"id": "C141", "title": "Microwave conversion: converted files open together", "statement": "Converted files with good data and at least two match-ups open together; every column then holds the data of its file and sensor and has the uncertainty type of the instrument.", "quantifier": "all non-empty lists of well-formed files", "why_tests_cant": "all sets of files", "anchors": ["tools/MW_add_W_matrices.py:run", "tools/W_matrix_functions.py:append_W_to_input_file", "harmonisation_eiv/harmonisation/core/matchup/matchupIO/MatchUpReader.py"]}
{"id": "C142", "title": "PMH conversion: which files the checker accepts", "statement": "A file converted from PMH tables keeps the rows of its pair and is accepted by the input checker if and only if the pair has two different sensors, as many match-ups as the last pair, and positive uncertainties.", "quantifier": "all tables of values, parameters and uncertainties", "why_tests_cant": "all tables", "anchors": ["tools/pmh2fiduceo.py:run_conversion", "tools/harmonisation_input_checker.py"]}
{"id": "C143", "title": "PMH conversion: all files accepted", "statement": "All files of a PMH conversion of pairs of different sensors with positive uncertainties are accepted by the input checker.", "quantifier": "all tables", "why_tests_cant": "all tables", "anchors": ["tools/pmh2fiduceo.py:run_conversion", "tools/harmonisation_input_checker.py"]}
{"id": "C144", "title": "AVHRR conversion: files with W matrices", "statement": "The files with structured uncertainties written by the AVHRR conversion hold the values computed, in single precision, and are accepted by the input checker if and only if the uncertainties are as their types declare and those of the scan lines positive.", "quantifier": "all good inputs", "why_tests_cant": "all inputs", "anchors": ["tools/AVHRR_to_updated_spec.py:main", "tools/harmonisation_input_checker.py"]}
{"id": "C145", "title": "AVHRR conversion: files without W matrices", "statement": "The files with random uncertainties only hold the values computed, in single precision, and are accepted by the input checker if and only if the uncertainties are as their types declare.", "quantifier": "all good inputs", "why_tests_cant": "all inputs", "anchors": ["tools/AVHRR_to_updated_spec.py:main", "tools/harmonisation_input_checker.py"]}
{"id": "C146", "title": "AVHRR conversion: files without systematic effects are accepted", "statement": "These files are accepted whenever the input has two sensors, uncertainties of K and positive random and scan-line uncertainties.", "quantifier": "all good inputs with positive uncertainties", "why_tests_cant": "all inputs", "anchors": ["tools/AVHRR_to_updated_spec.py:main", "tools/harmonisation_input_checker.py"]}
{"id": "C147", "title": "AVHRR conversion: when files with all effects are accepted", "statement": "These files are accepted, for such inputs, if and only if the input gives no systematic uncertainty of the first three quantities and positive ones of the others.", "quantifier": "all good inputs with positive uncertainties", "why_tests_cant": "all inputs", "anchors": ["tools/AVHRR_to_updated_spec.py:main", "tools/harmonisation_input_checker.py"]}
{"id": "C148", "title": "AVHRR match-ups: conversion to harmonisation", "statement": "AVHRR match-up files converted with four quantities and accepted by the checker can be opened with the registered three-parameter AVHRR sensor data and harmonised: the run gives what its documentation promises (see C118), with a given preconditioner.", "quantifier": "all non-empty sets of converted files, all preconditioners", "why_tests_cant": "all inputs; conversion, checker, reader and solver together", "anchors": ["tools/AVHRR_to_updated_spec.py:main", "harmonisation_eiv/harmonisation/sensor_data/AVHRR", "harmonisation_eiv/harmonisation/core/matchup/matchupIO/MatchUpReader.py:openMatchUp", "harmonisation_eiv/harmonisation/core/matchup/matchupToolbox/harmonisation/harmonisationProcessing/harmonisation_eiv/HarmonisationEIV.py:run"]}
{"id": "C149", "title": "AVHRR match-ups: harmonisation with the program's own preconditioner", "statement": "The same without a given preconditioner: the preconditioner returns parameters and a covariance, and if the sampled match-ups determine the parameters the solver runs from there.", "quantifier": "all non-empty sets of converted files, all samples", "why_tests_cant": "all inputs, all random samples", "anchors": ["tools/AVHRR_to_updated_spec.py:main", "harmonisation_eiv/harmonisation/sensor_data/AVHRR", "harmonisation_eiv/harmonisation/core/matchup/matchupToolbox/harmonisation/harmonisationProcessing/harmonisation_eiv/HarmonisationEIV.py:run"]}
{"id": "C15", "title": "Sampling respects the requested size", "statement": "The number of sampled match-ups of each series is at most floor(fraction * series size), and with n_samples_max the total is at most n_samples_max.", "quantifier": "all sizes, fractions in (0,1], limits, random draws", "why_tests_cant": "arithmetic for all sizes", "anchors": ["harmonisation_eiv/harmonisation/core/matchup/matchupProcessing/sample2ind/Sample2Ind.py:Sample2Ind.run, return_valid_sample_idxs"]}
{"id": "C150", "title": "Every registered AVHRR sensor model can be used with converted files", "statement": "The files of the AVHRR conversion can be harmonised with each of the eight registered AVHRR sensor models (of its number of quantities).", "quantifier": "all models, sets of converted files", "why_tests_cant": "all inputs", "anchors": ["harmonisation_eiv/harmonisation/sensor_data/AVHRR", "harmonisation_eiv/harmonisation/sensor_data/SensorDataFactory.py", "harmonisation_eiv/harmonisation/core/matchup/matchupToolbox/harmonisation/harmonisationProcessing/harmonisation_eiv/HarmonisationEIV.py:run"]}
{"id": "C151", "title": "Microwave match-ups can be opened with the registered sensor data", "statement": "Converted microwave files accepted by the checker can be opened with the registered microwave sensor data.", "quantifier": "all sets of good microwave files between known sensors", "why_tests_cant": "all inputs, all sensor pairs", "anchors": ["tools/MW_add_W_matrices.py:run", "harmonisation_eiv/harmonisation/sensor_data/MW", "harmonisation_eiv/harmonisation/core/matchup/matchupIO/MatchUpReader.py:extract_sensor_data"]}
{"id": "C152", "title": "Opening a sensor data file gives the data of that file", "statement": "Within one process, opening a sensor data file returns the SENSOR_DATA of the file at the given path, also when other files were opened or the file changed before.", "quantifier": "all sequences of calls, all file systems", "why_tests_cant": "all histories of calls", "anchors": ["harmonisation_eiv/harmonisation/core/matchup/matchupIO/MatchUpReader.py:open_sensor_data"]}
{"id": "C153", "title": "HIRS coefficient tables", "statement": "From a coefficient table with a row of at least three numbers for each of the sixteen sensors every sensor gets the three numbers of its own (last) row; without a row for a sensor (or with an empty line) reading the table raises an error.", "quantifier": "all tables", "why_tests_cant": "all texts", "anchors": ["harmonisation_eiv/harmonisation/sensor_data/HIRS/HIRS_config_functions.py:read_coeff_data", "harmonisation_eiv/harmonisation/sensor_data/HIRS/HIRS_config_functions.py:return_sensor_data"]}
{"id": "C154", "title": "Covariance computed by separate jobs", "statement": "A run that saves its solver, one job per covariance element that opens the match-up files and the saved solver again, and the combination of the elements give the covariance matrix that the direct run returns, if nothing is lost in storing the solver in 4-byte floats; in general each job gives the element of the stored (rounded) solver. All other parts of the result are those of the direct run, and both fail in the same cases.", "quantifier": "all usable file sets and sensor data that do not use times, all preconditioners, all elements, all orders of the element files, up to ten parameters", "why_tests_cant": "all inputs; files, reader, transformation, Gauss-Newton run, MINRES, storage and combination together", "anchors": ["harmonisation_eiv/harmonisation/core/matchup/matchupToolbox/harmonisation/harmonisationProcessing/harmonisation_eiv/HarmonisationEIV.py:run", "harmonisation_eiv/harmonisation/core/matchup/matchupToolbox/harmonisation/harmonisationProcessing/harmonisation_eiv/GN_algo.py:save", "harmonisation_eiv/harmonisation/core/matchup/matchupToolbox/harmonisation/harmonisationProcessing/harmonisation_eiv/GN_algo.py:open", "harmonisation_eiv/harmonisation/tools/HarmonisationOp.py:calculate_parameter_covariance_ij", "harmonisation_eiv/harmonisation/tools/HarmonisationOp.py:combine_parameter_covariance_ij"]}
{"id": "C155", "title": "A run from the saved initial solver", "statement": "Saving the transformed initial solver and running from it (gn_input) gives the result of the direct run with the same preconditioner.", "quantifier": "all usable file sets, sensor data and preconditioners", "why_tests_cant": "all inputs, two processes", "anchors": ["harmonisation_eiv/harmonisation/tools/HarmonisationOp.py:calculate_GNOp_initial", "harmonisation_eiv/harmonisation/core/matchup/matchupToolbox/harmonisation/harmonisationProcessing/harmonisation_eiv/HarmonisationEIV.py:run", "harmonisation_eiv/harmonisation/core/matchup/matchupToolbox/harmonisation/harmonisationProcessing/harmonisation_eiv/GN_algo.py:open"]}
{"id": "C156", "title": "Options save_gn and return_covariance of the operator", "statement": "The option save_gn saves the final solver and return_covariance=False (--no_covariance) leaves out the covariance computation.", "quantifier": "all match-up data and options", "why_tests_cant": "all inputs", "anchors": ["harmonisation_eiv/harmonisation/tools/HarmonisationOp.py:run", "harmonisation_eiv/harmonisation/core/matchup/matchupToolbox/harmonisation/harmonisationProcessing/harmonisation_eiv/HarmonisationEIV.py:run"]}
{"id": "C157", "title": "Text shown for an opened dataset", "statement": "repr() of an opened dataset never fails and shows, for every file in turn, its sensors, number of match-ups, sensor state data (all lines, or the first three and the last), uncertainty types and K values, after a heading with the sensors and the numbers of match-ups and of sensor state values; only the number of series and the last K value of a series of ten match-ups or more are not those of the files.", "quantifier": "all usable file sets, with and without uncertainties", "why_tests_cant": "all file numbers and sizes", "anchors": ["harmonisation_eiv/harmonisation/core/matchup/matchupIO/MatchUp.py:MatchUp.__repr__"]}
{"id": "C158", "title": "Number of series shown", "statement": "The number of match-up series shown by repr() is the number of files opened.", "quantifier": "all usable file sets", "why_tests_cant": "all file numbers", "anchors": ["harmonisation_eiv/harmonisation/core/matchup/matchupIO/MatchUp.py:MatchUp.__repr__"]}
{"id": "C159", "title": "Last K value shown", "statement": "The K values repr() shows for a series are those of its match-ups.", "quantifier": "all usable file sets", "why_tests_cant": "all file numbers and sizes", "anchors": ["harmonisation_eiv/harmonisation/core/matchup/matchupIO/MatchUp.py:MatchUp.__repr__"]}
{"id": "C16", "title": "Sampled data carries only independent uncertainty", "statement": "Every covariate block of the sampled object has uncertainty type 1 with as many values as its data, and the value for types 1 and 2 is the original random component of the selected match-up.", "quantifier": "all match-up objects and draws", "why_tests_cant": "for all data", "anchors": ["harmonisation_eiv/harmonisation/core/matchup/matchupProcessing/sample2ind/Sample2Ind.py:Sample2Ind.run"]}
{"id": "C160", "title": "Mean and variance of Monte Carlo residuals", "statement": "The mean and variance of the residuals, updated trial by trial, are the mean and the sample variance (N-1) over all trials.", "quantifier": "all numbers of trials, all residuals", "why_tests_cant": "all numbers of trials", "anchors": ["harmonisation_eiv/harmonisation/tools/HarmonisationOp.py:calculate_parameter_covariance_MC", "harmonisation_eiv/harmonisation/tools/HarmonisationOp.py:combine_mc_trials"]}
{"id": "C161", "title": "Statistics of Monte Carlo parameters", "statement": "The parameters combined are those of all trials that finished, the covariance is their sample covariance and the standard deviation its square root.", "quantifier": "all sets of trial outputs", "why_tests_cant": "all numbers of trials and failures", "anchors": ["harmonisation_eiv/harmonisation/tools/HarmonisationOp.py:get_parameters_mc", "harmonisation_eiv/harmonisation/tools/HarmonisationOp.py:combine_mc_trials"]}
{"id": "C162", "title": "Start of a Monte Carlo trial", "statement": "A trial draws a new value for every variable and for every K.", "quantifier": "all states, all random numbers", "why_tests_cant": "all states and draws", "anchors": ["harmonisation_eiv/harmonisation/tools/HarmonisationOp.py:run_mc_trial"]}
{"id": "C163", "title": "Job scripts", "statement": "The scripts of the separate jobs (PC, initial solver, covariance elements, Monte Carlo) run their part of the harmonisation.", "quantifier": "all job configurations", "why_tests_cant": "all inputs", "anchors": ["harmonisation_eiv/harmonisation/tools/PCsolver.py:main", "harmonisation_eiv/harmonisation/tools/initialGNsolver.py:main", "harmonisation_eiv/harmonisation/tools/fullEIVsolver_covariance_analytical.py:main", "harmonisation_eiv/harmonisation/tools/fullEIVsolver_covariance_montecarlo.py:main", "harmonisation_eiv/harmonisation/tools/common.py"]}
{"id": "C164", "title": "Console script for comparison plots", "statement": "harm_comp_plot makes the comparison plots for the command line given.", "quantifier": "all command lines", "why_tests_cant": "all inputs", "anchors": ["harmonisation_eiv/harmonisation/tools/harm_comp_plot.py:main", "harmonisation_eiv/harmonisation/tools/HarmonisationCompPlottingOp.py", "harmonisation_eiv/setup.py"]}
{"id": "C165", "title": "Comparison plots of calibrations", "statement": "The comparison plots are made for the two sensors of the first series, of the second, ... up to the first series after which every sensor has a plot; each plot shows the measurand and differences of exactly its series and sensor.", "quantifier": "all opened datasets, all measurands", "why_tests_cant": "all file numbers and sensor graphs; termination of a loop", "anchors": ["harmonisation_eiv/harmonisation/core/matchup/matchupToolbox/harmonisation/harmonisationVis/HarmonisationVis.py:plot_compare_calibration"]}
{"id": "C166", "title": "Regridding lecture: the window divides the image", "statement": "Scan returns two images of the shape of the data: a pixel of the window (from one before centre - size/2 on, negative lines counted from the end) has its value in the first and 0 in the second, every other pixel 0 in the first and its value in the second; if a line does not exist IndexError is raised.", "quantifier": "all images, window sizes and centres", "why_tests_cant": "all sizes and positions", "anchors": ["training/workshop_2019/Uncertainty_Functions.py:Scan"]}
{"id": "C167", "title": "Regridding lecture: the window is centred", "statement": "The window of 2k+1 lines is centred on the given centre.", "quantifier": "all image sizes, window sizes and centres", "why_tests_cant": "all sizes and positions", "anchors": ["training/workshop_2019/Uncertainty_Functions.py:Scan"]}
{"id": "C168", "title": "Regridding lecture: the map shown", "statement": "The map shown has, at every pixel of the window, the combination of the uncertainty of the average of independent errors (root of the sum of squares, over N) and of a common error (mean), and elsewhere the combination of the pixel's own uncertainties; with equal uncertainties the former falls with the root of N and the latter not at all.", "quantifier": "all images with positive independent and common uncertainties, all windows in the image, all fractions", "why_tests_cant": "all image and window sizes", "anchors": ["training/workshop_2019/Uncertainty_Functions.py:Scan", "training/workshop_2019/Uncertainty_Functions.py:CombinedDa", "training/workshop_2019/regridding_interactive_lecture.ipynb"]}
{"id": "C169", "title": "Regridding lecture: structured part", "statement": "With ShowStructured the uncertainty of the window includes that of the structured errors.", "quantifier": "all images and windows", "why_tests_cant": "all image and window sizes", "anchors": ["training/workshop_2019/Uncertainty_Functions.py:CombinedDa"]}
{"id": "C17", "title": "Transformation to normalised independent variables is reversible", "statement": "For every match-up object whose uncertainties are non-zero and whose W matrices are normalised and solvable row by row, reverse(run(m)) has the same values and ks as m, for all four uncertainty types mixed arbitrarily.", "quantifier": "all match-up objects with arbitrary many blocks of arbitrary types", "why_tests_cant": "exact algebraic round-trip for all real data", "anchors": ["harmonisation_eiv/harmonisation/core/matchup/matchupProcessing/transform2normind/Transform2NormInd.py:Transform2NormInd.run, reverse"]}
{"id": "C170", "title": "FCDR lecture: uncertainty propagation", "statement": "The propagated uncertainty of the retrieved temperature is the root mean square of the retrieval's errors, for errors of the two channels with the given uncertainties and correlation.", "quantifier": "all error distributions (finite samples), temperatures and correlations", "why_tests_cant": "all error samples", "anchors": ["training/workshop_2019/fcdr_interactive_lecture.ipynb"]}
{"id": "C171", "title": "FCDR lecture: total uncertainty", "statement": "The total uncertainty is the root of the sum of the squares of the independent, structured and common uncertainties.", "quantifier": "all uncertainties", "why_tests_cant": "all values", "anchors": ["training/workshop_2019/fcdr_interactive_lecture.ipynb"]}
{"id": "C172", "title": "Fortran demonstration: time stamps", "statement": "The time stamp of a Unix time is the Gregorian calendar date and the time of day, in seconds rounded down, it falls on, written YYYYMMDDThhmmssZ; leap years, centuries and times before 1970 included.", "quantifier": "all Unix times whose whole seconds fit a 32-bit integer", "why_tests_cant": "all times", "anchors": ["harmonisation_meiv_demo/src/main/fortran/gpl/mod_time.F90:iso_date_and_time"]}
{"id": "C173", "title": "Fortran demonstration: every time has a time stamp", "statement": "Every Unix time can be written as a time stamp.", "quantifier": "all times", "why_tests_cant": "all times", "anchors": ["harmonisation_meiv_demo/src/main/fortran/gpl/mod_time.F90:iso_date_and_time"]}
{"id": "C174", "title": "Fortran demonstration: default dataset names", "statement": "Without a configured name, the parameter dataset is named after the job, the software and its version and the covered period, and a residuals dataset in addition after its pair of sensors.", "quantifier": "all job settings", "why_tests_cant": "all settings", "anchors": ["harmonisation_meiv_demo/src/main/fortran/gpl/mod_config.F90:get_parameter_dataset_name", "harmonisation_meiv_demo/src/main/fortran/gpl/mod_config.F90:get_residuals_dataset_name"]}
{"id": "C175", "title": "Fortran demonstration: one residuals dataset for each pair", "statement": "Different pairs of sensors give different names of residuals datasets.", "quantifier": "all pairs of sensor names", "why_tests_cant": "all names", "anchors": ["harmonisation_meiv_demo/src/main/fortran/gpl/mod_config.F90:get_residuals_dataset_name"]}
{"id": "C176", "title": "Fortran demonstration: configured dataset names", "statement": "If names are configured for the parameter dataset and the residuals datasets, the datasets written are named so.", "quantifier": "all configured names", "why_tests_cant": "all names", "anchors": ["harmonisation_meiv_demo/src/main/fortran/gpl/mod_config.F90:get_parameter_dataset_name", "harmonisation_meiv_demo/src/main/fortran/gpl/mod_config.F90:get_residuals_dataset_name"]}
{"id": "C177", "title": "Fortran demonstration: units of the residuals", "statement": "The variables of a residuals dataset carry the unit of the measurand, the weights its inverse.", "quantifier": "all units", "why_tests_cant": "all units", "anchors": ["harmonisation_meiv_demo/src/main/fortran/gpl/mod_writer.F90:write_residuals_dataset"]}
{"id": "C178", "title": "Fortran demonstration: banded matrices", "statement": "The banded matrix made of a matrix in compressed row storage with subsetting step s has the elements of its rows 1, 1 + s, 1 + 2s, ... and no others.", "quantifier": "all sparse matrices and steps", "why_tests_cant": "all matrices", "anchors": ["harmonisation_meiv_demo/src/main/fortran/gpl/mod_matrices.F90:new_banded_matrix_from_sparse_arrays"]}
{"id": "C179", "title": "Fortran demonstration: stores of matrices", "statement": "The U and W matrices of a dataset are stored one by one behind those already there and get consecutive indices: the squares of the U matrices, and the W matrices, indexed from 0 or from 1, as banded matrices of every s-th row with the largest column as number of columns. A full store stays as it is and returns index 0.", "quantifier": "all stores, numbers and sizes of matrices", "why_tests_cant": "all sizes", "anchors": ["harmonisation_meiv_demo/src/main/fortran/gpl/mod_matrices.F90:add_v_matrices_from_storage", "harmonisation_meiv_demo/src/main/fortran/gpl/mod_matrices.F90:add_w_matrices_from_storage", "harmonisation_meiv_demo/src/main/fortran/gpl/mod_matrices.F90:assert_fortran_crs_format"]}
{"id": "C18", "title": "Transformed layout", "statement": "In the transformed object each block keeps its sensor/series/covariate, has length of its data (types 1, 2) or of its u vector (types 3, 4), systematic variables follow all blocks, one per instance, and start at 0.", "quantifier": "all match-up objects", "why_tests_cant": "for all layouts", "anchors": ["harmonisation_eiv/harmonisation/core/matchup/matchupProcessing/transform2normind/Transform2NormInd.py:Transform2NormInd.run"]}
{"id": "C180", "title": "Fortran demonstration: numbering of match-ups", "statement": "After any sequence of additions there are at most capacity match-up datasets, each for a different pair (i, j) with 0 < i < j, and their match-ups are numbered through: each number from 1 to the total belongs to exactly one dataset. A dataset is added, and its index returned, exactly when there is room and its pair is valid and new; otherwise nothing changes and the index is 0.", "quantifier": "all sequences of additions", "why_tests_cant": "all histories", "anchors": ["harmonisation_meiv_demo/src/main/fortran/gpl/mod_matchup.F90:add_matchup", "harmonisation_meiv_demo/src/main/fortran/gpl/mod_matchup.F90:is_pair", "harmonisation_meiv_demo/src/main/fortran/gpl/mod_matchup.F90:has_pair", "harmonisation_meiv_demo/src/main/fortran/gpl/mod_matchup.F90:get_mstart", "harmonisation_meiv_demo/src/main/fortran/gpl/mod_matchup.F90:get_mfinal"]}
{"id": "C181", "title": "Fortran demonstration: sensors", "statement": "After any sequence of additions there are at most capacity sensors and their parameters are numbered through. Without configuration a sensor with n parameters gets 0, 1, 0, 1, ... With prior uncertainties u the prior covariance is diagonal with u^2 and its inverse with 1/u^2 where u is positive, and both with 0 elsewhere.", "quantifier": "all sequences of additions, all prior uncertainties", "why_tests_cant": "all histories and values", "anchors": ["harmonisation_meiv_demo/src/main/fortran/gpl/mod_sensors.F90:add_sensor", "harmonisation_meiv_demo/src/main/fortran/gpl/mod_sensors.F90:set_sensor_prior_c"]}
{"id": "C182", "title": "Fortran demonstration: records read", "statement": "Reading a match-up dataset with subsetting step s adds one match-up with the telemetry (of the selected columns, Us following X when common uncertainties are no covariances), expected differences, their variances Kr^2 + Ks^2, times and pixel positions of the records 1, 1 + s, 1 + 2s, ...; it succeeds only for a valid, new pair while there is room.", "quantifier": "all datasets, steps and column selections", "why_tests_cant": "all sizes and contents", "anchors": ["harmonisation_meiv_demo/src/main/fortran/gpl/mod_reader.F90:read_matchup_dataset_nc"]}
{"id": "C183", "title": "Fortran demonstration: uncertainty matrices read", "statement": "Without a selection of columns, each telemetry column read is associated with the matrices of its uncertainty type: squares of its thinned independent uncertainties (1), these with its common uncertainties (2; like 1 when common uncertainties are no covariances), the squares of its U matrix and the thinned W matrix (3 and 4, marked as 3). The indices of the match-ups read before keep their meaning.", "quantifier": "all datasets, steps, numbers of matrices and previous contents", "why_tests_cant": "all sizes and contents", "anchors": ["harmonisation_meiv_demo/src/main/fortran/gpl/mod_reader.F90:read_matchup_dataset_nc", "harmonisation_meiv_demo/src/main/fortran/gpl/mod_reader.F90:setup"]}
{"id": "C184", "title": "Fortran demonstration: uncertainty matrices of selected columns", "statement": "With a selection of telemetry columns, each column read is associated with the matrices of the uncertainty type of the selected column.", "quantifier": "all datasets and selections", "why_tests_cant": "all selections", "anchors": ["harmonisation_meiv_demo/src/main/fortran/gpl/mod_reader.F90:setup"]}
{"id": "C185", "title": "Fortran demonstration: values refused", "statement": "A dataset is read only if no value of X, Ur, Us, K, Kr and Ks is NaN or infinite or has an infinite square, and no Kr is zero.", "quantifier": "all datasets", "why_tests_cant": "all values", "anchors": ["harmonisation_meiv_demo/src/main/fortran/gpl/mod_reader.F90:read_matchup_dataset_nc", "harmonisation_meiv_demo/src/main/fortran/gpl/mod_assert.F90:assert_not_huge"]}
{"id": "C186", "title": "Fortran demonstration: one dataset for each pair", "statement": "A second dataset of a pair of sensors is not read.", "quantifier": "all registries and datasets", "why_tests_cant": "all histories", "anchors": ["harmonisation_meiv_demo/src/main/fortran/gpl/mod_reader.F90:read_matchup_dataset_nc", "harmonisation_meiv_demo/src/main/fortran/gpl/mod_matchup.F90:has_pair"]}
{"id": "C187", "title": "Fortran demonstration: a whole job", "statement": "When reading a job succeeds, the match-ups are those of the entries of the job, in order, each with the records, sensors and step of its entry; when covariance matrices are kept, at the end every telemetry column still refers to the matrices of its own dataset. The demonstration's sensors have nine parameters.", "quantifier": "all jobs, datasets, registries and previous contents", "why_tests_cant": "all histories and sizes", "anchors": ["harmonisation_meiv_demo/src/main/fortran/gpl/demo.F90:read", "harmonisation_meiv_demo/src/main/fortran/gpl/mod_reader.F90:read_matchup_dataset_nc", "harmonisation_meiv_demo/src/main/fortran/gpl/mod_matrices.F90:remove_d_matrices"]}
{"id": "C188", "title": "Fortran demonstration: correlations written", "statement": "The correlation of two parameters with positive variances times their written uncertainties is their covariance; it is 1 on the diagonal, symmetric when the covariance is, and in [-1, 1] when the covariance satisfies Cauchy-Schwarz.", "quantifier": "all covariance matrices", "why_tests_cant": "all values and sizes", "anchors": ["harmonisation_meiv_demo/src/main/fortran/gpl/demo.F90:write"]}
{"id": "C189", "title": "Fortran demonstration: times of a residuals dataset", "statement": "The times of a residuals dataset are those of the match-ups: later match-ups have later times.", "quantifier": "all times", "why_tests_cant": "all values", "anchors": ["harmonisation_meiv_demo/src/main/fortran/gpl/mod_writer.F90:write_residuals_dataset_nc", "harmonisation_meiv_demo/src/main/fortran/gpl/mod_nc.F90:add_variable_vector_real__sp"]}
{"id": "C19", "title": "Estimated covariates are the reverse transformation of the solver state", "statement": "The per-block un-normalisation used inside the Gauss-Newton solver (both the Python and the compiled variant) gives the same values as Transform2NormInd.reverse on the same block for every state, including systematic components.", "quantifier": "all solver states, block types, W matrices", "why_tests_cant": "equality of three implementations on all inputs", "anchors": ["harmonisation_eiv/harmonisation/core/matchup/matchupToolbox/harmonisation/harmonisationProcessing/harmonisation_eiv/GN_algo.py:unconvert_Xs", "harmonisation_eiv/harmonisation/core/matchup/matchupProcessing/transform2normind/Transform2NormInd.py:reverse", "harmonisation_eiv/harmonisation/core/matchup/matchupToolbox/harmonisation/harmonisationProcessing/harmonisation_eiv/cython_lib_GN_algo.pyx"]}
{"id": "C190", "title": "Fortran demonstration: the parameter dataset", "statement": "A parameter dataset whose arrays have the declared sizes is written: the file holds exactly its attributes, dimensions and variables, each variable with its name, type, dimensions and data, with the configuration variables exactly when there are configuration parameters. A dataset with an array of another size is refused: no file is completed.", "quantifier": "all parameter datasets, configurations and sizes", "why_tests_cant": "all sizes and values of every array", "anchors": ["harmonisation_meiv_demo/src/main/fortran/gpl/mod_writer.F90:write_parameter_dataset_nc", "harmonisation_meiv_demo/src/main/fortran/gpl/mod_nc.F90:add_variable_vector_real__dp", "harmonisation_meiv_demo/src/main/fortran/gpl/mod_nc.F90:assert_dimension"]}
{"id": "C191", "title": "Fortran demonstration: the residuals datasets", "statement": "A residuals dataset whose arrays have as many elements as match-ups is written: the file holds exactly its attributes, its dimension and its ten variables, in single precision, each with its own data. A dataset with an array of another size is refused.", "quantifier": "all residuals datasets and sizes", "why_tests_cant": "all sizes and values of every array", "anchors": ["harmonisation_meiv_demo/src/main/fortran/gpl/mod_writer.F90:write_residuals_dataset_nc", "harmonisation_meiv_demo/src/main/fortran/gpl/mod_nc.F90:write_variable_vector_real__sp"]}
{"id": "C192", "title": "Fortran demonstration: its output", "statement": "With room for its four sensors the demonstration writes its parameter dataset: nine parameters 0 with uncertainty sqrt(1/2), covariance 1/2 or 1/10, correlation 1 on the diagonal and 1/5 elsewhere; with less room it completes no file.", "quantifier": "all capacities and sensor configurations", "why_tests_cant": "all capacities", "anchors": ["harmonisation_meiv_demo/src/main/fortran/gpl/demo.F90:write", "harmonisation_meiv_demo/src/main/fortran/gpl/mod_writer.F90:write_parameter_dataset_nc"]}
{"id": "C193", "title": "Microwave sounders: weights of the thermometers", "statement": "The measurand of a microwave sounder depends on the temperatures of its thermometers through their mean with the registered weights only: those of the first five for AMSU-B, 2, 1, 1, 1, 1 for MHS.", "quantifier": "all covariates, parameters and across-track indices", "why_tests_cant": "all values and numbers of match-ups", "anchors": ["harmonisation_eiv/harmonisation/sensor_data/MW/MW_sensor_models.py:sensor_model_3", "harmonisation_eiv/harmonisation/sensor_data/MW/MW_consts.py", "harmonisation_eiv/harmonisation/sensor_data/MW/MW____Ch03_3_sensor_data.py"]}
{"id": "C194", "title": "Registered sensors are described", "statement": "Every registered sensor has one label and one name for each of its variables, the names differ, and a sensor has one entry in each table.", "quantifier": "all tables and, for HIRS, all coefficient files", "why_tests_cant": "all coefficient files", "anchors": ["harmonisation_eiv/harmonisation/sensor_data/AVHRR/AVHRR_11um_3_sensor_data.py", "harmonisation_eiv/harmonisation/sensor_data/HIRS/HIRS_config_functions.py", "harmonisation_eiv/harmonisation/sensor_data/MW/MW____Ch03_3_sensor_data.py"]}
{"id": "C195", "title": "Microwave sounders: mirrored scan positions", "statement": "Positions i and 91 - i, whose scan angles are opposite and whose antenna corrections are registered as 1, give the same measurand and derivatives.", "quantifier": "all covariates, parameters and positions 1 to 90", "why_tests_cant": "all values and positions", "anchors": ["harmonisation_eiv/harmonisation/sensor_data/MW/MW_sensor_models.py:sensor_model_3", "harmonisation_eiv/harmonisation/sensor_data/MW/MW_consts.py"]}
{"id": "C20", "title": "A match-up object survives transform and reverse for use in evaluations", "statement": "Sequences of setSensorData, run and reverse leave the object usable for evaluate_K (the parameter-to-sensor map is still there).", "quantifier": "all histories of operations", "why_tests_cant": "history property", "anchors": ["harmonisation_eiv/harmonisation/core/matchup/matchupProcessing/transform2normind/Transform2NormInd.py:reverse", "harmonisation_eiv/harmonisation/core/matchup/matchupIO/MatchUp.py:openMatchUp, setSensorData", "harmonisation_eiv/harmonisation/core/matchup/matchupToolbox/utils/matchup_maths.py:evaluate_K"]}
{"id": "C21", "title": "Measurand and K evaluation is per match-up", "statement": "evaluate_measurand returns one row per match-up and one column per side; row i side s depends only on that match-up's covariates, sensor model s and that sensor's parameters; evaluate_K is the adjusted measurand of side 2 minus side 1 row by row, for any selection of match-up series given in increasing order.", "quantifier": "all match-up objects, parameters, series selections", "why_tests_cant": "for all data and selections", "anchors": ["harmonisation_eiv/harmonisation/core/matchup/matchupToolbox/utils/matchup_maths.py:evaluate_measurand, evaluate_adjusted_measurand, evaluate_K"]}
{"id": "C22", "title": "Gauss-Newton operator is linear", "statement": "The product JP(x) computed by the solver is a linear function of x, and so is its transpose product.", "quantifier": "all vectors, layouts, uncertainty types, sensor-model derivatives", "why_tests_cant": "for all real vectors", "anchors": ["harmonisation_eiv/harmonisation/core/matchup/matchupToolbox/harmonisation/harmonisationProcessing/harmonisation_eiv/GN_algo.py:calc_prod_JPx, calc_Px"]}
{"id": "C23", "title": "The transpose product is the adjoint", "statement": "<JP x, y> = <x, JP^T y> for all x and y: the transpose branch is the exact adjoint of the forward branch.", "quantifier": "all vectors, layouts and uncertainty types in the covered class", "why_tests_cant": "two separately written 100-line branches must agree on all inputs", "anchors": ["harmonisation_eiv/harmonisation/core/matchup/matchupToolbox/harmonisation/harmonisationProcessing/harmonisation_eiv/GN_algo.py:calc_prod_JPx (transpose branch)"]}
{"id": "C24", "title": "Hessian operator is symmetric positive semi-definite", "statement": "The operator passed to the linear solvers, JP^T JP, is symmetric and positive semi-definite, as CG/MINRES/Cholesky require.", "quantifier": "all vectors", "why_tests_cant": "for all vectors", "anchors": ["harmonisation_eiv/harmonisation/core/matchup/matchupToolbox/harmonisation/harmonisationProcessing/harmonisation_eiv/GN_algo.py:calc_hessian (get_H/ calc_prod_JPx)"]}
{"id": "C25", "title": "Residual function", "statement": "The solver's residual vector consists of (state - normalised data) for each variable followed by (estimated K - K)/uK for each match-up; it vanishes iff the data equals the state and the model reproduces every K.", "quantifier": "all states and data", "why_tests_cant": "for all data", "anchors": ["harmonisation_eiv/harmonisation/core/matchup/matchupToolbox/harmonisation/harmonisationProcessing/harmonisation_eiv/GN_algo.py:calc_f"]}
{"id": "C26", "title": "Jacobian product is the derivative of the residual", "statement": "For sensor models with correct derivatives the JP product is the directional derivative of the residual along the preconditioned direction.", "quantifier": "all states, directions, layouts", "why_tests_cant": "calculus statement for all states", "anchors": ["harmonisation_eiv/harmonisation/core/matchup/matchupToolbox/harmonisation/harmonisationProcessing/harmonisation_eiv/GN_algo.py:calc_f, calc_prod_JPx, calc_Px"]}
{"id": "C27", "title": "Gauss-Newton loop terminates and reports convergence honestly", "statement": "The outer loop performs at most mxiter iterations; it reports convergence only if on the last step every enabled criterion held; the parameters returned are those of the last iterate and the cost returned is the cost of the corresponding residual.", "quantifier": "all behaviours of the inner solver and all tolerances", "why_tests_cant": "for all sequences of iterates", "anchors": ["harmonisation_eiv/harmonisation/core/matchup/matchupToolbox/harmonisation/harmonisationProcessing/harmonisation_eiv/GN_algo.py:run"]}
{"id": "C28", "title": "Parameter covariance matrix is symmetric", "statement": "The covariance returned by the solver is symmetric for every inner-solver behaviour.", "quantifier": "all inner-solver outputs", "why_tests_cant": "for all outputs", "anchors": ["harmonisation_eiv/harmonisation/core/matchup/matchupToolbox/harmonisation/harmonisationProcessing/harmonisation_eiv/GN_algo.py:get_parameter_covariance_matrix"]}
{"id": "C29", "title": "Degrees of freedom of the reported cost", "statement": "The reported reduced-cost degrees of freedom equal the number of residuals minus the number of unknowns.", "quantifier": "all problem sizes", "why_tests_cant": "for all sizes", "anchors": ["harmonisation_eiv/harmonisation/core/matchup/matchupToolbox/harmonisation/harmonisationProcessing/harmonisation_eiv/GN_algo.py:run"]}
{"id": "C30", "title": "PC covariance matrix is symmetric positive definite", "statement": "The K covariance built by the preconditioner solver (identity + J J^T + T T^T blocks) is symmetric and positive definite so its Cholesky factor exists.", "quantifier": "all sampled match-up objects and parameter vectors", "why_tests_cant": "for all real data", "anchors": ["harmonisation_eiv/harmonisation/core/matchup/matchupToolbox/harmonisation/harmonisationProcessing/harmonisation_eiv_pc/pc_algo.py"]}
{"id": "C31", "title": "PC iteration bound", "statement": "The preconditioner solver performs at most its iteration bound and stops early only if its criterion holds; the returned estimate is the last iterate.", "quantifier": "all residual behaviours", "why_tests_cant": "for all sequences", "anchors": ["harmonisation_eiv/harmonisation/core/matchup/matchupToolbox/harmonisation/harmonisationProcessing/harmonisation_eiv_pc/pc_algo.py"]}
{"id": "C32", "title": "Result file classification", "statement": "In a result directory no file is taken both for an output file and for a residual file; and the files written when saving under a one-line name harm....nc without 'res' in it are recognised as what they are.", "quantifier": "all file names, all sensor names", "why_tests_cant": "Names are arbitrary strings and the two regular expressions with look-ahead interact; tests use a handful of names.", "anchors": ["harmonisation_eiv/harmonisation/core/matchup/matchupToolbox/harmonisation/harmonisationIO/HarmonisationResult.py:_get_harm_output_path, _get_harm_residual_paths, save"]}
{"id": "C33", "title": "Saved residual files", "statement": "Saving a result whose sensor pairs are pairwise different writes one distinct file per match-up series holding that series' sensor names, number of match-ups and K residuals; and opening the directory, in whatever order its files are listed, gives the same parameters, labels, covariance and cost statistics and for every series the same names, size and K residuals.", "quantifier": "all results (without X residuals for opening), all directories without other result files, all listing orders", "why_tests_cant": "Listing order and number/naming of series are arbitrary.", "anchors": ["harmonisation_eiv/harmonisation/core/matchup/matchupToolbox/harmonisation/harmonisationIO/HarmonisationResult.py:write_harmonisation_residual_files, save, open_harmonisation_result"]}
{"id": "C34", "title": "Parameter sensor labels survive save and open", "statement": "Writing the parameter-sensor labels as fixed-width characters and reading them back gives the same labels for all names up to the width without surrounding blanks.", "quantifier": "all strings", "why_tests_cant": "for all strings", "anchors": ["harmonisation_eiv/harmonisation/core/matchup/matchupToolbox/harmonisation/harmonisationIO/HarmonisationResult.py:write_harmonisation_output_file, open_harmonisation_output_file"]}
{"id": "C35", "title": "Combining covariance elements", "statement": "Combining the per-element covariance files of a harmonisation with up to ten parameters gives, in whatever order the files are listed, the n x n matrix whose entry (i,j) is the mean of elements (i,j) and (j,i): a symmetric matrix, equal to the elements when they are symmetric.", "quantifier": "all parameter numbers up to ten, all element values, all directory orders", "why_tests_cant": "Directory order and values are arbitrary.", "anchors": ["harmonisation_eiv/harmonisation/tools/HarmonisationOp.py:combine_parameter_covariance_ij", "harmonisation_eiv/harmonisation/tools/fullEIVsolver_covariance_analytical.py"]}
{"id": "C36", "title": "Combined Monte Carlo trials", "statement": "The one-pass recurrence used to combine the residuals of Monte Carlo trials yields their mean and sample variance component by component, for any number of trials; failed trials do not contribute to the parameter sample.", "quantifier": "all sequences of trials of any length", "why_tests_cant": "Statement about sums over sequences of any length.", "anchors": ["harmonisation_eiv/harmonisation/tools/HarmonisationOp.py:combine_mc_trials"]}
{"id": "C37", "title": "Harmonised visualisation quantities", "statement": "In every history of queries that starts with the harmonised measurand of sensor 1, every quantity labelled harmonised is computed with the harmonised parameters (and nominal/harmonised residuals accordingly); and whatever the history, the match-up data have their nominal parameters and labels back afterwards (provided the measurand can be evaluated).", "quantifier": "all data, all parameters, all sequences of queries", "why_tests_cant": "It is about all histories of calls on an object with caches.", "anchors": ["harmonisation_eiv/harmonisation/core/matchup/matchupToolbox/harmonisation/harmonisationVis/HarmonisationVis.py:get_L1_harm, get_L2_harm, get_kres_harm_harm, get_kres_nom_harm"]}
{"id": "C38", "title": "Simulated match-ups span the observed range", "statement": "Every covariate and K series of a simulated dataset has the requested number of samples, evenly spaced, first the minimum and last the maximum of the data, all within the range; the series structure is consistent, everything else is copied; a series without match-ups is rejected.", "quantifier": "all data sets, all sample numbers", "why_tests_cant": "All values and sizes of datasets.", "anchors": ["harmonisation_eiv/harmonisation/core/matchup/matchupProcessing/simulate_matchup/SimulateMatchUp.py:SimulateMatchUp.run"]}
{"id": "C39", "title": "Binning", "statement": "Every point with lo <= X < hi is in exactly one of the half-open bins, whose union is the range; the statistics returned for a bin are mean and standard deviation of exactly its points; a time average is the mean of the data strictly inside the period, periods running without gap from the first to the last.", "quantifier": "all data, bin numbers, ranges and times", "why_tests_cant": "All data incl. values on bin edges.", "anchors": ["harmonisation_eiv/harmonisation/core/utils/stats.py:bin, time_average"]}
{"id": "C40", "title": "AVHRR sensor-model derivatives", "statement": "For every AVHRR sensor model, the derivatives returned with the measurand are, match-up by match-up, its partial derivatives with respect to every covariate and to the first parameter, and with respect to every parameter for the models without parameter scaling.", "quantifier": "all arrays of match-ups with different space and target counts, all parameters", "why_tests_cant": "Statement about derivatives at all real points.", "anchors": ["harmonisation_eiv/harmonisation/sensor_data/AVHRR/AVHRR_sensor_models.py"]}
{"id": "C41", "title": "HIRS sensor-model derivatives", "statement": "For the HIRS sensor model, the derivatives returned with the measurand are, match-up by match-up, its partial derivatives with respect to all covariates except the target temperature and to all parameters.", "quantifier": "all channel constants, covariates and parameters where the model is defined", "why_tests_cant": "Statement about derivatives at all real points.", "anchors": ["harmonisation_eiv/harmonisation/sensor_data/HIRS/HIRS_sensor_models.py"]}
{"id": "C42", "title": "MW sensor-model derivatives", "statement": "For the microwave sensor model, the returned derivatives are the partial derivatives of the returned measurand with respect to every covariate and parameter.", "quantifier": "all channel constants, covariates and parameters where the model is defined", "why_tests_cant": "Statement about derivatives at all real points.", "anchors": ["harmonisation_eiv/harmonisation/sensor_data/MW/MW_sensor_models.py"]}
{"id": "C43", "title": "Checker: declared correlation forms", "statement": "The input checker reports no error about uncertainty types exactly if, for every covariate, the declared uncertainty type is the one and only correlation form its Ur, Us and W-matrix data have; if it reports errors, it names exactly the covariates for which this fails.", "quantifier": "all input files with the required variables (report: first covariate not declared type 4, see C73)", "why_tests_cant": "All combinations of values in all columns, for any number of covariates.", "anchors": ["tools/harmonisation_input_checker.py:check_uncertainty_assignment"]}
{"id": "C44", "title": "Checker: acceptance is exact", "statement": "The input checker accepts a file (no error) if and only if all required variables are there with the documented dimensions and types, the W/u variables are all there and consistent (numbering, sizes, sums, widths, signs) or all absent, the sensor names are there and differ, uncertainties are in range, and every covariate's type is right.", "quantifier": "all netCDF files", "why_tests_cant": "All files; acceptance is an equivalence between a program and a specification.", "anchors": ["tools/harmonisation_input_checker.py:main", "tools/harmonisation_input_checker.py:check_w_matrix_variable_dimensions", "tools/harmonisation_input_checker.py:check_w_variable_values", "tools/harmonisation_input_checker.py:check_variable_values"]}
{"id": "C45", "title": "Rolling-average W matrix", "statement": "The generated rolling-average W matrix has one row per match-up holding exactly the kernel weights at the scan lines of that match-up, scan lines being counted from the first match-up to the nearest whole number of scan-line times; its columns are exactly the scan lines used, in order; the u vector has one entry per column, the given uncertainty of that scan line; it is built for every non-empty series and kernel and is a valid sparse matrix.", "quantifier": "all time series, kernels, weights and uncertainties, scan-line time above 0.01", "why_tests_cant": "All lengths, all gaps and orders of times, all overlaps of kernels.", "anchors": ["tools/generate_w_matrices.py:generate_rolling_average_w_matrix"]}
{"id": "C46", "title": "Brightness temperature to radiance", "statement": "For every supported instrument and channel, temp2rad returns element by element the Planck radiance at the band-corrected temperature, positive and strictly increasing in temperature, nan for non-physical elements of arrays of one to three dimensions; channels the instrument lacks and unknown instruments raise an exception.", "quantifier": "all temperatures (numbers and arrays), instruments and channels", "why_tests_cant": "All reals; the whole coefficient table.", "anchors": ["tools/convert_bt_to_radiance.py:temp2rad", "tools/convert_bt_to_radiance.py:return_band_coefs"]}
{"id": "C47", "title": "Plane rotation used by LSMR", "statement": "The symmetric orthogonal rotation returns (c, s, r) with c^2+s^2=1, c a + s b = r = sqrt(a^2+b^2) and s a - c b = 0.", "quantifier": "all real inputs", "why_tests_cant": "for all reals and all branches", "anchors": ["harmonisation_eiv/harmonisation/core/matchup/matchupToolbox/harmonisation/harmonisationProcessing/harmonisation_eiv/pykrylov_lsmr.py:symOrtho"]}
{"id": "C48", "title": "LSMR iteration limit and stop flag", "statement": "LSMR's solve performs no more than the iteration limit, and its stop flag has the documented meaning, with the true norms of b-Ax and A'(b-Ax): 0 the zero vector is a least-squares solution, 1 and 2 the tolerances are met, 3 the condition estimate reached its limit, 7 the iteration limit, 8 the direct-error test.", "quantifier": "all matrices, right-hand sides, tolerances and limits (no damping)", "why_tests_cant": "all runs of an iteration whose tests use recurrences for the norms", "anchors": ["harmonisation_eiv/harmonisation/core/matchup/matchupToolbox/harmonisation/harmonisationProcessing/harmonisation_eiv/pykrylov_lsmr.py:solve"]}
{"id": "C49", "title": "A solver run never returns a previous run's solution", "statement": "After a call of LSMR's solve, the solution attribute is the solution for that call's right-hand side.", "quantifier": "all sequences of calls", "why_tests_cant": "history property", "anchors": ["harmonisation_eiv/harmonisation/core/matchup/matchupToolbox/harmonisation/harmonisationProcessing/harmonisation_eiv/pykrylov_lsmr.py:solve", "harmonisation_eiv/harmonisation/core/matchup/matchupToolbox/harmonisation/harmonisationProcessing/harmonisation_eiv/GN_algo.py:solve"]}
{"id": "C50", "title": "Restarting from saved solver data", "statement": "Saving the solver and opening it in a new solver for the same match-ups yields the same residual and the same continuation of the run.", "quantifier": "all solver states", "why_tests_cant": "history property", "anchors": ["harmonisation_eiv/harmonisation/core/matchup/matchupToolbox/harmonisation/harmonisationProcessing/harmonisation_eiv/GN_algo.py:save, open", "harmonisation_eiv/harmonisation/core/matchup/matchupToolbox/harmonisation/harmonisationProcessing/harmonisation_eiv/HarmonisationEIV.py:run(gn_input)"]}
{"id": "C51", "title": "Command line exclusivity", "statement": "The command line accepts exactly the documented combinations of options.", "quantifier": "all command lines", "why_tests_cant": "for all combinations", "anchors": ["harmonisation_eiv/harmonisation/tools/common.py:parse_cmdline"]}
{"id": "C52", "title": "Plain random sampling returns a sampled object", "statement": "SampleMatchUp.run(MatchUp, sf) with sf >= 1 returns a match-up object holding len//sf match-ups of each series, drawn without repetition.", "quantifier": "all consistent match-up objects and sampling factors", "why_tests_cant": "it must hold for every object and every outcome of the random generator", "anchors": ["harmonisation_eiv/harmonisation/core/matchup/matchupProcessing/sample/SampleMatchUp.py:SampleMatchUp.run"]}
{"id": "C53", "title": "Sampled uncertainty of averaged data", "statement": "For a covariate with a W matrix, the random uncertainty of a sampled match-up is the standard uncertainty of that match-up's weighted sum of independent errors.", "quantifier": "all W matrices, u vectors and selections", "why_tests_cant": "must hold for all weights, widths and selections", "anchors": ["harmonisation_eiv/harmonisation/core/matchup/matchupProcessing/sample2ind/Sample2Ind.py:Sample2Ind.run"]}
{"id": "C54", "title": "Acquisition times and additional variables survive transform and reverse", "statement": "For every match-up object with acquisition times, run followed by reverse (and run alone, which is what the solver evaluates sensor models on) still carries the times and the additional variables.", "quantifier": "all match-up objects", "why_tests_cant": "holds (or fails) for every object, not only for the tested ones", "anchors": ["harmonisation_eiv/harmonisation/core/matchup/matchupProcessing/transform2normind/Transform2NormInd.py:Transform2NormInd.run, reverse"]}
{"id": "C55", "title": "Derivatives of the measurand can be requested", "statement": "evaluate_measurand(..., return_derivatives=True) returns, besides the measurand, the derivatives of each sensor function with respect to its covariates and parameters.", "quantifier": "all match-up objects, parameters and series selections", "why_tests_cant": "the flag must work for every object; refuted for every object", "anchors": ["harmonisation_eiv/harmonisation/core/matchup/matchupToolbox/utils/matchup_maths.py:evaluate_measurand"]}
{"id": "C56", "title": "The solver's output: K residuals and systematic errors", "statement": "The residuals of K returned by a run are, for every match-up, the K estimated from the final unknowns minus the measured K, in the original units; the systematic errors returned are the last unknown variables, one for each systematic effect in number order, each labelled with the name of a sensor that has this effect; no systematic errors are returned iff there are no systematic effects.", "quantifier": "all layouts with any number of series, sensors and systematic effects, all behaviours of the inner solvers", "why_tests_cant": "depends on the positions of every block and effect, for all layouts and inner solver results", "anchors": ["harmonisation_eiv/harmonisation/core/matchup/matchupToolbox/harmonisation/harmonisationProcessing/harmonisation_eiv/GN_algo.py:run (301-333)"]}
{"id": "C57", "title": "Preconditioner weights are the propagated covariance", "statement": "For sampled data whose sensor 0 is a random-uncertainty reference and in which each other sensor has parameters and at most one systematic effect, the covariance matrix the preconditioner solver builds has, at entry (p, q), exactly the covariance of the normalised K of match-ups p and q obtained by propagating all random uncertainties (independent) and systematic uncertainties (common to all match-ups of an effect) through the sensor and adjustment functions, plus the unit variance of K.", "quantifier": "all data sets, parameters and sensor functions in that domain", "why_tests_cant": "The matrix depends on every covariate, series, shared effect and parameter vector; tests compare a few numbers.", "anchors": ["harmonisation_eiv/harmonisation/core/matchup/matchupToolbox/harmonisation/harmonisationProcessing/harmonisation_eiv_pc/pc_algo.py:calc_LK"]}
{"id": "C58", "title": "Preconditioner residual and Jacobian", "statement": "The vector minimised by the preconditioner solver is the difference of modelled and measured K whitened so that its sum of squares is the K difference weighted with the inverse covariance; and the Jacobian handed to the optimiser is the derivative of that vector with respect to the parameters whenever sensor and adjustment functions return correct derivatives.", "quantifier": "all data, parameters and directions, every lower-triangular weight", "why_tests_cant": "A derivative is a limit in every direction; finite differences only sample it.", "anchors": ["harmonisation_eiv/harmonisation/core/matchup/matchupToolbox/harmonisation/harmonisationProcessing/harmonisation_eiv_pc/pc_algo.py:calc_fJa", "harmonisation_eiv/harmonisation/core/matchup/matchupToolbox/harmonisation/harmonisationProcessing/harmonisation_eiv_pc/pc_algo.py:get_f", "harmonisation_eiv/harmonisation/core/matchup/matchupToolbox/harmonisation/harmonisationProcessing/harmonisation_eiv_pc/pc_algo.py:get_Ja"]}
{"id": "C59", "title": "Preconditioner weights belong to the current estimate", "statement": "In every pass of the preconditioner solver the weights are evaluated at the parameter estimate the pass starts from.", "quantifier": "all runs, all behaviours of the optimiser", "why_tests_cant": "It depends on which point the optimiser happens to evaluate last in every pass.", "anchors": ["harmonisation_eiv/harmonisation/core/matchup/matchupToolbox/harmonisation/harmonisationProcessing/harmonisation_eiv_pc/pc_algo.py:run", "harmonisation_eiv/harmonisation/core/matchup/matchupToolbox/harmonisation/harmonisationProcessing/harmonisation_eiv_pc/pc_algo.py:get_f"]}
{"id": "C60", "title": "Preconditioner weights for any sensor configuration", "statement": "The covariance matrix of the preconditioner solver is the propagated one for any number of systematic effects per sensor and any position and number of reference sensors.", "quantifier": "all sensor configurations", "why_tests_cant": "The failing configurations are combinations of sensors order and effects that no example in the repository contains.", "anchors": ["harmonisation_eiv/harmonisation/core/matchup/matchupToolbox/harmonisation/harmonisationProcessing/harmonisation_eiv_pc/pc_algo.py:calc_LK"]}
{"id": "C61", "title": "Any result file name", "statement": "A result saved under any name harm....nc is found again as the output file, and no other file is taken for it.", "quantifier": "all file names", "why_tests_cant": "Only particular substrings expose it.", "anchors": ["harmonisation_eiv/harmonisation/core/matchup/matchupToolbox/harmonisation/harmonisationIO/HarmonisationResult.py:_get_harm_output_path, _get_harm_residual_paths"]}
{"id": "C62", "title": "Everything is saved", "statement": "The residual files written by save hold the X residuals and all series, whatever the sensor pairs.", "quantifier": "all results", "why_tests_cant": "It takes a result with two series of one pair, or comparing stored X residuals.", "anchors": ["harmonisation_eiv/harmonisation/core/matchup/matchupToolbox/harmonisation/harmonisationIO/HarmonisationResult.py:write_harmonisation_residual_files"]}
{"id": "C63", "title": "Opening restores the result", "statement": "Opening a saved result gives back additional attributes and X residuals, gives an object that can be saved again, and does not depend on the order in which files are listed or on residual files being present.", "quantifier": "all saved results, all listing orders", "why_tests_cant": "Directory order is chosen by the file system.", "anchors": ["harmonisation_eiv/harmonisation/core/matchup/matchupToolbox/harmonisation/harmonisationIO/HarmonisationResult.py:__init__, open_harmonisation_residual_files"]}
{"id": "C64", "title": "Combining covariance elements, any number of parameters", "statement": "The covariance matrix can be assembled from its element files for any number of parameters.", "quantifier": "all parameter numbers above ten", "why_tests_cant": "Tests use a few parameters.", "anchors": ["harmonisation_eiv/harmonisation/tools/HarmonisationOp.py:combine_parameter_covariance_ij"]}
{"id": "C65", "title": "Command line options have their effect", "statement": "--verbose and --quiet change the verbosity, and an accepted command line with a dataset directory uses that directory.", "quantifier": "all accepted command lines", "why_tests_cant": "Combinations of options, including empty ones.", "anchors": ["harmonisation_eiv/harmonisation/tools/common.py:parse_cmdline, read_parsed_cmdline"]}
{"id": "C66", "title": "The command line solver writes its result", "statement": "When the solver started from the command line has computed a result, the result is written to the output directory.", "quantifier": "all results, all versions and tags", "why_tests_cant": "It takes a full run on real data.", "anchors": ["harmonisation_eiv/harmonisation/tools/HarmonisationOp.py:run", "harmonisation_eiv/harmonisation/tools/full_eiv_solver.py"]}
{"id": "C67", "title": "Binning loses no data", "statement": "Every data point within the range of the data, including the largest and those at the start of a period, contributes to the statistics.", "quantifier": "all data and bin numbers", "why_tests_cant": "Boundary values of arbitrary data.", "anchors": ["harmonisation_eiv/harmonisation/core/utils/stats.py:bin, time_average"]}
{"id": "C68", "title": "Harmonised quantities in any order", "statement": "The answers to queries for harmonised quantities do not depend on the order of the queries, and nominal parameters are restored even when an evaluation fails.", "quantifier": "all sequences of queries", "why_tests_cant": "Order of calls on an object with caches.", "anchors": ["harmonisation_eiv/harmonisation/core/matchup/matchupToolbox/harmonisation/harmonisationVis/HarmonisationVis.py:get_L1_harm, get_L2_harm, get_kres_harm_harm"]}
{"id": "C69", "title": "Scaled AVHRR models: parameter derivatives", "statement": "The derivatives returned by the AVHRR models with scaled parameters are the partial derivatives of the measurand with respect to the (scaled) parameters.", "quantifier": "all covariates and parameters where the model is defined", "why_tests_cant": "Statement about derivatives at all real points.", "anchors": ["harmonisation_eiv/harmonisation/sensor_data/AVHRR/AVHRR_sensor_models.py"]}
{"id": "C70", "title": "HIRS target temperature and reference", "statement": "The derivative of the HIRS measurand with respect to the target temperature is returned, and the reference sensor's measurand is its radiance covariate.", "quantifier": "all channel constants, covariates and parameters where the model is defined", "why_tests_cant": "Statement about derivatives at all real points.", "anchors": ["harmonisation_eiv/harmonisation/sensor_data/HIRS/HIRS_sensor_models.py"]}
{"id": "C71", "title": "Registered sensor models fit their use", "statement": "Every registered AVHRR sensor model can be called with the six arguments used by the evaluation and the solver, and has one derivative column per declared covariate and parameter.", "quantifier": "all models, arrays and parameters", "why_tests_cant": "Twelve registrations; tests exercise one.", "anchors": ["harmonisation_eiv/harmonisation/sensor_data/AVHRR/AVHRR_sensor_models.py", "harmonisation_eiv/harmonisation/sensor_data/AVHRR/AVHRR_37um_2_sensor_data.py", "harmonisation_eiv/harmonisation/core/matchup/matchupToolbox/utils/matchup_maths.py"]}
{"id": "C72", "title": "Accepted files are readable", "statement": "For every file the checker accepts, the reader can build the W and u matrix of every covariate that uses one, with one row per match-up and one column per uncertainty.", "quantifier": "all accepted files with W matrices", "why_tests_cant": "All files; composition of two programs.", "anchors": ["tools/harmonisation_input_checker.py", "harmonisation_eiv/harmonisation/core/matchup/matchupIO/MatchUpReader.py:_open_w_matrix"]}
{"id": "C73", "title": "Checker reports instead of crashing", "statement": "For every file, the checker ends with a report of errors rather than an exception; in particular every wrongly declared covariate is named.", "quantifier": "all files with the required variables", "why_tests_cant": "All files.", "anchors": ["tools/harmonisation_input_checker.py:check_uncertainty_assignment"]}
{"id": "C74", "title": "Rolling-average W matrix for short scan-line times", "statement": "The generated W matrix assigns every match-up to its nearest scan line whatever the scan-line time.", "quantifier": "all positive scan-line times", "why_tests_cant": "All reals.", "anchors": ["tools/generate_w_matrices.py:generate_rolling_average_w_matrix"]}
{"id": "C75", "title": "MW W-matrix variables", "statement": "For every averaged covariate, the microwave tool's variables point to the rolling-average W matrix of its sensor's times and to a vector of as many uncertainties, all the covariate's own, as the matrix has columns; covariates with a W matrix are exactly those declared with a correlation that needs one.", "quantifier": "all time series and sensor pairs", "why_tests_cant": "All data, both sensors, all instrument combinations.", "anchors": ["tools/MW_add_W_matrices.py:return_w_matrix_variables_MW"]}
{"id": "C76", "title": "MW tool uses each sensor's times", "statement": "The W matrices the microwave tool writes for a sensor are computed from the scan-line times of that sensor.", "quantifier": "all input files", "why_tests_cant": "All pairs of files differing in one variable.", "anchors": ["tools/MW_add_W_matrices.py:read_matchup_data", "tools/MW_add_W_matrices.py:run"]}
{"id": "C77", "title": "Radiance to brightness temperature", "statement": "rad2temp is the inverse of temp2rad for all physical temperatures and channels.", "quantifier": "all temperatures/radiances, instruments and channels", "why_tests_cant": "All reals.", "anchors": ["tools/convert_bt_to_radiance.py:rad2temp", "tools/convert_bt_to_radiance.py:temp2rad"]}
{"id": "C78", "title": "The true-K tool writes to the output dataset", "statement": "The tool that sets K to its value evaluated with the given sensor data leaves the input dataset as it is and writes, to each file of the output dataset, the evaluated K of that file's match-ups.", "quantifier": "all datasets", "why_tests_cant": "All numbers of files and match-ups, all listing orders.", "anchors": ["tools/simulation_set_true_K.py:main", "tools/simulated_AVHRR.py:main"]}
{"id": "C79", "title": "Files opened for a directory", "statement": "Opening a directory reads exactly its .nc files, in the order of their names, whatever order the system lists them in; so the numbering of match-up series is reproducible. Files given by path are read in the order given.", "quantifier": "all directories and listing orders", "why_tests_cant": "Listing orders vary between systems.", "anchors": ["harmonisation_eiv/harmonisation/core/matchup/matchupIO/MatchUpReader.py:open_nc_datasets"]}
{"id": "C80", "title": "Files opened for a list of directories", "statement": "Opening a list of directories reads exactly their .nc files, independently of the system's listing order.", "quantifier": "all lists of directories and listing orders", "why_tests_cant": "Listing orders vary between systems.", "anchors": ["harmonisation_eiv/harmonisation/core/matchup/matchupIO/MatchUpReader.py:open_nc_datasets"]}
{"id": "C81", "title": "LSMR reports true norms", "statement": "The norms LSMR returns beside x - of b-Ax, of A'(b-Ax) and of x - are exactly those of the returned x, although computed by recurrences; the second never exceeds that of A'b, and bounds how far x is from least squares.", "quantifier": "all matrices, right-hand sides, tolerances, limits (exact arithmetic, no damping)", "why_tests_cant": "the recurrences must be right at every iteration of every run", "anchors": ["harmonisation_eiv/harmonisation/core/matchup/matchupToolbox/harmonisation/harmonisationProcessing/harmonisation_eiv/pykrylov_lsmr.py:solve"]}
{"id": "C82", "title": "LSMR answers every least-squares problem", "statement": "LSMR's solve returns for every matrix and right-hand side.", "quantifier": "all matrices and right-hand sides", "why_tests_cant": "all runs", "anchors": ["harmonisation_eiv/harmonisation/core/matchup/matchupToolbox/harmonisation/harmonisationProcessing/harmonisation_eiv/pykrylov_lsmr.py:solve"]}
{"id": "C83", "title": "LSMR needs at most min(m, n) iterations", "statement": "For an m x n matrix, LSMR stops after at most min(m, n) iterations, so with the default limit the limit is never its reason to stop.", "quantifier": "all matrices and right-hand sides (exact arithmetic, no damping)", "why_tests_cant": "needs the orthogonality of all vectors built in a run", "anchors": ["harmonisation_eiv/harmonisation/core/matchup/matchupToolbox/harmonisation/harmonisationProcessing/harmonisation_eiv/pykrylov_lsmr.py:solve"]}
{"id": "C84", "title": "MINRES iteration limit and stop flag", "statement": "MINRES performs no more than the iteration limit, its stop flag has the documented meaning, and 'converged' is reported only if a tolerance is met.", "quantifier": "all symmetric matrices, right-hand sides, tolerances and limits", "why_tests_cant": "all runs", "anchors": ["harmonisation_eiv/harmonisation/core/matchup/matchupToolbox/harmonisation/harmonisationProcessing/harmonisation_eiv/pykrylov_minres.py:solve"]}
{"id": "C85", "title": "MINRES reports the true residual norm", "statement": "The residual norm MINRES leaves in rnorm is exactly the norm of b-Ax for the x it leaves, although computed by a recurrence, and never exceeds that of b, as long as no pivot is as small as the machine precision.", "quantifier": "all symmetric matrices, right-hand sides, tolerances, limits (exact arithmetic); in particular all matrices without eigenvalues as small as the machine precision", "why_tests_cant": "the recurrences must be right at every iteration of every run", "anchors": ["harmonisation_eiv/harmonisation/core/matchup/matchupToolbox/harmonisation/harmonisationProcessing/harmonisation_eiv/pykrylov_minres.py:solve"]}
{"id": "C86", "title": "MINRES solves systems with an eigenvector as right-hand side", "statement": "If b is an eigenvector of A with a nonzero eigenvalue, MINRES leaves the solution in x.", "quantifier": "all matrices, eigenvectors and limits", "why_tests_cant": "all matrices", "anchors": ["harmonisation_eiv/harmonisation/core/matchup/matchupToolbox/harmonisation/harmonisationProcessing/harmonisation_eiv/pykrylov_minres.py:solve"]}
{"id": "C87", "title": "MINRES reports the norm of A r", "statement": "Arnorm is the norm of A(b-Ax) for the x MINRES leaves.", "quantifier": "all symmetric matrices and right-hand sides", "why_tests_cant": "all runs", "anchors": ["harmonisation_eiv/harmonisation/core/matchup/matchupToolbox/harmonisation/harmonisationProcessing/harmonisation_eiv/pykrylov_minres.py:solve"]}
{"id": "C88", "title": "Covariance elements from a saved solver", "statement": "An element of the parameter covariance computed by a solver re-opened from its saved data equals that of the saved solver: the Jacobian and Hessian products are the same.", "quantifier": "all match-ups, solver states, indices i and j, vectors", "why_tests_cant": "history property over all states", "anchors": ["harmonisation_eiv/harmonisation/core/matchup/matchupToolbox/harmonisation/harmonisationProcessing/harmonisation_eiv/GN_algo.py:save, open", "harmonisation_eiv/harmonisation/tools/HarmonisationOp.py:calculate_parameter_covariance_ij"]}
{"id": "C89", "title": "Conversion keeps the usable match-ups aligned", "statement": "Converting an AVHRR match-up file writes six files; each holds exactly the match-ups all of whose scan-line uncertainties are known, in their order, with the measured quantities of both sensors, K and its uncertainties, times, sensor names, geometry variables and original indices of the same match-ups.", "quantifier": "all input files, with reference or non-reference sensor 1", "why_tests_cant": "all files, sizes and NaN patterns", "anchors": ["tools/AVHRR_to_updated_spec.py:main", "tools/AVHRR_to_updated_spec.py:return_valid_averages_mask", "tools/AVHRR_to_updated_spec.py:return_additional_variables", "tools/AVHRR_to_updated_spec.py:write_file", "tools/AVHRR_to_updated_spec.py:get_new_name"]}
{"id": "C90", "title": "Converted files describe space and target counts as rolling averages", "statement": "In the files with structured effects, the W matrix and uncertainty vector of the space and target counts of a sensor decode to the equal-weight rolling average over the scan lines of the kept match-ups, with the uncertainty of every scan line.", "quantifier": "all input files, columns 0 and 1 of every non-reference sensor", "why_tests_cant": "all times, kernels and NaN patterns", "anchors": ["tools/AVHRR_to_updated_spec.py:return_w_matrices", "tools/AVHRR_to_updated_spec.py:main", "tools/generate_w_matrices.py:generate_rolling_average_w_matrix", "tools/W_matrix_functions.py:return_w_matrix_variables"]}
{"id": "C91", "title": "Nominal measurands are radiances", "statement": "The variables nominal_measurand1 and nominal_measurand2 of a converted file are the radiances of the brightness temperatures of the input file.", "quantifier": "all input files", "why_tests_cant": "all inputs", "anchors": ["tools/AVHRR_to_updated_spec.py:main", "tools/AVHRR_to_updated_spec.py:return_additional_variables", "tools/AVHRR_to_updated_spec.py:convertBT2rad"]}
{"id": "C92", "title": "Temperature limit", "statement": "With a temperature limit, the match-ups with a brightness temperature below it are left out, and only they (besides the unusable ones).", "quantifier": "all input files and limits", "why_tests_cant": "all inputs", "anchors": ["tools/AVHRR_to_updated_spec.py:main", "tools/AVHRR_to_updated_spec.py:return_valid_averages_mask"]}
{"id": "C93", "title": "Output directories tell the channel", "statement": "The files of the 3.7 micrometre channel go to the directories numbered 105 and 106, those of the other channels to 101 and 102.", "quantifier": "all input files and channels", "why_tests_cant": "all inputs", "anchors": ["tools/AVHRR_to_updated_spec.py:prepare_directories", "tools/AVHRR_to_updated_spec.py:main"]}
{"id": "C94", "title": "Combined random uncertainty without structured effects", "statement": "In the files without structured effects, the random uncertainty of the space and target counts of a match-up is the standard uncertainty of the average of its independent scan lines.", "quantifier": "all input files, match-ups, columns 0 and 1", "why_tests_cant": "all inputs", "anchors": ["tools/AVHRR_to_updated_spec.py:main"]}
{"id": "C95", "title": "Effects of the six files", "statement": "The first two converted files have all effects (uncertainty types, systematic uncertainties and W matrices as measured), the next two no systematic effects (zero, types random), the last two random effects only (no W matrices); all other uncertainties are those of the input, with no random part for space and target counts.", "quantifier": "all input files", "why_tests_cant": "all inputs", "anchors": ["tools/AVHRR_to_updated_spec.py:main", "tools/AVHRR_to_updated_spec.py:write_file"]}
{"id": "C96", "title": "Compiled AVHRR models agree with the Python ones", "statement": "The compiled AVHRR measurement functions of three and four parameters and the scaled one of three parameters return the same measurand and derivatives as the Python functions of the same name.", "quantifier": "all arrays of match-ups and all parameters", "why_tests_cant": "all inputs", "anchors": ["harmonisation_eiv/harmonisation/sensor_data/AVHRR/AVHRR_sensor_models_cython.pyx:sensor_model_3", "harmonisation_eiv/harmonisation/sensor_data/AVHRR/AVHRR_sensor_models_cython.pyx:sensor_model_4", "harmonisation_eiv/harmonisation/sensor_data/AVHRR/AVHRR_sensor_models_cython.pyx:sensor_model_3_scaled", "harmonisation_eiv/harmonisation/sensor_data/AVHRR/AVHRR_sensor_models.py:sensor_model_3", "harmonisation_eiv/harmonisation/sensor_data/AVHRR/AVHRR_sensor_models.py:sensor_model_4", "harmonisation_eiv/harmonisation/sensor_data/AVHRR/AVHRR_sensor_models.py:sensor_model_3_scaled"]}
{"id": "C97", "title": "Compiled scaled four-parameter AVHRR model", "statement": "The compiled scaled four-parameter AVHRR measurement function returns the same measurand and derivatives as the Python function of the same name.", "quantifier": "all match-ups and all parameters", "why_tests_cant": "all inputs", "anchors": ["harmonisation_eiv/harmonisation/sensor_data/AVHRR/AVHRR_sensor_models_cython.pyx:sensor_model_4_scaled", "harmonisation_eiv/harmonisation/sensor_data/AVHRR/AVHRR_sensor_models.py:sensor_model_4_scaled"]}
{"id": "C98", "title": "PMH conversion: every file holds its rows of the table", "statement": "When pmh2fiduceo converts a directory, the file a_b.nc of the i-th listed pair holds exactly the rows of data_vals.txt that follow those of the earlier pairs: covariates of both sensors (for the reference sensor 0 only its first value), K from the last column, row numbers as times, the uncertainties and types of data_uncs.txt, the K uncertainty of data_uncs.txt; and no two pairs share a file.", "quantifier": "every table with rows of equal length, every parameter and uncertainty file, every prior content of the output directory for which the conversion succeeds", "why_tests_cant": "a test checks a few tables; the block offsets must be right for any list of sizes", "anchors": ["tools/pmh2fiduceo.py:run_conversion", "tools/pmh2fiduceo.py:write_input_file"]}
{"id": "C99", "title": "PMH conversion: the files can be read", "statement": "The files written by a successful conversion, of pairs of different sensors with the reference only as first sensor, form a valid set of match-up files: shapes, types, W matrix use tables and W matrices are consistent, and the reader opens their uncertainties.", "quantifier": "every successful conversion", "why_tests_cant": "consistency must hold for any number of covariates of any types and any list of pairs", "anchors": ["tools/pmh2fiduceo.py:run_conversion", "tools/pmh2fiduceo.py:write_input_file", "harmonisation_eiv/harmonisation/core/matchup/matchupIO/MatchUpReader.py:open_unc"]}
