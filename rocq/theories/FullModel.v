(** * The whole way from match-up files and sensor data to the harmonisation result: MatchUpReader.openMatchUp with a
    sensor data file, HarmonisationEIVPC.run and HarmonisationEIV.run.

    Files: /repo/harmonisation_eiv/harmonisation/core/matchup/matchupIO/MatchUpReader.py,
    .../matchupToolbox/harmonisation/harmonisationProcessing/harmonisation_eiv/HarmonisationEIV.py and
    .../harmonisation_eiv_pc/HarmonisationEIVPC.py.

    The pieces are those of IOModel (netCDF files to an opened object), SensorModel, SampleModel, TransformModel, PCModel and EivModel. *)
From Coq Require Import Reals QArith.
From Verif Require Import Base ReaderModel UncModel SensorModel MuModel SampleModel TransformModel EvalModel GNModel PCModel LsmrModel EivModel CheckModel IOModel.
Open Scope nat_scope.

(** The lists unc, w_matrices and u_matrices are created with a 0 for every entry (MatchUpReader.py:323-331); an entry never filled stays
    the integer 0, and code that looks into it raises TypeError or AttributeError.  Here that is raised at once. *)
Definition entries {A} (l : list (option A)) : res (list A) :=
  mapM (fun o => match o with Some a => Ok a | None => Raise TypeError end) l.

(** Sample2Ind.py:191: [npsum(u**2)**0.5 / n**0.5]. *)
Definition rms_u (l : list R) (n : Z) : R := (sqrt (rsum (map (fun x => x * x) l)) / sqrt (IZR n))%R.

Section Full.
Context {T : Type} (nanV : R) (zeroT : T) (f32 i32 : R -> R) (todate : R -> T) (isfill : R -> bool)
        (ord : list string -> list string) (ordn : list nat -> list nat).

(** The dictionary SENSOR_DATA of the sensor data file. *)
Definition sensor_dict : Type := sdict R R (smodel T) amodel.

(** MatchUpReader.py:66-153 with path_sensor_data: the files, then extract_sensor_data (:577-614), then [_original_idx = deepcopy(idx)]. *)
Definition open_matchup (dict : sensor_dict) (fs : list ncfile) : res (mobj R T * sdat T) :=
  do o <- open_files nanV zeroT f32 i32 todate isfill ord ordn fs;;
  do uncs <- entries (o_unc o);;
  do ws <- entries (o_w o);;
  do us <- entries (o_u o);;
  let mu := o_mu o in let ix := mu_idx R T mu in
  do e <- extract_sensor_data R R (smodel T) amodel f32 default_adj dict (sensors ix);;
  let ps := e_param_sensor R R (smodel T) amodel e in
  Ok (mkMobj R T ix (Some ps) (Some ix) (Some ps) (mu_values R T mu) (mu_ks R T mu) uncs (o_unck o) ws us
             (Some (mu_time1 R T mu)) (Some (mu_time2 R T mu)) (mu_across1 R T mu) (mu_across2 R T mu) (mu_along1 R T mu) (mu_along2 R T mu)
             (Some (mu_add_names R T mu, mu_add R T mu)),
      mkSdat T (SensorModel.e_a R R (smodel T) amodel e) (e_const R R (smodel T) amodel e) (e_const_sensor R R (smodel T) amodel e)
             (e_model R R (smodel T) amodel e) (e_adj R R (smodel T) amodel e)).
End Full.

Section Run.
Context {T : Type} (zeroT : T).
(** numpy.linalg.cholesky and solve, scipy's least_squares, qr and lstsq (see PCModel); random.sample (see SampleModel). *)
Variables (cholesky : list (list R) -> res (list (list R))) (solve : list (list R) -> list R -> res (list R))
          (least_squares : nat -> solver T -> list (list R) -> list R -> res (list (list R) * list R))
          (qr_R lstsq_eye : list (list R) -> res (list (list R))) (smp : nat -> list nat -> nat -> list nat).
(** The arguments of GNAlgo.run (GN_algo.py:170), machine epsilon and the random vectors of the symmetry check (see EivModel). *)
Variables (tolA tolB eps tol : R) (xs : list vec).

(** HarmonisationEIV.py:96-107 and HarmonisationEIVPC.py:55-68: parameters and covariance of the preconditioner. *)
Definition precondition (m : mobj R T) (sd : sdat T) : res (list R * list (list R)) :=
  do s <- sample2ind R T 0%R zeroT rms_u smp m (1 # 10)%Q 100000%Z;;
  do d <- tn_run T s;;
  do r <- runPC T cholesky solve least_squares qr_R lstsq_eye (gn_init T d sd (sd_cs T sd)) (1 / 1000000);;
  Ok (pc_a r, pc_V r).

(** The attributes of the returned HarmonisationResult: parameter_sensors, idx, and what the solver returned. *)
Record houtput := mkHout { h_sensors : list string; h_idx : option idx_t; h_result : eresult }.

(** HarmonisationEIV.py:109-158 with gn_input None; [pc]: parameters and covariance of the preconditioner, [save]: save_directory_GNOp is given. *)
Definition eiv_from (m : mobj R T) (sd : sdat T) (save : bool) (pc : list R * list (list R)) : res houtput :=
  let (a, V) := pc in
  do d <- tn_run T m;;
  do L <- cholesky V;;
  let st := mkSolver T d (mkSdat T a (sd_c T sd) (sd_cs T sd) (sd_model T sd) (sd_adj T sd)) (sd_cs T sd) (m_values R T d ++ a) L in
  do ps <- match m_ps R T d with Some l => Ok l | None => Raise KeyError end;;
  do r <- eiv_run T tolA tolB eps xs st tol (negb save);;
  Ok (mkHout ps (m_oidx R T d) r).

(** HarmonisationEIV.py:55-158; [pc_input]: the result given with the argument pc_input. *)
Definition harmonise (m : mobj R T) (sd : sdat T) (save : bool) (pc_input : option (list R * list (list R))) : res houtput :=
  do pc <- match pc_input with Some p => Ok p | None => precondition m sd end;;
  eiv_from m sd save pc.
End Run.
