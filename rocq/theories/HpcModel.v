(** * Model of a harmonisation in separate jobs: a run that saves its solver, covariance elements computed from the saved solver and the match-up
    files, and runs that start from a saved solver.

    HE = /repo/harmonisation_eiv/harmonisation/core/matchup/matchupToolbox/harmonisation/harmonisationProcessing/harmonisation_eiv/HarmonisationEIV.py,
    HO = /repo/harmonisation_eiv/harmonisation/tools/HarmonisationOp.py.  The pieces are those of FullModel, EivModel and SaveModel. *)
From Coq Require Import Reals.
From Verif Require Import Base ReaderModel UncModel MuModel TransformModel EvalModel HistModel GNModel LsmrModel EivModel FullModel SaveModel.
Open Scope nat_scope.

Section Hpc.
Context {T : Type}.
(** numpy.linalg.cholesky; the arguments of GNAlgo.run, machine epsilon and the random vectors of the symmetry check (EivModel); rounding to a
    4-byte float (SaveModel). *)
Variables (cholesky : list (list R) -> res (list (list R))) (tolA tolB eps tol : R) (xs : list vec) (f4 : R -> R).

(** HE:112 [HData.a = preconditioner.parameter]. *)
Definition set_parameters (sd : sdat T) (a : list R) : sdat T := mkSdat T a (sd_c T sd) (sd_cs T sd) (sd_model T sd) (sd_adj T sd).

(** HE:55-158 with save_directory_GNOp (and gn_input None); [pc]: parameters and covariance of the preconditioner.  The result and what
    [GNOp.save] writes at the end (HE:155-156): the estimates are then those of the last iteration. *)
Definition run_saving (m : mobj R T) (sd : sdat T) (pc : list R * list (list R)) : res (houtput * saved) :=
  do h <- eiv_from cholesky tolA tolB eps tol xs m sd true pc;;
  do d <- tn_run T m;;
  do L <- cholesky (snd pc);;
  Ok (h, gn_save T f4 (mkSolver T d (set_parameters sd (fst pc)) (sd_cs T sd) (e_xyza (h_result h)) L)).

(** HO:331-369: the match-up files are opened again ([m], [sd]; open_additional_values False has no influence on the solver), the saved solver is
    opened, one element is computed.  (HO:366 passes the list [i, j].) *)
Definition covariance_job (m : mobj R T) (sd : sdat T) (sv : saved) (i j : nat) : res (option R) :=
  cov_element T eps xs (gn_reopen T sv m sd (sd_cs T sd)) i j.

(** HO:231-329 (calculate_GNOp_initial): the transformed data and the parameters of the sensor data file, saved without a run. *)
Definition initial_job (m : mobj R T) (sd : sdat T) : res saved :=
  do d <- tn_run T m;; Ok (gn_save T f4 (gn_init T d sd (sd_cs T sd))).

(** HE:55-158 with gn_input ([sv]); [save]: save_directory_GNOp is given.  HE:127-134: solver for the match-ups as read, the saved data opened
    into it, S from the preconditioner. *)
Definition run_reopening (m : mobj R T) (sd : sdat T) (sv : saved) (save : bool) (pc : list R * list (list R)) : res houtput :=
  let (a, V) := pc in
  let o := gn_reopen T sv m (set_parameters sd a) (sd_cs T sd) in
  do L <- cholesky V;;
  let st := mkSolver T (g_m T o) (g_sd T o) (g_ocs T o) (g_xyza T o) L in
  do ps <- match m_ps R T (g_m T st) with Some l => Ok l | None => Raise KeyError end;;
  do r <- eiv_run T tolA tolB eps xs st tol (negb save);;
  Ok (mkHout ps (m_oidx R T (g_m T st)) r).

(** HO:78-122 (run): the options a caller can give.  save_pc writes the preconditioner (HE:114-115, see HRModel). *)
Record op_options := mkOptions { pc_input : option (list R * list (list R)); gn_input : option saved; save_gn : bool; return_covariance : bool }.
(** HO:108-112: [Harmonisation.run(HData, pc_input=.., save_pc=.., gn_input=.., save_gn=.., show=..)]: save_gn is an argument of run that HE:55-158 does
    not use (save_directory_GNOp stays None), return_covariance and the tolerances are not passed on.  [precond]: HE:91-107.  The second component: the
    saved solver, if any. *)
Definition op_run (precond : mobj R T -> sdat T -> res (list R * list (list R))) (m : mobj R T) (sd : sdat T) (o : op_options) : res (houtput * option saved) :=
  do pc <- match pc_input o with Some p => Ok p | None => precond m sd end;;
  do h <- match gn_input o with None => eiv_from cholesky tolA tolB eps tol xs m sd false pc | Some sv => run_reopening m sd sv false pc end;;
  Ok (h, None).
End Hpc.
