(** * Saving and re-opening the Gauss-Newton solver.

    GN = /repo/harmonisation_eiv/harmonisation/core/matchup/matchupToolbox/harmonisation/
    harmonisationProcessing/harmonisation_eiv/GN_algo.py.  Callers: HarmonisationEIV.py:127-134 (gn_input),
    tools/HarmonisationOp.py:331-369 (calculate_parameter_covariance_ij) and :401-441 (run_mc_trial). *)
From Coq Require Import Reals.
From Verif Require Import Base ReaderModel UncModel MuModel TransformModel EvalModel HistModel GNModel.
Open Scope nat_scope.

(** GNOp_data.nc (three variables of type f4) and GNOp_data.HData.idx.pickle (the dictionary HData.idx). *)
Record saved := mkSaved {
  sv_values : list R; sv_xyza : list R; sv_S : list (list R); sv_idx : idx_t; sv_ps : option (list string)
}.

Section Save.
Variable T : Type.
Notation mobj := (mobj R T).
(** Rounding to a 4-byte float when the netCDF variables are written. *)
Variable f4 : R -> R.

(** GN_algo.py:972-1012.  (The netCDF dimensions, attributes and compression carry no data.) *)
Definition gn_save (st : solver T) : saved :=
  mkSaved (map f4 (m_values R T (g_m T st))) (map f4 (g_xyza T st)) (map (map f4) (g_S T st))
          (m_idx R T (g_m T st)) (m_ps R T (g_m T st)).

(** GN_algo.py:1014-1026: idx, S, values and xyza are replaced; nothing else of HData is. *)
Definition gn_open (sv : saved) (st : solver T) : solver T :=
  let m := g_m T st in
  mkSolver T
    (mkMobj R T (sv_idx sv) (sv_ps sv) (m_oidx R T m) (m_ops R T m) (sv_values sv) (m_ks R T m) (m_unc R T m) (m_unck R T m)
       (m_ws R T m) (m_us R T m) (m_time1 R T m) (m_time2 R T m) (m_across1 R T m) (m_across2 R T m) (m_along1 R T m) (m_along2 R T m)
       (m_add R T m))
    (g_sd T st) (g_ocs T st) (sv_xyza sv) (sv_S sv).

(** HarmonisationOp.py:357-361, HarmonisationEIV.py:130-131: a solver for the match-ups [m] as read, into
    which the saved data are opened. *)
Definition gn_reopen (sv : saved) (m : mobj) (sd : sdat T) (ocs : list string) : solver T :=
  gn_open sv (gn_init T m sd ocs).
End Save.
