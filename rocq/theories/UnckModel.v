(** * Model of MatchUpReader.open_unck_from_nc_datasets
    (/repo/harmonisation_eiv/harmonisation/core/matchup/matchupIO/MatchUpReader.py:473-474),
    over the real numbers (floating-point rounding not modelled). *)
From Coq Require Export Reals.
From Verif Require Import Base.
Local Open Scope R_scope.

(** (Kr ** 2 + Ks ** 2) ** 0.5 elementwise; numpy raises ValueError for different lengths
    (netCDF gives both variables dimension M, so broadcasting does not occur).  [x ** 0.5] of a
    non-negative number is its square root. *)
Definition unck (kr ks : list R) : res (list R) :=
  if (length kr =? length ks)%nat
  then Ok (map (fun p => sqrt (fst p * fst p + snd p * snd p)) (combine kr ks))
  else Raise ValueError.
