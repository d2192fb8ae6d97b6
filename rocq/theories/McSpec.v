(** Specification of the Monte Carlo statistics (C160-C162). *)
From Verif Require Import Base TransformModel.
From Coq Require Import Reals.
Local Open Scope R_scope.

(** Mean, sample variance and sample covariance of a list of numbers. *)
Definition average (l : list R) : R := rsum l / INR (length l).
Definition sample_variance (l : list R) : R :=
  rsum (map (fun x => (x - average l) ^ 2) l) / (INR (length l) - 1).
Definition sample_covariance (l l' : list R) : R :=
  rsum (map (fun p => (fst p - average l) * (snd p - average l')) (combine l l')) / (INR (length l) - 1).

(** The numbers at position [j] of arrays of equal size. *)
Definition at_position (j : nat) (arrays : list (list R)) : list R := map (fun a => nth j a 0) arrays.

(** The results of the trials that have one. *)
Fixpoint finished (outs : list (option (list R))) : list (list R) :=
  match outs with
  | [] => []
  | Some a :: o => a :: finished o
  | None :: o => finished o
  end.
(** Exactly the zeros are recognised as zero. *)
Definition decides_zero (zerob : R -> bool) : Prop := forall x, zerob x = true <-> x = 0.
