(** * Specification vocabulary for C35, C36, C51, C64, C65, C66. *)
From Coq Require Import Reals Permutation.
From Verif Require Import Base ReaderModel HRModel OpModel.
Open Scope nat_scope.

(** A directory listing of the files of all n x n elements, in any order. *)
Definition element_files (n : nat) (c : nat -> nat -> R) (files : list (string * R)) : Prop :=
  Permutation files (flat_map (fun i => map (fun j => (element_name i j, c i j)) (seq 0 n)) (seq 0 n)).
(** [m] is the n x n matrix with the given elements. *)
Definition is_matrix (n : nat) (f : nat -> nat -> R) (m : list (list R)) : Prop :=
  length m = n /\ forall i, i < n -> exists row, nth_error m i = Some row /\ length row = n /\
    forall j, j < n -> nth_error row j = Some (f i j).

(** Mean and sample variance (divisor n - 1) of component [t] of the trials. *)
Definition total (f : list R -> R) (trials : list (list R)) : R := fold_right (fun x s => (f x + s)%R) 0%R trials.
Definition comp (t : nat) (x : list R) : R := nth t x 0%R.
Definition mean_of (t : nat) (trials : list (list R)) : R := (total (comp t) trials / INR (length trials))%R.
Definition sample_variance (t : nat) (trials : list (list R)) : R :=
  (total (fun x => (comp t x - mean_of t trials) * (comp t x - mean_of t trials)) trials / (INR (length trials) - 1))%R.

(** An option is given if it has a non-empty value. *)
Definition given (o : option string) : Prop := exists s, o = Some s /\ s <> ""%string.
Definition missing (o : option string) : Prop := ~ given o.
(** The documented use: either a job file alone, or -i, -s and -o (with optional solver options). *)
Definition documented (solver_options : bool) (a : cmdline) : Prop :=
  (given (c_job a) /\ missing (c_in a) /\ missing (c_sensor a) /\ missing (c_out a) /\
   (solver_options = true -> missing (c_pc_input a) /\ missing (c_save_pc a) /\ missing (c_gn_input a) /\ missing (c_save_gn a))) \/
  (missing (c_job a) /\ given (c_in a) /\ given (c_sensor a) /\ given (c_out a)).
