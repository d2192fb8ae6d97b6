(** Model of the Monte Carlo part of tools/HarmonisationOp.py: the start of a trial
    (run_mc_trial, :388-473), the combination of trials (combine_mc_trials, :475-576, and
    get_parameters_mc, :578-603).  Exact real arithmetic; opening of files is an argument.
    No proofs. *)
From Verif Require Import Base TransformModel.
From Coq Require Import Reals.
Local Open Scope R_scope.

(** ** One trial *)

(** HarmonisationOp.py:434-437.  [N_var]: idx['idx'][-1]; [noise i]: the i-th standard normal number
    drawn.  numpy's normal(loc, scale=1.0) draws one number per element of an array [loc], and a
    single one for a number: [xyza[N_var]] is one element. *)
Definition mc_values (noise : nat -> R) (N_var : nat) (xyza : list R) : res R :=
  do loc <- get xyza N_var;;
  Ok (loc + noise O).
Definition mc_ks (noise : nat -> R) (drawn : nat) (ks : list R) : list R :=
  map (fun p => snd p + noise (drawn + fst p)%nat) (enumerate ks).
(** append(values, a): numpy flattens both, a number becomes one element. *)
Definition mc_start (noise : nat -> R) (N_var : nat) (xyza ks a : list R) : res (list R * list R) :=
  do v <- mc_values noise N_var xyza;;
  Ok (v :: a, mc_ks noise 1 ks).

(** ** Combination *)

(** HarmonisationOp.py:533-543, one element of the residual arrays; [n]: n_trial. *)
Definition new_mean (n : nat) (e x : R) : R := e + (x - e) / INR n.
Definition new_variance (n : nat) (e v x : R) : R :=
  let mu := new_mean n e x in
  ((INR n - 2) * v + (INR n - 1) * (e - mu) ^ 2 + (x - mu) ^ 2) / (INR n - 1).

(** HarmonisationOp.py:523-543: the loop over the trials, for one array (k_res and H_res are treated
    alike; an array is given as the list of its elements).  Arrays of different shapes cannot be
    subtracted (broadcasting is not modelled).  State: number of trials done, mean, variance. *)
Definition mc_step (st : option (nat * list R * list R)) (x : list R) : res (option (nat * list R * list R)) :=
  match st with
  | None => Ok (Some (1%nat, x, repeat 0 (length x)))
  | Some (k, e, v) =>
      let n := S k in
      if (length x =? length e)%nat then
        Ok (Some (n, map (fun p => new_mean n (fst p) (snd p)) (combine e x),
                  map (fun p => new_variance n (fst (fst p)) (snd (fst p)) (snd p)) (combine (combine e v) x)))
      else Raise ValueError
  end.
Definition mc_residuals (trials : list (list R)) : res (option (nat * list R * list R)) :=
  foldM mc_step trials None.

(** HarmonisationOp.py:548-549 *)
Definition normalised (res var : list R) : list R := zip2 Rdiv res (map sqrt var).

(** HarmonisationOp.py:589-603.  [outs]: for each trial directory the parameters in its output file,
    None if it has no output file.  Opening the path None fails (OtherError). *)
Definition get_parameters_mc (outs : list (option (list R))) (zerob : R -> bool)
  : res (list (list R)) :=
  do o0 <- get outs 0;;
  do n_a <- match o0 with Some a => Ok (length a) | None => Raise OtherError end;;
  do rows <- mapM (fun o : option (list R) =>
      match o with
      | None => Ok (repeat 0 n_a)
      | Some a => if (length a =? n_a)%nat then Ok a
                  else match a with [x] => Ok (repeat x n_a) | _ => Raise ValueError end
      end) outs;;
  Ok (filter (fun r => negb (forallb zerob r)) rows).

(** numpy's mean, std and cov(rowvar=0) of the rows, HarmonisationOp.py:509-511: mean and std divide
    by the number of rows, cov by one less. *)
Definition col (j : nat) (rows : list (list R)) : list R := map (fun r => nth j r 0) rows.
Definition np_mean (l : list R) : R := rsum l / INR (length l).
Definition np_std (l : list R) : R :=
  sqrt (rsum (map (fun x => (x - np_mean l) ^ 2) l) / INR (length l)).
Definition np_cov (l l' : list R) : R :=
  rsum (map (fun p => (fst p - np_mean l) * (snd p - np_mean l')) (combine l l')) / (INR (length l) - 1).

(** HarmonisationOp.py:508-511 for [n_a] parameters: mean, standard deviation, covariance. *)
Definition parameter_statistics (n_a : nat) (rows : list (list R)) : list R * list R * list (list R) :=
  (map (fun j => np_mean (col j rows)) (seq 0 n_a),
   map (fun j => np_std (col j rows)) (seq 0 n_a),
   map (fun i => map (fun j => np_cov (col i rows) (col j rows)) (seq 0 n_a)) (seq 0 n_a)).
