(** * Model of the Gauss-Newton run with its inner solvers LSMR and MINRES in place.

    Directory: /repo/harmonisation_eiv/harmonisation/core/matchup/matchupToolbox/harmonisation/harmonisationProcessing/
    harmonisation_eiv/ (GN_algo.py unless stated otherwise).

    GNModel.v leaves the inner solvers open; here they are those of LsmrModel.v and MinresModel.v.  Numbers are exact reals. *)
From Coq Require Import Reals ZArith.
From Verif Require Import Base ReaderModel UncModel MuModel TransformModel EvalModel HistModel GNModel LsmrModel MinresModel.
Open Scope nat_scope.

(** Arrays as the functions LsmrModel.v works with, and back. *)
Definition vec_of (l : list R) : vec := fun i => nth i l 0%R.
Definition list_of (n : nat) (v : vec) : list R := map v (seq 0 n).

(** GN_algo.py:230, 935: LinearOperator given by its product.  The model takes the matrix whose columns are the products with the unit
    vectors (an operator that raises is not modelled). *)
Definition op_matrix (n : nat) (f : list R -> res (list R)) : matrix :=
  fun i j => match f (unit_vec n j) with Ok y => nth i y 0%R | Raise _ => 0%R end.

(** pykrylov_tools_utils.py:63-85.  [xs] are the random vectors (the seed is fixed, [repeats] of them); the operator is square. *)
Definition check_symmetric (n : nat) (A : matrix) (eps : R) (xs : list vec) : bool :=
  forallb (fun x =>
    let w := mul n A x in let r := mul n A w in let s := vdot n w w in let t := vdot n x r in
    Rleb (Rabs (s - t)) ((s + eps) * cbrt eps)) xs.

Section Eiv.
Variable T : Type.
Notation solver := (solver T).

(** The arguments tolA, tolB of run (170) and, for the covariance, machine epsilon and the random vectors of the symmetry check. *)
Variables (tolA tolB eps : R) (xs : list vec).

Definition n_vars_of (st : solver) : res nat := pylast (idxs (m_idx R T (g_m T st))).
Definition n_mu_of (st : solver) : res nat := pylast (cNm (m_idx R T (g_m T st))).
Definition n_a_of (st : solver) : nat := length (sd_a T (g_sd T st)).

(** 223, 230-232, 250: [LSMROp.solve(-residuals, damp=0, atol=tolA, btol=tolA, conlim=tolB, itnlim=mxiter_lsmr)].  [attr] is the attribute
    LSMROp.x before the call; the result is the attribute after it. *)
Definition lsmr_call (st : solver) (attr : option (list R)) (b : list R) : res (option (list R)) :=
  do NV <- n_vars_of st;;
  do N_mu <- n_mu_of st;;
  let n := NV + n_a_of st in
  match solve (NV + N_mu) n (op_matrix n (fun x => calc_prod_JPx T st x false)) 0 tolA tolA tolB NV (option_map vec_of attr) (vec_of b) with
  | (Raise e, _) => Raise e
  | (Ok _, a) => Ok (option_map (list_of n) a)
  end.

(** 245-290.  The attribute is None until a call has set it: then [calc_Px(None)] raises TypeError. *)
Definition eiv_iter (st0 : solver) (tol : R) (ga : gstate * option (list R)) : res (gstate * option (list R)) :=
  let (g, attr) := ga in
  do attr' <- lsmr_call (with_xyza T st0 (s_xyza g)) attr (map Ropp (s_res g));;
  match attr' with
  | None => Raise TypeError
  | Some x => do g' <- gn_iter T (fun _ _ _ => Ok x) st0 tol g;; Ok (g', Some x)
  end.

(** 240-291 *)
Fixpoint eiv_loop (st0 : solver) (tol : R) (fuel : nat) (ga : gstate * option (list R)) : res (gstate * option (list R)) :=
  match fuel with
  | 0 => Ok ga
  | S fuel' => if s_conv (fst ga) then Ok ga else do ga' <- eiv_iter st0 tol ga;; eiv_loop st0 tol fuel' ga'
  end.

(** 927-952: one element of the covariance; [None] is nan.  tolU is the default of 927: the argument of run is not passed on (918). *)
Definition tolU : R := (1 / 100000000)%R.
Definition minres_call (st : solver) (NV : nat) (b : list R) : outcome :=
  let n := NV + n_a_of st in let H := op_matrix n (calc_Hx T st) in
  msolve n H eps tolU (1 / 1000000) 500 (check_symmetric n H eps xs) (vec_of b).
Definition cov_element (st : solver) (i j : nat) : res (option R) :=
  let N_a := n_a_of st in
  do NV <- n_vars_of st;;
  do Pd <- calc_Px T st (unit_vec (NV + N_a) (NV + j)) true;;
  do Pc <- calc_Px T st (unit_vec (NV + N_a) (NV + i)) true;;
  match minres_call st NV Pd with
  | NotANumber _ _ => Ok None
  | Finite s => do v <- np_dot Pc (list_of (NV + N_a) (m_x s));; Ok (Some v)
  end.
(** 899-925 *)
Definition cov_matrix (st : solver) : res (list (list (option R))) :=
  let N_a := n_a_of st in
  do V <- mapM (fun i => mapM (fun j => cov_element st i j) (seq 0 N_a)) (seq 0 N_a);;
  Ok (map (fun i => map (fun j =>
    match nth j (nth i V []) None, nth i (nth j V []) None with Some a, Some b => Some ((a + b) / 2)%R | _, _ => None end)
    (seq 0 N_a)) (seq 0 N_a)).

(** What run returns (the cost_p_value is 0), and its local variables niter, conv, GNlog and the attribute xyza. *)
Record eresult := mkE {
  e_a : list R; e_cov : list (list (option R)); e_cost : R; e_dof : Z; e_values : list R; e_ks : list R;
  e_sys : option (list R * list string); e_iter : nat; e_conv : bool; e_log : list glog; e_xyza : list R
}.

(** 170-333 *)
Definition eiv_run (st : solver) (tol : R) (return_covariance : bool) : res eresult :=
  do N_mu <- n_mu_of st;;
  do NV <- n_vars_of st;;
  do res0 <- calc_f T st (g_xyza T st);;
  do ga <- eiv_loop st tol NV (mkG 0 (g_xyza T st) res0 (cost_of res0) None false [], None);;
  let g := fst ga in
  let a := skipn NV (s_xyza g) in
  let st' := with_xyza T st (s_xyza g) in
  do cov <- (if return_covariance then cov_matrix st' else Ok (map (fun _ => repeat (Some 0%R) (length a)) a));;
  do r <- tn_reverse T (residual_obj T st (s_res g) NV);;
  do sys <- systematic_out T st' (s_xyza g) NV;;
  do cost <- match s_cost g with Some c => Ok c | None => Raise UnboundLocalError end;;
  Ok (mkE a cov cost (Z.of_nat NV - Z.of_nat N_mu - Z.of_nat (n_a_of st))%Z (m_values R T r) (m_ks R T r) sys
          (s_iter g) (s_conv g) (s_log g) (s_xyza g)).
End Eiv.
