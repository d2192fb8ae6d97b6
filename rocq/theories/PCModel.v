(** * Model of the preconditioner solver.

    File: /repo/harmonisation_eiv/harmonisation/core/matchup/matchupToolbox/harmonisation/
    harmonisationProcessing/harmonisation_eiv_pc/pc_algo.py (line numbers below).

    Numbers are reals (float32 rounding is not modelled).  A square matrix is a list of rows; JT and Ja
    are lists of columns.  numpy's broadcasting of a 1x1 matrix against a larger block is an error here.
    The library routines cholesky, solve, least_squares, qr and lstsq are arguments. *)
From Coq Require Import Reals.
From Verif Require Import Base ReaderModel UncModel MuModel TransformModel EvalModel HistModel GNModel.
Open Scope nat_scope.

(** numpy [diag(v)] for a 1-D array. *)
Definition np_diag (v : list R) : list (list R) :=
  map (fun i => map (fun j => if i =? j then nth i v 0%R else 0%R) (seq 0 (length v))) (seq 0 (length v)).
(** [dot(A, A.T)]. *)
Definition gram (A : list (list R)) : list (list R) := map (fun r => map (dotp r) A) A.
(** [s * diag(v) * uR / uK]: the 1-D arrays are broadcast along the rows. *)
Definition diag_prod (s : R) (v uR uK : list R) : res (list (list R)) :=
  do M <- mapM (fun r => bop Rmult r uR) (map (scal s) (np_diag v));;
  mapM (fun r => bop Rdiv r uK) M.
(** [V[s:e, s:e] = V[s:e, s:e] + B]. *)
Definition add_block (s e : nat) (B V : list (list R)) : res (list (list R)) :=
  let rows := slice s e V in
  if length B =? length rows then
    do rows' <- mapM (fun p => if length (snd p) =? length (slice s e (fst p)) then add_slice s e (snd p) (fst p)
                               else Raise ValueError) (combine rows B);;
    assign s e rows' V
  else Raise ValueError.
(** [JT[s:e, i] = v] for a Python integer i. *)
Definition set_col (i : Z) (s e : nat) (v : list R) (JT : list (list R)) : res (list (list R)) :=
  do col <- pyget JT i;;
  do col' <- assign s e v col;;
  setitem (Z.to_nat (if (0 <=? i)%Z then i else Z.of_nat (length JT) + i)) col' JT.
(** [dot(JT, JT.T)], JT with N rows. *)
Definition col_gram (N : nat) (JT : list (list R)) : list (list R) :=
  map (fun p => map (fun q => rsum (map (fun c => nth p c 0 * nth q c 0)%R JT)) (seq 0 N)) (seq 0 N).
(** [A + B] for matrices of equal shape. *)
Definition mat_add (A B : list (list R)) : list (list R) :=
  map (fun p => zip2 Rplus (fst p) (snd p)) (combine A B).
(** [dot(U, U.T)]; same as [gram]. *)

Section PC.
Variable T : Type.
Notation mobj := (mobj R T).
Notation solver := (solver T).

(** pc_algo.py:108-110: calc_R is the method of a GNAlgo without data, so a block with W matrix finds no
    matrices (AttributeError on None; IndexError here). *)
Definition no_matrices (m : mobj) : mobj :=
  mkMobj R T (m_idx R T m) (m_ps R T m) (m_oidx R T m) (m_ops R T m) (m_values R T m) (m_ks R T m) (m_unc R T m) (m_unck R T m)
    [] [] (m_time1 R T m) (m_time2 R T m) (m_across1 R T m) (m_across2 R T m) (m_along1 R T m) (m_along2 R T m) (m_add R T m).
Definition pc_view (st : solver) : solver := mkSolver T (no_matrices (g_m T st)) (g_sd T st) (g_ocs T st) (g_xyza T st) (g_S T st).

(** pc_algo.py:104-110: HData, xyza = append(values, a).  (The attribute S of [solver] is not used here.) *)
Definition pc_init (m : mobj) (sd : sdat T) : solver := mkSolver T m sd (sd_cs T sd) (m_values R T m ++ sd_a T sd) [].

(** pc_algo.py:227-240, :370-384: one sensor of a series: sensor function and adjustment function, with
    their derivatives. *)
Definition pc_side (st : solver) (s n : nat) : res (option (list (list R)) * (list R * list R)) :=
  let m := g_m T st in
  do name <- get (sensors (m_idx R T m)) s;;
  do xt <- m_getAcross T m n name;;
  do al <- m_getAlong T m n name;;
  do t <- m_getTime T m n name;;
  do r <- calc_R T (pc_view st) s n xt al t;;
  do b <- get (sd_adj T (g_sd T st)) s;;
  do adj <- b (fst r);;
  Ok (snd r, adj).

(** pc_algo.py:249-259: the reference sensor. *)
Definition pc_ref (st : solver) (s : R) (n_s n : nat) (JB uK : list R) (istart iend : nat)
  (VJ : list (list R) * list (list R)) : res (list (list R) * list (list R)) :=
  let ix := m_idx R T (g_m T st) in
  do im <- index eqb2 (n_s, n) (combine (n_sensor ix) (n_mu ix));;
  do u <- get (m_unc R T (g_m T st)) im;;
  do uR <- match u_kind R u with UK1 _ r => Ok r | UK2 _ r _ => Ok r | _ => Raise AttributeError end;;
  do JK <- diag_prod s JB uR uK;;
  do V <- add_block istart iend (gram JK) (fst VJ);;
  Ok (V, snd VJ).

(** pc_algo.py:266-284: one covariate.  (A block with W matrix would reuse JK of the previous covariate;
    it cannot occur, the sensor function has already been given all covariates by calc_R.) *)
Definition pc_cov (st : solver) (s : R) (n_s n : nat) (JB uK : list R) (J : list (list R)) (istart iend : nat)
  (VJ : list (list R) * list (list R)) (c : nat) : res (list (list R) * list (list R)) :=
  let ix := m_idx R T (g_m T st) in
  do im <- index eqb3 (n_s, n, c) (get_block_idxs ix);;
  do u <- get (m_unc R T (g_m T st)) im;;
  do JRc <- get J (c - 1);;
  do d <- bop Rmult JB JRc;;
  match u_kind R u with
  | UK1 _ uR =>
      do JK <- diag_prod s d uR uK;;
      do V <- add_block istart iend (gram JK) (fst VJ);;
      Ok (V, snd VJ)
  | UK2 _ uR uS =>
      do JK <- diag_prod s d uR uK;;
      do v <- bop Rmult (scal s JB) JRc;;
      do v <- bop Rmult v uS;;
      do v <- bop Rdiv v uK;;
      do JT <- set_col (Z.of_nat n_s - 1) istart iend v (snd VJ);;
      do V <- add_block istart iend (gram JK) (fst VJ);;
      Ok (V, JT)
  | _ => Raise AttributeError
  end.

(** pc_algo.py:211-284: both sensors of series i+1. *)
Definition pc_series (st : solver) (N_cov : nat) (VJ : list (list R) * list (list R)) (p : nat * (nat * nat))
  : res (list (list R) * list (list R)) :=
  let m := g_m T st in
  do uK <- get (m_unck R T m) (fst p);;
  do istart <- get (cNm (m_idx R T m)) (fst p);;
  do iend <- get (cNm (m_idx R T m)) (fst p + 1);;
  foldM (fun acc q =>
    do side <- pc_side st (snd q) (fst p + 1);;
    let s := (if fst q =? 1 then 1 else -1)%R in
    let JB := snd (snd side) in
    match fst side with
    | None => pc_ref st s (snd q) (fst p + 1) JB uK istart iend acc
    | Some J => foldM (pc_cov st s (snd q) (fst p + 1) JB uK J istart iend) (seq 1 N_cov) acc
    end) [(0, fst (snd p)); (1, snd (snd p))] VJ.

(** pc_algo.py:182-289 up to the call of cholesky: the covariance matrix VK.
    ([len(set(parameter_sensor))] is the number of distinct names.) *)
Definition calc_VK (st : solver) : res (list (list R)) :=
  let m := g_m T st in
  do N_mu <- pylast (cNm (m_idx R T m));;
  do N_cov <- pylast (n_cov (m_idx R T m));;
  do ps <- match m_ps R T m with Some l => Ok l | None => Raise KeyError end;;
  let JT := repeat (repeat 0%R N_mu) (length (nodup string_dec ps)) in
  do VJ <- foldM (pc_series st N_cov) (enumerate (Im (m_idx R T m))) (eye N_mu, JT);;
  Ok (mat_add (fst VJ) (col_gram N_mu (snd VJ))).

(** ** calc_fJa *)

(** pc_algo.py:352: [xyza[N_var:N_var+N_a] = a]. *)
Definition pc_update (st : solver) (a : list R) : res solver :=
  do NV <- pylast (idxs (m_idx R T (g_m T st)));;
  do x <- assign NV (NV + length (sd_a T (g_sd T st))) a (g_xyza T st);;
  Ok (with_xyza T st x).

(** pc_algo.py:387-390: the columns of the sensor's parameters. *)
Definition pc_params (ps : list string) (name : string) (N_cov : nat) (s : R) (JB uK : list R) (J : list (list R))
  (istart iend : nat) (Ja : list (list R)) : res (list (list R)) :=
  let pos := param_pos ps name 0 in
  do cols <- param_cols J N_cov (length pos);;
  foldM (fun acc p =>
    do v <- bop Rmult (scal s JB) (snd p);;
    do v <- bop Rdiv v uK;;
    do col <- get acc (fst p);;
    do col' <- assign istart iend v col;;
    setitem (fst p) col' acc) (combine pos cols) Ja.

(** pc_algo.py:355-391: estimated K (normalised) and the Jacobian, both not yet weighted. *)
Definition pc_kJ (st : solver) : res (list R * list (list R)) :=
  let m := g_m T st in
  do N_mu <- pylast (cNm (m_idx R T m));;
  do N_cov <- pylast (n_cov (m_idx R T m));;
  let N_a := length (sd_a T (g_sd T st)) in
  foldM (fun acc p =>
    do uK <- get (m_unck R T m) (fst p);;
    do istart <- get (cNm (m_idx R T m)) (fst p);;
    do iend <- get (cNm (m_idx R T m)) (fst p + 1);;
    do r <- foldM (fun acc q =>
        do name <- get (sensors (m_idx R T m)) (snd q);;
        do side <- pc_side st (snd q) (fst p + 1);;
        let s := (if fst q =? 1 then 1 else -1)%R in
        do Ja <- match fst side with
                 | None => Ok (snd acc)
                 | Some J =>
                     do ps <- match m_ps R T m with Some l => Ok l | None => Raise KeyError end;;
                     pc_params ps name N_cov s (snd (snd side)) uK J istart iend (snd acc)
                 end;;
        Ok (fst acc ++ [fst (snd side)], Ja)) [(0, fst (snd p)); (1, snd (snd p))] ([], snd acc);;
    do B0 <- get (fst r) 0;;
    do B1 <- get (fst r) 1;;
    do d <- bop Rminus B1 B0;;
    do d <- bop Rdiv d uK;;
    do k <- assign istart iend d (fst acc);;
    Ok (k, snd r)) (enumerate (Im (m_idx R T m))) (repeat 0%R N_mu, repeat (repeat 0%R N_mu) N_a).

(** numpy.linalg.cholesky and numpy.linalg.solve (matrix, 1-D right-hand side). *)
Variable cholesky : list (list R) -> res (list (list R)).
Variable solve : list (list R) -> list R -> res (list R).

(** pc_algo.py:292-306, 395-398 *)
Definition get_f (st : solver) (LK : list (list R)) : res (list R) :=
  do kJ <- pc_kJ st;;
  do d <- bop Rminus (fst kJ) (m_ks R T (g_m T st));;
  solve LK d.
(** pc_algo.py:308-324, 400-403; the result as a list of columns. *)
Definition get_Ja (st : solver) (LK : list (list R)) : res (list (list R)) :=
  do kJ <- pc_kJ st;; mapM (solve LK) (snd kJ).

(** ** runPC *)

(** [least_squares k st LK a0]: what scipy's least_squares does in iteration k of the loop below, given
    the state at the call: the parameter vectors at which it calls get_f or get_Ja, in this order (each
    call writes them into xyza), and the solution it returns. *)
Variable least_squares : nat -> solver -> list (list R) -> list R -> res (list (list R) * list R).

(** Calls of get_f and get_Ja: the state after them. *)
Definition pc_calls (st : solver) (LK : list (list R)) (as_ : list (list R)) : res solver :=
  foldM (fun st a => do st' <- pc_update st a;; do _f <- get_f st' LK;; Ok st') as_ st.

(** pc_algo.py:145-167: [while (conv is False) and (niter < mxiter)].  Result: the state, the last
    Cholesky factor and solution (None: no iteration), convergence, number of iterations. *)
Fixpoint pc_loop (tol : R) (fuel : nat) (st : solver) (a0 : list R) (niter : nat) (last : option (list (list R) * list R))
  : res (solver * option (list (list R) * list R) * bool * nat) :=
  match fuel with
  | 0 => Ok (st, last, false, niter)
  | S fuel' =>
      do VK <- calc_VK st;;
      do LK <- cholesky VK;;
      do r <- least_squares niter st LK a0;;
      do st' <- pc_calls st LK (fst r);;
      do d <- bop Rminus (snd r) a0;;
      if rltb (norm2 d) tol then Ok (st', Some (LK, snd r), true, S niter)
      else pc_loop tol fuel' st' (snd r) (S niter) (Some (LK, snd r))
  end.

(** [R = qr(J)[1][:N_a, :N_a]] of a matrix given by its columns, and [lstsq(R, eye)[0]]. *)
Variable qr_R : list (list R) -> res (list (list R)).
Variable lstsq_eye : list (list R) -> res (list (list R)).

(** pc_algo.py:112-180: parameters and covariance (the other five returned values are None).
    [mxiter = 20 + ceil(ncol**0.5)]. *)
Definition pc_mxiter (st : solver) : nat :=
  20 + Nat.sqrt_up (length (m_values R T (g_m T st)) + length (sd_a T (g_sd T st))).
Record pc_result := mkPC { pc_a : list R; pc_V : list (list R); pc_conv : bool; pc_iter : nat }.
Definition runPC (st : solver) (tol : R) : res pc_result :=
  do l <- pc_loop tol (pc_mxiter st) st (sd_a T (g_sd T st)) 0 None;;
  let '(st', last, conv, n) := l in
  do La <- match last with Some x => Ok x | None => Raise UnboundLocalError end;;
  do st2 <- pc_update st' (snd La);;
  do J <- get_Ja st2 (fst La);;
  do Rm <- qr_R J;;
  do U <- lstsq_eye Rm;;
  Ok (mkPC (snd La) (gram U) conv n).
End PC.
