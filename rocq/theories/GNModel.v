(** * Model of the Gauss-Newton solver.

    File: /repo/harmonisation_eiv/harmonisation/core/matchup/matchupToolbox/harmonisation/
    harmonisationProcessing/harmonisation_eiv/GN_algo.py (line numbers below).

    Numbers are reals: the float32 arrays and their rounding are not modelled.  2-D arrays of
    derivatives are lists of columns, the preconditioner solution S is a list of rows.  The inner
    solvers (LSMR, MINRES) are arguments: the theorems hold for whatever they return. *)
From Coq Require Import Reals.
From Verif Require Import Base ReaderModel UncModel MuModel TransformModel EvalModel HistModel.
Open Scope nat_scope.

(** numpy dot of two 1-D arrays: ValueError unless the lengths agree. *)
Definition dotp (a b : list R) : R := rsum (zip2 Rmult a b).
Definition np_dot (a b : list R) : res R :=
  if length a =? length b then Ok (dotp a b) else Raise ValueError.

(** numpy dot of a matrix (list of rows) with a vector, and of its transpose with a vector.  An array
    without rows has no columns here. *)
Definition mat_dot (rows : list (list R)) (x : list R) : res (list R) := mapM (fun r => np_dot r x) rows.
Definition column (j : nat) (rows : list (list R)) : list R := map (fun r => nth j r 0%R) rows.
Definition mat_tdot (rows : list (list R)) (x : list R) : res (list R) :=
  mapM (fun j => np_dot (column j rows) x) (seq 0 (length (hd [] rows))).

(** scipy: [w.T.dot(v)], ValueError unless len(v) is the number of rows of w.  Entry j is the sum over
    the rows i of the stored entries of row i in column j, times v_i. *)
Definition csr_entry (w : csr R) (i j : nat) : R :=
  let s := nth i (c_indptr R w) 0 in let e := nth (i + 1) (c_indptr R w) 0 in
  rsum (map snd (filter (fun p => fst p =? j) (combine (slice s e (c_indices R w)) (slice s e (c_data R w))))).
Definition csr_tdot (w : csr R) (v : list R) : res (list R) :=
  if length v =? c_nrows R w then
    Ok (map (fun j => rsum (map (fun i => csr_entry w i j * nth i v 0)%R (seq 0 (c_nrows R w)))) (seq 0 (c_ncols R w)))
  else Raise ValueError.

(** [arr[s:e] = arr[s:e] + t]. *)
Definition add_slice (s e : nat) (t arr : list R) : res (list R) :=
  do v <- bop Rplus (slice s e arr) t;; assign s e v arr.
(** [arr[i] = arr[i] + t] for a Python integer i. *)
Definition add_item (i : Z) (t : R) (arr : list R) : res (list R) :=
  do a <- pyget arr i;;
  setitem (Z.to_nat (if (0 <=? i)%Z then i else Z.of_nat (length arr) + i)) (a + t)%R arr.

Definition scal (s : R) (v : list R) : list R := map (Rmult s) v.

Section GN.
Variable T : Type.
Notation mobj := (mobj R T).

(** The attributes of GNAlgo: HData (a transformed MatchUp object), its sensor data, the entry
    sensor_model_constant_sensor of _original_idx, xyza, S (GN_algo.py:142-168). *)
Record solver := mkSolver {
  g_m : mobj; g_sd : sdat T; g_ocs : list string; g_xyza : list R; g_S : list (list R)
}.
Definition with_xyza (st : solver) (x : list R) : solver := mkSolver (g_m st) (g_sd st) (g_ocs st) x (g_S st).

(** GN_algo.py:158-168 with V_initial=None: [eye(len(a))]. (With V_initial, S = cholesky(V_initial).) *)
Definition eye (n : nat) : list (list R) :=
  map (fun i => map (fun j => if i =? j then 1%R else 0%R) (seq 0 n)) (seq 0 n).
Definition gn_init (m : mobj) (sd : sdat T) (ocs : list string) : solver :=
  mkSolver m sd ocs (m_values R T m ++ sd_a T sd) (eye (length (sd_a T sd))).

(** GN_algo.py:846-897 *)
Definition calc_Px (st : solver) (x : list R) (transpose : bool) : res (list R) :=
  do NV <- pylast (idxs (m_idx R T (g_m st)));;
  let N_tot := NV + length (sd_a T (g_sd st)) in
  do x2 <- (if transpose then mat_tdot else mat_dot) (g_S st) (slice NV N_tot x);;
  Ok (slice 0 NV x ++ x2).

(** [xyza[-k:]] *)
Definition last_k {A} (k : nat) (l : list A) : list A := if k =? 0 then l else skipn (length l - k) l.

(** GN_algo.py:441-531 *)
Definition calc_R (st : solver) (s n : nat) (xt al : option (list R)) (t : option (list T))
  : res (list R * option (list (list R))) :=
  let m := g_m st in let sd := g_sd st in
  do name <- get (sensors (m_idx R T m)) s;;
  do ps <- match m_ps R T m with Some l => Ok l | None => Raise KeyError end;;
  let a := select ps (last_k (length ps) (g_xyza st)) name in
  do X <- unconvert_Xs T m (g_xyza st) s n;;
  do f <- get (sd_model T sd) s;;
  f X a (select (sd_cs T sd) (sd_c T sd) name) xt al t.

(** GN_algo.py:717-736: derivatives of the adjustment model (JB) and of the sensor model (JR). *)
Definition side_jac (st : solver) (s n : nat) : res (list R * option (list (list R))) :=
  let m := g_m st in
  do name <- get (sensors (m_idx R T m)) s;;
  do xt <- m_getAcross T m n name;;
  do al <- m_getAlong T m n name;;
  do t <- m_getTime T m n name;;
  do r <- calc_R st s n xt al t;;
  do b <- get (sd_adj T (g_sd st)) s;;
  do adj <- b (fst r);;
  Ok (snd adj, snd r).

(** The product [s * JB * JR[:, c] * x * u / uK], evaluated from left to right. *)
Definition prod5 (s : R) (JB JRc x u uK : list R) : res (list R) :=
  do t <- bop Rmult (scal s JB) JRc;;
  do t <- bop Rmult t x;;
  do t <- bop Rmult t u;;
  bop Rdiv t uK.

(** GN_algo.py:743-756: the reference sensor.  A block without uR (types 3, 4) raises AttributeError. *)
Definition ref_term (tr : bool) (st : solver) (s : R) (n_s n : nat) (JB x uK : list R) (istart iend : nat) (JPx : list R)
  : res (list R) :=
  let ix := m_idx R T (g_m st) in
  do im <- index eqb2 (n_s, n) (combine (n_sensor ix) (n_mu ix));;
  do ib <- get (idxs ix) im;;
  do nv <- get (N_var ix) im;;
  do u <- get (m_unc R T (g_m st)) im;;
  do uR <- match u_kind R u with UK1 _ r => Ok r | UK2 _ r _ => Ok r | _ => Raise AttributeError end;;
  do t <- bop Rmult (scal s JB) (if tr then slice istart iend x else slice ib (ib + nv) x);;
  do t <- bop Rmult t uR;;
  do t <- bop Rdiv t uK;;
  if tr then add_slice ib (ib + nv) t JPx else add_slice istart iend t JPx.

(** GN_algo.py:770-829: one covariate, given its derivatives [JRc] and its uncertainty [u]. *)
Definition cov_term (tr : bool) (st : solver) (n_us last : nat) (s : R) (JB JRc x uK : list R)
           (istart iend ib ie : nat) (u : unc R) (JPx : list R) : res (list R) :=
  match u_kind R u with
  | UK1 _ uR =>
      if tr then do t <- prod5 s JB JRc (slice istart iend x) uR uK;; add_slice ib ie t JPx
      else do t <- prod5 s JB JRc (slice ib ie x) uR uK;; add_slice istart iend t JPx
  | UK2 _ uR uS =>
      do k <- sys_no u;;
      let i := isys last n_us k in
      if tr then
        do t <- prod5 s JB JRc (slice istart iend x) uR uK;;
        do J <- add_slice ib ie t JPx;;
        do v <- bop Rmult JB JRc;;
        do v <- bop Rmult v uS;;
        do v <- bop Rdiv v uK;;
        do c <- np_dot v (slice istart iend x);;
        add_item i (s * c)%R J
      else
        do t <- prod5 s JB JRc (slice ib ie x) uR uK;;
        do J <- add_slice istart iend t JPx;;
        do v <- bop Rmult JB JRc;;
        do xi <- pyget x i;;
        do v <- bop Rmult (map (fun y => y * xi)%R (scal s v)) uS;;
        do v <- bop Rdiv v uK;;
        add_slice istart iend v J
  | UK3 _ wi ui =>
      do w <- get (m_ws R T (g_m st)) wi;;
      do uv <- get (m_us R T (g_m st)) ui;;
      if tr then
        do v <- bop Rmult JB JRc;;
        do v <- bop Rmult v (slice istart iend x);;
        do v <- bop Rdiv v uK;;
        do wt <- csr_tdot w v;;
        do t <- bop Rmult (scal s uv) wt;;
        add_slice ib ie t JPx
      else
        do v <- bop Rmult (scal s JB) JRc;;
        do ux <- bop Rmult uv (slice ib ie x);;
        do wx <- csr_dot w ux;;
        do v <- bop Rmult v wx;;
        do t <- bop Rdiv v uK;;
        add_slice istart iend t JPx
  | UK4 _ wi ui uS =>
      do k <- sys_no u;;
      let i := isys last n_us k in
      do w <- get (m_ws R T (g_m st)) wi;;
      do uv <- get (m_us R T (g_m st)) ui;;
      let us := repeat uS (length uv) in
      if tr then
        do v <- bop Rmult JB JRc;;
        do v <- bop Rmult v (slice istart iend x);;
        do v <- bop Rdiv v uK;;
        do wt <- csr_tdot w v;;
        do t <- bop Rmult (scal s uv) wt;;
        do J <- add_slice ib ie t JPx;;
        do v <- bop Rmult JB JRc;;
        do wu <- csr_dot w us;;
        do v <- bop Rmult v wu;;
        do v <- bop Rdiv v uK;;
        do c <- np_dot v (slice istart iend x);;
        add_item i (s * c)%R J
      else
        do v <- bop Rmult (scal s JB) JRc;;
        do ux <- bop Rmult uv (slice ib ie x);;
        do wx <- csr_dot w ux;;
        do v <- bop Rmult v wx;;
        do t <- bop Rdiv v uK;;
        do J <- add_slice istart iend t JPx;;
        do v <- bop Rmult JB JRc;;
        do xi <- pyget x i;;
        do wx <- csr_dot w (map (fun y => y * xi)%R us);;
        do v <- bop Rmult (scal s v) wx;;
        do t <- bop Rdiv v uK;;
        add_slice istart iend t J
  end.

(** GN_algo.py:831-841: positions of the sensor's parameters, and the columns of derivatives
    [JR[:, N_cov:N_cov+N_sensor_p]] after broadcasting against N_sensor_p columns. *)
Definition param_pos (ps : list string) (name : string) (NV : nat) : list nat :=
  map (fun p => NV + fst p) (filter (fun p => String.eqb (snd p) name) (enumerate ps)).
Definition param_cols (J : list (list R)) (N_cov np : nat) : res (list (list R)) :=
  let c := slice N_cov (N_cov + np) J in
  if length c =? np then Ok c else match c with [v] => Ok (repeat v np) | _ => Raise ValueError end.
(** Sum of the columns [cols] weighted with [xs]; [n] rows. *)
Definition lin_comb (n : nat) (cols : list (list R)) (xs : list R) : list R :=
  fold_right (fun p acc => zip2 Rplus (map (fun y => y * snd p)%R (fst p)) acc) (repeat 0%R n) (combine cols xs).
Definition param_term (tr : bool) (st : solver) (NV N_cov : nat) (s : R) (name : string) (JB x uK : list R)
           (J : list (list R)) (istart iend : nat) (JPx : list R) : res (list R) :=
  do ps <- match m_ps R T (g_m st) with Some l => Ok l | None => Raise KeyError end;;
  let pos := param_pos ps name NV in
  do cols <- param_cols J N_cov (length pos);;
  (* [asarray([])] is an array of floats, and cannot be used as an index *)
  if length pos =? 0 then Raise IndexError else
  if tr then
    do M <- mapM (bop Rmult JB) cols;;
    do v <- bop Rdiv (slice istart iend x) uK;;
    do c <- mapM (fun col => np_dot col v) M;;
    foldM (fun acc p =>
      do a <- get JPx (fst p);;
      setitem (fst p) (a + s * snd p)%R acc) (combine pos c) JPx
  else
    do w <- bop Rdiv JB uK;;
    do M <- mapM (bop Rmult w) cols;;
    do xs <- mapM (get x) pos;;
    add_slice istart iend (scal s (lin_comb (length w) M xs)) JPx.

(** GN_algo.py:759-841: a sensor with derivatives. *)
Definition sensor_term (tr : bool) (st : solver) (NV N_cov n_us : nat) (s : R) (name : string) (n_s n : nat)
           (JB x uK : list R) (J : list (list R)) (istart iend : nat) (JPx : list R) : res (list R) :=
  let ix := m_idx R T (g_m st) in
  do A <- foldM (fun acc c =>
      do im <- index eqb3 (n_s, n, c) (get_block_idxs ix);;
      do ib <- get (idxs ix) im;;
      do nv <- get (N_var ix) im;;
      do u <- get (m_unc R T (g_m st)) im;;
      do JRc <- get J (c - 1);;
      cov_term tr st n_us NV s JB JRc x uK istart iend ib (ib + nv) u acc) (seq 1 N_cov) JPx;;
  param_term tr st NV N_cov s name JB x uK J istart iend A.

(** GN_algo.py:698-841: both sensors of series i+1. *)
Definition series_term (tr : bool) (st : solver) (NV N_cov n_us : nat) (x : list R) (JPx : list R) (p : nat * (nat * nat))
  : res (list R) :=
  let m := g_m st in
  do c0 <- get (cNm (m_idx R T m)) (fst p);;
  do c1 <- get (cNm (m_idx R T m)) (fst p + 1);;
  do uK <- get (m_unck R T m) (fst p);;
  foldM (fun acc q =>
    do name <- get (sensors (m_idx R T m)) (snd q);;
    let s := (if fst q =? 1 then 1 else -1)%R in
    do jb <- side_jac st (snd q) (fst p + 1);;
    match snd jb with
    | None => ref_term tr st s (snd q) (fst p + 1) (fst jb) x uK (NV + c0) (NV + c1) acc
    | Some J => sensor_term tr st NV N_cov n_us s name (snd q) (fst p + 1) (fst jb) x uK J (NV + c0) (NV + c1) acc
    end) [(0, fst (snd p)); (1, snd (snd p))] JPx.

(** GN_algo.py:608-844 *)
Definition calc_prod_JPx (st : solver) (x : list R) (tr : bool) : res (list R) :=
  let m := g_m st in
  do N_mu <- pylast (cNm (m_idx R T m));;
  do NV <- pylast (idxs (m_idx R T m));;
  do N_cov <- pylast (n_cov (m_idx R T m));;
  do n_us <- n_uS (m_unc R T m);;
  do x <- if tr then Ok x else calc_Px st x false;;
  do J0 <- assign 0 NV (slice 0 NV x) (repeat 0%R (NV + if tr then length (sd_a T (g_sd st)) else N_mu));;
  do J <- foldM (series_term tr st NV N_cov n_us x) (enumerate (Im (m_idx R T m))) J0;;
  if tr then calc_Px st J true else Ok J.

(** GN_algo.py:954-970 *)
Definition calc_Hx (st : solver) (x : list R) : res (list R) :=
  do y <- calc_prod_JPx st x false;; calc_prod_JPx st y true.

(** GN_algo.py:373-391: the object whose K is evaluated.  A new MatchUp object: no track indices, no
    times (MatchUp.py:129-160). *)
Definition estimate_obj (st : solver) (xyza : list R) (NV N_mu : nat) : mobj :=
  let m := g_m st in
  mkMobj R T (m_idx R T m) (m_ps R T m) (m_oidx R T m) (m_ops R T m) (slice 0 NV xyza) (repeat 0%R N_mu)
    (m_unc R T m) (m_unck R T m) (m_ws R T m) (m_us R T m) None None None None None None None.
Definition estimate_sd (st : solver) (xyza : list R) (NV : nat) : sdat T :=
  mkSdat T (skipn NV xyza) (sd_c T (g_sd st)) (g_ocs st) (sd_model T (g_sd st)) (sd_adj T (g_sd st)).

(** GN_algo.py:393-398: [ks[istart:iend] /= uR], in place. *)
Definition norm_ks (r : mobj) (ks : list R) : res (list R) :=
  foldM (fun arr i =>
    do s <- get (cNm (m_idx R T r)) i;;
    do e <- get (cNm (m_idx R T r)) (i + 1);;
    do u <- get (m_unck R T r) i;;
    do v <- bop Rdiv (slice s e arr) u;;
    if length v =? length (slice s e arr) then assign s e v arr else Raise ValueError)
    (seq 0 (length (Im (m_idx R T r)))) ks.

(** GN_algo.py:335-403 *)
Definition calc_f (st : solver) (xyza : list R) : res (list R) :=
  let m := g_m st in
  do N_mu <- pylast (cNm (m_idx R T m));;
  do NV <- pylast (idxs (m_idx R T m));;
  do dv <- bop Rminus (slice 0 NV xyza) (slice 0 NV (m_values R T m));;
  do f <- assign 0 NV dv (repeat 0%R (NV + N_mu));;
  do r <- tn_reverse T (estimate_obj st xyza NV N_mu);;
  do ks <- evaluate_K T r (estimate_sd st xyza NV) SelAll;;
  do ks <- norm_ks r ks;;
  do dk <- bop Rminus ks (m_ks R T m);;
  assign NV (NV + N_mu) dk f.

(** ** run *)

(** numpy norm(v)**2 and norm(v, inf). *)
Definition norm2 (v : list R) : R := sqrt (rsum (map (fun x => x * x)%R v)).
Definition cost_of (v : list R) : R := (norm2 v ^ 2)%R.
Definition norm_inf (v : list R) : res R :=
  match v with [] => Raise ValueError | _ => Ok (fold_right Rmax 0%R (map Rabs v)) end.
(** [tol**(1./3.)] for tol >= 0. *)
Definition cbrt (t : R) : R := if Req_EM_T t 0 then 0%R else Rpower t (1 / 3).

Definition rltb (a b : R) : bool := if Rlt_dec a b then true else false.
Definition rleb (a b : R) : bool := if Rle_dec a b then true else false.

(** The log entry of an iteration (GN_algo.py:282). *)
Record glog := mkLog { l_iter : nat; l_red : R; l_redtol : R; l_d : R; l_dtol : R; l_g : R; l_gtol : R }.
(** GN_algo.py:277-279 *)
Definition converged (l : glog) : bool :=
  rleb 0 (l_red l) && rltb (l_red l) (l_redtol l) && rltb (l_d l) (l_dtol l) && rleb (l_g l) (l_gtol l).

(** Loop state: number of iterations done, estimate, residuals, cost of the previous residuals, cost of
    the last iteration (None: not yet assigned), converged, log. *)
Record gstate := mkG {
  s_iter : nat; s_xyza : list R; s_res : list R; s_prev : R; s_cost : option R; s_conv : bool; s_log : list glog
}.

(** [lsmr k st b]: what the k-th call of LSMROp.solve with right-hand side b leaves in LSMROp.x, with
    the operator built from the solver state st. *)
Variable lsmr : nat -> solver -> list R -> res (list R).

(** GN_algo.py:245-290: one iteration. *)
Definition gn_iter (st0 : solver) (tol : R) (g : gstate) : res gstate :=
  let niter := S (s_iter g) in
  let st := with_xyza st0 (s_xyza g) in
  do sol <- lsmr niter st (map Ropp (s_res g));;
  do d <- calc_Px st sol false;;
  do xyza <- (if length d =? length (s_xyza g) then bop Rplus (s_xyza g) d else Raise ValueError);;
  do residuals <- calc_f (with_xyza st0 xyza) xyza;;
  let cost := cost_of residuals in
  do jt <- calc_prod_JPx (with_xyza st0 xyza) residuals true;;
  let gradient := map (Rmult 2) jt in
  do nd <- norm_inf d;;
  do nx <- norm_inf xyza;;
  do ng <- norm_inf gradient;;
  let log := mkLog niter (s_prev g - cost)%R (tol * (1 + cost))%R nd (sqrt tol * (1 + nx))%R ng (cbrt tol * (1 + cost))%R in
  Ok (mkG niter xyza residuals cost (Some cost) (converged log) (s_log g ++ [log])).

(** GN_algo.py:240-291: [while (conv is False) and (niter < mxiter)]; [fuel] counts the remaining
    iterations mxiter - niter. *)
Fixpoint gn_loop (st0 : solver) (tol : R) (fuel : nat) (g : gstate) : res gstate :=
  match fuel with
  | 0 => Ok g
  | S fuel' => if s_conv g then Ok g else do g' <- gn_iter st0 tol g;; gn_loop st0 tol fuel' g'
  end.

(** GN_algo.py:319-327: fitted systematic errors and the sensor of each. *)
Definition systematic_out (st : solver) (xyza : list R) (NV : nat) : res (option (list R * list string)) :=
  let m := g_m st in
  do n_us <- n_uS (m_unc R T m);;
  if n_us =? 0 then Ok None else
  do nos <- mapM (fun u => if is_sys u then sys_no u else Ok 0) (m_unc R T m);;
  do names <- mapM (fun i =>
      do b <- index Nat.eqb i nos;;
      do s <- get (n_sensor (m_idx R T m)) b;;
      get (sensors (m_idx R T m)) s) (seq 1 n_us);;
  Ok (Some (slice (NV - n_us) NV xyza, names)).

(** [minres i j st b]: what MinresOp.solve leaves in MinresOp.x for element (i, j). *)
Variable minres : nat -> nat -> solver -> list R -> res (list R).

Definition unit_vec (n k : nat) : list R := map (fun i => if i =? k then 1%R else 0%R) (seq 0 n).
(** GN_algo.py:927-952 *)
Definition covariance_ij (st : solver) (i j : nat) : res R :=
  let N_a := length (sd_a T (g_sd st)) in
  do NV <- pylast (idxs (m_idx R T (g_m st)));;
  do Pd <- calc_Px st (unit_vec (NV + N_a) (NV + j)) true;;
  do dt <- minres i j st Pd;;
  do Pc <- calc_Px st (unit_vec (NV + N_a) (NV + i)) true;;
  np_dot Pc dt.

(** GN_algo.py:899-925 (the pool maps the list of index pairs and keeps its order). *)
Definition covariance (st : solver) : res (list (list R)) :=
  let N_a := length (sd_a T (g_sd st)) in
  do V <- mapM (fun i => mapM (fun j => covariance_ij st i j) (seq 0 N_a)) (seq 0 N_a);;
  Ok (map (fun i => map (fun j => ((nth j (nth i V []) 0 + nth i (nth j V []) 0) / 2)%R) (seq 0 N_a)) (seq 0 N_a)).

Record gresult := mkRes {
  r_a : list R; r_cov : list (list R); r_cost : R; r_dof : Z; r_p : R; r_values : list R; r_ks : list R;
  r_sys : option (list R * list string); r_iter : nat; r_conv : bool; r_log : list glog; r_xyza : list R
}.

(** GN_algo.py:305-314: the residuals as a match-up object, transformed back. *)
Definition residual_obj (st : solver) (res : list R) (NV : nat) : mobj :=
  let m := g_m st in
  mkMobj R T (m_idx R T m) (m_ps R T m) (m_oidx R T m) (m_ops R T m) (slice 0 NV res) (skipn NV res)
    (m_unc R T m) (m_unck R T m) (m_ws R T m) (m_us R T m) None None None None None None None.

(** GN_algo.py:170-333.  (mxiter = ceil(N_var) = N_var.  The fields r_iter, r_conv, r_log, r_xyza are not
    returned by the Python; they are the local variables and the attribute xyza after the run.  If no
    iteration runs, [cost] is unbound at the return statement.) *)
Definition gn_run (st : solver) (tol : R) (return_covariance : bool) : res gresult :=
  let m := g_m st in
  do N_mu <- pylast (cNm (m_idx R T m));;
  do NV <- pylast (idxs (m_idx R T m));;
  let N_a := length (sd_a T (g_sd st)) in
  do res0 <- calc_f st (g_xyza st);;
  do g <- gn_loop st tol NV (mkG 0 (g_xyza st) res0 (cost_of res0) None false []);;
  let a := skipn NV (s_xyza g) in
  let st' := with_xyza st (s_xyza g) in
  do cov <- (if return_covariance then covariance st' else Ok (map (fun _ => repeat 0%R (length a)) a));;
  do r <- tn_reverse T (residual_obj st (s_res g) NV);;
  do sys <- systematic_out st' (s_xyza g) NV;;
  do cost <- match s_cost g with Some c => Ok c | None => Raise UnboundLocalError end;;
  Ok (mkRes a cov cost (Z.of_nat NV - Z.of_nat N_mu - Z.of_nat N_a)%Z 0%R (m_values R T r) (m_ks R T r) sys
            (s_iter g) (s_conv g) (s_log g) (s_xyza g)).
End GN.
