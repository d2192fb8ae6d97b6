(** * Model of Transform2NormInd.run and reverse, and of the two unconvert_Xs functions.

    Files: /repo/harmonisation_eiv/harmonisation/core/matchup/
      matchupProcessing/transform2normind/Transform2NormInd.py,
      matchupToolbox/harmonisation/harmonisationProcessing/harmonisation_eiv/GN_algo.py (unconvert_Xs),
      matchupToolbox/harmonisation/harmonisationProcessing/harmonisation_eiv/cython_lib_GN_algo.pyx.

    Numbers are reals: float32/float64 rounding is not modelled, and a division by zero (a numpy
    warning and inf/nan) is Coq's total division; the theorems require non-zero divisors. *)
From Coq Require Import Reals.
From Verif Require Import Base ReaderModel UncModel MuModel.
Open Scope nat_scope.

(** Element-wise numpy operation on 1-D arrays, with broadcasting of length 1. *)
Definition zip2 (f : R -> R -> R) (a b : list R) : list R := map (fun p => f (fst p) (snd p)) (combine a b).
Definition bop (f : R -> R -> R) (a b : list R) : res (list R) :=
  if length a =? length b then Ok (zip2 f a b)
  else match a, b with
       | [x], _ => Ok (map (f x) b)
       | _, [y] => Ok (map (fun x => f x y) a)
       | _, _ => Raise ValueError
       end.

(** Sum of a list of reals. *)
Definition rsum (l : list R) : R := fold_right Rplus 0%R l.

(** scipy csr_matrix.dot(v): ValueError unless len(v) is the number of columns.  (Stored columns are
    in range for every matrix scipy accepts; out of range is IndexError here.) *)
Definition row_dot (w : csr R) (v : list R) (i : nat) : res R :=
  do s <- get (c_indptr R w) i;;
  do e <- get (c_indptr R w) (i + 1);;
  do xs <- mapM (get v) (slice s e (c_indices R w));;
  Ok (rsum (zip2 Rmult (slice s e (c_data R w)) xs)).
Definition csr_dot (w : csr R) (v : list R) : res (list R) :=
  if length v =? c_ncols R w then mapM (row_dot w v) (seq 0 (c_nrows R w)) else Raise ValueError.

(** Attribute uS_i of a type 2 or 4 uncertainty, set by the reader. *)
Definition sys_no (u : unc R) : res nat :=
  match u_sysi R u with Some k => Ok k | None => Raise AttributeError end.
Definition is_sys (u : unc R) : bool :=
  match u_kind R u with UK2 _ _ _ => true | UK4 _ _ _ _ => true | _ => false end.
(** [max([0]+[unc_i.uS_i for ...])], Transform2NormInd.py:95, :235; GN_algo.py:562; pyx:58. *)
Definition n_uS (us : list (unc R)) : res nat :=
  do l <- mapM sys_no (filter is_sys us);; Ok (list_max l).

Section Transform.
Variable T : Type.
Notation mobj := (mobj R T).

(** ** Transform2NormInd.run *)

(** Transform2NormInd.py:82-92: new number of variables of a block. *)
Definition new_nvar (m : mobj) (p : nat * unc R) : res nat :=
  match u_kind R (snd p) with
  | UK3 _ _ ui => do u <- get (m_us R T m) ui;; Ok (length u)
  | UK4 _ _ ui _ => do u <- get (m_us R T m) ui;; Ok (length u)
  | _ => get (N_var (m_idx R T m)) (fst p)
  end.

(** [idxs[-1] += n]. *)
Fixpoint add_last (n : nat) (l : list nat) : list nat :=
  match l with
  | [] => []
  | [x] => [x + n]
  | x :: l' => x :: add_last n l'
  end.

(** Transform2NormInd.py:79-111. (N_var has one entry per entry of unc in every opened object.) *)
Definition ind_idx (m : mobj) : res idx_t :=
  let ix := m_idx R T m in
  do nv <- mapM (new_nvar m) (enumerate (m_unc R T m));;
  do ns <- n_uS (m_unc R T m);;
  Ok (mkIdx (Nm ix) (cNm ix) (Im ix) (sensors ix) (sensor_ms ix) (n_sensor ix) (n_mu ix) (n_cov ix)
            nv (add_last ns (cumul 0 nv))).

(** Transform2NormInd.py:156-192: one row of the W matrix.  State: the array of normalised values and
    the array of encountered columns; [x] is the original value of the row. *)
Definition solve_row (w : csr R) (u : list R) (istart_i : nat) (x : R)
           (st : list R * list bool) (i_row : nat) : res (list R * list bool) :=
  let '(vals, enc) := st in
  do s <- get (c_indptr R w) i_row;;
  do e <- get (c_indptr R w) (i_row + 1);;
  let row_cols := slice s e (c_indices R w) in
  let w_row := slice s e (c_data R w) in
  do row_enc <- mapM (get enc) row_cols;;
  let n_new := length (filter negb row_enc) in
  let write (value : R) (st : list R * list bool) (col : nat) : res (list R * list bool) :=
    do uc <- get u col;;
    do vals' <- setitem (istart_i + col) (value / uc)%R (fst st);;
    do enc' <- setitem col true (snd st);;
    Ok (vals', enc') in
  if n_new =? length row_cols then foldM (write x) row_cols (vals, enc)
  else if 0 <? n_new then
    let row_e := filter (fun p => snd p) (combine (enumerate row_cols) row_enc) in
    let row_une := filter (fun p => negb (snd p)) (combine (enumerate row_cols) row_enc) in
    do terms <- mapM (fun p : nat * nat * bool =>
                  do wi <- get w_row (fst (fst p));;
                  do v <- get vals (istart_i + snd (fst p));;
                  do uc <- get u (snd (fst p));;
                  Ok (wi * v * uc)%R) row_e;;
    do ws <- mapM (fun p : nat * nat * bool => get w_row (fst (fst p))) row_une;;
    foldM (write ((x - rsum terms) / rsum ws)%R) (map (fun p => snd (fst p)) row_une) (vals, enc)
  else Ok (vals, enc).

(** Transform2NormInd.py:143-192: a block with a W matrix. *)
Definition solve_block (w : csr R) (u : list R) (istart_i istart iend : nat) (src vals : list R) : res (list R) :=
  do st <- foldM (fun st p =>
             do x <- get src (snd p);;
             solve_row w u istart_i x st (fst p))
           (enumerate (seq istart (iend - istart))) (vals, repeat false (c_ncols R w));;
  Ok (fst st).

(** Transform2NormInd.py:133-194: one block. *)
Definition run_block (m : mobj) (ix' : idx_t) (vals : list R) (p : nat * unc R) : res (list R) :=
  let i := fst p in
  do istart <- get (idxs (m_idx R T m)) i;;
  do n <- get (N_var (m_idx R T m)) i;;
  do istart_i <- get (idxs ix') i;;
  do n' <- get (N_var ix') i;;
  let scaled uR :=
    do v <- bop Rdiv (slice istart (istart + n) (m_values R T m)) uR;;
    assign istart_i (istart_i + n') v vals in
  let structured wi ui :=
    do w <- get (m_ws R T m) wi;;
    do u <- get (m_us R T m) ui;;
    solve_block w u istart_i istart (istart + n) (m_values R T m) vals in
  match u_kind R (snd p) with
  | UK1 _ uR => scaled uR
  | UK2 _ uR _ => scaled uR
  | UK3 _ wi ui => structured wi ui
  | UK4 _ wi ui _ => structured wi ui
  end.

(** Transform2NormInd.py:197-202 and :280-285: [f] is division or multiplication. *)
Definition scale_ks (f : R -> R -> R) (im : list (nat * nat)) (cnm : list nat) (ks : list R) (unck : list (list R))
  : res (list R) :=
  do total <- pylast cnm;;
  foldM (fun arr i =>
    do s <- get cnm i;;
    do e <- get cnm (i + 1);;
    do u <- get unck i;;
    do v <- bop f (slice s e ks) u;;
    assign s e v arr) (seq 0 (length im)) (repeat 0%R total).

(** Transform2NormInd.py:45-204.  (The attributes a, sensor_model, sensor_model_constant and
    adjustment_model are carried over unchanged and not represented; time1, time2 and
    additional_values are not carried over.) *)
Definition tn_run (m : mobj) : res mobj :=
  do ix' <- ind_idx m;;
  do total <- pylast (idxs ix');;
  do vals <- foldM (run_block m ix') (enumerate (m_unc R T m)) (repeat 0%R total);;
  do ks <- scale_ks Rdiv (Im (m_idx R T m)) (cNm (m_idx R T m)) (m_ks R T m) (m_unck R T m);;
  Ok (mkMobj R T ix' (m_ps R T m) (m_oidx R T m) (m_ops R T m) vals ks (m_unc R T m) (m_unck R T m)
             (m_ws R T m) (m_us R T m) None None
             (m_across1 R T m) (m_across2 R T m) (m_along1 R T m) (m_along2 R T m) None).

(** ** Transform2NormInd.reverse *)

(** [idx['idx'][-1] - n_uS - 1 + uS_i], a Python integer. *)
Definition isys (last n_us k : nat) : Z := (Z.of_nat last - Z.of_nat n_us - 1 + Z.of_nat k)%Z.

(** Transform2NormInd.py:243-277: values of one block in original form.  [xs] is the transformed
    block, [vals] the whole transformed array. *)
Definition reverse_block (m : mobj) (n_us last : nat) (vals xs : list R) (u : unc R) : res (list R) :=
  match u_kind R u with
  | UK1 _ uR => bop Rmult xs uR
  | UK2 _ uR uS =>
      do k <- sys_no u;;
      do v <- bop Rmult xs uR;;
      do sy <- pyget vals (isys last n_us k);;
      bop Rplus v (map (Rmult sy) uS)
  | UK3 _ wi ui =>
      do w <- get (m_ws R T m) wi;;
      do uv <- get (m_us R T m) ui;;
      do v <- bop Rmult uv xs;;
      csr_dot w v
  | UK4 _ wi ui uS =>
      do w <- get (m_ws R T m) wi;;
      do uv <- get (m_us R T m) ui;;
      do k <- sys_no u;;
      do v <- bop Rmult xs uv;;
      do sy <- pyget vals (isys last n_us k);;
      csr_dot w (map (fun x => x + sy * uS)%R v)
  end.

(** Transform2NormInd.py:206-287.  (In the type 2 case the Python adds in place after assigning; an
    in-place addition cannot change the array's length, which [assign] checks here.) *)
Definition tn_reverse (m : mobj) : res mobj :=
  do oix <- match m_oidx R T m with Some o => Ok o | None => Raise KeyError end;;
  do total <- pylast (idxs oix);;
  do n_us <- n_uS (m_unc R T m);;
  do last <- pylast (idxs (m_idx R T m));;
  do vals <- foldM (fun arr p =>
      do istart <- get (idxs oix) (fst p);;
      do n <- get (N_var oix) (fst p);;
      do istart_i <- get (idxs (m_idx R T m)) (fst p);;
      do n' <- get (N_var (m_idx R T m)) (fst p);;
      do v <- reverse_block m n_us last (m_values R T m) (slice istart_i (istart_i + n') (m_values R T m)) (snd p);;
      assign istart (istart + n) v arr) (enumerate (m_unc R T m)) (repeat 0%R total);;
  do ks <- scale_ks Rmult (Im oix) (cNm oix) (m_ks R T m) (m_unck R T m);;
  Ok (mkMobj R T oix (m_ops R T m) (m_oidx R T m) (m_ops R T m) vals ks (m_unc R T m) (m_unck R T m)
             (m_ws R T m) (m_us R T m) None None
             (m_across1 R T m) (m_across2 R T m) (m_along1 R T m) (m_along2 R T m) None).

(** ** unconvert_Xs of the Gauss-Newton solver *)

(** GN_algo.py:581-604: one covariate.  [xyza] holds values followed by parameters. *)
Definition unconvert_block (m : mobj) (n_us last : nat) (xyza xs : list R) (u : unc R) : res (list R) :=
  match u_kind R u with
  | UK1 _ uR => bop Rmult xs uR
  | UK2 _ uR uS =>
      do k <- sys_no u;;
      do v <- bop Rmult xs uR;;
      do sy <- pyget xyza (isys last n_us k);;
      bop Rplus v (map (Rmult sy) uS)
  | UK3 _ wi ui =>
      do w <- get (m_ws R T m) wi;;
      do uv <- get (m_us R T m) ui;;
      do v <- bop Rmult uv xs;;
      csr_dot w v
  | UK4 _ wi ui uS =>
      do k <- sys_no u;;
      do w <- get (m_ws R T m) wi;;
      do uv <- get (m_us R T m) ui;;
      do v <- bop Rmult uv xs;;
      do sy <- pyget xyza (isys last n_us k);;
      csr_dot w (map (fun x => x + sy * uS)%R v)
  end.

(** [Xs[:, c] = v] for an array with [n] rows. *)
Definition column_of (n : nat) (v : list R) : res (list R) := assign 0 n v (repeat 0%R n).

(** GN_algo.py:559-606.  The result is the list of columns of Xs. *)
Definition unconvert_Xs (m : mobj) (xyza : list R) (s n : nat) : res (list (list R)) :=
  let ix := m_idx R T m in
  do N_cov <- get (sensor_ms ix) s;;
  do n_us <- n_uS (m_unc R T m);;
  do rows <- pyget (Nm ix) (Z.of_nat n - 1);;
  mapM (fun c =>
    do im <- index eqb3 (s, n, c) (get_block_idxs ix);;
    do ib <- get (idxs ix) im;;
    do nv <- get (N_var ix) im;;
    do u <- get (m_unc R T m) im;;
    do last <- pylast (idxs ix);;
    do v <- unconvert_block m n_us last xyza (slice ib (ib + nv) xyza) u;;
    column_of rows v) (seq 1 N_cov).

(** cython_lib_GN_algo.pyx:9-117, called with N_cov = sensor_ms[s] (GN_algo.py:511-523).  The number of
    rows comes from the original index of the first covariate.  The block conversion is the same
    text as GN_algo.py:581-604, except the order of the lookups, and is written again here. *)
Definition unconvert_block_c (m : mobj) (n_us last : nat) (xyza xs : list R) (u : unc R) : res (list R) :=
  match u_kind R u with
  | UK1 _ uR => bop Rmult xs uR
  | UK2 _ uR uS =>
      do k <- sys_no u;;
      do a <- bop Rmult xs uR;;
      do sy <- pyget xyza (isys last n_us k);;
      bop Rplus a (map (Rmult sy) uS)
  | UK3 _ wi ui =>
      do w <- get (m_ws R T m) wi;;
      do uv <- get (m_us R T m) ui;;
      do a <- bop Rmult uv xs;;
      csr_dot w a
  | UK4 _ wi ui uS =>
      do k <- sys_no u;;
      do w <- get (m_ws R T m) wi;;
      do uv <- get (m_us R T m) ui;;
      do a <- bop Rmult uv xs;;
      do sy <- pyget xyza (isys last n_us k);;
      csr_dot w (map (fun x => x + sy * uS)%R a)
  end.
Definition unconvert_Xs_c (m : mobj) (xyza : list R) (s n : nat) : res (list (list R)) :=
  let ix := m_idx R T m in
  do oix <- match m_oidx R T m with Some o => Ok o | None => Raise KeyError end;;
  do N_cov <- get (sensor_ms ix) s;;
  do n_us <- n_uS (m_unc R T m);;
  if N_cov =? 0 then Raise UnboundLocalError else
  do im1 <- index eqb3 (s, n, 1) (get_block_idxs ix);;
  do b <- get (idxs oix) im1;;
  do e <- get (idxs oix) (im1 + 1);;
  let rows := e - b in
  mapM (fun c =>
    do im <- index eqb3 (s, n, c) (get_block_idxs ix);;
    do ib <- get (idxs ix) im;;
    do nv <- get (N_var ix) im;;
    do _ob <- get (idxs oix) im;;
    do _oe <- get (idxs oix) (im + 1);;
    do u <- get (m_unc R T m) im;;
    do last <- pylast (idxs ix);;
    do v <- unconvert_block_c m n_us last xyza (slice ib (ib + nv) xyza) u;;
    column_of rows v) (seq 1 N_cov).
End Transform.
