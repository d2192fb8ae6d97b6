(** * Model of the uncertainty part of MatchUpReader.py (open_unc_from_nc_datasets,
    _open_w_matrix, _open_u_matrix, open_matrix_idxs_from_nc_datasets), of Uncertainty.py and of
    the W-matrix file encoder tools/W_matrix_functions.py:return_w_matrix_variables.

    MatchUpReader.py / Uncertainty.py:
    /repo/harmonisation_eiv/harmonisation/core/matchup/matchupIO/. *)
From Verif Require Import Base ReaderModel.

Section Unc.
Variable V : Type.
Variable zeroV : V.

(** scipy.sparse.csr_matrix((data, indices, indptr), shape). *)
Record csr := mkCsr {
  c_data : list V; c_indices : list nat; c_indptr : list nat; c_nrows : nat; c_ncols : nat
}.

(** The constructor's format check (scipy check_format(full_check=False)): indptr has one entry
    more than rows, starts with 0, as many indices as data, last pointer within the data. *)
Definition csr_new (data : list V) (indices indptr : list nat) (nr nc : nat) : res csr :=
  if (length indptr =? nr + 1) && (match indptr with 0 :: _ => true | _ => false end)
     && (length indices =? length data) && (last indptr 0 <=? length indices)
  then Ok (mkCsr data indices indptr nr nc)
  else Raise ValueError.

(** W/u variables of a file (w_matrix_use1/2, u_matrix_use1/2, w_matrix_nnz, w_matrix_row,
    w_matrix_col, w_matrix_val, u_matrix_row_count, u_matrix_val).  [None] models "not all four
    *_use* variables present" (MatchUpReader.py:333-336, :450). *)
Record matvars := mkMatvars {
  wuse1 : list nat; wuse2 : list nat; uuse1 : list nat; uuse2 : list nat;
  w_nnz : list nat; w_row : list (list nat); w_col : list nat; w_val : list V;
  u_row_count : list nat; u_val : list V
}.

(** Uncertainty variables of a file. [ut1]/[ut2]: uncertainty_type1/2; [ur1],[us1],...: 2-D
    variables Ur1, Us1, ... (None: variable absent, KeyError on access). *)
Record uncvars := mkUncvars {
  ut1 : list nat; ut2 : list nat;
  ur1 : option (list (list V)); ur2 : option (list (list V));
  us1 : option (list (list V)); us2 : option (list (list V));
  umat : option matvars
}.

(** A file with its uncertainty variables. *)
Record ufile := mkUfile { uf_d : dataset V; uf_u : uncvars }.

(** Uncertainty.py:97-124 (type 1: uR; 2: uR, uS; 3: w_i, u_i; 4: w_i, u_i, uS) and the attribute
    uS_i set later by the reader. *)
Inductive ukind :=
| UK1 (uR : list V)
| UK2 (uR uS : list V)
| UK3 (w_i u_i : nat)
| UK4 (w_i u_i : nat) (uS : V).
Record unc := mkUnc { u_kind : ukind; u_sysi : option nat }.
Definition typeID (k : ukind) : nat :=
  match k with UK1 _ => 1 | UK2 _ _ => 2 | UK3 _ _ => 3 | UK4 _ _ _ => 4 end.

(** MatchUpReader.py:394-421.  [append(zeros(1), cumsum(nnz))] is [cumul 0 nnz]; Python's
    [max(indices)] raises ValueError on an empty array.  [w_i >= 1] in all calls. *)
Definition open_w_matrix (mv : matvars) (w_i : nat) : res csr :=
  let i_nnz := cumul 0 (w_nnz mv) in
  do lo <- get i_nnz (w_i - 1);;
  do hi <- get i_nnz w_i;;
  let data := slice lo hi (w_val mv) in
  let indices := slice lo hi (w_col mv) in
  do indptr <- get (w_row mv) (w_i - 1);;
  do mx <- pymax indices;;
  csr_new data indices indptr (length indptr - 1) (mx + 1).

(** MatchUpReader.py:423-442 *)
Definition open_u_matrix (mv : matvars) (u_i : nat) : res (list V) :=
  let i_vec := cumul 0 (u_row_count mv) in
  do lo <- get i_vec (u_i - 1);;
  do hi <- get i_vec u_i;;
  Ok (slice lo hi (u_val mv)).

(** MatchUpReader.py:444-459.  Iteration order of the Python set is the function [ord]. *)
Definition open_matrix_idxs (ord : list nat -> list nat) (fs : list ufile)
  : list (nat * nat) * list (nat * nat) :=
  let use (f1 f2 : matvars -> list nat) :=
    flat_map (fun imf : nat * ufile =>
      match umat (uf_u (snd imf)) with
      | None => []
      | Some mv => map (fun w => (fst imf + 1, w))
                       (ord (nodup Nat.eq_dec (filter (fun w => negb (w =? 0)) (f1 mv ++ f2 mv))))
      end) (enumerate fs) in
  (use wuse1 wuse2, use uuse1 uuse2).

(** Selection of the variables of one side ('Ur' + str(i_sensor_pair + 1) etc.). *)
Definition ut (u : uncvars) (side : nat) := match side with 0 => ut1 u | _ => ut2 u end.
Definition ur (u : uncvars) (side : nat) := match side with 0 => ur1 u | _ => ur2 u end.
Definition us (u : uncvars) (side : nat) := match side with 0 => us1 u | _ => us2 u end.
Definition wuse (mv : matvars) (side : nat) := match side with 0 => wuse1 mv | _ => wuse2 mv end.
Definition uuse (mv : matvars) (side : nat) := match side with 0 => uuse1 mv | _ => uuse2 mv end.

(** [dataset.variables[name]] for a variable that may be absent. *)
Definition var {A} (o : option A) : res A := match o with Some a => Ok a | None => Raise KeyError end.

(** zip of three lists. *)
Definition zip3' {A B C} (a : list A) (b : list B) (c : list C) : list (A * B * C) :=
  combine (combine a b) c.

(** State of the reading loop: unc (None = the initial int 0), w_matrices, u_matrices. *)
Record ust := mkUst { st_unc : list (option unc); st_w : list (option csr); st_u : list (option (list V)) }.

(** Body of the innermost loop, MatchUpReader.py:341-381. *)
Definition read_unc (ix : idx_t) (wix uix : list (nat * nat)) (i_matchup : nat) (f : ufile)
           (side n_sens : nat) (st : ust) (ic : nat * (nat * nat * nat)) : res ust :=
  let '(i_cov, (ty, w_j, u_j)) := ic in
  let d := uf_d f in let u := uf_u f in
  let m := fst (Xside V d side) in
  do b <- index eqb3 (n_sens, i_matchup + 1, i_cov + 1) (get_block_idxs ix);;
  let put k := do l <- setitem b (Some (mkUnc k None)) (st_unc st);; Ok (mkUst l (st_w st) (st_u st)) in
  let mats :=
    do wi <- index eqb2 (i_matchup + 1, w_j) wix;;
    do ui <- index eqb2 (i_matchup + 1, u_j) uix;;
    do mv <- var (umat u);;
    do W <- open_w_matrix mv w_j;;
    do ws <- setitem wi (Some W) (st_w st);;
    do U <- open_u_matrix mv u_j;;
    do us' <- setitem ui (Some U) (st_u st);;
    Ok (wi, ui, ws, us') in
  match ty with
  | 1 => do r <- var (ur u side);; do c <- column V zeroV m r i_cov;; put (UK1 c)
  | 2 => do r <- var (ur u side);; do c <- column V zeroV m r i_cov;;
         do s <- var (us u side);; do cs <- column V zeroV m s i_cov;; put (UK2 c cs)
  | 3 => do x <- mats;;
         let '(wi, ui, ws, us') := x in
         do l <- setitem b (Some (mkUnc (UK3 wi ui) None)) (st_unc st);; Ok (mkUst l ws us')
  | 4 => do x <- mats;;
         let '(wi, ui, ws, us') := x in
         do s <- var (us u side);; do cs <- column V zeroV m s i_cov;; do uS <- get cs 1;;
         do l <- setitem b (Some (mkUnc (UK4 wi ui uS) None)) (st_unc st);; Ok (mkUst l ws us')
  | _ => Ok st
  end.

(** MatchUpReader.py:384-392: numbering of the separate instances of systematic errors.  The key of a
    block is (n_sensor, n_cov); [unc[i].typeID] on the initial int 0 is an AttributeError. *)
Definition number_step (st : list (nat * nat) * list (option unc)) (ik : nat * (nat * nat))
  : res (list (nat * nat) * list (option unc)) :=
  let '(i, key) := ik in
  let '(sys, us) := st in
  do o <- get us i;;
  match o with
  | None => Raise AttributeError
  | Some u =>
      if (typeID (u_kind u) =? 2) || (typeID (u_kind u) =? 4) then
        if mem eqb2 key sys then
          do j <- index eqb2 key sys;;
          Ok (sys, upd i (Some (mkUnc (u_kind u) (Some (j + 1)))) us)
        else
          let sys' := sys ++ [key] in
          Ok (sys', upd i (Some (mkUnc (u_kind u) (Some (length sys')))) us)
      else Ok (sys, us)
  end.
Definition number_sys (keys : list (nat * nat)) (us : list (option unc)) : res (list (option unc)) :=
  do r <- foldM number_step (enumerate keys) ([], us);; Ok (snd r).

(** The per-covariate rows the inner loop iterates over, MatchUpReader.py:329-342: types zipped with
    the matrix-use tables, or with zeros when those are absent. *)
Definition unc_rows (u : uncvars) (side : nat) : list (nat * nat * nat) :=
  let ty := ut u side in
  let '(wu, uu) := match umat u with
                   | Some mv => (wuse mv side, uuse mv side)
                   | None => (repeat 0 (length ty), repeat 0 (length ty))
                   end in
  zip3' ty wu uu.

(** MatchUpReader.py:312-392 *)
Definition open_unc (ord : list nat -> list nat) (fs : list ufile) (ix : idx_t)
  : res (list (option unc) * list (option csr) * list (option (list V))) :=
  let '(wix, uix) := open_matrix_idxs ord fs in
  do st <- foldM (fun st imf =>
      let '(i_matchup, f) := imf in
      do pr <- get (Im ix) i_matchup;;
      foldM (fun st sp =>
        let '(side, n_sens) := sp in
        foldM (read_unc ix wix uix i_matchup f side n_sens) (enumerate (unc_rows (uf_u f) side)) st)
        (enumerate [fst pr; snd pr]) st)
      (enumerate fs)
      (mkUst (repeat None (length (N_var ix))) (repeat None (length wix)) (repeat None (length uix)));;
  do us <- number_sys (combine (n_sensor ix) (n_cov ix)) (st_unc st);;
  Ok (us, st_w st, st_u st).

(** ** Encoder: tools/W_matrix_functions.py:195-278 *)

(** Lines 242-250 and :268-276: copying chunks into a pre-allocated array, with istart/iend. *)
Definition pack_step {A} (st : nat * list A) (cn : list A * nat) : res (nat * list A) :=
  let '(istart, arr) := st in
  let '(chunk, n) := cn in
  let iend := istart + n in
  do arr' <- assign istart iend chunk arr;;
  Ok (iend, arr').
Definition pack {A} (z : A) (chunks : list (list A)) (ns : list nat) : res (list A) :=
  do r <- foldM pack_step (combine chunks ns) (0, repeat z (list_sum ns));; Ok (snd r).

(** csr_matrix.nnz is [indptr[-1]] *)
Definition nnz (w : csr) : nat := last (c_indptr w) 0.

(** Lines 253-255: row [i] of w_matrix_row is a numpy row of length len(w_matrices[0].indptr); assigning
    an indptr of another length is a ValueError (or a broadcast, for length 1). *)
Definition row_assign (n : nat) (w : csr) : res (list nat) := assign 0 n (c_indptr w) (repeat 0 n).

(** W_matrix_functions.py:195-278 (also MatchUpWriter.py:_return_w_matrix_variables); returns the six
    variables as fields of [matvars] with the given use tables. *)
Definition return_w_matrix_variables (wu1 wu2 uu1 uu2 : list nat) (ws : list csr) (uvs : list (list V))
  : res matvars :=
  let wn := map nnz ws in
  do vals <- pack zeroV (map c_data ws) wn;;
  do cols <- pack 0 (map c_indices ws) wn;;
  do w0 <- get ws 0;;
  do rows <- mapM (row_assign (length (c_indptr w0))) ws;;
  let un := map (@length V) uvs in
  do uv <- pack zeroV uvs un;;
  Ok (mkMatvars wu1 wu2 uu1 uu2 wn rows cols vals un uv).

End Unc.
