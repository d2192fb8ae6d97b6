(** * Model of tools/pmh2fiduceo.py: conversion of "PMH" text files (data_vals.txt, data_pams.txt, data_uncs.txt) to match-up files.

    All line numbers are those of /repo/tools/pmh2fiduceo.py.  Its functions generate_rolling_average_w_matrix (:206-314) and
    return_w_matrix_variables (:490-572) are textually those of tools/generate_w_matrices.py and tools/W_matrix_functions.py, modelled by
    [gen_w] (WModel) and [return_w_matrix_variables] (UncModel).

    Simplifications: exact reals ('f4' storage of the W variables does not round); a text file is the list of its lines; Python's [float]
    and [int] of a word are parameters; data_vals.txt is given as the rows [loadtxt] parses; log output and descriptions are left out; a
    directory is a list of named files.  A netCDF dimension of size 0 is unlimited, so that what is written to it afterwards is not checked: the
    model raises [OtherError] there. *)
From Coq Require Import Reals.
From Verif Require Import Base ReaderModel UncModel TransformModel EvalModel GNModel SimModel WModel HRModel.
Open Scope nat_scope.

(** Equality of strings. *)
Fixpoint teqb (a b : text) : bool :=
  match a, b with [], [] => true | x :: a', y :: b' => Ascii.eqb x y && teqb a' b' | _, _ => false end.
(** Python's [str.split()]: the maximal runs of characters that are not white space. *)
Definition space (c : ascii) : bool := let n := nat_of_ascii c in (n =? 32) || ((9 <=? n) && (n <=? 13)).
Definition flush (w : text) : list text := match w with [] => [] | _ => [w] end.
Fixpoint split_go (w s : text) : list text :=
  match s with [] => flush w | c :: s' => if space c then flush w ++ split_go [] s' else split_go (w ++ [c]) s' end.
Definition split (line : text) : list text := split_go [] line.

Section Pmh.
Variable pyfloat : text -> res R.   (* float(word) *)
Variable pyint : text -> res Z.     (* int(word) *)

(** float(line), float(line.rstrip()): white space around the number is ignored. *)
Definition float_line (line : text) : res R := match split line with [t] => pyfloat t | _ => Raise ValueError end.

(** One variable of data_uncs.txt: the entries appended to uR, uS, nW and uncertainty_type, :185-199. *)
Record uvar := mkUvar { v_uR : R; v_uS : R; v_nW : Z; v_type : nat }.
Record ustate := mkUstate { s_ref : option R; s_kr : option R; s_type : option text; s_vars : list uvar }.
(** :183: the third word of the line without its last character *)
Definition type_word (line : text) : res text := do w <- get (split line) 2;; Ok (removelast w).
(** :185-201 *)
Definition read_var (ty line : text) : res uvar :=
  if teqb ty (tx "R") then do u <- float_line line;; Ok (mkUvar u 0 0 1)
  else if teqb ty (tx "RS") then do a <- get (split line) 0;; do u <- pyfloat a;; do b <- get (split line) 1;; do s <- pyfloat b;; Ok (mkUvar u s 0 2)
  else if teqb ty (tx "MA") then do a <- get (split line) 0;; do u <- pyfloat a;; do b <- get (split line) 1;; do n <- pyint b;; Ok (mkUvar u 0 n 3)
  else Raise TypeError.
(** :175-201, line number [i] of a file whose last line has number [i_tot] *)
Definition unc_line (i_tot : nat) (st : ustate) (p : nat * text) : res ustate :=
  let '(i, line) := p in
  if (i =? 0) || (i + 1 =? i_tot) then Ok st
  else if i =? 1 then do x <- float_line line;; Ok (mkUstate (Some x) (s_kr st) (s_type st) (s_vars st))
  else if i =? i_tot then do x <- float_line line;; Ok (mkUstate (s_ref st) (Some x) (s_type st) (s_vars st))
  else if Nat.even i then do t <- type_word line;; Ok (mkUstate (s_ref st) (s_kr st) (Some t) (s_vars st))
  else match s_type st with
       | None => Raise UnboundLocalError
       | Some t => do v <- read_var t line;; Ok (mkUstate (s_ref st) (s_kr st) (s_type st) (s_vars st ++ [v]))
       end.
(** :163-203.  For an empty file the loop :167 does not bind i_tot; uR_ref and Kr are then unbound as well. *)
Definition open_data_uncs (lines : list text) : res (R * list uvar * R) :=
  do st <- foldM (unc_line (length lines - 1)) (enumerate lines) (mkUstate None None None []);;
  match s_ref st, s_kr st with Some r, Some k => Ok (r, s_vars st, k) | _, _ => Raise UnboundLocalError end.

(** :138-152: the lines of the current section (data), Im and Nm *)
Definition pams_line (st : list (list text) * list (list text) * list (list text)) (line : text) : list (list text) * list (list text) * list (list text) :=
  let '(im, nm, data) := st in
  if contains (tx "Im") line then st
  else if contains (tx "Nm") line then (data, nm, [])
  else if contains (tx "atrue") line then (im, data, [])
  else (im, nm, data ++ [split line]).
(** :156-159: a row shorter than the first is filled with zeros, a longer one is an IndexError *)
Definition true_row (n : nat) (row : list text) : res (list R) :=
  do r <- mapM pyfloat row;; if n <? length r then Raise IndexError else Ok (r ++ repeat 0%R (n - length r)).
(** :134-160 *)
Definition open_data_pams (lines : list text) : res (list (list text) * list Z * list (list R)) :=
  let '(im, nm, data) := fold_left pams_line lines ([], [], []) in
  do ns <- mapM (fun r => do w <- get r 0;; pyint w) nm;;
  do r0 <- get data 0;;
  do a <- mapM (true_row (length r0)) data;;
  Ok (im, ns, a).

(** A written match-up file: the variables the reader uses, and Kr, Ks. *)
Record pfile := mkPfile { p_file : ufile R; p_Kr : list R; p_Ks : list R }.
Definition directory := list (text * pfile).
Definition find_file (n : text) (d : directory) : option pfile :=
  option_map snd (find (fun p => teqb (fst p) n) d).
(** Dataset(path, mode='w') replaces an existing file. *)
Definition put_file (n : text) (f : pfile) (d : directory) : directory :=
  filter (fun p => negb (teqb (fst p) n)) d ++ [(n, f)].

(** :728: "_".join(s) + ".nc" *)
Fixpoint join (l : list text) : text := match l with [] => [] | [a] => a | a :: l' => a ++ tx "_" ++ join l' end.
Definition file_name (names : list text) : text := join names ++ tx ".nc".

(** numpy: full(n, Kr) for a float, and for an array (broadcast), :765 *)
Inductive kr := KrF (x : R) | KrA (l : list R).
Definition full_kr (n : nat) (k : kr) : res (list R) :=
  match k with
  | KrF x => Ok (repeat x n)
  | KrA l => if length l =? n then Ok l else match l with [x] => Ok (repeat x n) | _ => Raise ValueError end
  end.
(** :745-749, :755-759: a row of Ur1, Ur2 (zero for type 3); :750-751, :760-761: of Us1, Us2 *)
Definition ur_row (vs : list uvar) : list R := map (fun v => if (v_type v =? 1) || (v_type v =? 2) then v_uR v else 0%R) vs.
Definition us_row (vs : list uvar) : list R := map v_uS vs.

(** The first element of a pair of sensors is the reference sensor "0", :738, :789 *)
Definition is_ref (name : text) : bool := teqb name (tx "0").
Definition to_name (t : text) : string := string_of_list_ascii t.

(** One pass of the loop :730-771; the state is i_end, Kr, the directory and the times of the last pair.
    [width] is H.shape[1].  write_input_file :387-485 creates the dimensions from the shapes of X1 and X2; data of other shapes is a ValueError. *)
Record cstate := mkCstate { k_end : nat; k_kr : kr; k_dir : directory; k_time : option (list nat) }.
Definition write_pair (H : list (list R)) (width : nat) (uref : R) (vs : list uvar) (st : cstate) (p : list text * Z) : res cstate :=
  let '(names, nz) := p in
  do s1 <- get names 0;; do s2 <- get names 1;;
  if (nz <? 0)%Z then Raise ValueError else
  let n := Z.to_nat nz in
  let nX := length vs in
  let i0 := k_end st in let i1 := i0 + n in
  let rows := slice i0 i1 H in
  let M := length rows in
  let types := map v_type vs in
  let '(m1, X1, Ur1, Us1, ut1) :=
    if is_ref s1 then (1, map (fun r => [nth 0 r 0%R]) rows, repeat [uref] n, repeat [0%R] n, [1])
    else (Nat.min nX width, map (firstn nX) rows, repeat (ur_row vs) n, repeat (us_row vs) n, types) in
  let m2 := Nat.min (2 * nX) width - nX in
  let X2 := map (slice nX (2 * nX)) rows in
  let K := map (fun r => nth (width - 1) r 0%R) rows in
  do krl <- full_kr n (k_kr st);;
  let time := seq i0 n in
  if (M =? 0) || (m1 =? 0) || (m2 =? 0) then Raise OtherError
  else if negb ((n =? M) && (m2 =? nX) && (is_ref s1 || (m1 =? nX))) then Raise ValueError
  else
    let d := mkDataset R M m1 m2 (to_name s1) (to_name s2) X1 X2 K (map INR time) (map INR time) [] in
    let u := mkUncvars R ut1 types (Some Ur1) (Some (repeat (ur_row vs) n)) (Some Us1) (Some (repeat (us_row vs) n)) None in
    Ok (mkCstate i1 (KrA krl) (put_file (file_name names) (mkPfile (mkUfile R d u) krl (repeat 0%R n)) (k_dir st)) (Some time)).

(** :785-798: the use tables, one entry per covariate *)
Definition uses (vs : list uvar) : list nat := map (fun v => if v_type v =? 3 then 1 else 0) vs.
(** append_W_to_input_file :575-698: the file must exist, without W variables, with use tables of its sizes. *)
Definition append_w (vs : list uvar) (mv : matvars R) (d : directory) (names : list text) : res directory :=
  do s1 <- get names 0;;
  match find_file (file_name names) d with
  | None => Raise OtherError
  | Some f =>
      let use1 := if is_ref s1 then [0] else uses vs in
      let u := uf_u R (p_file f) in let ds := uf_d R (p_file f) in
      match umat R u with
      | Some _ => Raise OtherError
      | None =>
          if (length use1 =? d_m1 R ds) && (length vs =? d_m2 R ds) then
            let mv' := mkMatvars R use1 (uses vs) use1 (uses vs) (w_nnz R mv) (w_row R mv) (w_col R mv) (w_val R mv) (u_row_count R mv) (u_val R mv) in
            Ok (put_file (file_name names) (mkPfile (mkUfile R ds (mkUncvars R (ut1 R u) (ut2 R u) (ur1 R u) (ur2 R u) (us1 R u) (us2 R u) (Some mv'))) (p_Kr f) (p_Ks f)) d)
          else Raise ValueError
      end
  end.

Definition all_equal {A} (eqd : forall a b : A, {a = b} + {a <> b}) (l : list A) : bool :=
  match l with [] => true | a :: l' => forallb (fun b => if eqd a b then true else false) l' end.
(** :774-783 *)
Definition make_w (vs : list uvar) (time : option (list nat)) : res (matvars R) :=
  let ws := filter (fun v => v_type v =? 3) vs in
  do v0 <- get ws 0;;
  if negb (all_equal Z.eq_dec (map v_nW ws)) && negb (all_equal Req_EM_T (map v_uR ws)) then Raise ValueError
  else match time with
       | None => Raise UnboundLocalError
       | Some t =>
           if (v_nW v0 <? 0)%Z then Raise ValueError else
           do g <- gen_w (map INR t) 1%R (KF (v_uR v0)) None (Some (Z.to_nat (v_nW v0)));;
           let '(w, u) := g in return_w_matrix_variables R 0%R [] [] [] [] [w] [u]
       end.

(** run_conversion, :701-804: the contents of the output directory afterwards and the true parameters saved in atrue.txt.
    loadtxt of a table with one row or one column is a 1-D array, on which [H[i:j, 0]], [H[i:j, :nX]] raise IndexError. *)
Definition run_conversion (vals : list (list R)) (pams uncs : list text) (dir : directory) : res (directory * list (list R)) :=
  do p <- open_data_pams pams;; let '(im, ns, atrue) := p in
  do q <- open_data_uncs uncs;; let '(uref, vs, k) := q in
  let width := length (hd [] vals) in
  let pairs := combine im ns in
  if negb (length pairs =? 0) && ((length vals <=? 1) || (width <=? 1)) then Raise IndexError else
  do st <- foldM (write_pair vals width uref vs) pairs (mkCstate 0 (KrF k) dir None);;
  do mv <- make_w vs (k_time st);;
  do d <- foldM (append_w vs mv) im (k_dir st);;
  Ok (d, atrue).
End Pmh.
