(** * Model of MatchUpWriter.py (/repo/harmonisation_eiv/harmonisation/core/matchup/matchupIO/MatchUpWriter.py)
    and of reading netCDF files (CheckModel.ncfile) with MatchUpReader.py: the files the checker looks at, those the
    writer writes and those the reader opens are the same objects here.

    Simplifications: numbers are exact (an 'f8' variable returns what was assigned; 'f4' is an abstract function, as
    is the truncation of a float assigned to an 'i4' variable); netCDF fill values, descriptions and compression are
    ignored; assigning data whose shape is not that of the variable raises ValueError (numpy would broadcast some
    shapes). *)
From Coq Require Import Reals.
From Verif Require Import Base ReaderModel UncModel UnckModel SimModel CheckModel.
Open Scope nat_scope.

(** ** Writing *)
(** numpy arrays: 1-D float, 2-D float with its number of columns, 1-D integer. *)
Inductive nparr := D1 (l : list R) | D2 (rows : list (list R)) (cols : nat) | DI (l : list Z).
Definition shape (d : nparr) : list nat :=
  match d with D1 l => [length l] | D2 rows c => [length rows; c] | DI l => [length l] end.

(** Entry of the dictionary additional_variables, MatchUpWriter.py:133-145. *)
Record addvar := mkAdd { ad_name : string; ad_dtype : string; ad_dim : list string; ad_data : nparr }.

(** Arguments of write_input_file, MatchUpWriter.py:71-73 (sensor names are strings here). *)
Record margs := mkArgs {
  g_X1 : nparr; g_X2 : nparr; g_Ur1 : nparr; g_Ur2 : nparr; g_Us1 : nparr; g_Us2 : nparr;
  g_t1 : nparr; g_t2 : nparr; g_K : nparr; g_Kr : nparr; g_Ks : nparr; g_time1 : nparr; g_time2 : nparr;
  g_s1 : string; g_s2 : string;
  g_w : option (matvars R); g_add : option (list addvar)
}.

Section Write.
Variable f32 : R -> R.     (* storage in an 'f4' variable *)
Variable trunc : R -> Z.   (* a float assigned to an 'i4' variable *)

(** What a variable of a dtype holds after [var[:] = data[:]]; dtypes other than the three of the format are kept as [ArrOther]. *)
Definition stored (dtype : string) (d : nparr) : string * arr :=
  if String.eqb dtype "f8" then ("float64"%string, match d with D1 l => Arr1 l | D2 rows _ => Arr2 rows | DI l => Arr1 (map IZR l) end)
  else if String.eqb dtype "f4" then ("float32"%string, match d with D1 l => Arr1 (map f32 l) | D2 rows _ => Arr2 (map (map f32) rows) | DI l => Arr1 (map (fun z => f32 (IZR z)) l) end)
  else if String.eqb dtype "i4" then ("int32"%string, match d with D1 l => IArr1 (map trunc l) | D2 rows _ => IArr2 (map (map trunc) rows) | DI l => IArr1 l end)
  else ("other"%string, ArrOther).

(** [rootgrp.createVariable(name, dtype, dims, ...)] then [var[:] = data[:]]: RuntimeError if the name is in use,
    ValueError if a dimension does not exist. *)
Definition create (f : ncfile) (name dtype : string) (dims : list string) (d : nparr) : res ncfile :=
  if inside name (names f) then Raise OtherError
  else do sz <- mapM (fun x => match lookup x (nc_dims f) with Some k => Ok k | None => Raise ValueError end) dims;;
       if eqln sz (shape d) then
         let '(ty, a) := stored dtype d in
         Ok (mkNc (nc_dims f) (nc_vars f ++ [mkVar name dims ty a]) (nc_attrs f))
       else Raise ValueError.

(** The variables :171-240 with their dtypes, dimensions and data, in the order of their creation. *)
Definition variables (a : margs) : list (string * string * list string * nparr) :=
  [("X1", "f8", ["M"; "m1"], g_X1 a); ("X2", "f8", ["M"; "m2"], g_X2 a);
   ("Ur1", "f8", ["M"; "m1"], g_Ur1 a); ("Ur2", "f8", ["M"; "m2"], g_Ur2 a);
   ("Us1", "f8", ["M"; "m1"], g_Us1 a); ("Us2", "f8", ["M"; "m2"], g_Us2 a);
   ("uncertainty_type1", "i4", ["m1"], g_t1 a); ("uncertainty_type2", "i4", ["m2"], g_t2 a);
   ("K", "f8", ["M"], g_K a); ("Kr", "f8", ["M"], g_Kr a); ("Ks", "f8", ["M"], g_Ks a);
   ("time1", "f8", ["M"], g_time1 a); ("time2", "f8", ["M"], g_time2 a)]%string.

(** MatchUpWriter.py:71-258.  [X1.shape[1]] of a 1-D array is an IndexError.  The W matrix variables are ignored
    (:243-245: [pass]).  [additional_variables.keys()] is in the order of the list (unspecified in the code). *)
Definition write_input_file (a : margs) : res ncfile :=
  do M <- get (shape (g_X1 a)) 0;;
  do m1 <- get (shape (g_X1 a)) 1;;
  do m2 <- get (shape (g_X2 a)) 1;;
  let f0 := mkNc [("M", M); ("m1", m1); ("m2", m2)]%string [] [("sensor_1_name", g_s1 a); ("sensor_2_name", g_s2 a)]%string in
  do f <- foldM (fun f v => let '(n, t, dm, d) := v in create f n t dm d) (variables a) f0;;
  match g_add a with
  | None => Ok f
  | Some l => foldM (fun f v => create f (ad_name v) (ad_dtype v) (ad_dim v) (ad_data v)) l f
  end.

(** A file system: the file at each path, if any. *)
Definition fs_t := string -> option ncfile.
(** MatchUpWriter.py:44-47: [return 0]. *)
Definition writeMatchUp {MU} (matchup : MU) (path : string) (fs : fs_t) : fs_t := fs.
End Write.

(** ** Reading *)
(** [dataset.sensor_1_name]: AttributeError when absent. *)
Definition attr (f : ncfile) (n : string) : res string := match lookup n (nc_attrs f) with Some s => Ok s | None => Raise AttributeError end.
(** The variables with dimension ("M",) other than time1, time2, K, Kr, Ks (ReaderModel.d_vars; MatchUpReader.py:277-285, :509-553). *)
Definition m_vars (f : ncfile) : list (string * list R) :=
  flat_map (fun v => if eql (v_dims v) ["M"]%string && negb (inside (v_name v) ["time1"; "time2"; "K"; "Kr"; "Ks"]%string)
                     then match v_data v with Arr1 l => [(v_name v, l)] | IArr1 l => [(v_name v, map IZR l)] | _ => [] end
                     else []) (nc_vars f).
(** The part of a file that ReaderModel looks at (the reader takes M from [dataset.dimensions["M"].size], MatchUpReader.py:218-240). *)
Definition to_dataset (f : ncfile) : res (dataset R) :=
  do M <- ndim f "M";; do m1 <- ndim f "m1";; do m2 <- ndim f "m2";;
  do s1 <- attr f "sensor_1_name";; do s2 <- attr f "sensor_2_name";;
  do x1 <- fl2 f "X1";; do x2 <- fl2 f "X2";; do k <- fl1 f "K";; do t1 <- fl1 f "time1";; do t2 <- fl1 f "time2";;
  Ok (mkDataset R M m1 m2 s1 s2 x1 x2 k t1 t2 (m_vars f)).
Definition opt {A} (x : res A) : option A := match x with Ok a => Some a | Raise _ => None end.
(** W and u variables, when the four *_use* variables are there (MatchUpReader.py:333-336, :450); the others are read when
    needed (a KeyError then), here at once. *)
Definition to_matvars (f : ncfile) : res (option (matvars R)) :=
  if subset ["w_matrix_use1"; "w_matrix_use2"; "u_matrix_use1"; "u_matrix_use2"]%string (names f) then
    do w1 <- in1 f "w_matrix_use1";; do w2 <- in1 f "w_matrix_use2";; do u1 <- in1 f "u_matrix_use1";; do u2 <- in1 f "u_matrix_use2";;
    do nnz <- in1 f "w_matrix_nnz";; do rows <- in2 f "w_matrix_row";; do col <- in1 f "w_matrix_col";; do val <- fl1 f "w_matrix_val";;
    do cnt <- in1 f "u_matrix_row_count";; do uval <- fl1 f "u_matrix_val";;
    Ok (Some (mkMatvars R (map Z.to_nat w1) (map Z.to_nat w2) (map Z.to_nat u1) (map Z.to_nat u2) (map Z.to_nat nnz)
                        (map (map Z.to_nat) rows) (map Z.to_nat col) val (map Z.to_nat cnt) uval))
  else Ok None.
(** The uncertainty variables (MatchUpReader.py:312-381). *)
Definition to_unc (f : ncfile) : res (uncvars R) :=
  do t1 <- in1 f "uncertainty_type1";; do t2 <- in1 f "uncertainty_type2";; do mv <- to_matvars f;;
  Ok (mkUncvars R (map Z.to_nat t1) (map Z.to_nat t2) (opt (fl2 f "Ur1")) (opt (fl2 f "Ur2")) (opt (fl2 f "Us1")) (opt (fl2 f "Us2")) mv).
Definition to_ufile (f : ncfile) : res (ufile R) := do d <- to_dataset f;; do u <- to_unc f;; Ok (mkUfile R d u).

Section Open.
Context {T : Type} (nanV : R) (zeroT : T) (f32 i32 : R -> R) (todate : R -> T) (isfill : R -> bool)
        (ord : list string -> list string) (ordn : list nat -> list nat).
(** The opened object with uncertainties. *)
Record opened := mkOpened {
  o_mu : matchup R T; o_unc : list (option (unc R)); o_w : list (option (csr R)); o_u : list (option (list R)); o_unck : list (list R)
}.
(** MatchUpReader.openMatchUp, MatchUpReader.py:110-153 with open_uncertainty and open_additional_values, without sensor data. *)
Definition open_files (fs : list ncfile) : res opened :=
  do ufs <- mapM to_ufile fs;;
  do mu <- openMatchUp R T 0%R nanV zeroT f32 i32 todate isfill ord (map (uf_d R) ufs);;
  do u <- open_unc R 0%R ordn ufs (mu_idx R T mu);;
  do k <- mapM (fun f => do kr <- fl1 f "Kr";; do ks <- fl1 f "Ks";; unck kr ks) fs;;
  let '(uncs, ws, us) := u in Ok (mkOpened mu uncs ws us k).
End Open.
