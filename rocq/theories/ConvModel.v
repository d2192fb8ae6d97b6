(** * Model of the files written by tools/MW_add_W_matrices.py, tools/pmh2fiduceo.py and tools/AVHRR_to_updated_spec.py as netCDF files, i.e. as
    tools/harmonisation_input_checker.py (CheckModel) and MatchUpReader.py (IOModel) see them.

    Simplifications: those of IOModel.  A NaN is some number [nanV] of the file; a dimension of size 0 is not unlimited; assigning data of another shape
    than the variable's raises ValueError (numpy broadcasts some). *)
From Coq Require Import Reals.
From Verif Require Import Base ReaderModel UncModel SimModel WModel CheckModel IOModel AvModel PmhModel.
Open Scope nat_scope.

Section Conv.
Variable f32 : R -> R.     (* storage in an 'f4' variable *)
Variable trunc : R -> Z.   (* a float assigned to an 'i4' variable *)

(** [rootgrp.createDimension(name, size)] *)
Definition new_dim (f : ncfile) (n : string) (k : nat) : res ncfile :=
  if inside n (map fst (nc_dims f)) then Raise OtherError else Ok (mkNc (nc_dims f ++ [(n, k)]) (nc_vars f) (nc_attrs f)).
(** [createVariable(name, dtype, dims)] and [var[:] = data[:]] for data of shape [sh] stored as [a]. *)
Definition new_var (f : ncfile) (n : string) (dims : list string) (ty : string) (sh : list nat) (a : arr) : res ncfile :=
  if inside n (names f) then Raise OtherError
  else do sz <- mapM (fun x => match lookup x (nc_dims f) with Some k => Ok k | None => Raise ValueError end) dims;;
       if eqln sz sh then Ok (mkNc (nc_dims f) (nc_vars f ++ [mkVar n dims ty a]) (nc_attrs f)) else Raise ValueError.
Definition int1 (l : list nat) : arr := IArr1 (map Z.of_nat l).
(** append_W_to_input_file: W_matrix_functions.py:280-404 ([ft] = "f8"), AVHRR_to_updated_spec.py:500-623 and pmh2fiduceo.py:575-698 ([ft] = "f4").
    [w_matrix_row] is a 2-D array (return_w_matrix_variables). *)
Definition append_W (ft : string) (f : ncfile) (mv : matvars R) : res ncfile :=
  let new_float f n dims l := let '(ty, a) := stored f32 trunc ft (D1 l) in new_var f n dims ty [length l] a in
  let nr := length (hd [] (w_row R mv)) in
  do f <- new_dim f "w_matrix_count" (length (w_nnz R mv));;
  do f <- new_dim f "w_matrix_row_count" nr;;
  do f <- new_dim f "w_matrix_nnz_sum" (list_sum (w_nnz R mv));;
  do f <- new_dim f "u_matrix_count" (length (u_row_count R mv));;
  do f <- new_dim f "u_matrix_row_count_sum" (list_sum (u_row_count R mv));;
  do f <- new_var f "w_matrix_nnz" ["w_matrix_count"]%string "int32" [length (w_nnz R mv)] (int1 (w_nnz R mv));;
  do f <- new_var f "w_matrix_row" ["w_matrix_count"; "w_matrix_row_count"]%string "int32" [length (w_row R mv); nr] (IArr2 (map (map Z.of_nat) (w_row R mv)));;
  do f <- new_var f "w_matrix_col" ["w_matrix_nnz_sum"]%string "int32" [length (w_col R mv)] (int1 (w_col R mv));;
  do f <- new_float f "w_matrix_val"%string ["w_matrix_nnz_sum"]%string (w_val R mv);;
  do f <- new_var f "w_matrix_use1" ["m1"]%string "int32" [length (wuse1 R mv)] (int1 (wuse1 R mv));;
  do f <- new_var f "w_matrix_use2" ["m2"]%string "int32" [length (wuse2 R mv)] (int1 (wuse2 R mv));;
  do f <- new_var f "u_matrix_row_count" ["u_matrix_count"]%string "int32" [length (u_row_count R mv)] (int1 (u_row_count R mv));;
  do f <- new_float f "u_matrix_val"%string ["u_matrix_row_count_sum"]%string (u_val R mv);;
  do f <- new_var f "u_matrix_use1" ["m1"]%string "int32" [length (uuse1 R mv)] (int1 (uuse1 R mv));;
  new_var f "u_matrix_use2" ["m2"]%string "int32" [length (uuse2 R mv)] (int1 (uuse2 R mv)).

(** write_input_file of the tools: pmh2fiduceo.py:317-486 ([ft] = "f8", as in MatchUpWriter.py), AVHRR_to_updated_spec.py:271-439 ([ft] = "f4";
    the times are 'f8'). *)
Definition variables_as (ft : string) (a : margs) : list (string * string * list string * nparr) :=
  [("X1", ft, ["M"; "m1"], g_X1 a); ("X2", ft, ["M"; "m2"], g_X2 a);
   ("Ur1", ft, ["M"; "m1"], g_Ur1 a); ("Ur2", ft, ["M"; "m2"], g_Ur2 a);
   ("Us1", ft, ["M"; "m1"], g_Us1 a); ("Us2", ft, ["M"; "m2"], g_Us2 a);
   ("uncertainty_type1", "i4", ["m1"], g_t1 a); ("uncertainty_type2", "i4", ["m2"], g_t2 a);
   ("K", ft, ["M"], g_K a); ("Kr", ft, ["M"], g_Kr a); ("Ks", ft, ["M"], g_Ks a);
   ("time1", "f8", ["M"], g_time1 a); ("time2", "f8", ["M"], g_time2 a)]%string.
Definition write_as (ft : string) (a : margs) : res ncfile :=
  do M <- get (shape (g_X1 a)) 0;;
  do m1 <- get (shape (g_X1 a)) 1;;
  do m2 <- get (shape (g_X2 a)) 1;;
  let f0 := mkNc [("M", M); ("m1", m1); ("m2", m2)]%string [] [("sensor_1_name", g_s1 a); ("sensor_2_name", g_s2 a)]%string in
  do f <- foldM (fun f v => let '(n, t, dm, d) := v in create f32 trunc f n t dm d) (variables_as ft a) f0;;
  match g_add a with
  | None => Ok f
  | Some l => foldM (fun f v => create f32 trunc f (ad_name v) (ad_dtype v) (ad_dim v) (ad_data v)) l f
  end.
Definition with_matrices (f : ncfile) (mv : option (matvars R)) : res ncfile := match mv with None => Ok f | Some m => append_W "f4" f m end.

Definition zs (l : list nat) : nparr := DI (map Z.of_nat l).
(** A file of pmh2fiduceo.py (PmhModel.run_conversion): write_input_file :763-771 and append_W_to_input_file :785-802. *)
Definition pmh_nc (p : pfile) : res ncfile :=
  let d := uf_d R (p_file p) in let u := uf_u R (p_file p) in
  match ur1 R u, ur2 R u, us1 R u, us2 R u with
  | Some r1, Some r2, Some s1, Some s2 =>
      let m1 := d_m1 R d in let m2 := d_m2 R d in
      do f <- write_as "f8" (mkArgs (D2 (d_X1 R d) m1) (D2 (d_X2 R d) m2) (D2 r1 m1) (D2 r2 m2) (D2 s1 m1) (D2 s2 m2) (zs (ut1 R u)) (zs (ut2 R u))
                (D1 (d_K R d)) (D1 (p_Kr p)) (D1 (p_Ks p)) (D1 (d_time1 R d)) (D1 (d_time2 R d)) (d_s1 R d) (d_s2 R d) None None);;
      with_matrices f (umat R u)
  | _, _, _, _ => Raise KeyError
  end.

Variable nanV : R.
Definition num (x : fl) : R := match x with Some r => r | None => nanV end.
(** A file of AVHRR_to_updated_spec.py (AvModel.av_main): :626-650.  The dtypes of the additional variables (those of the input file) are not modelled: "f8". *)
Definition av_nc (o : avout) : res ncfile :=
  let d rows := D2 (map (map num) rows) (length (hd [] rows)) in
  do f <- write_as "f4" (mkArgs (d (o_X1 o)) (d (o_X2 o)) (d (o_Ur1 o)) (d (o_Ur2 o)) (d (o_Us1 o)) (d (o_Us2 o)) (zs (o_ut1 o)) (zs (o_ut2 o))
            (D1 (map num (o_K o))) (D1 (map num (o_Kr o))) (D1 (map num (o_Ks o))) (D1 (o_t1 o)) (D1 (o_t2 o)) (o_s1 o) (o_s2 o) None
            (Some (map (fun p => mkAdd (fst p) "f8" ["M"]%string (D1 (map num (snd p)))) (o_adds o))));;
  with_matrices f (o_W o).

(** ** MW_add_W_matrices.py *)
(** :33-35, :256-271 *)
Definition instrument_of (reference : bool) (name : string) : res instrument :=
  if inside name ["19"; "ma"; "mb"]%string then Ok MHS
  else if inside name ["15"; "16"; "17"]%string then Ok AMSUB
  else if reference && inside name ["18"]%string then Ok Ref
  else Raise ValueError.
(** [dataset.variables[name][:] = data] *)
Definition set_var (f : ncfile) (n : string) (a : arr) : ncfile :=
  mkNc (nc_dims f) (map (fun v => if String.eqb (v_name v) n then mkVar (v_name v) (v_dims v) (v_dtype v) a else v) (nc_vars f)) (nc_attrs f).
(** :292-303: [U[:, 0:9] = 0], [U[:, 0:7] = 0]; nothing for a reference sensor *)
Definition clear (a : instrument) (rows : list (list R)) : list (list R) :=
  let k := match a with Ref => 0 | AMSUB => 9 | MHS => 7 end in map (fun r => repeat 0%R (Nat.min k (length r)) ++ skipn k r) rows.
(** :279-290 *)
Definition set_types (f : ncfile) (n d : string) (a : instrument) : res ncfile :=
  do v <- nvar f n;; do m <- ndim f d;;
  if m =? length (mw_types a) then Ok (set_var f n (int1 (mw_types a))) else Raise ValueError.
(** run, :241-322: the file written (the report of the checker is left out). *)
Definition mw_file (f : ncfile) : res ncfile :=
  do s1 <- attr f "sensor_1_name";; do s2 <- attr f "sensor_2_name";;
  do t1 <- fl1 f "time1";; do u1 <- fl2 f "Ur1";; do u2 <- fl2 f "Ur2";;
  do a2 <- instrument_of false s2;; do a1 <- instrument_of true s1;;
  do mv <- mw_run (mkMw t1 t1 u1 u2) a1 a2;;
  do g <- set_types f "uncertainty_type1" "m1" a1;;
  do g <- set_types g "uncertainty_type2" "m2" a2;;
  let g := set_var g "Ur2" (Arr2 (clear a2 u2)) in
  let g := set_var g "Ur1" (Arr2 (clear a1 u1)) in
  append_W "f8" g mv.
End Conv.
