(** * Model of /repo/tools/harmonisation_input_checker.py.

    A netCDF file is its dimensions, variables (dimension names, dtype, data) and global attributes.
    Simplifications: numbers are exact (no nan, no masked values); error messages are constructors;
    Python dictionaries are in a fixed order (the order of the messages is unspecified).  A variable of
    another rank or type than the specification's is read as [ArrOther], and reading its values raises:
    in the code some operations on it happen to work, but an error has been recorded for it before (dtype
    or dimension), so the file is rejected in either case. *)
From Coq Require Import Reals.
From Verif Require Import Base ReaderModel SimModel.
Open Scope nat_scope.

Inductive arr := Arr1 (l : list R) | Arr2 (rows : list (list R)) | IArr1 (l : list Z) | IArr2 (rows : list (list Z)) | ArrOther.
Record ncvar := mkVar { v_name : string; v_dims : list string; v_dtype : string; v_data : arr }.
Record ncfile := mkNc { nc_dims : list (string * nat); nc_vars : list ncvar; nc_attrs : list (string * string) }.

(** harmonisation_input_checker.py:30-42 *)
Definition floats := ["float32"; "float64"]%string.
Definition ints := ["int32"]%string.
Definition VARIABLE_DATA : list (string * (list string * list string)) :=
  [("X1", (["M"; "m1"], floats)); ("X2", (["M"; "m2"], floats)); ("Ur1", (["M"; "m1"], floats)); ("Ur2", (["M"; "m2"], floats));
   ("Us1", (["M"; "m1"], floats)); ("Us2", (["M"; "m2"], floats)); ("K", (["M"], floats)); ("Kr", (["M"], floats)); ("Ks", (["M"], floats));
   ("time1", (["M"], floats)); ("time2", (["M"], floats)); ("uncertainty_type1", (["m1"], ints)); ("uncertainty_type2", (["m2"], ints))]%string.
(** :45-54 *)
Definition W_VARIABLE_DATA : list (string * (list string * list string)) :=
  [("w_matrix_nnz", (["w_matrix_count"], ints)); ("w_matrix_row", (["w_matrix_count"; "w_matrix_row_count"], ints)); ("w_matrix_col", (["w_matrix_nnz_sum"], ints));
   ("w_matrix_val", (["w_matrix_nnz_sum"], floats)); ("w_matrix_use1", (["m1"], ints)); ("w_matrix_use2", (["m2"], ints));
   ("u_matrix_row_count", (["u_matrix_count"], ints)); ("u_matrix_val", (["u_matrix_row_count_sum"], floats)); ("u_matrix_use1", (["m1"], ints)); ("u_matrix_use2", (["m2"], ints))]%string.
(** :57 *)
Definition ATTRS := ["sensor_1_name"; "sensor_2_name"]%string.

Inductive err :=
| EMissing (l : list string) | EMissingW (l : list string)
| EDim (v : string) | EDtype (v : string)
| EAttr (a : string) | ESameSensor
| EWCount | EUCount | EWRows | EWNnz | EURows
| EKr | EKs | EKcomb | EUneg (v : string)
| EWUse | EUUse | EWUMismatch | EWUSize (w u : Z) | EUval | EIndex (v : string)
| EForm (side col : nat) | EOneForm (side col : nat).

Definition names (f : ncfile) : list string := map v_name (nc_vars f).
Definition inside (x : string) (l : list string) : bool := mem String.eqb x l.
Definition subset (l l' : list string) : bool := forallb (fun x => inside x l') l.
Definition eql (a b : list string) : bool := if list_eq_dec string_dec a b then true else false.
(** [rootgrp.variables[name]], [rootgrp.dimensions[name].size] *)
Definition nvar (f : ncfile) (n : string) : res ncvar := match find (fun v => String.eqb (v_name v) n) (nc_vars f) with Some v => Ok v | None => Raise KeyError end.
Definition ndim (f : ncfile) (n : string) : res nat := match lookup n (nc_dims f) with Some k => Ok k | None => Raise KeyError end.
Definition fl1 (f : ncfile) (n : string) : res (list R) := do v <- nvar f n;; match v_data v with Arr1 l => Ok l | _ => Raise OtherError end.
Definition fl2 (f : ncfile) (n : string) : res (list (list R)) := do v <- nvar f n;; match v_data v with Arr2 l => Ok l | _ => Raise OtherError end.
Definition in1 (f : ncfile) (n : string) : res (list Z) := do v <- nvar f n;; match v_data v with IArr1 l => Ok l | _ => Raise OtherError end.
Definition in2 (f : ncfile) (n : string) : res (list (list Z)) := do v <- nvar f n;; match v_data v with IArr2 l => Ok l | _ => Raise OtherError end.
(** Element-wise comparisons followed by .all(). *)
Definition pos (x : R) : bool := if Rlt_dec 0 x then true else false.
Definition nonneg (x : R) : bool := if Rle_dec 0 x then true else false.
Definition iszero (x : R) : bool := if Req_EM_T x 0 then true else false.
Definition errif (b : bool) (e : err) : list err := if b then [e] else [].

(** :60-103.  [missing_w_variables != w_variables]: not all of them missing. *)
Definition check_variable_included (f : ncfile) : list err :=
  let missing := filter (fun v => negb (inside v (names f))) (map fst VARIABLE_DATA) in
  let missing_w := filter (fun v => negb (inside v (names f))) (map fst W_VARIABLE_DATA) in
  errif (negb (eql missing [])) (EMissing missing) ++
  errif (negb (eql missing_w []) && negb (eql missing_w (map fst W_VARIABLE_DATA))) (EMissingW missing_w).

(** The specification entry of a variable name: required variables first (:131-141, :173-185). *)
Definition spec_of (n : string) : option (list string * list string) :=
  match lookup n VARIABLE_DATA with Some s => Some s | None => lookup n W_VARIABLE_DATA end.
(** :106-145 *)
Definition check_variable_dimension (f : ncfile) : list err :=
  flat_map (fun v => match spec_of (v_name v) with Some (d, _) => errif (negb (eql (v_dims v) d)) (EDim (v_name v)) | None => [] end) (nc_vars f).
(** :148-189 *)
Definition check_variable_dtype (f : ncfile) : list err :=
  flat_map (fun v => match spec_of (v_name v) with Some (_, t) => errif (negb (inside (v_dtype v) t)) (EDtype (v_name v)) | None => [] end) (nc_vars f).

(** :192-222 *)
Definition check_attributes (f : ncfile) : list err :=
  let attrs := map fst (nc_attrs f) in
  flat_map (fun a => errif (negb (inside a attrs)) (EAttr a)) ATTRS ++
  match lookup "sensor_1_name"%string (nc_attrs f), lookup "sensor_2_name"%string (nc_attrs f) with
  | Some a, Some b => errif (String.eqb a b) ESameSensor
  | _, _ => []
  end.

(** :225-293 *)
Definition zsum (l : list Z) : Z := fold_right Z.add 0%Z l.
Definition check_w_matrix_variable_dimensions (f : ncfile) : res (list err) :=
  if subset (map fst W_VARIABLE_DATA) (names f) then
    do dw <- ndim f "w_matrix_count";;
    do w1 <- in1 f "w_matrix_use1";; do w2 <- in1 f "w_matrix_use2";;
    do mw1 <- zmax w1;; do mw2 <- zmax w2;;
    do du <- ndim f "u_matrix_count";;
    do u1 <- in1 f "u_matrix_use1";; do u2 <- in1 f "u_matrix_use2";;
    do mu1 <- zmax u1;; do mu2 <- zmax u2;;
    do drow <- ndim f "w_matrix_row_count";; do dM <- ndim f "M";;
    do dnnz <- ndim f "w_matrix_nnz_sum";; do nnz <- in1 f "w_matrix_nnz";;
    do dru <- ndim f "u_matrix_row_count_sum";; do ru <- in1 f "u_matrix_row_count";;
    Ok (errif (negb (Z.of_nat dw =? Z.max mw1 mw2)%Z) EWCount ++
        errif (negb (Z.of_nat du =? Z.max mu1 mu2)%Z) EUCount ++
        errif (negb (drow =? dM + 1)) EWRows ++
        errif (negb (Z.of_nat dnnz =? zsum nnz)%Z) EWNnz ++
        errif (negb (Z.of_nat dru =? zsum ru)%Z) EURows)
  else Ok [].

(** :296-331.  The list of variables is ["Ur1", "Ur2", "Us1", "Ur2"]. *)
Definition check_variable_values (f : ncfile) : res (list err) :=
  do e1 <- (if subset ["Kr"; "Ks"]%string (names f) then
    do kr <- fl1 f "Kr";; do ks <- fl1 f "Ks";;
    if Nat.eqb (length kr) (length ks) then
      Ok (errif (negb (forallb nonneg kr)) EKr ++ errif (negb (forallb nonneg ks)) EKs ++
          errif (negb (forallb (fun q => pos (snd q ^ 2 + fst q ^ 2)) (combine kr ks))) EKcomb)
    else Raise ValueError
    else Ok []);;
  do e2 <- (if subset ["Ur1"; "Ur2"; "Us1"; "Ur2"]%string (names f) then
    do l <- mapM (fun v => do x <- fl2 f v;; Ok (errif (negb (forallb (forallb nonneg) x)) (EUneg v))) ["Ur1"; "Ur2"; "Us1"; "Ur2"]%string;;
    Ok (concat l)
    else Ok []);;
  Ok (e1 ++ e2).

(** [a[s:e]] with arbitrary integers. *)
Definition norm (i : Z) (n : nat) : nat := if (i <? 0)%Z then Z.to_nat (Z.of_nat n + i) else Nat.min (Z.to_nat i) n.
Definition zslice {A} (s e : Z) (l : list A) : list A := slice (norm s (length l)) (norm e (length l)) l.
(** [where(a != 0)[0]], [where(a == k)[0]] *)
Definition where_ (p : Z -> bool) (a : list Z) : list nat := map fst (filter (fun q => p (snd q)) (enumerate a)).
Definition set_eqb (a b : list Z) : bool := forallb (fun x => existsb (Z.eqb x) b) a && forallb (fun x => existsb (Z.eqb x) a) b.
Definition eqln (a b : list nat) : bool := if list_eq_dec Nat.eq_dec a b then true else false.
(** [set(a[a != 0]) != set(range(1, max(a + 1)))], :353-363 *)
Definition use_check (a : list Z) (e : err) : res (list err) :=
  do m <- zmax (map (fun x => x + 1)%Z a);;
  Ok (errif (negb (set_eqb (filter (fun x => negb (x =? 0)%Z) a) (map (fun i => Z.of_nat i + 1)%Z (seq 0 (Z.to_nat (m - 1)))))) e).
(** Body of the loop :378-393. *)
Definition width_step (wuse uuse col rows : list Z) (st : Z * list err) (p : nat * Z) : res (Z * list err) :=
  let '(istart, es) := st in let '(i, n) := p in
  let iend := (istart + n)%Z in
  do mx <- zmax (zslice istart iend col);;
  do more <- mapM (fun q => do u <- get uuse q;; do r <- pyget rows (u - 1);;
                            Ok (errif (negb (r =? mx + 1)%Z) (EWUSize (Z.of_nat i + 1) u)))
                  (where_ (fun x => x =? Z.of_nat i + 1)%Z wuse);;
  Ok (iend, es ++ concat more).
(** :334-409 *)
Definition check_w_variable_values (f : ncfile) : res (list err) :=
  if subset (map fst W_VARIABLE_DATA) (names f) then
    do w1 <- in1 f "w_matrix_use1";; do w2 <- in1 f "w_matrix_use2";;
    do u1 <- in1 f "u_matrix_use1";; do u2 <- in1 f "u_matrix_use2";;
    let wuse := w1 ++ w2 in let uuse := u1 ++ u2 in
    do e1 <- use_check wuse EWUse;;
    do e2 <- use_check uuse EUUse;;
    let e3 := errif (negb (eqln (where_ (fun x => negb (x =? 0)%Z) wuse) (where_ (fun x => negb (x =? 0)%Z) uuse))) EWUMismatch in
    do nnz <- in1 f "w_matrix_nnz";; do col <- in1 f "w_matrix_col";; do rows <- in1 f "u_matrix_row_count";;
    do e4 <- foldM (width_step wuse uuse col rows) (enumerate nnz) (0%Z, []);;
    do uval <- fl1 f "u_matrix_val";;
    let e5 := errif (negb (forallb pos uval)) EUval in
    do row <- in2 f "w_matrix_row";;
    let neg l := negb (forallb (fun x => 0 <=? x)%Z l) in
    Ok (e1 ++ e2 ++ e3 ++ snd e4 ++ e5 ++ errif (neg nnz) (EIndex "w_matrix_nnz") ++ errif (neg (concat row)) (EIndex "w_matrix_row") ++
        errif (neg col) (EIndex "w_matrix_col") ++ errif (neg rows) (EIndex "u_matrix_row_count"))
  else Ok [].

(** Body of the loops :448-506 and :512-570 for one covariate: declared type, Ur[:, col], Us[:, col],
    w_matrix_use[col]; [lbl]: whether the variable uncertainty_str has been assigned so far (it is not assigned
    for type 4, :455-458 repeat the test for type 3). *)
Definition check_column (side : nat) (ut : list Z) (ur us : list (list R)) (wuse : list Z) (st : bool * list err) (col : nat) : res (bool * list err) :=
  let '(lbl, es) := st in
  do t <- get ut col;;
  let lbl := lbl || negb (t =? 4)%Z in
  do r <- mapM (fun row => get row col) ur;; do s <- mapM (fun row => get row col) us;; do w <- get wuse col;;
  let rand := forallb pos r && forallb iszero s in
  let randsys := forallb pos r && forallb pos s in
  let wm := (0 <? w)%Z && forallb iszero s in
  let wsys := (0 <? w)%Z && forallb pos s in
  let agree := ((t =? 1)%Z && rand) || ((t =? 2)%Z && randsys) || ((t =? 3)%Z && wm) || ((t =? 4)%Z && wsys) in
  let one := (rand && (negb randsys && negb wm && negb wsys)) || (randsys && (negb rand && negb wm) && negb wsys)
             || (wm && (negb rand && negb randsys && negb wsys)) || (wsys && (negb rand && negb randsys && negb wm)) in
  if (agree && one) || lbl then Ok (lbl, es ++ errif (negb agree) (EForm side col) ++ errif (negb one) (EOneForm side col))
  else Raise UnboundLocalError.
(** :412-574 *)
Definition check_uncertainty_assignment (f : ncfile) : res (list err) :=
  if subset ["X1"; "X2"; "Ur1"; "Ur2"; "Us1"; "Us2"; "uncertainty_type1"; "uncertainty_type2"]%string (names f) then
    do m1 <- ndim f "m1";; do m2 <- ndim f "m2";;
    do t1 <- in1 f "uncertainty_type1";; do t2 <- in1 f "uncertainty_type2";;
    do w1 <- (if inside "w_matrix_use1" (names f) then in1 f "w_matrix_use1" else Ok (repeat 0%Z m1));;
    do w2 <- (if inside "w_matrix_use2" (names f) then in1 f "w_matrix_use2" else Ok (repeat 0%Z m2));;
    do ur1 <- fl2 f "Ur1";; do us1 <- fl2 f "Us1";;
    do st <- foldM (check_column 1 t1 ur1 us1 w1) (seq 0 m1) (false, []);;
    do ur2 <- fl2 f "Ur2";; do us2 <- fl2 f "Us2";;
    do st <- foldM (check_column 2 t2 ur2 us2 w2) (seq 0 m2) st;;
    Ok (snd st)
  else Ok [].

(** :577-612: the errors; the exit status is 1 when there are any. *)
Definition check (f : ncfile) : res (list err) :=
  do e5 <- check_w_matrix_variable_dimensions f;;
  do e6 <- check_variable_values f;;
  do e7 <- check_w_variable_values f;;
  do e8 <- check_uncertainty_assignment f;;
  Ok (check_variable_included f ++ check_variable_dtype f ++ check_variable_dimension f ++ check_attributes f ++ e5 ++ e6 ++ e7 ++ e8).
