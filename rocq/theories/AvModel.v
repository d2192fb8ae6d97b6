(** * Model of /repo/tools/AVHRR_to_updated_spec.py.

    A value that may be NaN is an [option R] ([None]: NaN).  The file written is a record of its variables.
    Simplifications: exact reals (the f4 variables of the files round); Python dictionaries are lists in
    some fixed order; descriptions, dtypes and compression of the variables are left out; the call of
    harmonisation_input_checker after each file (it prints a report) is left out; the brightness temperature
    conversion (convert_bt_to_radiance.py, see BTModel) is an argument. *)
From Coq Require Import Reals.
From Verif Require Import Base ReaderModel UncModel TransformModel HRModel SimModel WModel.
Open Scope nat_scope.

Definition fl := option R.
Definition isnan (x : fl) : bool := match x with None => true | Some _ => false end.
(** The numbers of an array without NaN. *)
Definition nums (l : list fl) : list R := map (fun x => match x with Some r => r | None => 0%R end) l.
Definition dict := list (string * list fl).
Definition in_dict (n : string) (d : dict) : bool := existsb (String.eqb n) (map fst d).
Definition remove (n : string) (d : dict) : dict := filter (fun p => negb (String.eqb (fst p) n)) d.
Definition item (n : string) (d : dict) : res (list fl) := match lookup n d with Some v => Ok v | None => Raise KeyError end.

(** The variables of the input file, :114-140. *)
Record avin := mkAvin {
  a_H : list (list fl); a_Us : list (list fl); a_Ur : list (list fl); a_K : list fl; a_Kr : list fl; a_Ks : list fl;
  a_s1 : Z; a_s2 : Z; a_t1 : list R; a_t2 : list R;
  a_uS1 : list (list fl); a_uI1 : list (list fl); a_uS2 : list (list fl); a_uI2 : list (list fl);
  a_adds : dict
}.

(** :34-44; an unknown number gives None. *)
Definition updated_names : list (Z * string) :=
  [(-12, "aatsr"); (-11, "atsr2"); (-10, "atsr1"); (-1, "m02"); (19, "n19"); (18, "n18"); (17, "n17"); (16, "n16"); (15, "n15"); (14, "n14");
   (12, "n12"); (11, "n11"); (10, "n10"); (9, "n09"); (8, "n08"); (7, "n07")]%Z%string.
Definition get_new_name (n : Z) : option string := option_map snd (find (fun p => Z.eqb (fst p) n) updated_names).

(** :150-191.  [zip] stops with the shortest array; NaN < limit is False. *)
Definition valid_mask (u11 u12 u21 u22 : list (list fl)) (lim : option (list fl * R)) : res (list bool) :=
  do v <- mapM (fun p => let '(i, ((r11, r12), (r21, r22))) := p in
      let nan := existsb isnan r11 || existsb isnan r12 || existsb isnan r21 || existsb isnan r22 in
      do cold <- match lim with
                 | None => Ok false
                 | Some (bt, l) => do b <- get bt i;; Ok (match b with Some x => if Rlt_dec x l then true else false | None => false end)
                 end;;
      Ok (negb nan && negb cold)) (enumerate (combine (combine u11 u12) (combine u21 u22)));;
  Ok (v ++ repeat true (length u11 - length v)).
(** [a[mask]] *)
Definition masked {A} (mask : list bool) (l : list A) : res (list A) :=
  if length mask =? length l then Ok (map snd (filter fst (combine mask l))) else Raise IndexError.

(** :194-211 *)
Definition renamed : list (string * string) :=
  [("original_indices", "original_indices"); ("latitude", "lat2"); ("longitude", "lon2"); ("satza", "vza2"); ("solza", "sza2"); ("BT", "nominal_measurand2");
   ("ref_latitude", "lat1"); ("ref_longitude", "lon1"); ("ref_satza", "vza1"); ("ref_solza", "sza1"); ("ref_BT", "nominal_measurand1")]%string.
Definition return_additional_variables (d : dict) (mask : list bool) : res dict :=
  foldM (fun acc p => match lookup (fst p) d with
                      | Some v => do v' <- masked mask v;; Ok (acc ++ [(snd p, v')])
                      | None => Ok acc
                      end) renamed [].

(** :214-277 *)
Definition return_w_matrices (uS1 uI1 uS2 uI2 : list (list R)) (t1 : list R) (d1 : R) (t2 : list R) (d2 : R) (m1 : nat)
  : res (list (csr R) * list (list R)) :=
  do g2 <- gen_w t2 d2 (KA uS2) None None;;
  do h2 <- gen_w t2 d2 (KA uI2) None None;;
  if m1 =? 1 then Ok ([fst g2], [snd g2; snd h2]) else
  do g1 <- gen_w t1 d1 (KA uS1) None None;;
  do h1 <- gen_w t1 d1 (KA uI1) None None;;
  Ok ([fst g1; fst g2], [snd g1; snd h1; snd g2; snd h2]).

(** A Python value: the band is an int (:680), the test at :444 compares it with a str. *)
Inductive pyval := VInt (z : Z) | VStr (s : string).
Definition py_eq (a b : pyval) : bool :=
  match a, b with VInt x, VInt y => Z.eqb x y | VStr x, VStr y => String.eqb x y | _, _ => false end.
(** :442-459: number of the directory of the 3- and of the 4-parameter files. *)
Definition directory_numbers (band : pyval) : string * string :=
  if py_eq band (VStr "37") then ("105", "106")%string else ("101", "102")%string.

(** [int(s)] of a string of two characters: digits only, others raise (blanks and signs are not modelled). *)
Definition digit (c : ascii) : option Z :=
  let n := nat_of_ascii c in if (48 <=? n) && (n <=? 57) then Some (Z.of_nat n - 48)%Z else None.
Definition int_of (s : text) : res Z :=
  match s with
  | [a; b] => match digit a, digit b with Some x, Some y => Ok (10 * x + y)%Z | _, _ => Raise ValueError end
  | _ => Raise ValueError
  end.
(** [name[-2:]], [name[:-2]] *)
Definition last2 (n : string) : text := skipn (length (tx n) - 2) (tx n).
Definition but2 (n : string) : string := string_of_list_ascii (firstn (length (tx n) - 2) (tx n)).

(** A harmonisation input file. *)
Record avout := mkAvout {
  o_dir : string; o_X1 : list (list fl); o_X2 : list (list fl); o_Ur1 : list (list fl); o_Ur2 : list (list fl); o_Us1 : list (list fl); o_Us2 : list (list fl);
  o_ut1 : list nat; o_ut2 : list nat; o_K : list fl; o_Kr : list fl; o_Ks : list fl; o_t1 : list R; o_t2 : list R; o_s1 : string; o_s2 : string;
  o_adds : dict; o_W : option (matvars R)
}.

(** [a[:, cols] = 0.0] *)
Definition zero_cols (cols : list nat) (rows : list (list fl)) : res (list (list fl)) :=
  mapM (fun r => if forallb (fun c => c <? length r) cols
                 then Ok (map (fun p => if existsb (Nat.eqb (fst p)) cols then Some 0%R else snd p) (enumerate r)) else Raise IndexError) rows.
(** [a[:, i] = v] *)
Definition set_col (i : nat) (v : list R) (rows : list (list fl)) : res (list (list fl)) :=
  if length v =? length rows then mapM (fun p => setitem i (Some (snd p)) (fst p)) (combine rows v) else Raise ValueError.
Definition all_zero (rows : list (list fl)) : list (list fl) := map (map (fun _ => Some 0%R)) rows.
Definition from3 (k : nat) (l : list nat) : list nat := firstn 3 l ++ map (fun _ => k) (skipn 3 l).
(** [X[:, -1]] *)
Definition last_col (rows : list (list fl)) : res (list fl) := mapM (fun r => pyget r (-1)%Z) rows.

(** :626-650 for one file: [m1], [m2] columns; [To1], [To2] added when the last of five columns is left out (:794-804). *)
Definition write_file (dir : string) (m1 m2 : nat) (X1 X2 Ur1 Ur2 Us1 Us2 : list (list fl)) (ut1 ut2 : list nat) (K Kr Ks : list fl) (t1 t2 : list R)
           (s1 s2 : option string) (adds : dict) (W : option (matvars R)) : res avout :=
  do To1 <- (if m1 =? 4 then do c <- last_col X1;; Ok [("To1"%string, c)] else Ok []);;
  do To2 <- (if m2 =? 4 then do c <- last_col X2;; Ok [("To2"%string, c)] else Ok []);;
  (* netCDF4 refuses an attribute None *)
  match s1, s2 with
  | Some n1, Some n2 =>
      Ok (mkAvout dir (map (firstn m1) X1) (map (firstn m2) X2) (map (firstn m1) Ur1) (map (firstn m2) Ur2) (map (firstn m1) Us1) (map (firstn m2) Us2)
                  (firstn m1 ut1) (firstn m2 ut2) K Kr Ks t1 t2 n1 n2 (adds ++ To1 ++ To2)
                  (match W with
                   | None => None
                   | Some mv => Some (mkMatvars R (firstn m1 (wuse1 R mv)) (firstn m2 (wuse2 R mv)) (firstn m1 (uuse1 R mv)) (firstn m2 (uuse2 R mv))
                                        (w_nnz R mv) (w_row R mv) (w_col R mv) (w_val R mv) (u_row_count R mv) (u_val R mv))
                   end))
  | _, _ => Raise TypeError
  end.

(** :838-851: random uncertainty of the structured columns for the files without structured effects. *)
Definition combine_structured (ut wuse uuse : list nat) (ws : list (csr R)) (us : list (list R)) (Ur : list (list fl)) : res (list (list fl)) :=
  foldM (fun acc p => if snd p =? 3 then
      do iw <- get wuse (fst p);; do w <- pyget ws (Z.of_nat iw - 1);;
      do iu <- get uuse (fst p);; do u <- pyget us (Z.of_nat iu - 1);;
      do v <- csr_dot w u;; set_col (fst p) v acc
    else Ok acc) (enumerate ut) Ur.

Section Main.
(** convertBT2rad(sensor_name, BT), :653-656 *)
Variable torad : option string -> list fl -> res (list fl).

(** :677-683: band and renaming of the brightness temperature variables. *)
Definition bt_names (d : dict) : list string := filter (fun n => contains (tx "BT") (tx n)) (map fst d).
Definition rename_bt (d : dict) : res (Z * dict) :=
  do b <- get (bt_names d) 0;;
  do band <- int_of (last2 b);;
  do d' <- foldM (fun acc n => do v <- item n acc;; Ok (remove (but2 n) (remove n acc) ++ [(but2 n, v)])) (bt_names d) d;;
  Ok (band, d').

(** :659-776: everything up to the first file. *)
Record prepared := mkPrep {
  p_ref : bool; p_X1 : list (list fl); p_X2 : list (list fl); p_Ur1 : list (list fl); p_Ur2 : list (list fl); p_Us1 : list (list fl); p_Us2 : list (list fl);
  p_K : list fl; p_Kr : list fl; p_Ks : list fl; p_t1 : list R; p_t2 : list R; p_s1 : option string; p_s2 : option string; p_adds : dict;
  p_ws : list (csr R); p_us : list (list R); p_W : matvars R; p_dirs : string * string
}.
Definition columns (a b : nat) (rows : list (list fl)) : list (list fl) := map (slice a b) rows.
(** Use tables and types, :767-782. *)
Definition wuses (ref : bool) : list nat * list nat * list nat * list nat :=
  if ref then ([0], [1; 1; 0; 0; 0], [0], [1; 2; 0; 0; 0]) else ([1; 1; 0; 0; 0], [2; 2; 0; 0; 0], [1; 2; 0; 0; 0], [3; 4; 0; 0; 0]).
Definition types1 (ref : bool) : list nat := if ref then [1] else [3; 3; 1; 2; 2].
Definition types2 : list nat := [3; 3; 1; 2; 2].
Definition prepare (f : avin) (temp_lim : option R) : res prepared :=
  do r <- rename_bt (a_adds f);; let '(band, d) := r in
  let s1 := get_new_name (a_s1 f) in let s2 := get_new_name (a_s2 f) in
  let d := remove "original_indices" d ++ [("original_indices"%string, map (fun i => Some (INR i)) (seq 0 (length (a_K f))))] in
  do d <- (if in_dict "ref_BT" d then
             do b1 <- item "ref_BT" d;; do r1 <- torad s1 b1;;
             let d := remove "nominal_measurand1" d ++ [("nominal_measurand1"%string, r1)] in
             do b2 <- item "BT" d;; do r2 <- torad s2 b2;;
             Ok (remove "nominal_measurand2" d ++ [("nominal_measurand2"%string, r2)])
           else Ok d);;
  do lim <- match temp_lim with None => Ok None | Some l => do bt <- item "BT11" d;; Ok (Some (bt, l)) end;;
  do mask <- valid_mask (a_uS1 f) (a_uI1 f) (a_uS2 f) (a_uI2 f) lim;;
  do h0 <- get (a_H f) 0;; do h03 <- get h0 3;;
  let ref := isnan h03 in
  let m1 := if ref then 1 else 5 in
  do Ur <- zero_cols (if ref then [5; 6] else [0; 1; 5; 6]) (a_Ur f);;
  do Us <- (if ref then zero_cols [0] (a_Us f) else Ok (a_Us f));;
  do H' <- masked mask (a_H f);; do Ur' <- masked mask Ur;; do Us' <- masked mask Us;;
  do K <- masked mask (a_K f);; do Kr <- masked mask (a_Kr f);; do Ks <- masked mask (a_Ks f);;
  do t1 <- masked mask (a_t1 f);; do t2 <- masked mask (a_t2 f);;
  do d <- return_additional_variables d mask;;
  do uS1 <- masked mask (a_uS1 f);; do uI1 <- masked mask (a_uI1 f);; do uS2 <- masked mask (a_uS2 f);; do uI2 <- masked mask (a_uI2 f);;
  do wu <- return_w_matrices (map nums uS1) (map nums uI1) (map nums uS2) (map nums uI2) t1 (1 / 2) t2 (1 / 2) m1;;
  let '(w1, w2, u1, u2) := wuses ref in
  do mv <- return_w_matrix_variables R 0%R w1 w2 u1 u2 (fst wu) (snd wu);;
  Ok (mkPrep ref (columns 0 m1 H') (columns 5 10 H') (columns 0 m1 Ur') (columns 5 10 Ur') (columns 0 m1 Us') (columns 5 10 Us')
             K Kr Ks t1 t2 s1 s2 d (fst wu) (snd wu) mv (directory_numbers (VInt band))).

Definition dirname (n suffix : string) : string := ("AVHRR_REAL_" ++ n ++ "_" ++ suffix)%string.
(** :659-890: the six files (names of their directories; the file name is that of the input). *)
Definition av_main (f : avin) (temp_lim : option R) : res (list avout) :=
  do p <- prepare f temp_lim;;
  let ref := p_ref p in
  let '(n3, n4) := p_dirs p in
  let sizes := if ref then [(1, 4); (1, 5)] else [(4, 4); (5, 5)] in
  let group suffix ur1 ur2 us1 us2 ut1 ut2 W :=
    mapM (fun q => write_file (dirname (fst q) suffix) (fst (snd q)) (snd (snd q)) (p_X1 p) (p_X2 p) ur1 ur2 us1 us2 ut1 ut2
                     (p_K p) (p_Kr p) (p_Ks p) (p_t1 p) (p_t2 p) (p_s1 p) (p_s2 p) (p_adds p) W) (combine [n3; n4] sizes) in
  (* a. with systematics *)
  do fa <- group "RSW_"%string (p_Ur1 p) (p_Ur2 p) (p_Us1 p) (p_Us2 p) (types1 ref) types2 (Some (p_W p));;
  (* b. without systematics *)
  let us1 := all_zero (p_Us1 p) in let us2 := all_zero (p_Us2 p) in
  let ut2 := from3 1 types2 in let ut1 := if ref then types1 ref else from3 1 (types1 ref) in
  do fb <- group "R_W_"%string (p_Ur1 p) (p_Ur2 p) us1 us2 ut1 ut2 (Some (p_W p));;
  (* c. without structured effects *)
  let '(w1, w2, u1, u2) := wuses ref in
  do ur1 <- combine_structured ut1 w1 u1 (p_ws p) (p_us p) (p_Ur1 p);;
  do ur2 <- combine_structured ut2 w2 u2 (p_ws p) (p_us p) (p_Ur2 p);;
  do fc <- group "R___"%string ur1 ur2 us1 us2 (if ref then [1] else repeat 1 5) (repeat 1 5) None;;
  Ok (fa ++ fb ++ fc).
End Main.
