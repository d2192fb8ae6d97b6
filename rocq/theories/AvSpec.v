(** * Specification vocabulary for C89-C95: conversion of AVHRR match-up files. *)
From Coq Require Import Reals Sorted.
From Verif Require Import Base ReaderModel UncModel TransformModel GNModel WModel WSpec AvModel.
Open Scope nat_scope.

(** ** Input files *)
Definition n_matchups (f : avin) : nat := length (a_K f).
(** The first sensor is a reference: no fourth quantity for it. *)
Definition is_ref (f : avin) : Prop := exists r, nth_error (a_H f) 0 = Some r /\ nth_error r 3 = Some None.
Definition not_ref (f : avin) : Prop := exists r x, nth_error (a_H f) 0 = Some r /\ nth_error r 3 = Some (Some x).
(** Brightness temperatures: the variables whose name contains "BT" are BTcc, and perhaps ref_BTcc, with two digits cc. *)
Record bt_variables (f : avin) (band : Z) (bt : list fl) (ref_bt : option (list fl)) : Prop := {
  bv_nodup : NoDup (map fst (a_adds f));
  bv_names : exists a b x y, digit a = Some x /\ digit b = Some y /\ band = (10 * x + y)%Z /\
     let cc := String a (String b EmptyString) in
     lookup ("BT" ++ cc)%string (a_adds f) = Some bt /\ lookup ("ref_BT" ++ cc)%string (a_adds f) = ref_bt /\
     forall n, In n (map fst (a_adds f)) -> HRModel.contains (HRModel.tx "BT") (HRModel.tx n) = true -> n = ("BT" ++ cc)%string \/ n = ("ref_BT" ++ cc)%string
}.

(** ** Selection *)
Definition complete (u : list (list fl)) (i : nat) : Prop := exists r, nth_error u i = Some r /\ ~ In None r.
(** All scan-line uncertainties of match-up [i] are known. *)
Definition usable (f : avin) (i : nat) : Prop := complete (a_uS1 f) i /\ complete (a_uI1 f) i /\ complete (a_uS2 f) i /\ complete (a_uI2 f) i.
(** [idx]: the usable match-ups in their order. *)
Definition kept (f : avin) (idx : list nat) : Prop := StronglySorted lt idx /\ forall i, In i idx <-> i < n_matchups f /\ usable f i.
(** The elements [idx] of an array. *)
Definition at_ {A} (d : A) (idx : list nat) (l : list A) : list A := map (fun i => nth i l d) idx.
(** The elements [idx] of a 2-D array, columns [a] to [b]-1. *)
Definition block (a b : nat) (idx : list nat) (l : list (list fl)) : list (list fl) := map (fun i => slice a b (nth i l [])) idx.
Definition cols_zero (cols : nat -> bool) (r : list fl) : list fl := map (fun p => if cols (fst p) then Some 0%R else snd p) (enumerate r).

(** ** Structured uncertainties *)
(** Covariate [c] of a sensor with use tables [wuse] and [uuse], times [times] and scan-line uncertainties [rows]: the file holds the average over
    the scan lines of the match-up, with equal weights, and the uncertainty of every scan line. *)
Definition averaged_column (mv : matvars R) (wuse uuse : list nat) (times : list R) (rows : list (list R)) (c : nat) : Prop :=
  exists w k W uv line cols r, nth_error wuse c = Some w /\ nth_error uuse c = Some k /\ open_w_matrix R mv w = Ok W /\ open_u_matrix R mv k = Ok uv /\
    hd_error rows = Some r /\ lines_of times (1 / 2) line /\ rolling (repeat (1 / INR (length r))%R (length r)) line (length times) cols W /\ length uv = length cols /\
    forall g, of_lines rows line (length times) (length r) g -> forall n c', nth_error cols n = Some c' -> nth_error uv n = Some (g c').
(** Standard uncertainty of the sum of independent contributions. *)
Definition quadratic_sum (l : list R) : R := sqrt (fold_right Rplus 0%R (map (fun x => x * x)%R l)).
(** Contributions of the scan lines to match-up [i]. *)
Definition contributions (W : csr R) (u : list R) (i : nat) : list R := map (fun n => csr_entry W i n * nth n u 0)%R (seq 0 (c_ncols R W)).

(** ** The files *)
Definition sized {A} (N w : nat) (rows : list (list A)) : Prop := length rows = N /\ forall r, In r rows -> length r = w.
(** What netCDF dimensions guarantee, with known sensors: [N] match-ups, ten columns, one value of every further variable per match-up,
    kernels of [k1] and [k2] scan lines. *)
Record av_file (f : avin) (k1 k2 : nat) : Prop := {
  af_H : sized (n_matchups f) 10 (a_H f); af_Us : sized (n_matchups f) 10 (a_Us f); af_Ur : sized (n_matchups f) 10 (a_Ur f);
  af_Kr : length (a_Kr f) = n_matchups f; af_Ks : length (a_Ks f) = n_matchups f; af_t1 : length (a_t1 f) = n_matchups f; af_t2 : length (a_t2 f) = n_matchups f;
  af_uS1 : sized (n_matchups f) k1 (a_uS1 f); af_uI1 : sized (n_matchups f) k1 (a_uI1 f); af_uS2 : sized (n_matchups f) k2 (a_uS2 f); af_uI2 : sized (n_matchups f) k2 (a_uI2 f);
  af_k1 : k1 <> 0; af_k2 : k2 <> 0;
  af_adds : forall n v, In (n, v) (a_adds f) -> length v = n_matchups f;
  af_s1 : get_new_name (a_s1 f) <> None; af_s2 : get_new_name (a_s2 f) <> None
}.
(** Further variables: name in the input file, name in the output files. *)
Definition geometry : list (string * string) :=
  [("latitude", "lat2"); ("longitude", "lon2"); ("satza", "vza2"); ("solza", "sza2"); ("ref_latitude", "lat1"); ("ref_longitude", "lon1"); ("ref_satza", "vza1"); ("ref_solza", "sza1")]%string.
(** The output file [o] holds the match-ups [idx] of [f]: the first [m1] quantities of sensor 1 and [m2] of sensor 2. *)
Record holds (f : avin) (idx : list nat) (m1 m2 : nat) (o : avout) : Prop := {
  h_X1 : o_X1 o = block 0 m1 idx (a_H f); h_X2 : o_X2 o = block 5 (5 + m2) idx (a_H f);
  h_K : o_K o = at_ None idx (a_K f); h_Kr : o_Kr o = at_ None idx (a_Kr f); h_Ks : o_Ks o = at_ None idx (a_Ks f);
  h_t1 : o_t1 o = at_ 0%R idx (a_t1 f); h_t2 : o_t2 o = at_ 0%R idx (a_t2 f);
  h_s1 : Some (o_s1 o) = get_new_name (a_s1 f); h_s2 : Some (o_s2 o) = get_new_name (a_s2 f);
  h_idx : lookup "original_indices"%string (o_adds o) = Some (map (fun i => Some (INR i)) idx);
  h_geo : forall old new, In (old, new) geometry -> lookup new (o_adds o) = option_map (at_ None idx) (lookup old (a_adds f));
  h_To1 : m1 = 4 -> lookup "To1"%string (o_adds o) = Some (map (fun i => nth 4 (nth i (a_H f) []) None) idx);
  h_To2 : m2 = 4 -> lookup "To2"%string (o_adds o) = Some (map (fun i => nth 9 (nth i (a_H f) []) None) idx)
}.
(** Uncertainties: the first two quantities of a sensor (space and target counts) are averages of scan lines, the third is independent, the others
    have a systematic uncertainty; a reference sensor has one quantity with a random uncertainty. *)
Definition structured (c : nat) : bool := c <? 2.
Definition ur1 (f : avin) (ref : bool) (idx : list nat) (m : nat) : list (list fl) :=
  if ref then block 0 m idx (a_Ur f) else map (cols_zero structured) (block 0 m idx (a_Ur f)).
Definition ur2 (f : avin) (idx : list nat) (m : nat) : list (list fl) := map (cols_zero structured) (block 5 (5 + m) idx (a_Ur f)).
Definition zero_rows {A} (m : nat) (idx : list A) : list (list fl) := map (fun _ => repeat (Some 0%R) m) idx.
(** With systematic and structured effects; without systematic effects; without both. *)
Record full_file (f : avin) (ref : bool) (idx : list nat) (m1 m2 : nat) (o : avout) : Prop := {
  ff_ur1 : o_Ur1 o = ur1 f ref idx m1; ff_ur2 : o_Ur2 o = ur2 f idx m2;
  ff_us1 : o_Us1 o = (if ref then zero_rows 1 idx else block 0 m1 idx (a_Us f)); ff_us2 : o_Us2 o = block 5 (5 + m2) idx (a_Us f);
  ff_ut1 : o_ut1 o = (if ref then [1] else firstn m1 [3; 3; 1; 2; 2]); ff_ut2 : o_ut2 o = firstn m2 [3; 3; 1; 2; 2]; ff_W : exists mv, o_W o = Some mv }.
Record structured_file (f : avin) (ref : bool) (idx : list nat) (m1 m2 : nat) (o : avout) : Prop := {
  sf_ur1 : o_Ur1 o = ur1 f ref idx m1; sf_ur2 : o_Ur2 o = ur2 f idx m2; sf_us1 : o_Us1 o = zero_rows m1 idx; sf_us2 : o_Us2 o = zero_rows m2 idx;
  sf_ut1 : o_ut1 o = (if ref then [1] else firstn m1 [3; 3; 1; 1; 1]); sf_ut2 : o_ut2 o = firstn m2 [3; 3; 1; 1; 1]; sf_W : exists mv, o_W o = Some mv }.
Record random_file (f : avin) (ref : bool) (idx : list nat) (m1 m2 : nat) (o : avout) : Prop := {
  rf_us1 : o_Us1 o = zero_rows m1 idx; rf_us2 : o_Us2 o = zero_rows m2 idx;
  rf_ut1 : o_ut1 o = repeat 1 m1; rf_ut2 : o_ut2 o = repeat 1 m2; rf_W : o_W o = None;
  rf_sizes : length (o_Ur1 o) = length idx /\ length (o_Ur2 o) = length idx;
  rf_ur1 : forall i r r', nth_error (o_Ur1 o) i = Some r -> nth_error (ur1 f ref idx m1) i = Some r' -> length r = m1 /\ forall c, ref = true \/ structured c = false -> nth_error r c = nth_error r' c;
  rf_ur2 : forall i r r', nth_error (o_Ur2 o) i = Some r -> nth_error (ur2 f idx m2) i = Some r' -> length r = m2 /\ forall c, structured c = false -> nth_error r c = nth_error r' c }.

(** ** Inputs of the conversion *)
(** The brightness temperatures can be converted to radiances (done only when those of the reference are there). *)
Definition convertible (torad : option string -> list fl -> res (list fl)) (f : avin) (bt : list fl) (ref_bt : option (list fl)) : Prop :=
  forall b, ref_bt = Some b -> (exists r, torad (get_new_name (a_s1 f)) b = Ok r) /\ exists r, torad (get_new_name (a_s2 f)) bt = Ok r.
Record good_input (torad : option string -> list fl -> res (list fl)) (f : avin) (k1 k2 : nat) (band : Z) (bt : list fl) (ref_bt : option (list fl)) : Prop := {
  gi_file : av_file f k1 k2; gi_bt : bt_variables f band bt ref_bt; gi_rad : convertible torad f bt ref_bt; gi_some : exists i, i < n_matchups f /\ usable f i }.
(** Quantities of sensor 1 in a file with [m2] quantities of sensor 2. *)
Definition m1_of (ref : bool) (m2 : nat) : nat := if ref then 1 else m2.
Definition sensor1_is (f : avin) (ref : bool) : Prop := if ref then is_ref f else not_ref f.
(** Scan-line uncertainties of column [c]: space counts, target counts. *)
Definition scan_lines (s i : list (list fl)) (c : nat) (idx : list nat) : list (list R) := map nums (at_ [] idx (if c =? 0 then s else i)).
(** Column [c] of the random uncertainties [ur] is, for every match-up, the sum of the contributions of its scan lines, as described by the use tables and the matrices [mv]. *)
Definition summed_column (mv : matvars R) (wuse uuse : list nat) (ur : list (list fl)) (c : nat) : Prop :=
  exists w k W u, nth_error wuse c = Some w /\ nth_error uuse c = Some k /\ open_w_matrix R mv w = Ok W /\ open_u_matrix R mv k = Ok u /\
    forall i r, nth_error ur i = Some r -> nth_error r c = Some (Some (rsum (contributions W u i))).
