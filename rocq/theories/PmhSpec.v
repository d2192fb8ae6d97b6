(** * Specification vocabulary for C98-C104: conversion of PMH text files. *)
From Coq Require Import Reals.
From Verif Require Import Base ReaderModel ReaderSpec UncModel UncSpec TransformModel EvalModel GNModel SimModel WModel WSpec HRModel PmhModel.
Open Scope nat_scope.

(** ** The converted files *)
(** Match-ups of the pairs listed before pair [i]. *)
Definition rows_before (ns : list Z) (i : nat) : nat := list_sum (map Z.to_nat (firstn i ns)).
(** Random and systematic uncertainty of a variable as a file states them (the random part of a rolling average is in its W matrix). *)
Definition random_part (v : uvar) : R := if v_type v =? 3 then 0%R else v_uR v.
(** A variable [rows] of [m] columns holds the values [g c] in every row. *)
Definition constant_rows (rows : option (list (list R))) (n m : nat) (g : nat -> option R) : Prop :=
  exists l, rows = Some l /\ length l = n /\ forall j r, nth_error l j = Some r -> length r = m /\ forall c, c < m -> nth_error r c = g c.
(** The file [f] of the sensors [a], [b] holds the [n] rows of the table [H] from row [i0] on.  A row of the table is: the covariates of the first sensor,
    those of the second (as many as there are variables [vs]), ..., K.  Of the reference sensor "0" only the first value is kept. *)
Definition holds_rows (H : list (list R)) (uref k : R) (vs : list uvar) (i0 n : nat) (a b : text) (f : pfile) : Prop :=
  let d := uf_d R (p_file f) in let u := uf_u R (p_file f) in let nX := length vs in
  let ref := a = tx "0" in
  d_vars R d = [] /\ d_M R d = n /\ d_s1 R d = string_of_list_ascii a /\ d_s2 R d = string_of_list_ascii b /\ d_m2 R d = nX /\
  (ref -> d_m1 R d = 1) /\ (~ ref -> d_m1 R d = nX) /\
  length (d_X1 R d) = n /\ length (d_X2 R d) = n /\ length (d_K R d) = n /\ length (d_time1 R d) = n /\ length (d_time2 R d) = n /\ length (p_Kr f) = n /\ length (p_Ks f) = n /\
  (forall j, j < n -> exists row x1 x2, nth_error H (i0 + j) = Some row /\
     nth_error (d_X1 R d) j = Some x1 /\ length x1 = d_m1 R d /\ (forall c, c < d_m1 R d -> nth_error x1 c = nth_error row c) /\
     nth_error (d_X2 R d) j = Some x2 /\ length x2 = nX /\ (forall c, c < nX -> nth_error x2 c = nth_error row (nX + c)) /\
     nth_error (d_K R d) j = nth_error row (length row - 1) /\
     nth_error (d_time1 R d) j = Some (INR (i0 + j)) /\ nth_error (d_time2 R d) j = Some (INR (i0 + j)) /\
     nth_error (p_Kr f) j = Some k /\ nth_error (p_Ks f) j = Some 0%R) /\
  (ref -> ut1 R u = [1] /\ constant_rows (ur1 R u) n 1 (fun _ => Some uref) /\ constant_rows (us1 R u) n 1 (fun _ => Some 0%R)) /\
  (~ ref -> ut1 R u = map v_type vs /\ constant_rows (ur1 R u) n nX (fun c => option_map random_part (nth_error vs c)) /\
            constant_rows (us1 R u) n nX (fun c => option_map v_uS (nth_error vs c))) /\
  ut2 R u = map v_type vs /\ constant_rows (ur2 R u) n nX (fun c => option_map random_part (nth_error vs c)) /\
  constant_rows (us2 R u) n nX (fun c => option_map v_uS (nth_error vs c)).

(** Covariate [c] (from 0) of a use table, in a file whose match-ups are at [times] (one scan line per unit): the file holds the
    rolling average over [v_nW v] scan lines with equal weights, every line with uncertainty [v_uR v]. *)
Definition averaged_as (mv : matvars R) (wuse uuse : list nat) (times : list R) (c : nat) (v : uvar) : Prop :=
  exists w k W uv line cols, nth_error wuse c = Some w /\ nth_error uuse c = Some k /\ open_w_matrix R mv w = Ok W /\ open_u_matrix R mv k = Ok uv /\
    lines_of times 1%R line /\ rolling (repeat (1 / IZR (v_nW v))%R (Z.to_nat (v_nW v))) line (length times) cols W /\ length uv = length cols /\
    forall x, In x uv -> x = v_uR v.
(** The file represents all its rolling averages. *)
Definition represents_averages (vs : list uvar) (a : text) (f : pfile) : Prop :=
  let d := uf_d R (p_file f) in
  exists mv, umat R (uf_u R (p_file f)) = Some mv /\
  forall c v, nth_error vs c = Some v -> v_type v = 3 ->
    averaged_as mv (wuse2 R mv) (uuse2 R mv) (d_time2 R d) c v /\ (a <> tx "0" -> averaged_as mv (wuse1 R mv) (uuse1 R mv) (d_time1 R d) c v).

(** Numbers of match-ups of which each is 1 or the same as all later ones. *)
Definition sizes_fit (ns : list Z) : Prop := forall i j a b, i < j -> nth_error ns i = Some a -> nth_error ns j = Some b -> a = 1%Z \/ a = b.
(** All rolling averages are over the same number of lines, or all have the same uncertainty. *)
Definition one_kernel (vs : list uvar) : Prop :=
  (forall v v', In v vs -> In v' vs -> v_type v = 3 -> v_type v' = 3 -> v_nW v = v_nW v') \/
  (forall v v', In v vs -> In v' vs -> v_type v = 3 -> v_type v' = 3 -> v_uR v = v_uR v').

(** ** The text files *)
(** A word: not empty, no white space.  A line of the given words. *)
Definition is_word (w : text) : Prop := w <> [] /\ forall c, In c w -> space c = false.
(** [line] consists of the words [ws] separated (and possibly surrounded) by white space. *)
Inductive words : text -> list text -> Prop :=
| words_nil : forall sp, (forall c, In c sp -> space c = true) -> words sp []
| words_cons : forall sp w c rest ws, (forall c, In c sp -> space c = true) -> is_word w -> space c = true -> words rest ws -> words (sp ++ w ++ c :: rest) (w :: ws)
| words_last : forall sp w, (forall c, In c sp -> space c = true) -> is_word w -> words (sp ++ w) [w].

Section Text.
Variable pyfloat : text -> res R.
Variable pyint : text -> res Z.
(** The two lines describing a variable: "<word> <word> <type><character>..." and its numbers. *)
Definition describes (v : uvar) (title nums : text) : Prop :=
  exists ty c, (exists w1 w2 rest, words title (w1 :: w2 :: (ty ++ [c]) :: rest)) /\
  ((ty = tx "R" /\ v_type v = 1 /\ v_uS v = 0%R /\ v_nW v = 0%Z /\ exists w, words nums [w] /\ pyfloat w = Ok (v_uR v)) \/
   (ty = tx "RS" /\ v_type v = 2 /\ v_nW v = 0%Z /\ exists a b rest, words nums (a :: b :: rest) /\ pyfloat a = Ok (v_uR v) /\ pyfloat b = Ok (v_uS v)) \/
   (ty = tx "MA" /\ v_type v = 3 /\ v_uS v = 0%R /\ exists a b rest, words nums (a :: b :: rest) /\ pyfloat a = Ok (v_uR v) /\ pyint b = Ok (v_nW v))).
(** data_uncs.txt: a title and the uncertainty of the reference sensor, two lines per variable, a title and the uncertainty of K. *)
Definition uncs_file (uref : R) (vs : list uvar) (k : R) (lines : list text) : Prop :=
  exists t1 l1 body t2 l2 w1 w2, lines = [t1; l1] ++ concat (map (fun p => [fst p; snd p]) body) ++ [t2; l2] /\
    words l1 [w1] /\ pyfloat w1 = Ok uref /\ words l2 [w2] /\ pyfloat w2 = Ok k /\
    Forall2 (fun v p => describes v (fst p) (snd p)) vs body.
(** No section title among the data lines. *)
Definition plain (line : text) : Prop := contains (tx "Im") line = false /\ contains (tx "Nm") line = false /\ contains (tx "atrue") line = false.
(** data_pams.txt: a title containing "Im", a line per pair of sensors, a title containing "Nm", a line per number of match-ups, a title containing "atrue", a line
    per sensor with its parameters. *)
Definition pams_file (im : list (list text)) (ns : list Z) (atrue : list (list R)) (lines : list text) : Prop :=
  exists t1 l1 t2 l2 t3 l3, lines = t1 :: l1 ++ t2 :: l2 ++ t3 :: l3 /\
    contains (tx "Im") t1 = true /\ contains (tx "Im") t2 = false /\ contains (tx "Nm") t2 = true /\
    contains (tx "Im") t3 = false /\ contains (tx "Nm") t3 = false /\ contains (tx "atrue") t3 = true /\
    Forall2 (fun p l => plain l /\ words l p) im l1 /\
    Forall2 (fun n l => plain l /\ exists w rest, words l (w :: rest) /\ pyint w = Ok n) ns l2 /\
    Forall2 (fun row l => plain l /\ exists ws, words l ws /\ Forall2 (fun w x => pyfloat w = Ok x) ws row) atrue l3.
End Text.
