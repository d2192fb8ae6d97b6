(** Model of the Fortran demonstration program (harmonisation_meiv_demo/src/main/fortran/gpl): the
    stores of matrices (mod_matrices.F90), match-ups (mod_matchup.F90) and sensors
    (mod_sensors.F90), and the reader of match-up datasets (mod_reader.F90).

    Fortran arrays are lists, indexed from 1; an index outside the array, which is undefined in
    Fortran, is modelled by [Raise IndexError].  "error stop" is [Raise OtherError].  Stored numbers
    are rational; the arithmetic on them is exact except for overflow (see [sq]). *)
From Verif Require Import Base.
From Coq Require Import QArith Qabs.
Open Scope nat_scope.
Open Scope list_scope.

(** ** Arrays *)
(** x(i) *)
Definition fget {A} (l : list A) (i : Z) : res A :=
  if (1 <=? i)%Z then get l (Z.to_nat (i - 1)) else Raise IndexError.
(** x(i) = v *)
Definition fset {A} (l : list A) (i : Z) (v : A) : res (list A) :=
  if (1 <=? i)%Z then setitem (Z.to_nat (i - 1)) v l else Raise IndexError.
(** The values of i in "do i = 1, m, s" and in the array section 1:m:s; a step of zero is an error. *)
Definition steps (m s : nat) : res (list Z) :=
  match s with
  | 0 => Raise OtherError
  | S _ => Ok (map (fun t => (1 + Z.of_nat t * Z.of_nat s)%Z) (seq 0 ((m + s - 1) / s)))
  end.
(** x(b:e), e not below b - 1 *)
Definition section {A} (l : list A) (b e : Z) : res (list A) :=
  mapM (fun t => fget l (b + Z.of_nat t)%Z) (seq 0 (Z.to_nat (e - b + 1))).
(** x(1:m:s) *)
Definition every {A} (l : list A) (m s : nat) : res (list A) :=
  do is <- steps m s;; mapM (fget l) is.

(** A stored number: a finite value, an infinity or not-a-number. *)
Inductive fnum : Set := Fin (q : Q) | Inf | NaN.
(** The largest x with finite x**2: sqrt( huge( x ) ). *)
Definition is_huge (big : Q) (x : fnum) : bool :=
  match x with Fin q => negb (Qle_bool (Qabs q) big) | Inf => true | NaN => false end.
(** x**2: infinite when the square is not representable. *)
Definition sq (big : Q) (x : fnum) : fnum :=
  match x with
  | Fin q => if is_huge big (Fin q) then Inf else Fin (q * q)
  | Inf => Inf
  | NaN => NaN
  end.

(** ** mod_matrices.F90 *)

(** mod_matrices.F90:127-138: banded_matrix_t. *)
Record banded := mkBanded {
  b_m : nat; b_n : Z; b_ia : list Z; b_ja : list Z; b_a : list fnum }.

(** mod_matrices.F90:604-614: the number of banded elements and the number of rows. *)
Definition count_banded (is ia ja : list Z) : res (Z * nat) :=
  foldM (fun kl i =>
    let '(k, l) := kl in
    do e <- fget ia (i + 1);;
    do b <- fget ia i;;
    do k' <- (if (b <? e)%Z
              then do last <- fget ja (e - 1);; do first <- fget ja b;;
                   Ok (k + (Z.abs (last - first) + 1))%Z
              else Ok k);;
    Ok (k', S l)) is (0%Z, 0).

(** mod_matrices.F90:630: b(ja(ia(i):ia(i + 1) - 1) - jb(l + 1) + k) = a(ia(i):ia(i + 1) - 1);
    [first], [last]: ia(i), ia(i + 1) - 1. *)
Definition scatter (ja : list Z) (a : list fnum) (jb k first last : Z) (b : list fnum) : res (list fnum) :=
  foldM (fun b t =>
    let p := (first + Z.of_nat t)%Z in
    do j <- fget ja p;;
    do v <- fget a p;;
    fset b (j - jb + k)%Z v) (seq 0 (Z.to_nat (last - first + 1))) b.

(** The state of the loop of mod_matrices.F90:625-635. *)
Record fill := mkFill { f_k : Z; f_l : nat; f_ib : list Z; f_jb : list Z; f_b : list fnum }.

Definition fill_row (ia ja : list Z) (a : list fnum) (st : fill) (i : Z) : res fill :=
  do ib <- fset (f_ib st) (Z.of_nat (f_l st) + 1) (f_k st);;
  do e <- fget ia (i + 1);;
  do b <- fget ia i;;
  if (b <? e)%Z then
    do first <- fget ja b;;
    do last <- fget ja (e - 1);;
    let jmin := Z.min first last in
    do jb <- fset (f_jb st) (Z.of_nat (f_l st) + 1) jmin;;
    do v <- scatter ja a jmin (f_k st) b (e - 1) (f_b st);;
    do v <- scatter ja a jmin (f_k st) b (e - 1) v;;
    Ok (mkFill (f_k st + (Z.abs (last - first) + 1)) (S (f_l st)) ib jb v)
  else Ok (mkFill (f_k st) (S (f_l st)) ib (f_jb st) (f_b st)).

(** mod_matrices.F90:588-639: new_banded_matrix_from_sparse_arrays.  The row indices ib of the new
    matrix are allocated but not initialised; the initial zeros of the model are all overwritten. *)
Definition new_banded_matrix (m s : nat) (n : Z) (ia ja : list Z) (a : list fnum) : res banded :=
  do is <- steps m s;;
  do kl <- count_banded is ia ja;;
  let '(k, l) := kl in
  do st <- foldM (fill_row ia ja a) is
             (mkFill 1 0 (repeat 0%Z (l + 1)) (repeat 0%Z l) (repeat (Fin 0) (Z.to_nat k)));;
  do ib <- fset (f_ib st) (Z.of_nat (f_l st) + 1) (f_k st);;
  Ok (mkBanded (f_l st) n ib (f_jb st) (f_b st)).

(** The stores of mod_matrices.F90:193-223; a store of n matrices is a list of length n (Z matrices
    are not used by the reader). *)
Record store := mkStore {
  st_capacity : nat;
  st_b : list (list fnum * list fnum);   (** perturbed diagonal matrices: elements, perturbation *)
  st_d : list (list fnum);
  st_v : list (list fnum);
  st_w : list banded }.

(** mod_matrices.F90:229-244: matrices_initialize. *)
Definition matrices_initialize (capacity : nat) : store := mkStore capacity [] [] [] [].

(** mod_matrices.F90:279-285 (and :305-311, :329-335, :375-381): the index of the added matrix, or 0. *)
Definition add_to {A} (capacity : nat) (x : A) (l : list A) : list A * Z :=
  if length l <? capacity then (l ++ [x], Z.of_nat (length l) + 1)%Z else (l, 0%Z).

(** mod_matrices.F90:275-299: add_b_matrix. *)
Definition add_b_matrix (big : Q) (st : store) (d u : list fnum) : store * Z :=
  let '(l, i) := add_to (st_capacity st) (map (sq big) d, u) (st_b st) in
  (mkStore (st_capacity st) l (st_d st) (st_v st) (st_w st), i).
(** mod_matrices.F90:301-323: add_d_matrix. *)
Definition add_d_matrix (big : Q) (st : store) (u : list fnum) : store * Z :=
  let '(l, i) := add_to (st_capacity st) (map (sq big) u) (st_d st) in
  (mkStore (st_capacity st) (st_b st) l (st_v st) (st_w st), i).
(** mod_matrices.F90:325-347: add_v_matrix. *)
Definition add_v_matrix (big : Q) (st : store) (u : list fnum) : store * Z :=
  let '(l, i) := add_to (st_capacity st) (map (sq big) u) (st_v st) in
  (mkStore (st_capacity st) (st_b st) (st_d st) l (st_w st), i).
(** mod_matrices.F90:371-382: add_w_matrix. *)
Definition add_w_matrix (st : store) (w : banded) : store * Z :=
  let '(l, i) := add_to (st_capacity st) w (st_w st) in
  (mkStore (st_capacity st) (st_b st) (st_d st) (st_v st) l, i).

(** mod_matrices.F90:354-369: add_v_matrices_from_storage; [m]: the numbers of rows. *)
Definition add_v_matrices (big : Q) (st : store) (m : list nat) (u : list fnum) : res (store * list Z) :=
  do r <- foldM (fun acc mk =>
    let '(st, is, m_final) := acc in
    do rows <- section u (m_final + 1) (m_final + Z.of_nat mk);;
    let '(st, i) := add_v_matrix big st rows in
    Ok (st, is ++ [i], m_final + Z.of_nat mk)%Z) m (st, [], 0%Z);;
  let '(st, is, _) := r in Ok (st, is).

(** maxval( ja ): the most negative integer for an array of length zero. *)
Definition maxval (l : list Z) : Z := fold_left Z.max l (-2147483648)%Z.

(** mod_matrices.F90:751-781: assert_fortran_crs_format; [ia]: one list of row pointers per
    matrix. *)
Definition assert_fortran_crs_format (m : nat) (nnz : list Z) (ia : list (list Z)) (ja : list Z)
  : res (list (list Z) * list Z) :=
  do ends <- mapM (fun r => fget r (Z.of_nat m + 1)) ia;;
  let starts := map (fun p => fst p - snd p)%Z (combine ends nnz) in
  do start <- fget starts 1;;
  if negb ((start =? 0) || (start =? 1))%Z then Raise OtherError
  else if forallb (fun x => (x =? start)%Z) starts then
    if (start =? 0)%Z then Ok (map (map (fun x => x + 1)%Z) ia, map (fun x => x + 1)%Z ja)
    else Ok (ia, ja)
  else Raise OtherError.

(** mod_matrices.F90:407-429: add_w_matrices_from_storage, with :384-394. *)
Definition add_w_matrices (st : store) (m s : nat) (nnz : list Z) (ia : list (list Z)) (ja : list Z)
    (a : list fnum) : res (store * list Z) :=
  do c <- assert_fortran_crs_format m nnz ia ja;;
  let '(ia, ja) := c in
  do r <- foldM (fun acc p =>
    let '(st, is, n_final) := acc in
    let '(iak, nnzk) := p in
    do jak <- section ja (n_final + 1) (n_final + nnzk);;
    do ak <- section a (n_final + 1) (n_final + nnzk);;
    do w <- new_banded_matrix m s (maxval jak) iak jak ak;;
    let '(st, i) := add_w_matrix st w in
    Ok (st, is ++ [i], n_final + nnzk)%Z) (combine ia nnz) (st, [], 0%Z);;
  let '(st, is, _) := r in Ok (st, is).
