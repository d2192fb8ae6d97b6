(** Specification: sparse matrices, their storage, and what a banded matrix stands for. *)
From Verif Require Import Base FoModel.
From Coq Require Import QArith Qabs Sorting.Sorted.
Open Scope nat_scope.
Open Scope list_scope.

(** A row of a sparse matrix: the columns (counted from 1) and values of its stored elements. *)
Definition srow := list (Z * fnum).
Definition zero : fnum := Fin 0.

(** Element of a sparse row: the stored value, zero in a column without a stored value. *)
Definition row_element (r : srow) (j : Z) (v : fnum) : Prop :=
  In (j, v) r \/ (~ In j (map fst r) /\ v = zero).

(** Columns in ascending or in descending order. *)
Definition ordered_row (r : srow) : Prop :=
  StronglySorted Z.lt (map fst r) \/ StronglySorted Z.gt (map fst r).

(** Compressed row storage, indices counted from [base] (0: C and Python; 1: Fortran). *)
Fixpoint row_pointers (base : Z) (rows : list srow) : list Z :=
  match rows with
  | [] => [base]
  | r :: rows' => base :: row_pointers (base + Z.of_nat (length r)) rows'
  end.
Definition col_indices (base : Z) (rows : list srow) : list Z :=
  map (fun e => fst e - 1 + base)%Z (concat rows).
Definition elements (rows : list srow) : list fnum := map snd (concat rows).
Definition stored (rows : list srow) : Z := Z.of_nat (length (concat rows)).

(** Element (l, j) of a banded matrix, l counted from 1: the elements of row l are those at the
    positions ia(l), ..., ia(l + 1) - 1, in the columns ja(l), ja(l) + 1, ...; the others are
    zero. *)
Definition banded_element (b : banded) (l : nat) (j : Z) (v : fnum) : Prop :=
  exists p q c, nth_error (b_ia b) (l - 1) = Some p /\ nth_error (b_ia b) l = Some q /\
    nth_error (b_ja b) (l - 1) = Some c /\
    ((c <= j < c + (q - p) /\ 1 <= p + (j - c) /\
      nth_error (b_a b) (Z.to_nat (p + (j - c) - 1)) = Some v)%Z
     \/ (~ (c <= j < c + (q - p))%Z /\ v = zero)).

(** [b] is the matrix of every [s]-th row of [rows], the first one included. *)
Definition subsampled (rows : list srow) (s : nat) (b : banded) : Prop :=
  (forall t, t < b_m b <-> t * s < length rows) /\
  forall t r, nth_error rows (t * s) = Some r ->
    forall j v, row_element r j v -> banded_element b (t + 1) j v.

(** Consecutive indices, counted from 1, of [k] matrices added behind [n]. *)
Definition idx_from (n k : nat) : list Z := map (fun t => (Z.of_nat t + 1)%Z) (seq n k).

(** [n] is the largest column stored. *)
Definition last_column (rows : list srow) (n : Z) : Prop :=
  (forall c v, In (c, v) (concat rows) -> (c <= n)%Z) /\ (exists v, In (n, v) (concat rows)).

(** [w] is the matrix of every [s]-th row of [rows], with as many columns as the last one stored. *)
Definition w_matrix (s : nat) (rows : list srow) (w : banded) : Prop :=
  subsampled rows s w /\ last_column rows (b_n w).

(** Rows of one matrix: [m] rows, sorted, columns counted from 1, not all empty. *)
Definition sparse_matrix (m : nat) (rows : list srow) : Prop :=
  length rows = m /\ (forall r, In r rows -> ordered_row r) /\
  (forall c v, In (c, v) (concat rows) -> (1 <= c)%Z) /\ concat rows <> [].
