(** * Specification vocabulary for the transformation properties C17-C20, C54. *)
From Coq Require Import Reals.
From Verif Require Import Base ReaderModel UncModel MuModel SampleSpec TransformModel.
Open Scope nat_scope.

(** Stored (column, weight) pairs of row [i] of a sparse matrix. *)
Definition row_entries (w : csr R) (i : nat) : list (nat * R) :=
  let p := nth i (c_indptr R w) 0 in let q := nth (i + 1) (c_indptr R w) 0 in
  combine (slice p q (c_indices R w)) (slice p q (c_data R w)).

(** Column [c] appears in a row before row [i]. *)
Definition used_before (w : csr R) (i c : nat) : bool :=
  existsb (fun r => existsb (fun e => fst e =? c) (row_entries w r)) (seq 0 i).

(** Row [i] of W applied to the vector v. *)
Definition row_apply (w : csr R) (v : nat -> R) (i : nat) : R :=
  fold_right Rplus 0%R (map (fun e => (snd e * v (fst e))%R) (row_entries w i)).

(** Sparse matrix storage is consistent: N rows, one u per column. *)
Definition csr_shape (w : csr R) (N ncols : nat) : Prop :=
  c_nrows R w = N /\ c_ncols R w = ncols /\ length (c_indptr R w) = N + 1 /\
  length (c_data R w) = length (c_indices R w) /\
  (forall i p q, nth_error (c_indptr R w) i = Some p -> nth_error (c_indptr R w) (i + 1) = Some q ->
     p <= q <= length (c_indices R w)) /\
  (forall c, In c (c_indices R w) -> c < ncols).

(** The W matrix can be solved row by row: every row brings at least one new column; rows with only
    new columns have weights adding up to 1, in the others the weights of the new columns do not
    add up to 0. *)
Definition solvable (w : csr R) (N : nat) : Prop :=
  forall i, i < N ->
    let es := row_entries w i in
    let new := filter (fun e => negb (used_before w i (fst e))) es in
    NoDup (map fst es) /\ new <> [] /\
    (new = es -> fold_right Rplus 0%R (map snd es) = 1%R) /\
    (new <> es -> fold_right Rplus 0%R (map snd new) <> 0%R).

Definition nonzero (l : list R) : Prop := forall x, In x l -> x <> 0%R.

Section Spec.
Context {T : Type}.
(** Lengths fit for every block: what opening produces (C02, C06). *)
Definition shapes_ok (m : mobj R T) : Prop :=
  length (Im (m_idx R T m)) = length (Nm (m_idx R T m)) /\
  (forall n u, nth_error (m_unck R T m) n = Some u -> nth_error (Nm (m_idx R T m)) n = Some (length u)) /\
  forall b u N, nth_error (m_unc R T m) b = Some u -> nth_error (N_var (m_idx R T m)) b = Some N ->
    match u_kind R u with
    | UK1 _ r => length r = N
    | UK2 _ r s => length r = N /\ length s = N /\ exists k, u_sysi R u = Some k /\ 1 <= k
    | UK3 _ wi ui => exists w uv, nth_error (m_ws R T m) wi = Some w /\ nth_error (m_us R T m) ui = Some uv /\
                       csr_shape w N (length uv)
    | UK4 _ wi ui _ => (exists w uv, nth_error (m_ws R T m) wi = Some w /\ nth_error (m_us R T m) ui = Some uv /\
                       csr_shape w N (length uv)) /\ exists k, u_sysi R u = Some k /\ 1 <= k
    end.

(** All random uncertainties are non-zero and all W matrices solvable. *)
Definition normalisable (m : mobj R T) : Prop :=
  (forall u, In u (m_unck R T m) -> nonzero u) /\
  forall b u N, nth_error (m_unc R T m) b = Some u -> nth_error (N_var (m_idx R T m)) b = Some N ->
    match u_kind R u with
    | UK1 _ r => nonzero r
    | UK2 _ r _ => nonzero r
    | UK3 _ wi ui | UK4 _ wi ui _ =>
        forall w uv, nth_error (m_ws R T m) wi = Some w -> nth_error (m_us R T m) ui = Some uv ->
          solvable w N /\ nonzero uv
    end.
End Spec.

Section Spec2.
Context {T : Type}.
(** The same object with other values / other values and ks (a solver state). *)
Definition with_values (m : mobj R T) (x : list R) : mobj R T :=
  mkMobj R T (m_idx R T m) (m_ps R T m) (m_oidx R T m) (m_ops R T m) x (m_ks R T m) (m_unc R T m) (m_unck R T m)
    (m_ws R T m) (m_us R T m) (m_time1 R T m) (m_time2 R T m) (m_across1 R T m) (m_across2 R T m)
    (m_along1 R T m) (m_along2 R T m) (m_add R T m).

(** The quantity has a systematic component. *)
Definition has_systematic (u : unc R) : Prop :=
  match u_kind R u with UK2 _ _ _ => True | UK4 _ _ _ _ => True | _ => False end.

(** Number of variables of a block after the transformation, [n] before it. *)
Definition transformed_size (m : mobj R T) (u : unc R) (n n' : nat) : Prop :=
  match u_kind R u with
  | UK1 _ _ => n' = n
  | UK2 _ _ _ => n' = n
  | UK3 _ _ ui | UK4 _ _ ui _ => exists uv, nth_error (m_us R T m) ui = Some uv /\ n' = length uv
  end.
End Spec2.

Section Spec3.
Context {T : Type}.
(** Everything that describes where the data belong is the same in both objects. *)
Definition same_labels (m d : mobj R T) : Prop :=
  let i := m_idx R T m in let j := m_idx R T d in
  sensors j = sensors i /\ Im j = Im i /\ Nm j = Nm i /\ cNm j = cNm i /\ sensor_ms j = sensor_ms i /\
  n_sensor j = n_sensor i /\ n_mu j = n_mu i /\ n_cov j = n_cov i /\
  m_unc R T d = m_unc R T m /\ m_unck R T d = m_unck R T m /\ m_ws R T d = m_ws R T m /\ m_us R T d = m_us R T m /\
  m_across1 R T d = m_across1 R T m /\ m_across2 R T d = m_across2 R T m /\
  m_along1 R T d = m_along1 R T m /\ m_along2 R T d = m_along2 R T m.

(** The systematic effects of [m] are numbered 1 to [ns], and [ns] is used. *)
Definition n_systematic (m : mobj R T) (ns : nat) : Prop :=
  (forall u, In u (m_unc R T m) -> has_systematic u -> exists k, u_sysi R u = Some k /\ 1 <= k <= ns) /\
  (ns = 0 \/ exists u, In u (m_unc R T m) /\ has_systematic u /\ u_sysi R u = Some ns).
End Spec3.
