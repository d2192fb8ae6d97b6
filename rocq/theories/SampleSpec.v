(** * Specification vocabulary for the sampling properties C12-C16. *)
From Coq Require Import QArith Permutation.
From Verif Require Import Base ReaderModel UncModel MuModel.
Open Scope nat_scope.

(** [v] is block number [b] of [arr], the block boundaries being [ix]. *)
Definition is_block {A} (ix : list nat) (arr : list A) (b : nat) (v : list A) : Prop :=
  exists lo hi, nth_error ix b = Some lo /\ nth_error ix (b + 1) = Some hi /\ lo <= hi <= length arr /\
    v = slice lo hi arr.

(** [v] holds, at position j, entry number s_j of [l], where s = [s_0; s_1; ...]. *)
Definition picks {A} (l : list A) (s : list nat) (v : list A) : Prop :=
  length v = length s /\
  forall j i, nth_error s j = Some i -> exists x, nth_error l i = Some x /\ nth_error v j = Some x.

(** Columns used by row [i] of a sparse matrix. *)
Definition uses_column {V} (w : csr V) (i col : nat) : Prop :=
  exists p q k, nth_error (c_indptr V w) i = Some p /\ nth_error (c_indptr V w) (i + 1) = Some q /\
    p <= k < q /\ nth_error (c_indices V w) k = Some col.

(** W matrix of an uncertainty, by its position in the object's list. *)
Definition w_of {V} (k : ukind V) : option nat :=
  match k with UK3 _ w _ => Some w | UK4 _ w _ _ => Some w | _ => None end.

Section Spec.
Context {V T : Type}.

(** A consistent match-up object: what opening files produces (PropertiesReader.v, C02, C03, C06). *)
Record wf_mobj (m : mobj V T) : Prop := {
  wf_cnm : cNm (m_idx V T m) = cumul 0 (Nm (m_idx V T m));
  wf_idxs : idxs (m_idx V T m) = cumul 0 (N_var (m_idx V T m));
  wf_blocks : length (n_mu (m_idx V T m)) = length (N_var (m_idx V T m));
  wf_unc : length (m_unc V T m) = length (N_var (m_idx V T m));
  wf_unck : length (m_unck V T m) = length (Nm (m_idx V T m));
  wf_series : forall b n, nth_error (n_mu (m_idx V T m)) b = Some n ->
     1 <= n /\ exists N, nth_error (Nm (m_idx V T m)) (n - 1) = Some N /\
                         nth_error (N_var (m_idx V T m)) b = Some N;
  wf_all_series : forall n, 1 <= n <= length (Nm (m_idx V T m)) -> In n (n_mu (m_idx V T m));
  wf_values : length (m_values V T m) = list_sum (N_var (m_idx V T m));
  wf_ks : length (m_ks V T m) = list_sum (Nm (m_idx V T m))
}.

(** The object [m'] holds exactly the match-ups [sel n] (positions within series n) of [m], in that
    order, for every quantity. *)
Definition holds_selection (m m' : mobj V T) (sel : nat -> list nat) : Prop :=
  let ix := m_idx V T m in let ix' := m_idx V T m' in
  let per_series {A} (arr arr' : list A) :=
    forall n v, 1 <= n <= length (Nm ix) -> is_block (cNm ix) arr (n - 1) v ->
      exists v', is_block (cNm ix') arr' (n - 1) v' /\ picks v (sel n) v' in
  let per_series_opt {A} (o o' : option (list A)) :=
    match o, o' with
    | None, None => True
    | Some arr, Some arr' => per_series arr arr'
    | _, _ => False
    end in
  sensors ix' = sensors ix /\ Im ix' = Im ix /\ n_sensor ix' = n_sensor ix /\ n_mu ix' = n_mu ix /\
  n_cov ix' = n_cov ix /\ m_ps V T m' = m_ps V T m /\
  (forall n, 1 <= n <= length (Nm ix) -> nth_error (Nm ix') (n - 1) = Some (length (sel n))) /\
  length (Nm ix') = length (Nm ix) /\
  (forall b n v, nth_error (n_mu ix) b = Some n -> is_block (idxs ix) (m_values V T m) b v ->
     exists v', is_block (idxs ix') (m_values V T m') b v' /\ picks v (sel n) v') /\
  per_series (m_ks V T m) (m_ks V T m') /\
  (forall n u, 1 <= n <= length (Nm ix) -> nth_error (m_unck V T m) (n - 1) = Some u ->
     exists u', nth_error (m_unck V T m') (n - 1) = Some u' /\ picks u (sel n) u') /\
  per_series_opt (m_time1 V T m) (m_time1 V T m') /\ per_series_opt (m_time2 V T m) (m_time2 V T m') /\
  per_series_opt (m_across1 V T m) (m_across1 V T m') /\ per_series_opt (m_across2 V T m) (m_across2 V T m') /\
  per_series_opt (m_along1 V T m) (m_along1 V T m') /\ per_series_opt (m_along2 V T m) (m_along2 V T m').

(** W matrix [w] describes a covariate of series [n]. *)
Definition series_w (m : mobj V T) (n : nat) (w : csr V) : Prop :=
  exists b u wi, nth_error (n_mu (m_idx V T m)) b = Some n /\ nth_error (m_unc V T m) b = Some u /\
    w_of (u_kind V u) = Some wi /\ nth_error (m_ws V T m) wi = Some w.

(** Match-ups [i] and [j] of series [n] share an error source. *)
Definition share_column (m : mobj V T) (n i j : nat) : Prop :=
  exists w col, series_w m n w /\ uses_column w i col /\ uses_column w j col.

(** Every W matrix of the object is well-formed: one row per match-up of its series, at least one
    entry in each row, pointers within range, columns inside the matrix and covered by the u vector. *)
Definition good_w (w : csr V) (N : nat) : Prop :=
  length (c_indptr V w) = N + 1 /\
  (forall i p q, nth_error (c_indptr V w) i = Some p -> nth_error (c_indptr V w) (i + 1) = Some q ->
     p < q <= length (c_indices V w)) /\
  (forall c, In c (c_indices V w) -> c < c_ncols V w).
End Spec.

(** What random.sample is assumed to do: k elements at distinct positions of the list. *)
Definition is_sample (smp : nat -> list nat -> nat -> list nat) : Prop :=
  forall c l k, k <= length l -> exists rest, Permutation l (smp c l k ++ rest) /\ length (smp c l k) = k.

(** Everything sampling needs is present and of the right length. *)
Record complete_mobj {V T} (m : mobj V T) : Prop := {
  cm_time1 : exists t, m_time1 V T m = Some t /\ length t = list_sum (Nm (m_idx V T m));
  cm_time2 : exists t, m_time2 V T m = Some t /\ length t = list_sum (Nm (m_idx V T m));
  cm_opt : forall o l, In o [m_across1 V T m; m_across2 V T m; m_along1 V T m; m_along2 V T m] ->
     o = Some l -> length l = list_sum (Nm (m_idx V T m));
  cm_unck : forall n u, nth_error (m_unck V T m) n = Some u -> nth_error (Nm (m_idx V T m)) n = Some (length u);
  cm_unc : forall b u N, nth_error (m_unc V T m) b = Some u -> nth_error (N_var (m_idx V T m)) b = Some N ->
     match u_kind V u with
     | UK1 _ r => length r = N
     | UK2 _ r _ => length r = N
     | UK3 _ wi ui | UK4 _ wi ui _ =>
        exists w uv, nth_error (m_ws V T m) wi = Some w /\ good_w w N /\ nth_error (m_us V T m) ui = Some uv
     end
}.

(** u vector of an uncertainty, by its position in the object's list. *)
Definition u_of {V} (k : ukind V) : option nat :=
  match k with UK3 _ _ u => Some u | UK4 _ _ u _ => Some u | _ => None end.

(** Column of the first / last stored entry of row i. *)
Definition first_column {V} (w : csr V) (i col : nat) : Prop :=
  exists p, nth_error (c_indptr V w) i = Some p /\ nth_error (c_indices V w) p = Some col.
Definition last_column {V} (w : csr V) (i col : nat) : Prop :=
  exists q, nth_error (c_indptr V w) (i + 1) = Some q /\ 0 < q /\ nth_error (c_indices V w) (q - 1) = Some col.
