(** Properties C178-C180: the stores of matrices of the Fortran demonstration program. *)
From Verif Require Import Base FoModel FoSpec FoProofs FoProofs2.
From Coq Require Import QArith Qabs Sorting.Sorted.
Open Scope nat_scope.
Open Scope list_scope.

(** ** C178: a banded matrix is the matrix of every s-th row of the sparse matrix it is made from *)
Theorem C178_banded_matrix_partial : forall rows s, 0 < s -> (forall r, In r rows -> ordered_row r) ->
  forall n, exists b,
    new_banded_matrix (length rows) s n (row_pointers 1 rows) (col_indices 1 rows) (elements rows) = Ok b
    /\ b_n b = n /\ subsampled rows s b.
Proof. exact banded_of_rows. Qed.
Print Assumptions C178_banded_matrix_partial.

(** The columns of a stored row need not be sorted in compressed row storage; then the elements
    of one row overwrite those of another, or are stored outside the matrix. *)
Definition unsorted_rows : list srow :=
  [[(2, Fin 1); (5, Fin 2); (3, Fin 3)]; [(1, Fin 1); (4, Fin 1)]]%Z.
Theorem C178_banded_matrix_refuted :
  ~ (forall rows s, 0 < s -> (forall r, In r rows -> NoDup (map fst r)) -> exists b,
       new_banded_matrix (length rows) s 5 (row_pointers 1 rows) (col_indices 1 rows) (elements rows) = Ok b
       /\ subsampled rows s b).
Proof.
  intro H. destruct (H unsorted_rows 1) as (b & E & S1 & S2); [lia| |].
  - intros r [<- |[<- |[]]]; cbn; repeat constructor; cbn; intuition lia.
  - vm_compute in E. injection E as <-.
    specialize (S2 0 _ eq_refl 5%Z (Fin 2)).
    destruct S2 as (p & q & c & E1 & E2 & E3 & D); [left; right; left; reflexivity|].
    vm_compute in E1, E2, E3. injection E1 as <-. injection E2 as <-. injection E3 as <-.
    destruct D as [(B & _)|(_ & E)]; [lia|discriminate].
Qed.
Print Assumptions C178_banded_matrix_refuted.
Theorem C178_outside_refuted :
  new_banded_matrix 1 1 5 (row_pointers 1 (firstn 1 unsorted_rows)) (col_indices 1 (firstn 1 unsorted_rows))
    (elements (firstn 1 unsorted_rows)) = Raise IndexError.
Proof. vm_compute. reflexivity. Qed.
Print Assumptions C178_outside_refuted.

(** Moving averages of three elements, of the matches 1, 3 and 5. *)
Definition moving_average : list srow :=
  [[(1, Fin 1); (2, Fin 1); (3, Fin 1)]; [(2, Fin 1); (3, Fin 1); (4, Fin 1)]; [];
   [(4, Fin 2); (6, Fin 3)]; [(7, Fin 3); (5, Fin 1)]]%Z.
Example C178_example :
  (forall r, In r moving_average -> ordered_row r) /\
  new_banded_matrix 5 2 7 (row_pointers 1 moving_average) (col_indices 1 moving_average)
    (elements moving_average)
  = Ok (mkBanded 3 7 [1; 4; 4; 7] [1; 0; 5] [Fin 1; Fin 1; Fin 1; Fin 1; Fin 0; Fin 3])%Z.
Proof.
  split; [|vm_compute; reflexivity].
  assert (L : forall r, In r moving_average -> StronglySorted Z.lt (map fst r) \/ StronglySorted Z.gt (map fst r)).
  { intros r [<- |[<- |[<- |[<- |[<- |[]]]]]]; [left|left|left|left|right]; cbn;
      repeat constructor. }
  exact L.
Qed.

(** ** C179: the matrices of a dataset are stored one by one, whatever the base of their indices *)
Theorem C179_w_matrices : forall st m s base mats, 0 < s -> mats <> [] -> base = 0%Z \/ base = 1%Z ->
  (forall rows, In rows mats -> sparse_matrix m rows) ->
  length (st_w st) + length mats <= st_capacity st ->
  exists ws, Forall2 (w_matrix s) mats ws /\
    add_w_matrices st m s (map stored mats) (map (row_pointers base) mats)
      (concat (map (col_indices base) mats)) (concat (map elements mats))
    = Ok (mkStore (st_capacity st) (st_b st) (st_d st) (st_v st) (st_w st ++ ws),
          idx_from (length (st_w st)) (length mats)).
Proof. exact w_storage. Qed.
Print Assumptions C179_w_matrices.

Theorem C179_v_matrices : forall big st vs, length (st_v st) + length vs <= st_capacity st ->
  (forall v q, In v vs -> In q v -> (Qabs q <= big)%Q) ->
  add_v_matrices big st (map (@length Q) vs) (map Fin (concat vs))
  = Ok (mkStore (st_capacity st) (st_b st) (st_d st)
          (st_v st ++ map (map (fun q => Fin (q * q))) vs) (st_w st),
        idx_from (length (st_v st)) (length vs)).
Proof.
  intros big st vs Hc Hb. pose proof (add_v_storage big st (map (map Fin) vs)) as E.
  rewrite !map_length in E. specialize (E Hc). rewrite concat_map.
  replace (map (@length Q) vs) with (map (@length fnum) (map (map Fin) vs)).
  2: { rewrite map_map. apply map_ext. intro. apply map_length. }
  rewrite E. do 4 f_equal. rewrite map_map. apply map_ext_in. intros v Hv. rewrite map_map.
  apply map_ext_in. intros q Hq. unfold sq, is_huge. specialize (Hb v q Hv Hq).
  apply Qle_bool_iff in Hb. now rewrite Hb.
Qed.
Print Assumptions C179_v_matrices.

(** A full store is not changed, and says so with the index zero. *)
Theorem C179_full : forall big st d u w,
  (st_capacity st <= length (st_b st) -> add_b_matrix big st d u = (st, 0%Z)) /\
  (st_capacity st <= length (st_d st) -> add_d_matrix big st d = (st, 0%Z)) /\
  (st_capacity st <= length (st_v st) -> add_v_matrix big st d = (st, 0%Z)) /\
  (st_capacity st <= length (st_w st) -> add_w_matrix st w = (st, 0%Z)).
Proof.
  intros big [c b d0 v w0] d u w.
  unfold add_b_matrix, add_d_matrix, add_v_matrix, add_w_matrix; cbn [st_capacity st_b st_d st_v st_w].
  repeat split; intro H; now rewrite add_to_full.
Qed.
Print Assumptions C179_full.

Example C179_example :
  let mats := [[[(1, Fin 1); (2, Fin 1)]; [(2, Fin 1); (3, Fin 1)]; [(3, Fin 2)]];
               [[(1, Fin 3)]; []; [(1, Fin 1); (4, Fin 1)]]]%Z in
  (forall rows, In rows mats -> sparse_matrix 3 rows) /\
  match add_w_matrices (matrices_initialize 2) 3 2 (map stored mats) (map (row_pointers 0) mats)
          (concat (map (col_indices 0) mats)) (concat (map elements mats)) with
  | Ok (st, is) => is = [1; 2]%Z /\
      st_w st = [mkBanded 2 3 [1; 3; 4] [1; 3] [Fin 1; Fin 1; Fin 2];
                 mkBanded 2 4 [1; 2; 6] [1; 1] [Fin 3; Fin 1; Fin 0; Fin 0; Fin 1]]%Z
  | Raise _ => False
  end.
Proof.
  cbv zeta. split; [|vm_compute; repeat split; reflexivity].
  intros rows [<- |[<- |[]]]; (split; [reflexivity|split; [|split; [|discriminate]]]).
  - intros r [<- |[<- |[<- |[]]]]; left; cbn; repeat constructor.
  - cbn. intuition congruence || (repeat match goal with h : _ \/ _ |- _ => destruct h end; try easy;
      match goal with h : (_, _) = _ |- _ => injection h as <- _; lia end).
  - intros r [<- |[<- |[<- |[]]]]; left; cbn; repeat constructor.
  - cbn. intuition congruence || (repeat match goal with h : _ \/ _ |- _ => destruct h end; try easy;
      match goal with h : (_, _) = _ |- _ => injection h as <- _; lia end).
Qed.
