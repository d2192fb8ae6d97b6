(** Specification: numbering of match-ups and parameters, and what reading a match-up dataset
    stores. *)
From Verif Require Import Base FoModel FoSpec FrModel.
From Coq Require Import QArith Qabs.
Open Scope nat_scope.
Open Scope list_scope.

(** ** Numbering *)
Definition total (sizes : list nat) : nat := fold_right Nat.add 0 sizes.

(** Groups of the given sizes are numbered through from 1: group k takes the numbers from start k
    to final k. *)
Definition numbered (sizes : list nat) (start final : list Z) : Prop :=
  length start = length sizes /\ length final = length sizes /\
  forall k, k < length sizes ->
    nth_error start k = Some (Z.of_nat (total (firstn k sizes)) + 1)%Z /\
    nth_error final k = Some (Z.of_nat (total (firstn (S k) sizes))).

(** A history of a registry of match-ups. *)
Record request := mkRequest { rq_i : Z; rq_j : Z; rq_m : nat; rq_ri : nat; rq_rj : nat }.
Definition add_request (rg : registry) (q : request) : registry :=
  fst (add_matchup rg (rq_i q) (rq_j q) (rq_m q) (rq_ri q) (rq_rj q)).
Definition registry_after (capacity : nat) (qs : list request) : registry :=
  fold_left add_request qs (matchup_initialize capacity).

(** A well-formed registry: the match-ups are numbered through, each belongs to a different pair
    (i, j) with 0 < i < j, and there are not more than fit. *)
Definition good_registry (rg : registry) : Prop :=
  length (rg_matchups rg) <= rg_capacity rg /\
  numbered (map mu_m (rg_matchups rg)) (rg_start rg) (rg_final rg) /\
  (forall mu, In mu (rg_matchups rg) -> 0 < mu_i mu < mu_j mu)%Z /\
  NoDup (map (fun mu => (mu_i mu, mu_j mu)) (rg_matchups rg)).

(** A dataset of the pair (i, j) can be added. *)
Definition acceptable (rg : registry) (i j : Z) : Prop :=
  length (rg_matchups rg) < rg_capacity rg /\ (0 < i < j)%Z /\
  ~ In (i, j) (map (fun mu => (mu_i mu, mu_j mu)) (rg_matchups rg)).

(** A history of the sensors. *)
Record sensor_request := mkSensorRequest {
  sr_id : Z; sr_n : nat; sr_r : nat; sr_o : nat; sr_y : list Q;
  sr_x : option (list Q); sr_u : option (list Q) }.
Definition add_sensor_request (ss : sensors) (q : sensor_request) : sensors :=
  fst (add_sensor ss (sr_id q) (sr_n q) (sr_r q) (sr_o q) (sr_y q) (sr_x q) (sr_u q)).
Definition sensors_after (capacity : nat) (qs : list sensor_request) : sensors :=
  fold_left add_sensor_request qs (sensors_initialize capacity).

(** Element (a, b) of a matrix. *)
Definition at2 (m : list (list Q)) (a b : nat) (v : Q) : Prop :=
  exists row, nth_error m a = Some row /\ nth_error row b = Some v.

(** ** Reading *)

(** [l'] is every [s]-th element of [l], the first included. *)
Definition thinned {A} (s : nat) (l l' : list A) : Prop :=
  forall t, nth_error l' t = nth_error l (t * s).

(** All variables of a dataset have [M] records; a telemetry column has no more types than
    columns. *)
Definition records {A} (M : nat) (o : option (list A)) : Prop :=
  match o with Some l => length l = M | None => True end.
Definition columns {A} (M m : nat) (o : option (list (list A))) : Prop :=
  match o with Some x => length x = m /\ forall c, In c x -> length c = M | None => True end.
Definition shaped_side (M : nat) (sv : side_vars) : Prop :=
  (forall c, In c (sv_X sv) -> length c = M) /\
  columns M (sv_m sv) (sv_Ur sv) /\ columns M (sv_m sv) (sv_Us sv) /\
  records (sv_m sv) (sv_types sv) /\ length (sv_time sv) = M /\ records M (sv_pos sv).
Definition shaped (ds : dataset) : Prop :=
  shaped_side (dv_M ds) (dv_1 ds) /\ shaped_side (dv_M ds) (dv_2 ds) /\
  records (dv_M ds) (dv_K ds) /\ records (dv_M ds) (dv_Kr ds) /\ records (dv_M ds) (dv_Ks ds).

(** No selection of telemetry columns is configured for sensor i. *)
Definition all_columns (jb : job) (i : Z) : Prop := fget (jb_select jb) i = Ok false.

(** Telemetry column [l] of sensor i is column [c] of the dataset (both from 0). *)
Definition chosen (jb : job) (i : Z) (l c : nat) : Prop :=
  (all_columns jb i /\ c = l) \/
  (fget (jb_select jb) i = Ok true /\
   exists cols, fget (jb_columns jb) i = Ok cols /\ nth_error cols l = Some (Z.of_nat c + 1)%Z).

(** The telemetry of one sensor: the thinned columns of X, followed by those of Us when common
    uncertainties are not treated as covariances. *)
Definition telemetry_of (jb : job) (i : Z) (s : nat) (sv : side_vars) (M : nat) (r : nat) (q : list (list fnum))
  : Prop :=
  length q = r /\
  forall l col, nth_error q l = Some col -> exists c, chosen jb i l c /\
    ((c < sv_m sv /\ exists x, nth_error (sv_X sv) c = Some x /\ thinned s x col) \/
     (sv_m sv <= c /\ jb_common jb = false /\
      exists x, nth_error (or_default (sv_Us sv) (full (sv_m sv) M (Fin 0))) (c - sv_m sv) = Some x /\ thinned s x col)).

(** Positions: thinned, or zero when the dataset has none. *)
Definition positions (s M : nat) (o : option (list Z)) (p : list Z) : Prop :=
  match o with
  | Some l => thinned s l p
  | None => forall t v, nth_error p t = Some v -> v = 0%Z
  end.

(** [idx] (from 1) refers to [x]. *)
Definition refers {A} (l : list A) (idx : Z) (x : A) : Prop :=
  exists k, idx = (Z.of_nat k + 1)%Z /\ nth_error l k = Some x.

(** [v]: the squares of the values of [u] whose squares are finite. *)
Definition variances (big : Q) (u v : list fnum) : Prop :=
  Forall2 (fun x y => forall q, x = Fin q -> (Qabs q <= big)%Q -> y = Fin (q * q)) u v.

(** The matrices of a dataset: the diagonals [vs] of the U matrices, and W matrices [mats] in
    compressed row storage. *)
Definition has_matrices (ds : dataset) (base : Z) (vs : list (list fnum)) (mats : list (list srow)) : Prop :=
  dv_u_count ds = length vs /\ dv_w_count ds = length mats /\
  dv_u_rows ds = map (@length fnum) vs /\ dv_u_val ds = concat vs /\
  dv_w_nnz ds = map stored mats /\ dv_w_row ds = map (row_pointers base) mats /\
  dv_w_col ds = concat (map (col_indices base) mats) /\ dv_w_val ds = concat (map elements mats) /\
  (forall rows, In rows mats -> sparse_matrix (dv_M ds) rows) /\ (base = 0%Z \/ base = 1%Z).

(** The uncertainty matrices of telemetry column [l] (from 0) with uncertainty type [ty]:
    1 independent, 2 independent and common, 3 and 4 structured. *)
Definition covariance_of (big : Q) (common : bool) (s : nat) (vs : list (list fnum)) (mats : list (list srow))
    (st : store) (sv : side_vars) (M : nat) (l : nat) (ty : Z)
    (ui ic iv iw : Z) : Prop :=
  let ur := or_default (sv_Ur sv) (full (sv_m sv) M (Fin 0)) in
  let us := or_default (sv_Us sv) (full (sv_m sv) M (Fin 0)) in
  let independent := exists x d v, nth_error ur l = Some x /\ thinned s x d /\
                       variances big d v /\ refers (st_d st) ic v in
  let structured := exists u v d w k rows,
      nth_error (sv_u_use sv) l = Some (Z.of_nat k + 1)%Z /\ nth_error vs k = Some u /\
      variances big u v /\ refers (st_v st) iv v /\
      nth_error (sv_w_use sv) l = Some (Z.of_nat d + 1)%Z /\ nth_error mats d = Some rows /\
      w_matrix s rows w /\ refers (st_w st) iw w in
  (ty = 1%Z -> ui = 1%Z /\ independent) /\
  (ty = 2%Z -> common = false -> ui = 1%Z /\ independent) /\
  (ty = 2%Z -> common = true -> ui = 2%Z /\
     exists x y d v u, nth_error ur l = Some x /\ thinned s x d /\ variances big d v /\
       nth_error us l = Some y /\ thinned s y u /\ refers (st_b st) ic (v, u)) /\
  (ty = 3%Z \/ ty = 4%Z -> ui = 3%Z /\ structured).

(** Every telemetry column of one sensor has the matrices of its type. *)
Definition covariances_of (big : Q) (common : bool) (s : nat) (vs : list (list fnum)) (mats : list (list srow))
    (st : store) (sv : side_vars) (M r : nat) (ui ic iv iw : list Z) : Prop :=
  forall l ty, l < r -> l < sv_m sv -> nth_error (or_default (sv_types sv) (repeat 1%Z (sv_m sv))) l = Some ty ->
  exists a b c d, nth_error ui l = Some a /\ nth_error ic l = Some b /\ nth_error iv l = Some c /\
    nth_error iw l = Some d /\ covariance_of big common s vs mats st sv M l ty a b c d.

(** What is stored of the records: [mu] has the telemetry, the expected differences, the times and
    the positions of every s-th record of the dataset, the first included, and the variances
    Kr^2 + Ks^2 of the differences. *)
Definition records_of (big : Q) (jb : job) (i j : Z) (s : nat) (ds : dataset) (ri rj : nat) (mu : matchup) : Prop :=
  let M := dv_M ds in
  (forall t, t < mu_m mu <-> t * s < M) /\
  telemetry_of jb i s (dv_1 ds) M ri (mu_qi mu) /\ telemetry_of jb j s (dv_2 ds) M rj (mu_qj mu) /\
  thinned s (or_default (dv_K ds) (repeat (Fin 0) M)) (mu_hj mu) /\
  length (mu_vhj mu) = mu_m mu /\
  (forall t a b, nth_error (or_default (dv_Kr ds) (repeat (Fin 1) M)) (t * s) = Some (Fin a) ->
     nth_error (or_default (dv_Ks ds) (repeat (Fin 0) M)) (t * s) = Some (Fin b) ->
     (a * a + b * b <= big * big)%Q -> nth_error (mu_vhj mu) t = Some (Fin (a * a + b * b))) /\
  thinned s (sv_time (dv_1 ds)) (mu_ti mu) /\ thinned s (sv_time (dv_2 ds)) (mu_tj mu) /\
  positions s M (sv_pos (dv_1 ds)) (mu_pi mu) /\ positions s M (sv_pos (dv_2 ds)) (mu_pj mu).

(** A value whose square is finite ([big] is the root of the largest number). *)
Definition representable (big : Q) (x : fnum) : Prop := exists q, x = Fin q /\ (Qabs q <= big)%Q.
Definition all_representable (big : Q) (x : list (list fnum)) : Prop :=
  forall c v, In c x -> In v c -> representable big v.
