(** Model of the Fortran demonstration program (harmonisation_meiv_demo/src/main/fortran/gpl): the
    stores of match-ups (mod_matchup.F90) and of sensors (mod_sensors.F90), the checks of
    mod_assert.F90 and the reader of match-up datasets (mod_reader.F90).  See FoModel for the
    conventions. *)
From Verif Require Import Base FoModel.
From Coq Require Import QArith Qabs.
Open Scope nat_scope.
Open Scope list_scope.

(** ** mod_matchup.F90 *)

(** mod_type.F90, matchup_t: a match-up dataset.  Names, unique identifiers and the Z matrices are
    not modelled.  Two-dimensional arrays are lists of their telemetry columns. *)
Record matchup := mkMatchup {
  mu_i : Z; mu_j : Z; mu_m : nat; mu_ri : nat; mu_rj : nat;
  mu_qi : list (list fnum); mu_qj : list (list fnum);
  mu_hj : list fnum; mu_vhj : list fnum; mu_ti : list fnum; mu_tj : list fnum;
  mu_pi : list Z; mu_pj : list Z; mu_ui : list Z; mu_uj : list Z;
  mu_ic : list Z; mu_jc : list Z; mu_iv : list Z; mu_jv : list Z; mu_iw : list Z; mu_jw : list Z }.

(** mod_matchup.F90:67-76: capacity, matchups, mstart, mfinal; nmatchup is the length of the
    lists. *)
Record registry := mkRegistry {
  rg_capacity : nat; rg_matchups : list matchup; rg_start : list Z; rg_final : list Z }.

(** mod_matchup.F90:80-89: matchup_initialize. *)
Definition matchup_initialize (capacity : nat) : registry := mkRegistry capacity [] [] [].

(** mod_matchup.F90:535-540: is_pair. *)
Definition is_pair (i j : Z) : bool := ((i <? j) && (0 <? i))%Z.
(** mod_matchup.F90:521-533: has_pair. *)
Definition has_pair (l : list matchup) (i j : Z) : bool :=
  existsb (fun m => ((mu_i m =? i) && (mu_j m =? j))%Z) l.

(** mod_matchup.F90:198-292: add_matchup; the index 0 when the dataset is not added. *)
Definition add_matchup (rg : registry) (i j : Z) (m ri rj : nat) : registry * nat :=
  if (length (rg_matchups rg) <? rg_capacity rg) && is_pair i j && negb (has_pair (rg_matchups rg) i j)
  then
    let z := fun n => repeat (Fin 0) n in
    let o := fun n => repeat 0%Z n in
    let mu := mkMatchup i j m ri rj (repeat (z m) ri) (repeat (z m) rj) (z m) (z m) (z m) (z m)
                (o m) (o m) (o ri) (o rj) (o ri) (o rj) (o ri) (o rj) (o ri) (o rj) in
    let k := length (rg_matchups rg) in
    let prev := match k with 0 => 0%Z | S k' => nth k' (rg_final rg) 0%Z end in
    (mkRegistry (rg_capacity rg) (rg_matchups rg ++ [mu]) (rg_start rg ++ [(prev + 1)%Z])
       (rg_final rg ++ [(prev + Z.of_nat m)%Z]), S k)
  else (rg, 0).

(** ** mod_sensors.F90 *)

(** mod_type.F90, sensor_t without the name. *)
Record sensor := mkSensor {
  se_id : Z; se_n : nat; se_r : nat; se_y : list Q;
  se_prior_x : list Q; se_prior_c : list (list Q); se_prior_ci : list (list Q) }.
(** mod_sensors.F90:48-58: capacity, sensors, istart, ifinal. *)
Record sensors := mkSensors {
  ss_capacity : nat; ss_sensors : list sensor; ss_start : list Z; ss_final : list Z }.
(** mod_sensors.F90:64-73: sensors_initialize. *)
Definition sensors_initialize (capacity : nat) : sensors := mkSensors capacity [] [] [].

(** mod_sensors.F90:239-258: set_sensor_prior_c. *)
Definition diagonal (d : list Q) : list (list Q) :=
  map (fun a => map (fun b => if a =? b then nth a d 0%Q else 0%Q) (seq 0 (length d))) (seq 0 (length d)).
Definition is_positive (u : Q) : bool := negb (Qle_bool u 0).
Definition prior_c (u : list Q) : list (list Q) :=
  diagonal (map (fun x => if is_positive x then (x * x)%Q else 0%Q) u).
Definition prior_ci (u : list Q) : list (list Q) :=
  diagonal (map (fun x => if is_positive x then (1 / (x * x))%Q else 0%Q) u).

(** mod_sensors.F90:130-189: add_sensor.  [y]: config_job_sensor_configurations(i, 1:o).  The prior
    values are optional; absent ones are zero. *)
Definition add_sensor (ss : sensors) (id : Z) (n r o : nat) (y : list Q)
    (prior_x prior_u : option (list Q)) : sensors * nat :=
  if length (ss_sensors ss) <? ss_capacity ss then
    let y := match o with
             | 0 => concat (repeat [0%Q; 1%Q] n)
             | S _ => firstn o y
             end in
    let x := match prior_x with Some x => x | None => repeat 0%Q n end in
    let c := match prior_u with Some u => prior_c u | None => repeat (repeat 0%Q n) n end in
    let ci := match prior_u with Some u => prior_ci u | None => repeat (repeat 0%Q n) n end in
    let k := length (ss_sensors ss) in
    let prev := match k with 0 => 0%Z | S k' => nth k' (ss_final ss) 0%Z end in
    (mkSensors (ss_capacity ss) (ss_sensors ss ++ [mkSensor id n r y x c ci])
       (ss_start ss ++ [(prev + 1)%Z]) (ss_final ss ++ [(prev + Z.of_nat n)%Z]), S k)
  else (ss, 0).

(** mod_sensors.F90:223-228: get_sensor_r. *)
Definition get_sensor_r (ss : sensors) (i : Z) : res nat :=
  if ((i <? 1) || (Z.of_nat (length (ss_sensors ss)) <? i))%Z then Raise OtherError
  else do x <- fget (ss_sensors ss) i;; Ok (se_r x).

(** ** mod_assert.F90 *)
Definition is_nan (x : fnum) : bool := match x with NaN => true | _ => false end.
Definition is_finite (x : fnum) : bool := match x with Fin _ => true | _ => false end.
Definition is_zero (x : fnum) : bool := match x with Fin q => Qeq_bool q 0 | _ => false end.
Definition not_positive (x : fnum) : bool := match x with Fin q => Qle_bool q 0 | _ => false end.
Definition stop_if (b : bool) : res unit := if b then Raise OtherError else Ok tt.
(** mod_assert.F90:228-266. *)
Definition assert_not_nan (l : list fnum) : res unit := stop_if (existsb is_nan l).
(** mod_assert.F90:188-226. *)
Definition assert_not_infinite (l : list fnum) : res unit := stop_if (negb (forallb is_finite l)).
(** mod_assert.F90:268-306. *)
Definition assert_not_huge (big : Q) (l : list fnum) : res unit := stop_if (existsb (is_huge big) l).
(** mod_assert.F90:308-346. *)
Definition assert_not_zero (l : list fnum) : res unit := stop_if (existsb is_zero l).
(** mod_assert.F90:348-386. *)
Definition assert_positive (l : list fnum) : res unit := stop_if (existsb not_positive l).

(** ** mod_reader.F90 *)

(** The part of a match-up dataset that belongs to one sensor; a two-dimensional variable is the
    list of its telemetry columns, an optional variable that is absent is [None]. *)
Record side_vars := mkSide {
  sv_X : list (list fnum); sv_Ur : option (list (list fnum)); sv_Us : option (list (list fnum));
  sv_types : option (list Z); sv_u_use : list Z; sv_w_use : list Z;
  sv_time : list fnum; sv_pos : option (list Z) }.
Record dataset := mkDataset {
  dv_M : nat; dv_1 : side_vars; dv_2 : side_vars;
  dv_u_count : nat; dv_w_count : nat;
  dv_u_rows : list nat; dv_u_val : list fnum;
  dv_w_nnz : list Z; dv_w_row : list (list Z); dv_w_col : list Z; dv_w_val : list fnum;
  dv_K : option (list fnum); dv_Kr : option (list fnum); dv_Ks : option (list fnum) }.
(** The dimensions m1 and m2. *)
Definition sv_m (sv : side_vars) : nat := length (sv_X sv).
(** read_variable with a default value. *)
Definition or_default {A} (o : option A) (d : A) : A := match o with Some x => x | None => d end.
Definition full (m M : nat) (x : fnum) : list (list fnum) := repeat (repeat x M) m.

(** config_job_enable_covariance_common; config_job_sensor_columns_select and
    config_job_sensor_columns, by sensor. *)
Record job := mkJob { jb_common : bool; jb_select : list bool; jb_columns : list (list Z) }.

(** The column used for column l of sensor i: config_job_sensor_columns(i, l), or l. *)
Definition used_column (jb : job) (i l : Z) : res Z :=
  do sel <- fget (jb_select jb) i;;
  if sel then do cols <- fget (jb_columns jb) i;; fget cols l else Ok l.
(** 1, ..., r *)
Definition one_to (r : nat) : list Z := map (fun t => (Z.of_nat t + 1)%Z) (seq 0 r).

(** mod_reader.F90:211-220: the telemetry data of one sensor, subsampled. *)
Definition telemetry (jb : job) (i : Z) (r M s : nat) (x : list (list fnum)) : res (list (list fnum)) :=
  mapM (fun l => do c <- used_column jb i l;; do col <- fget x c;; every col M s) (one_to r).
(** mod_reader.F90:333-342: the uncertainty types of one sensor. *)
Definition used_types (jb : job) (i : Z) (r : nat) (u_types : list Z) : res (list Z) :=
  mapM (fun l => do c <- used_column jb i l;; fget u_types c) (one_to r).

(** The variables changed by the loop of setup. *)
Record assoc := mkAssoc { a_store : store; a_types : list Z; a_ic : list Z; a_iv : list Z; a_iw : list Z }.

(** mod_reader.F90:443-446: ic(l) must not be zero. *)
Definition set_ic (a : assoc) (st : store) (types : list Z) (l idx : Z) : res assoc :=
  do ic <- fset (a_ic a) l idx;;
  if (idx =? 0)%Z then Raise OtherError else Ok (mkAssoc st types ic (a_iv a) (a_iw a)).

(** mod_reader.F90:435-484: the body of the loop of setup. *)
Definition setup_column (big : Q) (jb : job) (i : Z) (M s : nat) (ur us : list (list fnum))
    (u_use w_use v_indices w_indices : list Z) (a : assoc) (l : Z) : res assoc :=
  do ty <- fget (a_types a) l;;
  let independent := fun types =>
    do c <- used_column jb i l;;
    do col <- fget ur c;;
    do d <- every col M s;;
    let '(st, idx) := add_d_matrix big (a_store a) d in
    set_ic a st types l idx in
  let structured := fun types =>
    do c <- used_column jb i l;;
    do u <- fget u_use c;;
    do v <- fget v_indices u;;
    do iv <- fset (a_iv a) l v;;
    do w <- fget w_use c;;
    do x <- fget w_indices w;;
    do iw <- fset (a_iw a) l x;;
    Ok (mkAssoc (a_store a) types (a_ic a) iv iw) in
  if (ty =? 1)%Z then independent (a_types a)
  else if (ty =? 2)%Z then
    if negb (jb_common jb) then
      do types <- fset (a_types a) l 1%Z;;
      independent types
    else
      do c <- used_column jb i l;;
      do colr <- fget ur c;;
      do cols <- fget us c;;
      do d <- every colr M s;;
      do u <- every cols M s;;
      let '(st, idx) := add_b_matrix big (a_store a) d u in
      set_ic a st (a_types a) l idx
  else if (ty =? 3)%Z then structured (a_types a)
  else if (ty =? 4)%Z then
    do types <- fset (a_types a) l 3%Z;;
    structured types
  else Ok a.

(** mod_reader.F90:411-485: setup. *)
Definition setup (big : Q) (jb : job) (i : Z) (r M s : nat) (ur us : list (list fnum))
    (u_use w_use v_indices w_indices types : list Z) (st : store) : res assoc :=
  foldM (setup_column big jb i M s ur us u_use w_use v_indices w_indices) (one_to r)
    (mkAssoc st types (repeat 0%Z r) (repeat 0%Z r) (repeat 0%Z r)).

(** mod_reader.F90:195-200 (and :204-209): the checks of a variable of both sensors. *)
Definition check_both (big : Q) (x1 x2 : list (list fnum)) : res unit :=
  do _ <- assert_not_nan (concat x1);;
  do _ <- assert_not_nan (concat x2);;
  do _ <- assert_not_infinite (concat x1);;
  do _ <- assert_not_infinite (concat x2);;
  do _ <- assert_not_huge big (concat x1);;
  assert_not_huge big (concat x2).
(** mod_reader.F90:233-238 (and :241-246): as :195-200, but the last check is on the first array
    again. *)
Definition check_both' (big : Q) (x1 x2 : list (list fnum)) : res unit :=
  do _ <- assert_not_nan (concat x1);;
  do _ <- assert_not_nan (concat x2);;
  do _ <- assert_not_infinite (concat x1);;
  do _ <- assert_not_infinite (concat x2);;
  do _ <- assert_not_huge big (concat x1);;
  assert_not_huge big (concat x1).

(** mod_reader.F90:261-316: the U and W matrices.  Not allocated index arrays are empty lists. *)
Definition read_matrices (big : Q) (ds : dataset) (s : nat) (st : store)
  : res (store * list Z * list Z) :=
  if (0 <? dv_u_count ds) && (0 <? dv_w_count ds) then
    do _ <- assert_not_nan (dv_u_val ds);;
    do _ <- assert_not_infinite (dv_u_val ds);;
    do _ <- assert_not_huge big (dv_u_val ds);;
    do _ <- assert_not_zero (dv_u_val ds);;
    do v <- add_v_matrices big st (dv_u_rows ds) (dv_u_val ds);;
    let '(st, vi) := v in
    if existsb (fun x => x =? 0)%Z vi then Raise OtherError else
    do _ <- assert_not_nan (dv_w_val ds);;
    do _ <- assert_not_infinite (dv_w_val ds);;
    do _ <- assert_not_huge big (dv_w_val ds);;
    do _ <- assert_positive (dv_w_val ds);;
    do w <- add_w_matrices st (dv_M ds) s (dv_w_nnz ds) (dv_w_row ds) (dv_w_col ds) (dv_w_val ds);;
    let '(st, wi) := w in
    if existsb (fun x => x =? 0)%Z wi then Raise OtherError else Ok (st, vi, wi)
  else Ok (st, [], []).

(** mod_reader.F90:487-493: addsq; the sum is formed in double precision and rounded to single
    precision, infinite when it exceeds the largest number, [big] squared. *)
Definition addsq (big : Q) (x y : fnum) : fnum :=
  match x, y with
  | NaN, _ | _, NaN => NaN
  | Inf, _ | _, Inf => Inf
  | Fin a, Fin b => if Qle_bool (a * a + b * b) (big * big) then Fin (a * a + b * b) else Inf
  end.

(** mod_reader.F90:356-373: expected differences and their variances. *)
Definition read_k (big : Q) (ds : dataset) (s : nat) : res (list fnum * list fnum) :=
  let M := dv_M ds in
  let k := or_default (dv_K ds) (repeat (Fin 0) M) in
  let kr := or_default (dv_Kr ds) (repeat (Fin 1) M) in
  let ks := or_default (dv_Ks ds) (repeat (Fin 0) M) in
  do _ <- assert_not_nan k;; do _ <- assert_not_nan kr;; do _ <- assert_not_nan ks;;
  do _ <- assert_not_infinite k;; do _ <- assert_not_infinite kr;; do _ <- assert_not_infinite ks;;
  do _ <- assert_not_huge big k;; do _ <- assert_not_huge big kr;; do _ <- assert_not_huge big ks;;
  do _ <- assert_not_zero kr;;
  do h <- every k M s;;
  do r <- every kr M s;;
  do c <- every ks M s;;
  Ok (h, map (fun p => addsq big (fst p) (snd p)) (combine r c)).

(** mod_reader.F90:394-398: pixel positions, zero when they are not in the dataset. *)
Definition read_pos (o : option (list Z)) (M s n : nat) : res (list Z) :=
  match o with Some p => every p M s | None => Ok (repeat 0%Z n) end.

(** mod_reader.F90:48-409: read_matchup_dataset_nc.  Simplification: the setters, which the code
    calls one by one on the dataset added in step 3, are one replacement at the end. *)
Definition read_matchup_dataset (big : Q) (jb : job) (ss : sensors) (rg : registry) (st : store)
    (ds : dataset) (i j : Z) (s : nat) : res (registry * store) :=
  let M := dv_M ds in
  let m1 := sv_m (dv_1 ds) in
  let m2 := sv_m (dv_2 ds) in
  do ri <- get_sensor_r ss i;;
  do rj <- get_sensor_r ss j;;
  do _ <- stop_if (negb (ri <=? (if jb_common jb then m1 else m1 + m1)));;
  do _ <- stop_if (negb (rj <=? (if jb_common jb then m2 else m2 + m2)));;
  do m_act <- (match s with 0 => Raise OtherError | S _ => Ok (M / s + Nat.min 1 (M mod s)) end);;
  let '(rg, m_id) := add_matchup rg i j m_act ri rj in
  if m_id =? 0 then Raise OtherError else
  let us1 := or_default (sv_Us (dv_1 ds)) (full m1 M (Fin 0)) in
  let us2 := or_default (sv_Us (dv_2 ds)) (full m2 M (Fin 0)) in
  do _ <- check_both big (sv_X (dv_1 ds)) (sv_X (dv_2 ds));;
  do _ <- (if jb_common jb then Ok tt else check_both big us1 us2);;
  let x1 := if jb_common jb then sv_X (dv_1 ds) else sv_X (dv_1 ds) ++ us1 in
  let x2 := if jb_common jb then sv_X (dv_2 ds) else sv_X (dv_2 ds) ++ us2 in
  do qi <- telemetry jb i ri M s x1;;
  do qj <- telemetry jb j rj M s x2;;
  let ur1 := or_default (sv_Ur (dv_1 ds)) (full m1 M (Fin 0)) in
  let ur2 := or_default (sv_Ur (dv_2 ds)) (full m2 M (Fin 0)) in
  do _ <- check_both' big ur1 ur2;;
  do _ <- check_both' big us1 us2;;
  let t1 := or_default (sv_types (dv_1 ds)) (repeat 1%Z m1) ++ repeat 0%Z m1 in
  let t2 := or_default (sv_types (dv_2 ds)) (repeat 1%Z m2) ++ repeat 0%Z m2 in
  do mats <- read_matrices big ds s st;;
  let '(st, vi, wi) := mats in
  do a1 <- setup big jb i ri M s ur1 us1 (sv_u_use (dv_1 ds)) (sv_w_use (dv_1 ds)) vi wi t1 st;;
  do a2 <- setup big jb j rj M s ur2 us2 (sv_u_use (dv_2 ds)) (sv_w_use (dv_2 ds)) vi wi t2 (a_store a1);;
  do ui <- used_types jb i ri (a_types a1);;
  do uj <- used_types jb j rj (a_types a2);;
  do k <- read_k big ds s;;
  let '(hj, vhj) := k in
  do _ <- assert_not_infinite (sv_time (dv_1 ds));;
  do _ <- assert_not_infinite (sv_time (dv_2 ds));;
  do _ <- assert_not_nan (sv_time (dv_1 ds));;
  do _ <- assert_not_nan (sv_time (dv_2 ds));;
  do ti <- every (sv_time (dv_1 ds)) M s;;
  do tj <- every (sv_time (dv_2 ds)) M s;;
  do pi <- read_pos (sv_pos (dv_1 ds)) M s m_act;;
  do pj <- read_pos (sv_pos (dv_2 ds)) M s m_act;;
  let mu := mkMatchup i j m_act ri rj qi qj hj vhj ti tj pi pj ui uj
              (a_ic a1) (a_ic a2) (a_iv a1) (a_iv a2) (a_iw a1) (a_iw a2) in
  do l <- fset (rg_matchups rg) (Z.of_nat m_id) mu;;
  Ok (mkRegistry (rg_capacity rg) l (rg_start rg) (rg_final rg), a_store a2).
