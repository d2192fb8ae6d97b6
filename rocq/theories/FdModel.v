(** Model of the Fortran demonstration program (harmonisation_meiv_demo/src/main/fortran/gpl): the
    reading of all datasets of a job (demo.F90), the parameter dataset made there, and the times
    of a residuals dataset (mod_writer.F90). *)
From Verif Require Import Base FoModel FrModel.
From Coq Require Import QArith Qabs Qround Reals.
Open Scope nat_scope.
Open Scope list_scope.

(** demo.F90:45-50: one match-up dataset of the job: config_job_matchup(k, 1:2) and
    config_job_matchup_samplings(k); the dataset itself stands for its path. *)
Record entry := mkEntry { en_ds : dataset; en_i : Z; en_j : Z; en_s : nat }.

(** demo.F90:55-60 with mod_matrices.F90:696-730: the matrices are removed. *)
Definition remove_matrices (st : store) : store := mkStore (st_capacity st) [] [] [] [].

(** demo.F90:45-61: the loop of subroutine read; [enable]: config_job_enable_covariance_matrix. *)
Definition read_job (big : Q) (jb : job) (enable : bool) (ss : sensors) (rg : registry) (st : store)
    (es : list entry) : res (registry * store) :=
  foldM (fun acc e =>
    do r <- read_matchup_dataset big jb ss (fst acc) (snd acc) (en_ds e) (en_i e) (en_j e) (en_s e);;
    Ok (fst r, if enable then snd r else remove_matrices (snd r))) es (rg, st).

(** demo.F90:40-43: the sensors; names are not modelled.  config_job_sensor_configurations is not
    used: the number o of configuration parameters of the reference is 0, that of the others 7. *)
Definition demo_sensors (capacity : nat) (y1 y2 y3 : list Q) : sensors :=
  let add := fun ss id n r o y => fst (add_sensor ss id n r o y None None) in
  add (add (add (add (sensors_initialize capacity) 0%Z 0 1 0 []) 101%Z 3 4 7 y1) 101%Z 3 4 7 y2) 101%Z 3 4 7 y3.

(** demo.F90:63-66: the number of model parameters; mod_sensors.F90 get_sensor_n. *)
Definition parameter_count (ss : sensors) : nat :=
  fold_left (fun n s => n + se_n s) (ss_sensors ss) 0.

(** demo.F90:95: the uncertainties xu(i) = sqrt(xc(i, i)). *)
Definition uncertainties (n : nat) (xc : nat -> nat -> R) : list R := map (fun i => sqrt (xc i i)) (seq 1 n).
(** demo.F90:97: the array constructor, i running faster ... *)
Definition correlation_elements (n : nat) (xc : nat -> nat -> R) : list R :=
  flat_map (fun j => map (fun i => xc i j / sqrt (xc i i * xc j j))%R (seq 1 n)) (seq 1 n).
(** ... reshaped: element (i, j) of reshape(l, [n, n]) is l(i + (j - 1) * n). *)
Definition reshaped (n : nat) (l : list R) (i j : nat) : res R := get l ((i - 1) + (j - 1) * n).
Definition correlations (n : nat) (xc : nat -> nat -> R) (i j : nat) : res R :=
  reshaped n (correlation_elements n xc) i j.

(** ** mod_writer.F90 *)

(** Rounding to the nearest number, halves to the even one. *)
Definition nearest (x : Q) : Z :=
  let f := Qfloor (x + (1 # 2)) in
  if Qeq_bool (inject_Z f) (x + (1 # 2)) && Z.odd f then (f - 1)%Z else f.
(** Conversion into single precision (24 bits); numbers below 1 and overflow are not modelled
    (the former are kept). *)
Definition single (x : Q) : Q :=
  if Qle_bool 1 (Qabs x) then
    let e := (Z.log2 (Qfloor (Qabs x)) - 23)%Z in
    if (0 <=? e)%Z then inject_Z (nearest (x / inject_Z (2 ^ e)) * 2 ^ e)
    else (inject_Z (nearest (x * inject_Z (2 ^ (- e)))) / inject_Z (2 ^ (- e)))
  else x.
(** mod_writer.F90:206-207, 243 with mod_nc.F90:328-347: the variable of the times is defined with
    a prototype of kind cp, so it is a netCDF "float"; the values written are of kind dp. *)
Definition times_written (t : list Q) : list Q := map single t.
