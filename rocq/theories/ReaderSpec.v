(** * Specification vocabulary for the reader properties (C01-C04, C10, C11).
    Only about files ([dataset]) and what a user asks for; no reference to how the reader
    computes anything. *)
From Verif Require Import Base ReaderModel.

Section Spec.
Context {V : Type}.

(** A syntactically valid file: every variable has the shape its netCDF dimensions give it. *)
Definition wf_dataset (d : dataset V) : Prop :=
  length (d_X1 V d) = d_M V d /\ (forall r, In r (d_X1 V d) -> length r = d_m1 V d) /\
  length (d_X2 V d) = d_M V d /\ (forall r, In r (d_X2 V d) -> length r = d_m2 V d) /\
  length (d_K V d) = d_M V d /\
  length (d_time1 V d) = d_M V d /\ length (d_time2 V d) = d_M V d /\
  (forall n v, In (n, v) (d_vars V d) -> length v = d_M V d).

(** The two sides of a file: side 1 or side 2. *)
Inductive side := Side1 | Side2.
Definition sname (d : dataset V) (sd : side) : string :=
  match sd with Side1 => d_s1 V d | Side2 => d_s2 V d end.
Definition sm (d : dataset V) (sd : side) : nat :=
  match sd with Side1 => d_m1 V d | Side2 => d_m2 V d end.
Definition sX (d : dataset V) (sd : side) : list (list V) :=
  match sd with Side1 => d_X1 V d | Side2 => d_X2 V d end.

(** A file matches two different sensors. *)
Definition distinct_sensors (d : dataset V) : Prop := d_s1 V d <> d_s2 V d.

(** A sensor has the same number of covariates in every file of the set (and on both sides). *)
Definition same_covariates (ds : list (dataset V)) : Prop :=
  forall d d' sd sd', In d ds -> In d' ds -> sname d sd = sname d' sd' -> sm d sd = sm d' sd'.

Definition good_files (ds : list (dataset V)) : Prop :=
  ds <> [] /\ same_covariates ds /\
  (forall d, In d ds -> wf_dataset d /\ distinct_sensors d).

(** "File number [mu] (from 1) has data for covariate [cov] (from 1) of [sensor], on side [sd]". *)
Definition file_has (ds : list (dataset V)) (sensor : string) (mu cov : nat) (d : dataset V) (sd : side) : Prop :=
  1 <= mu /\ nth_error ds (mu - 1) = Some d /\ sname d sd = sensor /\ 1 <= cov <= sm d sd.

(** Number of covariates of a sensor in the first file it appears in. *)
Fixpoint first_count (ds : list (dataset V)) (s : string) : option nat :=
  match ds with
  | [] => None
  | d :: ds' => if String.eqb (d_s1 V d) s then Some (d_m1 V d)
                else if String.eqb (d_s2 V d) s then Some (d_m2 V d)
                else first_count ds' s
  end.

(** "File number [mu] has covariate [cov] of [sensor] and so had the sensor's first file". *)
Definition file_has_first (ds : list (dataset V)) (sensor : string) (mu cov : nat) (d : dataset V) (sd : side) : Prop :=
  file_has ds sensor mu cov d sd /\
  exists m, first_count ds sensor = Some m /\ cov <= m.

(** Every file has, for each of its sensors, at least the covariates of the sensor's first file. *)
Definition enough_covariates (ds : list (dataset V)) : Prop :=
  forall d sd m, In d ds -> first_count ds (sname d sd) = Some m -> m <= sm d sd.

(** [c] is column number [cov] (from 1) of a 2-D variable given by rows: row by row, in order. *)
Definition is_column (rows : list (list V)) (cov : nat) (c : list V) : Prop :=
  length c = length rows /\
  forall r row, nth_error rows r = Some row -> nth_error c r = nth_error row (cov - 1).

(** Every file is syntactically valid and matches two different sensors. *)
Definition readable (ds : list (dataset V)) : Prop :=
  forall d, In d ds -> wf_dataset d /\ distinct_sensors d.

(** Number of match-ups in the files before file number [n] (from 1). *)
Definition before (ds : list (dataset V)) (n : nat) : nat :=
  list_sum (map (d_M V) (firstn (n - 1) ds)).

(** What an optional per-match-up array must be: absent iff no file has the variable, else each
    file's values (converted to int32) in place, NaN where the file lacks it. *)
Definition optional_ok (nanV : V) (i32 : V -> V) (name : string) (ds : list (dataset V))
           (arr : option (list V)) : Prop :=
  match arr with
  | None => forall d, In d ds -> lookup name (d_vars V d) = None
  | Some a =>
      (exists d, In d ds /\ lookup name (d_vars V d) <> None) /\
      length a = list_sum (map (d_M V) ds) /\
      forall n d r, 1 <= n -> nth_error ds (n - 1) = Some d -> r < d_M V d ->
        nth_error a (before ds n + r) =
        match lookup name (d_vars V d) with
        | Some v => option_map i32 (nth_error v r)
        | None => Some nanV
        end
  end.

(** The per-file answer of the optional-index accessors. *)
Definition optional_slice (nanV : V) (i32 : V -> V) (name : string) (ds : list (dataset V))
           (d : dataset V) : option (list V) :=
  if existsb (has_var V name) ds then
    Some (match lookup name (d_vars V d) with
          | Some v => map i32 v
          | None => repeat nanV (d_M V d)
          end)
  else None.

Definition side_time (d : dataset V) (sd : side) : list V :=
  match sd with Side1 => d_time1 V d | Side2 => d_time2 V d end.
End Spec.
Definition side_across (sd : side) : string :=
  match sd with Side1 => "across_track_index1" | Side2 => "across_track_index2" end%string.
Definition side_along (sd : side) : string :=
  match sd with Side1 => "along_track_index1" | Side2 => "along_track_index2" end%string.

