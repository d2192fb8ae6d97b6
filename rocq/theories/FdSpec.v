(** Specification: reading a whole job. *)
From Verif Require Import Base FoModel FoSpec FrModel FrSpec FdModel.
From Coq Require Import QArith Qabs.
Open Scope nat_scope.
Open Scope list_scope.

(** What an entry of the job became. *)
Definition read_as (big : Q) (jb : job) (ss : sensors) (e : entry) (mu : matchup) : Prop :=
  mu_i mu = en_i e /\ mu_j mu = en_j e /\
  exists ri rj, get_sensor_r ss (en_i e) = Ok ri /\ get_sensor_r ss (en_j e) = Ok rj /\
    records_of big jb (en_i e) (en_j e) (en_s e) (en_ds e) ri rj mu.

(** An entry without column selection whose matrices are well stored. *)
Definition well_stored (jb : job) (e : entry) : Prop :=
  all_columns jb (en_i e) /\ all_columns jb (en_j e) /\
  exists base vs mats, has_matrices (en_ds e) base vs mats.

(** The telemetry columns of the match-up have the matrices of their types in the store. *)
Definition matrices_in (big : Q) (jb : job) (ss : sensors) (st : store) (e : entry) (mu : matchup) : Prop :=
  forall base vs mats, has_matrices (en_ds e) base vs mats ->
  exists ri rj, get_sensor_r ss (en_i e) = Ok ri /\ get_sensor_r ss (en_j e) = Ok rj /\
    covariances_of big (jb_common jb) (en_s e) vs mats st (dv_1 (en_ds e)) (dv_M (en_ds e)) ri
      (mu_ui mu) (mu_ic mu) (mu_iv mu) (mu_iw mu) /\
    covariances_of big (jb_common jb) (en_s e) vs mats st (dv_2 (en_ds e)) (dv_M (en_ds e)) rj
      (mu_uj mu) (mu_jc mu) (mu_jv mu) (mu_jw mu).
