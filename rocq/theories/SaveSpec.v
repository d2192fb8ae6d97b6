(** * Specification vocabulary for re-opened solvers, C50. *)
From Coq Require Import Reals.
From Verif Require Import Base ReaderModel UncModel MuModel TransformModel EvalModel HistModel GNModel SaveModel.
Open Scope nat_scope.

(** Every number of the solver that is saved is unchanged by rounding to 4-byte floats. *)
Definition stored_exactly {T} (f4 : R -> R) (st : solver T) : Prop :=
  (forall x, In x (m_values R T (g_m T st)) -> f4 x = x) /\ (forall x, In x (g_xyza T st) -> f4 x = x) /\
  forall r x, In r (g_S T st) -> In x r -> f4 x = x.

(** The sensor functions do not use the times of the match-ups. *)
Definition ignores_times {T} (sd : sdat T) : Prop :=
  forall s f X a c xt al t, nth_error (sd_model T sd) s = Some f -> f X a c xt al t = f X a c xt al None.

(** Sensor data with the functions and constants of [sd] and as many parameters (their values may differ: the parameters of the re-opened solver
    are those saved). *)
Definition same_sensors {T} (sd sd' : sdat T) : Prop :=
  length (sd_a T sd') = length (sd_a T sd) /\ sd_c T sd' = sd_c T sd /\ sd_cs T sd' = sd_cs T sd /\ sd_model T sd' = sd_model T sd /\ sd_adj T sd' = sd_adj T sd.

(** The inner solvers see the solver only through the products with the Jacobian, respectively the Hessian. *)
Definition lsmr_by_products {T} (lsmr : nat -> solver T -> list R -> res (list R)) : Prop :=
  forall k s s' b, (forall x tr, calc_prod_JPx T s x tr = calc_prod_JPx T s' x tr) -> lsmr k s b = lsmr k s' b.
Definition minres_by_products {T} (minres : nat -> nat -> solver T -> list R -> res (list R)) : Prop :=
  forall i j s s' b, (forall x, calc_Hx T s x = calc_Hx T s' x) -> minres i j s b = minres i j s' b.
