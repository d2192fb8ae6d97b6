(** * Specification vocabulary for C193-C194: registered sensor data. *)
From Coq Require Import Reals String List.
From Verif Require Import InstModel SdModel.
Import ListNotations.
Open Scope R_scope.
(** The mean of the five temperatures (columns 2 to 6) of match-up i with the weights 2, 1, 1, 1, 1. *)
Definition mhs_mean (X : list (list R)) (i : nat) : R :=
  let t k := nth i (nth k X []) 0 in (2 * t 2%nat + t 3%nat + t 4%nat + t 5%nat + t 6%nat) / 6.
(** Every registered sensor has one label and one name for each of its variables, and the names differ. *)
Definition described {T} (r : registered (T := T)) : Prop :=
  length (g_labels r) = g_num r /\ length (g_names r) = g_num r /\ NoDup (g_names r).
(** One match-up: columns with one row. *)
Definition one_row (x : list R) : list (list R) := map (fun v => [v]) x.
(** The brightness temperature of the cosmic background at 183.31 GHz (SensorModel, InstModel: Planck's function and Rayleigh-Jeans). *)
Definition background : R := InstModel.C ^ 2 / (2 * IZR 183310000000 ^ 2 * InstModel.KB) * InstModel.planck (IZR 183310000000) InstModel.TCMB.
