(** * Model of the compiled AVHRR measurement functions.

    File: /repo/harmonisation_eiv/harmonisation/sensor_data/AVHRR/AVHRR_sensor_models_cython.pyx.
    Exact reals (the arrays are float32).  As in InstModel, a function is what it computes for one match-up. *)
From Coq Require Import Reals.
From Verif Require Import Base InstModel.
Open Scope R_scope.

(** The compiled functions. *)
Inductive compiled := K3 | K4 | K3_scaled | K4_scaled.
(** The parameters [at]: pyx:105-107, 179-181, 253-256, 328-332. *)
Definition comp_at (k : compiled) (p : list R) : res (list R) :=
  do p0 <- get p 0;; do p1 <- get p 1;; do p2 <- get p 2;;
  match k with
  | K3 => Ok [p0; 98514 / 100000 + p1; p2]
  | K4 => do p3 <- get p 3;; Ok [p0; 98514 / 100000 + p1; p2; p3]
  | K3_scaled => Ok [p0; 98514 / 100000 + p1 / 1000; p2 / 1000 / 1000]
  | K4_scaled => do p3 <- get p 3;; Ok [p0; 98514 / 100000 + p1 / 1000; p2 / 1000 / 1000; p3 / 1000]
  end.
(** The row [Ja]: pyx:103-104, 177-178, 251-252, 326-327.  The temperature [To] enters as it is. *)
Definition comp_Ja (k : compiled) (x : list R) : res (list R) :=
  do Cs <- get x 0;; do Cict <- get x 1;; do Ce <- get x 2;; do Rict <- get x 3;;
  let l := [1; Rict * (Cs - Ce) / (Cs - Cict); (Cict - Ce) * (Cs - Ce)] in
  match k with
  | K3 | K3_scaled => Ok l
  | K4 | K4_scaled => do To <- get x 4;; Ok (l ++ [To])
  end.
(** pyx:62-131 (K3), 134-208 (K4), 211-282 (K3_scaled), 285-361 (K4_scaled). *)
Definition comp_row (k : compiled) (x p : list R) : res (R * list R) :=
  do Cs <- get x 0;; do Cict <- get x 1;; do Ce <- get x 2;; do Rict <- get x 3;;
  do Ja <- comp_Ja k x;; do at_ <- comp_at k p;;
  do at1 <- get at_ 1;; do at2 <- get at_ 2;;
  do dT <- match k with K3 | K3_scaled => Ok [] | K4 | K4_scaled => do at3 <- get at_ 3;; Ok [at3 * 1] end;;
  Ok (dot Ja at_,
      [at1 * Rict * (Ce - Cict) / (Cs - Cict) ^ 2 + at2 * (Cict - Ce);
       at1 * Rict * (Cs - Ce) / (Cs - Cict) ^ 2 + at2 * (Cs - Ce);
       - at1 * Rict / (Cs - Cict) - at2 * (Cs + Cict - 2 * Ce);
       at1 * (Cs - Ce) / (Cs - Cict)] ++ dT ++ Ja).
(** The function of AVHRR_sensor_models.py with the same name. *)
Definition python_of (k : compiled) : avhrr := match k with K3 => A3 | K4 => A4 | K3_scaled => A3_scaled | K4_scaled => A4_scaled end.
