(** * Models of the measurement functions of the instruments.

    Files: /repo/harmonisation_eiv/harmonisation/sensor_data/{AVHRR/AVHRR_sensor_models.py,
    HIRS/HIRS_sensor_models.py, MW/MW_sensor_models.py} and the sensor data modules naming them.
    Numbers are exact reals.  The functions are written with whole numpy columns; every operation acts
    element by element, so a function is modelled by what it computes for one match-up (a row of
    covariates), applied to every row by [vectorised].  (A division by zero, nan or inf in numpy, has an
    unspecified real value here: the properties exclude it.) *)
From Coq Require Import Reals.
From Verif Require Import Base.
Open Scope R_scope.

Definition vectorised {P} (f : list R -> P -> res (R * list R)) (rows : list (list R)) (p : P) : res (list R * list (list R)) :=
  do l <- mapM (fun x => f x p) rows;; Ok (map fst l, map snd l).
(** One element of [dot(Ja, at)]. *)
Definition dot (a b : list R) : R := fold_right Rplus 0 (map (fun q => fst q * snd q) (combine a b)).

(** ** AVHRR *)
Inductive avhrr := A3 | A4 | A37_2 | A37_3 | A3_scaled | A4_scaled | A37_2_scaled | A37_3_scaled.
Definition em : R := 98514 / 100000.
(** AVHRR_sensor_models.py:53-106 *)
Definition sensor_model_3 (x p : list R) : res (R * list R) :=
  do Cs <- get x 0;; do Cict <- get x 1;; do Ce <- get x 2;; do Rict <- get x 3;;
  let Ja := [1; Rict * (Cs - Ce) / (Cs - Cict); (Cict - Ce) * (Cs - Ce)] in
  do p0 <- get p 0;; do p1 <- get p 1;; do p2 <- get p 2;;
  let at1 := em + p1 in
  Ok (dot Ja [p0; at1; p2],
      [at1 * Rict * (Ce - Cict) / (Cs - Cict) ^ 2 + p2 * (Cict - Ce);
       at1 * Rict * (Cs - Ce) / (Cs - Cict) ^ 2 + p2 * (Cs - Ce);
       - at1 * Rict / (Cs - Cict) - p2 * (Cs + Cict - 2 * Ce);
       at1 * (Cs - Ce) / (Cs - Cict)] ++ Ja).
(** AVHRR_sensor_models.py:109-167 *)
Definition sensor_model_4 (x p : list R) : res (R * list R) :=
  do Cs <- get x 0;; do Cict <- get x 1;; do Ce <- get x 2;; do Rict <- get x 3;; do T <- get x 4;;
  let Ja := [1; Rict * (Cs - Ce) / (Cs - Cict); (Cict - Ce) * (Cs - Ce); T] in
  do p0 <- get p 0;; do p1 <- get p 1;; do p2 <- get p 2;; do p3 <- get p 3;;
  let at1 := em + p1 in
  Ok (dot Ja [p0; at1; p2; p3],
      [at1 * Rict * (Ce - Cict) / (Cs - Cict) ^ 2 + p2 * (Cict - Ce);
       at1 * Rict * (Cs - Ce) / (Cs - Cict) ^ 2 + p2 * (Cs - Ce);
       - at1 * Rict / (Cs - Cict) - p2 * (Cs + Cict - 2 * Ce);
       at1 * (Cs - Ce) / (Cs - Cict);
       p3 * 1] ++ Ja).
(** AVHRR_sensor_models.py:170-218, and 389-437 (the same statements) *)
Definition sensor_model_37_2 (x p : list R) : res (R * list R) :=
  do Cs <- get x 0;; do Cict <- get x 1;; do Ce <- get x 2;; do Rict <- get x 3;;
  let Ja := [1; Rict * (Cs - Ce) / (Cs - Cict)] in
  do p0 <- get p 0;; do p1 <- get p 1;;
  let at1 := em + p1 / 1000 in
  Ok (dot Ja [p0; at1],
      [at1 * Rict * (Ce - Cict) / (Cs - Cict) ^ 2;
       at1 * Rict * (Cs - Ce) / (Cs - Cict) ^ 2;
       - at1 * Rict / (Cs - Cict);
       at1 * (Cs - Ce) / (Cs - Cict)] ++ Ja).
(** AVHRR_sensor_models.py:221-273 *)
Definition sensor_model_37_3 (x p : list R) : res (R * list R) :=
  do Cs <- get x 0;; do Cict <- get x 1;; do Ce <- get x 2;; do Rict <- get x 3;; do T <- get x 4;;
  let Ja := [1; Rict * (Cs - Ce) / (Cs - Cict); T] in
  do p0 <- get p 0;; do p1 <- get p 1;; do p2 <- get p 2;;
  let at1 := em + p1 in
  Ok (dot Ja [p0; at1; p2],
      [at1 * Rict * (Ce - Cict) / (Cs - Cict) ^ 2;
       at1 * Rict * (Cs - Ce) / (Cs - Cict) ^ 2;
       - at1 * Rict / (Cs - Cict);
       at1 * (Cs - Ce) / (Cs - Cict);
       p2 * 1] ++ Ja).
(** AVHRR_sensor_models.py:276-329 *)
Definition sensor_model_3_scaled (x p : list R) : res (R * list R) :=
  do Cs <- get x 0;; do Cict <- get x 1;; do Ce <- get x 2;; do Rict <- get x 3;;
  let Ja := [1; Rict * (Cs - Ce) / (Cs - Cict); (Cict - Ce) * (Cs - Ce)] in
  do p0 <- get p 0;; do p1 <- get p 1;; do p2 <- get p 2;;
  let at1 := em + p1 / 1000 in let at2 := p2 / 1000 / 1000 in
  Ok (dot Ja [p0; at1; at2],
      [at1 * Rict * (Ce - Cict) / (Cs - Cict) ^ 2 + at2 * (Cict - Ce);
       at1 * Rict * (Cs - Ce) / (Cs - Cict) ^ 2 + at2 * (Cs - Ce);
       - at1 * Rict / (Cs - Cict) - at2 * (Cs + Cict - 2 * Ce);
       at1 * (Cs - Ce) / (Cs - Cict)] ++ Ja).
(** AVHRR_sensor_models.py:332-386 *)
Definition sensor_model_4_scaled (x p : list R) : res (R * list R) :=
  do Cs <- get x 0;; do Cict <- get x 1;; do Ce <- get x 2;; do Rict <- get x 3;; do T <- get x 4;;
  let Ja := [1; Rict * (Cs - Ce) / (Cs - Cict); (Cict - Ce) * (Cs - Ce); T - 285] in
  do p0 <- get p 0;; do p1 <- get p 1;; do p2 <- get p 2;; do p3 <- get p 3;;
  let at1 := em + p1 / 1000 in let at2 := p2 / 1000 / 1000 in let at3 := p3 / 1000 in
  Ok (dot Ja [p0; at1; at2; at3],
      [at1 * Rict * (Ce - Cict) / (Cs - Cict) ^ 2 + at2 * (Cict - Ce);
       at1 * Rict * (Cs - Ce) / (Cs - Cict) ^ 2 + at2 * (Cs - Ce);
       - at1 * Rict / (Cs - Cict) - at2 * (Cs + Cict - 2 * Ce);
       at1 * (Cs - Ce) / (Cs - Cict);
       at3 * 1] ++ Ja).
(** AVHRR_sensor_models.py:440-492 *)
Definition sensor_model_37_3_scaled (x p : list R) : res (R * list R) :=
  do Cs <- get x 0;; do Cict <- get x 1;; do Ce <- get x 2;; do Rict <- get x 3;; do T <- get x 4;;
  let Ja := [1; Rict * (Cs - Ce) / (Cs - Cict); T - 285] in
  do p0 <- get p 0;; do p1 <- get p 1;; do p2 <- get p 2;;
  let at1 := em + p1 / 1000 in let at2 := p2 / 1000 in
  Ok (dot Ja [p0; at1; at2],
      [at1 * Rict * (Ce - Cict) / (Cs - Cict) ^ 2;
       at1 * Rict * (Cs - Ce) / (Cs - Cict) ^ 2;
       - at1 * Rict / (Cs - Cict);
       at1 * (Cs - Ce) / (Cs - Cict);
       at2 * 1] ++ Ja).
Definition avhrr_row (k : avhrr) : list R -> list R -> res (R * list R) :=
  match k with
  | A3 => sensor_model_3 | A4 => sensor_model_4 | A37_2 => sensor_model_37_2 | A37_3 => sensor_model_37_3
  | A3_scaled => sensor_model_3_scaled | A4_scaled => sensor_model_4_scaled
  | A37_2_scaled => sensor_model_37_2 | A37_3_scaled => sensor_model_37_3_scaled
  end.
(** Number of positional arguments of the functions (sensor_model_4 takes one tuple argument). *)
Definition avhrr_args (k : avhrr) : nat :=
  match k with A3 => 6 | A4 => 1 | A37_2 => 4 | A37_3 => 4 | A3_scaled => 6 | A4_scaled => 4 | A37_2_scaled => 4 | A37_3_scaled => 4 end.
(** A call with the six arguments that matchup_maths.py and GN_algo.py pass. *)
Definition avhrr_call (k : avhrr) (rows : list (list R)) (p : list R) : res (list R * list (list R)) :=
  if Nat.eqb (avhrr_args k) 6 then vectorised (avhrr_row k) rows p else Raise TypeError.
(** "sensor_model_variables_num" and the length of "sensor_model_parameter" of the sensor data modules
    (AVHRR_11um_3_sensor_data.py:44-48 and the other modules; 11um and 12um agree). *)
Definition avhrr_vars (k : avhrr) : nat := match k with A3 | A37_2 | A3_scaled | A37_2_scaled => 4 | _ => 5 end.
Definition avhrr_declared_params (k : avhrr) : nat := match k with A3 | A37_2 | A3_scaled | A37_2_scaled => 3 | _ => 4 end.

(** ** Physical constants, HIRS_sensor_models.py:23-37, MW_sensor_models.py:24-35 *)
Definition H : R := 6626070040 / 10 ^ 43.
Definition C : R := 299792458.
Definition KB : R := 138064852 / 10 ^ 31.
Definition TCMB : R := 272548 / 100000.
Definition e_ict : R := 98 / 100.

(** ** HIRS *)
(** HIRS_sensor_models.py:67-130; [c]: sensor_model_constant *)
Definition hirs_3 (c : list R) (x p : list R) : res (R * list R) :=
  do Cs <- get x 0;; do Cict <- get x 1;; do Ce <- get x 2;; do Tict <- get x 3;; do Rself <- get x 4;;
  do v <- get c 0;; do a <- get c 1;; do b <- get c 2;;
  let planck_exp := exp ((v * H) / (KB * (a + b * Tict))) in
  let planck_c := 2 * H * v ^ 3 / C ^ 2 in
  let Rict := planck_c / (planck_exp - 1) in
  let Ja := [1; Rict * (Ce - Cs) / (Cict - Cs); (Ce - Cict) * (Ce - Cs)] in
  do p0 <- get p 0;; do p1 <- get p 1;; do p2 <- get p 2;;
  let at1 := e_ict + p1 in
  Ok (dot Ja [p0; at1; p2] - Rself,
      [at1 * Rict * (Ce - Cict) / (Cict - Cs) ^ 2 - p2 * (Ce - Cict);
       - at1 * Rict * (Ce - Cs) / (Cict - Cs) ^ 2 - p2 * (Ce - Cs);
       at1 * Rict / (Cict - Cs) + p2 * (2 * Ce - Cs - Cict);
       (at1 * (Ce - Cs) / (Cict - Cs)) * Rict * planck_exp / (planck_exp - 1) * (2 * H * v * b) / (KB * (a + b * Tict) ^ 2);
       -1 * 1] ++ Ja).
(** HIRS_sensor_models.py:40-64: [sensor_model_variables[0]], the first row. *)
Definition hirs_ref (rows : list (list R)) : res (list R) := get rows 0.
(** AVHRR_sensor_models.py:23-50, MW_sensor_models.py:42-66: [sensor_model_variables[:, 0]], the first column. *)
Definition column_ref (rows : list (list R)) : res (list R) := mapM (fun x => get x 0) rows.

(** ** Microwave sounders *)
(** MW_sensor_models.py:172-173 *)
Definition planck (v T : R) : R := 2 * H * v ^ 3 / C ^ 2 / (exp (v * H / (KB * T)) - 1).
Definition thetaS : R := PI * (736 / 10) / 180.
(** MW_sensor_models.py:68-169; [c]: sensor_model_constant; a row comes with its across track index. *)
Definition mw_3 (c : list R) (i : Z) (x p : list R) : res (R * list R) :=
  do CS <- get x 0;; do CICT <- get x 1;; do TICT1 <- get x 2;; do TICT2 <- get x 3;; do TICT3 <- get x 4;;
  do TICT4 <- get x 5;; do TICT5 <- get x 6;; do CE <- get x 7;;
  do w1 <- pyget c (-9);; do w2 <- pyget c (-8);; do w3 <- pyget c (-7);; do w4 <- pyget c (-6);; do w5 <- pyget c (-5);;
  let wtot := w1 + w2 + w3 + w4 + w5 in
  do v <- pyget c (-4);; do a <- pyget c (-3);; do b <- pyget c (-2);; do dTw <- pyget c (-1);;
  do g <- pyget c i;;
  let thetaE := PI * (1111 / 1000) * (IZR i - 455 / 10) / 180 in
  do a1 <- get p 0;; do a2 <- get p 1;; do a3 <- get p 2;;
  let TICT := (w1 * TICT1 + w2 * TICT2 + w3 * TICT3 + w4 * TICT4 + w5 * TICT5) / wtot in
  let LICT := planck v (a + b * (TICT + dTw)) in
  let LS := planck v (a + b * (TCMB + a3)) in
  let LCMB := planck v (a + b * TCMB) in
  let LMEprime := LICT + (LICT - LS) / (CICT - CS) * (CE - CICT) + a1 * (LICT - LCMB) ^ 2 / (CICT - CS) ^ 2 * (CE - CICT) * (CE - CS) in
  let cosangs := cos (2 * thetaE) - cos (2 * thetaS) in
  let dLpol := 1 / 2 * a2 * cosangs * (LICT - LMEprime) in
  let LME := LMEprime + dLpol in
  let L := 1 / g * (LME - (1 - g) * LCMB) in
  let J0 := 1 / g * (CE - CICT) * (LICT - LS) / (CICT - CS) ^ 2 * (1 + a1 * (2 * CE - CICT - CS) / (CICT - CS)) in
  let J1 := 1 / g * (CE - CS) * (LICT - LS) / (CICT - CS) ^ 2 * (1 + a1 * (LICT - LS) * (2 * CE - CICT - CS) / (CICT - CS)) in
  let dLdTICT := 1 / g * (1 + (CE - CICT) / (CICT - CS) + 2 * a1 * (CE - CS) * (CE - CICT) * (LICT - LS) / (CICT - CS) ^ 2) *
    (LICT * (2 * H * v * KB * b) / (KB * (a + b * (TICT + dTw))) ^ 2 *
      exp (H * v / (KB * (a + b * (TICT + dTw)))) / (exp (H * v / (KB * (a + b * (TICT + dTw)))) - 1)) in
  let J7 := 1 / g * ((LICT - LS) / (CICT - CS) + a1 * (LICT - LS) ^ 2 / (CICT - CS) ^ 2) * (2 * CE - CICT - CS) in
  let J9 := 1 / g * (CE - CS) * (CE - CICT) * (LICT - LS) ^ 2 / (CICT - CS) ^ 2 in
  let J10 := 1 / (2 * g) * (LICT - LMEprime) * cosangs in
  let J11 := -1 / g * (CE - CICT) / (CICT - CS) * (1 + 2 * a1 * (CE - CS) * (LICT - LS) / (CICT - CS)) * (1 - a2 / (2 * g) * cosangs) in
  let RJ_const := C ^ 2 / (2 * v ^ 2 * KB) in
  Ok (RJ_const * L,
      map (Rmult RJ_const)
        [J0; J1; dLdTICT * w1 / wtot; dLdTICT * w2 / wtot; dLdTICT * w3 / wtot; dLdTICT * w4 / wtot; dLdTICT * w5 / wtot; J7; 0; J9; J10; J11]).
(** The whole array: rows with their across track indices. *)
Definition mw_3_rows (c : list R) (index : list Z) (rows : list (list R)) (p : list R) : res (list R * list (list R)) :=
  do l <- mapM (fun q => mw_3 c (fst q) (snd q) p) (combine index rows);; Ok (map fst l, map snd l).
