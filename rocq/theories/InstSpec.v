(** * Specification vocabulary for C40-C42, C69-C71. *)
From Coq Require Import Reals.
From Verif Require Import Base InstModel.
Open Scope R_scope.

(** [d] is the partial derivative of F with respect to component [k] at [x]. *)
Definition partial (F : list R -> R) (x : list R) (k : nat) (d : R) : Prop :=
  derivable_pt_lim (fun t => F (upd k t x)) (nth k x 0) d.
(** The measurand of one match-up. *)
Definition value (r : res (R * list R)) : R := match r with Ok (v, _) => v | Raise _ => 0 end.
(** Column [c] of the derivatives [j] belongs to covariate [c] or to parameter [c - nv]. *)
Definition column_ok (f : list R -> list R -> res (R * list R)) (nv : nat) (x p j : list R) (c : nat) : Prop :=
  if Nat.ltb c nv then partial (fun y => value (f y p)) x c (nth c j 0)
  else partial (fun q => value (f x q)) p (c - nv) (nth c j 0).
(** The derivatives of the match-up with covariates [x]: one column per covariate and parameter, those in
    [cols] being the partial derivatives of the measurand. *)
Definition derivatives_at (f : list R -> list R -> res (R * list R)) (nv na : nat) (cols : nat -> Prop) (x p : list R) : Prop :=
  exists r j, f x p = Ok (r, j) /\ length j = (nv + na)%nat /\ forall c, (c < nv + na)%nat -> cols c -> column_ok f nv x p j c.
(** The same for an array of match-ups: the result has the measurands and derivatives row by row. *)
Definition derivatives (f : list R -> list R -> res (R * list R)) (nv na : nat) (cols : nat -> Prop) (rows : list (list R)) (p : list R) : Prop :=
  exists L J, vectorised f rows p = Ok (L, J) /\ length L = length rows /\ length J = length rows /\
    forall i x, nth_error rows i = Some x -> exists r j, nth_error L i = Some r /\ nth_error J i = Some j /\ f x p = Ok (r, j) /\
      length j = (nv + na)%nat /\ forall c, (c < nv + na)%nat -> cols c -> column_ok f nv x p j c.

(** Parameters of the AVHRR models, and which models take them as they are. *)
Definition avhrr_params (k : avhrr) : nat := match k with A37_2 | A37_2_scaled => 2 | A4 | A4_scaled => 4 | _ => 3 end.
Definition unscaled (k : avhrr) : Prop := k = A3 \/ k = A4 \/ k = A37_3.
(** The space count differs from the count of the calibration target. *)
Definition avhrr_defined (k : avhrr) (x : list R) : Prop := length x = avhrr_vars k /\ nth 0 x 0 <> nth 1 x 0.
(** HIRS: wave number and effective temperature of the target are not 0. *)
Definition hirs_defined (c x : list R) : Prop :=
  length c = 3%nat /\ length x = 5%nat /\ nth 0 x 0 <> nth 1 x 0 /\ nth 0 c 0 <> 0 /\ nth 1 c 0 + nth 2 c 0 * nth 3 x 0 <> 0.
(** Microwave sounders: the constants are antenna corrections, five weights, v, a, b and dTw. *)
Definition mw_const (ant : list R) (w1 w2 w3 w4 w5 v a b dTw : R) : list R := ant ++ [w1; w2; w3; w4; w5; v; a; b; dTw].
(** Effective temperature of the target. *)
Definition target_T (w1 w2 w3 w4 w5 a b dTw t1 t2 t3 t4 t5 : R) : R :=
  a + b * ((w1 * t1 + w2 * t2 + w3 * t3 + w4 * t4 + w5 * t5) / (w1 + w2 + w3 + w4 + w5) + dTw).
