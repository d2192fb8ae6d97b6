(** * What the conversions of tools/convert_bt_to_radiance.py should compute, independently of the model. *)
From Coq Require Import Reals.
From Verif Require Import Base BTModel.
Open Scope R_scope.

(** Planck's law for wavenumber [n] (1/cm), with the radiation constants in mW / (m2 sr cm-4) and cm K. *)
Definition planck_radiance (n T : R) : R := (1191062 / 100000000000) * n ^ 3 / (exp ((14387863 / 10000000) * n / T) - 1).
(** Radiance of a band with central wavenumber [n] and band correction T -> a + b T. *)
Definition band_radiance (n a b T : R) : R := planck_radiance n (a + b * T).
(** Channel [k] (1, 2, 3) of an instrument has these coefficients. *)
Definition channel (c : coefs) (k : nat) (n a b : R) : Prop :=
  (1 <= k)%nat /\ nth_error (nuc c) (k - 1) = Some n /\ nth_error (aval c) (k - 1) = Some a /\ nth_error (bval c) (k - 1) = Some b.
(** Element by element: physical values are converted, others give nan. *)
Definition converts (f : R -> R) (xs ys : list (option R)) : Prop :=
  length ys = length xs /\ forall i x y, nth_error xs i = Some x -> nth_error ys i = Some y ->
    match x with Some v => (0 < v -> y = Some (f v)) /\ (v <= 0 -> y = None) | None => y = None end.
