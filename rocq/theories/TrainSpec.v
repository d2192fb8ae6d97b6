(** Specification of the training functions (C166-C171). *)
From Verif Require Import Base TransformModel TrainModel.
From Coq Require Import Reals.
Open Scope nat_scope.
Open Scope list_scope.

(** An image of the given numbers of rows and columns. *)
Definition shape (im : image) (rows cols : nat) : Prop :=
  length im = rows /\ (forall l, In l im -> length l = cols).
(** Exactly equal numbers compare equal. *)
Definition decides (eqb : R -> R -> bool) : Prop := forall x y, eqb x y = true <-> x = y.

(** First line (or column) of a window of [s] of them with centre [c], as taken. *)
Definition first_taken (s : nat) (c : Z) : Z := (c - Z.of_nat (s / 2) - 1)%Z.
(** The [s] lines from [first_taken] on exist, counting the negative ones from the end of the [n]. *)
Definition fits_wrapped (n s : nat) (c : Z) : Prop :=
  (- Z.of_nat n <= first_taken s c)%Z /\ (first_taken s c + Z.of_nat s <= Z.of_nat n)%Z.
(** Line [k] of [n] is taken. *)
Definition taken (n s : nat) (c : Z) (k : nat) : Prop :=
  exists i, i < s /\ ((first_taken s c + Z.of_nat i) mod Z.of_nat n)%Z = Z.of_nat k.

(** The window and the rest: a taken pixel has its value in the window and 0 in the rest, another one
    0 in the window and its value in the rest. *)
Definition divided (data w m : image) (is_taken : nat -> nat -> Prop) : Prop :=
  forall r c, r < n_rows data -> c < n_cols data ->
    (is_taken r c -> pixel w r c = pixel data r c /\ pixel m r c = 0%R) /\
    (~ is_taken r c -> pixel w r c = 0%R /\ pixel m r c = pixel data r c).

(** The pixels of a square of [s] x [s] from row [r0] and column [c0] on. *)
Definition square (r0 c0 s : nat) : list (nat * nat) := list_prod (seq r0 s) (seq c0 s).

(** Uncertainty of the average of N numbers with independent errors of uncertainties us, and with a
    common error of uncertainties us (the lecture's formulas). *)
Definition average_independent (us : list R) : R :=
  sqrt (rsum (map (fun u => u ^ 2) us) / INR (length us) ^ 2)%R.
Definition average_common (us : list R) : R := (rsum us / INR (length us))%R.
(** The combination with a fraction p of common and 1-p of independent variance. *)
Definition combination (p ui uc : R) : R := sqrt ((1 - p) * ui ^ 2 + p * uc ^ 2)%R.

(** Root mean square of errors. *)
Definition rms (es : list R) : R := sqrt (rsum (map (fun e => e ^ 2) es) / INR (length es))%R.
(** Two lists of errors (as pairs) with correlation coefficient r. *)
Definition correlated (es : list (R * R)) (r : R) : Prop :=
  (rsum (map (fun e => fst e * snd e) es) / INR (length es)
   = r * rms (map fst es) * rms (map snd es))%R.
(** The errors of a retrieval f at (b4, b5). *)
Definition retrieval_errors (f : R -> R -> R) (b4 b5 : R) (es : list (R * R)) : list R :=
  map (fun e => f (b4 + fst e) (b5 + snd e) - f b4 b5)%R es.

(** The window lies in the image without wrapping; its first line. *)
Definition fits (n s : nat) (c : Z) : Prop :=
  (0 <= first_taken s c)%Z /\ (first_taken s c + Z.of_nat s <= Z.of_nat n)%Z.
Definition first_line (s : nat) (c : Z) : nat := Z.to_nat (first_taken s c).
(** The values of an image at given pixels. *)
Definition values (im : image) (ps : list (nat * nat)) : list R := map (fun p => pixel im (fst p) (snd p)) ps.
(** All three uncertainties have the shape, the independent and the common ones are positive. *)
Definition usable_unc (u : three) (rows cols : nat) : Prop :=
  shape (independent u) rows cols /\ shape (common u) rows cols /\ shape (structured u) rows cols /\
  (forall r c, r < rows -> c < cols -> (0 < pixel (independent u) r c)%R /\ (0 < pixel (common u) r c)%R).
(** Line [l] is one of the 2k+1 lines with centre [c]. *)
Definition centred (k : nat) (c : Z) (l : nat) : Prop := (c - Z.of_nat k <= Z.of_nat l <= c + Z.of_nat k)%Z.
(** Root of the sum of squares of the independent, structured and common parts. *)
Definition root_sum_squares (ui us uc : R) : R := sqrt (ui ^ 2 + us ^ 2 + uc ^ 2)%R.
