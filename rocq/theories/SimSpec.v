(** * Specification vocabulary for C38, C39, C67. *)
From Coq Require Import Reals.
From Verif Require Import Base ReaderModel MuModel SampleSpec.
Open Scope nat_scope.

(** [w]: n values, evenly spaced from the smallest to the largest of [v]. *)
Definition space_filling (v w : list R) (n : nat) : Prop :=
  length w = n /\
  exists lo hi, In lo v /\ In hi v /\ (forall x, In x v -> lo <= x <= hi)%R /\
    (forall x, In x w -> lo <= x <= hi)%R /\
    (1 <= n -> nth_error w 0 = Some lo) /\
    (2 <= n -> nth_error w (n - 1) = Some hi) /\
    (forall i x y, nth_error w i = Some x -> nth_error w (i + 1) = Some y -> (y - x)%R = ((hi - lo) / INR (n - 1))%R).
(** Every block of [arr'] (boundaries ix') fills the range of the same block of [arr]. *)
Definition fills_ranges (ix : list nat) (arr : list R) (ix' : list nat) (arr' : list R) (n : nat) : Prop :=
  forall b v, is_block ix arr b v -> exists w, is_block ix' arr' b w /\ space_filling v w n.
(** Same sensors, series and covariates; every series has [n] match-ups. *)
Definition same_series (ix ix' : idx_t) (n : nat) : Prop :=
  sensors ix' = sensors ix /\ sensor_ms ix' = sensor_ms ix /\ Im ix' = Im ix /\ n_sensor ix' = n_sensor ix /\
  n_mu ix' = n_mu ix /\ n_cov ix' = n_cov ix /\
  length (Nm ix') = length (Nm ix) /\ (forall x, In x (Nm ix') -> x = n) /\
  length (N_var ix') = length (N_var ix) /\ (forall x, In x (N_var ix') -> x = n).

(** The sum of a list of numbers. *)
Definition tot (l : list R) : R := fold_right Rplus 0%R l.
(** [None]: nan. *)
Definition is_mean (l : list R) (o : option R) : Prop :=
  match o with None => l = [] | Some a => l <> [] /\ (a * INR (length l) = tot l)%R end.
Definition is_std (l : list R) (o : option R) : Prop :=
  match o with
  | None => l = []
  | Some s => l <> [] /\ (0 <= s)%R /\ exists a, is_mean l (Some a) /\ (s * s * INR (length l) = tot (map (fun x => (x - a) * (x - a)) l))%R
  end.
(** The Y values of the points whose X satisfies lo <= X < hi, in order. *)
Fixpoint between (lo hi : R) (X Y : list R) : list R :=
  match X, Y with
  | x :: X', y :: Y' => if Rle_dec lo x then (if Rlt_dec x hi then y :: between lo hi X' Y' else between lo hi X' Y') else between lo hi X' Y'
  | _, _ => []
  end.
(** Edge number k of [bins] equal bins. *)
Definition edge (lo hi : R) (bins k : nat) : R := (lo + INR k * ((hi - lo) / INR bins))%R.

(** The data of the times strictly inside a period. *)
Fixpoint strictly_inside (lo hi : Z) (times : list Z) (data : list R) : list R :=
  match times, data with
  | t :: ts, y :: ys => if (lo <? t)%Z && (t <? hi)%Z then y :: strictly_inside lo hi ts ys else strictly_inside lo hi ts ys
  | _, _ => []
  end.
(** A calendar: consecutive periods, each instant in one. *)
Definition calendar (period start : Z -> Z) : Prop :=
  (forall k, start k < start (k + 1))%Z /\ (forall t, start (period t) <= t < start (period t + 1))%Z.
