(** * Specification vocabulary for C45, C74, C75: rolling averages of scan lines. *)
From Coq Require Import Reals.
From Verif Require Import Base ReaderModel UncModel UncSpec TransformModel EvalModel GNModel SimModel WModel.
Open Scope nat_scope.

(** [n] is a nearest integer of [x]. *)
Definition nearest (x : R) (n : Z) : Prop := (Rabs (x - IZR n) <= / 2)%R.
(** Weight of the scan line [z] lines after the first of the kernel. *)
Definition weight (ws : list R) (z : Z) : R := if (0 <=? z)%Z then nth (Z.to_nat z) ws 0%R else 0%R.
Definition increasing (l : list Z) : Prop := forall i j a b, i < j -> nth_error l i = Some a -> nth_error l j = Some b -> (a < b)%Z.
(** Match-up [i] averages the scan lines starting with number [line i], counted from the first match-up. *)
Definition lines_of (times : list R) (dt : R) (line : nat -> Z) : Prop :=
  forall i t, nth_error times i = Some t -> nearest ((t - hd 0 times) / dt)%R (line i).
(** The columns of [W] are the scan lines [cols], the ones with a weight; row [i] holds the kernel at the lines of match-up [i]. *)
Definition rolling (ws : list R) (line : nat -> Z) (M : nat) (cols : list Z) (W : csr R) : Prop :=
  c_nrows R W = M /\ c_ncols R W = length cols /\ increasing cols /\
  (forall c, In c cols <-> exists i, i < M /\ weight ws (c - line i) <> 0%R) /\
  forall i n c, i < M -> nth_error cols n = Some c -> csr_entry W i n = weight ws (c - line i).
(** The uncertainties given for every match-up and kernel position are those of the scan lines. *)
Definition of_lines (rows : list (list R)) (line : nat -> Z) (M K : nat) (g : Z -> R) : Prop :=
  forall i, i < M -> exists row, nth_error rows i = Some row /\ length row = K /\ forall j v, nth_error row j = Some v -> v = g (line i + Z.of_nat j)%Z /\ (0 <= v)%R.

(** ** Microwave match-up files *)
(** Covariates that are rolling averages. *)
Definition averaged (a : instrument) : nat := match a with Ref => 0 | AMSUB => 9 | MHS => 7 end.
(** Covariate [c] (from 0) of a sensor with use tables [wuse], [uuse], times [times] and uncertainties [uR]: the file holds its rolling average and,
    for every scan line, its uncertainty (that of the third covariate for all target temperatures). *)
Definition covariate_ok (mv : matvars R) (wuse uuse : list nat) (times : list R) (dt : R) (ws uR : list R) (c : nat) : Prop :=
  exists w k W uv line cols, nth_error wuse c = Some w /\ nth_error uuse c = Some k /\ open_w_matrix R mv w = Ok W /\ open_u_matrix R mv k = Ok uv /\
    lines_of times dt line /\ rolling ws line (length times) cols W /\ length uv = length cols /\ forall v, In v uv -> nth_error uR (Nat.min c 2) = Some v.
