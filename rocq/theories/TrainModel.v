(** Model of the functions of the training lectures: the averaging window of the regridding lecture
    (training/workshop_2019/Uncertainty_Functions.py) and the uncertainty propagation of the FCDR
    lecture (training/workshop_2019/fcdr_interactive_lecture.ipynb).  Python 3. *)
From Verif Require Import Base TransformModel.
From Coq Require Import Reals.
Open Scope nat_scope.
Open Scope list_scope.

(** A two-dimensional numpy array of numbers, row by row.  NaN is not modelled (reals). *)
Definition image := list (list R).
Definition pixel (im : image) (r c : nat) : R := nth c (nth r im []) 0%R.
(** im[r, c] = v *)
Definition set_pixel (r c : nat) (v : R) (im : image) : image := upd r (upd c v (nth r im [])) im.
(** np.shape(data) *)
Definition n_rows (im : image) : nat := length im.
Definition n_cols (im : image) : nat := length (nth 0 im []).
(** A numpy index on an axis of length n: negative indices count from the end. *)
Definition axis (n : nat) (i : Z) : res nat :=
  if (0 <=? i)%Z then if (i <? Z.of_nat n)%Z then Ok (Z.to_nat i) else Raise IndexError
  else if (0 <=? Z.of_nat n + i)%Z then Ok (Z.to_nat (Z.of_nat n + i)) else Raise IndexError.

(** Uncertainty_Functions.py:11,14-20: Window.  [size0], [size1]: size[0], size[1]; [c0], [c1]:
    centre[0], centre[1]. *)
Definition window (data : image) (size0 size1 : nat) (c0 c1 : Z) : res image :=
  let x1 := (c1 - Z.of_nat (size1 / 2))%Z in
  let y1 := (c0 - Z.of_nat (size0 / 2))%Z in
  foldM (fun w i =>
    foldM (fun w j =>
      do r <- axis (n_rows data) (x1 + Z.of_nat i - 1)%Z;;
      do c <- axis (n_cols data) (y1 + Z.of_nat j - 1)%Z;;
      Ok (set_pixel r c (pixel data r c) w)) (seq 0 size0) w)
    (seq 0 size1) (map (map (fun _ => 0%R)) data).

(** Uncertainty_Functions.py:21: np.where(data == Window, 0, data). *)
Definition outside (eqb : R -> R -> bool) (data w : image) : image :=
  map (fun p => map (fun q => if eqb (fst q) (snd q) then 0%R else fst q) (combine (fst p) (snd p)))
      (combine data w).

(** Uncertainty_Functions.py:10-22: Scan; both images returned. *)
Definition scan (eqb : R -> R -> bool) (data : image) (size0 size1 : nat) (c0 c1 : Z)
  : res (image * image) :=
  do w <- window data size0 size1 c0 c1;;
  Ok (w, outside eqb data w).

(** The three uncertainties (independent, common, structured) of an image. *)
Record three := mkThree { independent : image; common : image; structured : image }.

Section Combine.
Variable eqb : R -> R -> bool.

(** Element-wise operation on three arrays of the same shape. *)
Definition map3 (f : R -> R -> R -> R) (a b c : image) : image :=
  map (fun p => map (fun q => f (fst q) (fst (snd q)) (snd (snd q)))
                    (combine (fst p) (combine (fst (snd p)) (snd (snd p)))))
      (combine a (combine b c)).

(** Uncertainty_Functions.py:31-33: sss. *)
Definition flag (show : bool) : R := if show then 1%R else 0%R.

(** Uncertainty_Functions.py:35-36: CombinedDa with Averaging=False.  The square root of a negative
    number (NaN in numpy, for param outside 0..1) is 0 here. *)
Definition combined_background (b : three) (param : R) (show : bool) : image :=
  map3 (fun i c s => sqrt ((1 - param) * i ^ 2 + param * c ^ 2 + flag show * s ^ 2))%R
       (independent b) (common b) (structured b).

(** a[np.nonzero(a)] *)
Definition nonzero_values (im : image) : list R :=
  filter (fun x => negb (eqb x 0%R)) (concat im).
(** np.nonzero(a), as pairs of indices *)
Definition nonzero_indices (im : image) : list (nat * nat) :=
  concat (map (fun p => map (fun q => (fst p, fst q))
                            (filter (fun q => negb (eqb (snd q) 0%R)) (enumerate (snd p))))
              (enumerate im)).

(** Uncertainty_Functions.py:38, 40: idv_avg, cm_avg, with N = Size ** 2.  Division by zero (NaN in
    numpy; an empty window) has no meaning here. *)
Definition idv_avg (w : image) (n : nat) : R :=
  sqrt (rsum (map (fun x => x ^ 2)%R (nonzero_values w)) / INR n ^ 2)%R.
Definition cm_avg (w : image) : R :=
  (rsum (nonzero_values w) / INR (length (nonzero_values w)))%R.
(** Uncertainty_Functions.py:42: str_avg: np.sum of the two index arrays of np.nonzero. *)
Definition str_avg (w : image) (n : nat) : R :=
  sqrt ((1 / INR n * 2) *
        rsum (map (fun p => INR (fst p + snd p)%nat) (nonzero_indices (map (map (fun x => x ^ 2)) w))))%R.

(** Uncertainty_Functions.py:43-46: CombinedDa with Averaging=True. *)
Definition combined_window (w b : three) (param : R) (size : nat) (show : bool) : image :=
  let n := size ^ 2 in
  let u := sqrt ((1 - param) * idv_avg (independent w) n ^ 2 + param * cm_avg (common w) ^ 2
                 + flag show * str_avg (independent w) n ^ 2)%R in
  map (map (fun x => if eqb x 0%R then u else 0%R)) (independent b).

(** regridding_interactive_lecture.ipynb:369-384: the map shown, BackU + WindowU. *)
Definition add_images (a b : image) : image :=
  map (fun p => map (fun q => fst q + snd q)%R (combine (fst p) (snd p))) (combine a b).
Definition shown_map (u : three) (param : R) (size : nat) (x y : Z) (show : bool) : res image :=
  do i <- scan eqb (independent u) size size x y;;
  do c <- scan eqb (common u) size size x y;;
  do s <- scan eqb (structured u) size size x y;;
  let w := mkThree (fst i) (fst c) (fst s) in
  let b := mkThree (snd i) (snd c) (snd s) in
  Ok (add_images (combined_background b param show) (combined_window w b param size show)).
End Combine.

(** fcdr_interactive_lecture.ipynb:236-237 and 486-487: surf_temp_calc, of the lecture and of the
    exercise. *)
Definition surf_temp (bt4 bt5 : R) : R := (2 * bt4 - bt5)%R.
Definition surf_temp_exercise (bt4 bt5 : R) : R := (-19 / 10 + 36 / 10 * bt4 - 26 / 10 * bt5)%R.
(** fcdr_interactive_lecture.ipynb:296-297 (and 489-490): surf_temp_unc_prop. *)
Definition surf_temp_unc (u4 u5 c1 c2 r : R) : R :=
  sqrt (c1 ^ 2 * u4 ^ 2 + c2 ^ 2 * u5 ^ 2 + 2 * c1 * c2 * r * u4 * u5)%R.
(** fcdr_interactive_lecture.ipynb:320-321, 492-493: the sensitivities of both cells. *)
Definition sensitivity4 : R := 2%R.
Definition sensitivity5 : R := (-1)%R.
(** fcdr_interactive_lecture.ipynb:436, 514: the total uncertainty of both cells. *)
Definition total_unc (ui us uc : R) : R := sqrt (ui ^ 2 + us ^ 2 + uc)%R.
