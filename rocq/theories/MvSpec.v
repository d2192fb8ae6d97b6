(** * Specification of the plotted match-up data, C132-C139. *)
From Coq Require Import Reals Sorted.
From Verif Require Import Base ReaderModel ReaderSpec SimModel SimSpec DirModel MvModel.
Open Scope nat_scope.

Section Spec.
Context {T : Type} (todate : R -> T) (isfill : R -> bool).
Notation file := (dataset R).
(** A variable of a file. *)
Definition var (name : string) (d : file) : list R := match lookup name (d_vars R d) with Some v => v | None => [] end.
(** The file holds the nominal measurands of both sensors, all of them numbers. *)
Definition has_nominal (d : file) : Prop :=
  (exists N1, lookup "nominal_measurand1" (d_vars R d) = Some N1 /\ forall x, In x N1 -> isfill x = false) /\
  (exists N2, lookup "nominal_measurand2" (d_vars R d) = Some N2 /\ forall x, In x N2 -> isfill x = false).
(** The quantities of the plots for the match-ups of one file, in the order of the file. *)
Definition nominal1 : file -> list R := var "nominal_measurand1".
Definition nominal2 : file -> list R := var "nominal_measurand2".
Definition residual (d : file) : list R :=
  map (fun i => nth i (nominal2 d) 0 - nth i (nominal1 d) 0 - nth i (d_K R d) 0)%R (seq 0 (d_M R d)).
Definition times (d : file) : list T := map todate (d_time2 R d).

(** What the random number generator guarantees. *)
Definition random_numbers (rnd : nat -> nat -> list R) : Prop :=
  forall i n, length (rnd i n) = n /\ forall u, In u (rnd i n) -> (0 <= u < 1)%R.

(** A choice of match-ups in every file: numbers of match-ups of the file, in order. *)
Definition choice (ds : list file) (Is : list (list nat)) : Prop :=
  Forall2 (fun d I => (forall i, In i I -> i < d_M R d) /\ Sorted le I) ds Is.
(** [rs]: file by file, the values [value d] of the chosen match-ups. *)
Definition picked {A} (value : file -> list A) (ds : list file) (Is : list (list nat)) (rs : list (list A)) : Prop :=
  length Is = length ds /\ length rs = length ds /\
  forall k d I l, nth_error ds k = Some d -> nth_error Is k = Some I -> nth_error rs k = Some l ->
    Forall2 (fun i x => nth_error (value d) i = Some x) I l.
Definition draws (q : query) : bool := match q with QTotal => false | _ => true end.
(** What a query answers, when the queries before it were [past]. *)
Definition answers_choice (ds : list file) (Is : list (list nat)) (past : list query) (q : query) (a : answer T) : Prop :=
  match q, a with
  | QL1, AReals _ (Ok rs) => picked nominal1 ds Is rs
  | QL2, AReals _ (Ok rs) => picked nominal2 ds Is rs
  | QK, AReals _ (Ok rs) => picked residual ds Is rs
  | QTimes, ATimes _ (Ok rs) => picked times ds Is rs
  | QTotal, ATotal _ n => n = if existsb draws past then Some (list_sum (map (@length nat) Is)) else None
  | _, _ => False
  end.
(** All match-ups of all files: *)
Definition answers_all (ds : list file) (q : query) (a : answer T) : Prop :=
  match q, a with
  | QL1, AReals _ r => r = Ok (map nominal1 ds)
  | QL2, AReals _ r => r = Ok (map nominal2 ds)
  | QK, AReals _ r => r = Ok (map residual ds)
  | QTimes, ATimes _ r => r = Ok (map times ds)
  | QTotal, ATotal _ n => n = None \/ n = Some (list_sum (map (d_M R) ds))
  | _, _ => False
  end.
(** The numbers of points of the files. *)
Definition points (a : answer T) : option (list nat) :=
  match a with
  | AReals _ (Ok rs) => Some (map (@length R) rs)
  | ATimes _ (Ok rs) => Some (map (@length T) rs)
  | _ => None
  end.
Definition all_matchups (ds : list file) : nat := list_sum (map (d_M R) ds).
(** The share of a file when 10000 points are distributed. *)
Definition share (ds : list file) (d : file) : nat :=
  Z.to_nat (Z.of_nat (d_M R d) * 10000 / Z.of_nat (all_matchups ds)).
(** The names of the two sensors of a file. *)
Definition both (sep : string) (d : file) : string := (d_s1 R d ++ sep ++ d_s2 R d)%string.
End Spec.

(** ** Binned plots *)
Section Binned.
(** The values of the points in bin number [k] of 50 between lo and hi. *)
Definition bin_values (Y X : list R) (lo hi : R) (k : nat) : list R := between (edge lo hi 50 k) (edge lo hi 50 (k + 1)) X Y.
Definition has_points (Y X : list R) (lo hi : R) (k : nat) : bool := match bin_values Y X lo hi k with [] => false | _ => true end.
(** The line shows, for every bin that has points, its centre, the average and the standard deviation. *)
Definition binned_line (Y X : list R) (lo hi : R) (l : line) : Prop :=
  let '(xs, ys, es) := l in
  let ks := filter (has_points Y X lo hi) (seq 0 50) in
  xs = map (fun k => (edge lo hi 50 k + edge lo hi 50 (k + 1)) / 2)%R ks /\
  Forall2 (fun k y => is_mean (bin_values Y X lo hi k) y) ks ys /\
  Forall2 (fun k e => is_std (bin_values Y X lo hi k) e) ks es.
Definition range_of (l : list R) (lo hi : R) : Prop := In lo l /\ In hi l /\ forall x, In x l -> (lo <= x <= hi)%R.

Context (f32 : R -> R) (directory title fname : string) (sd : vdata).
Notation file := (dataset R).
(** Variable number [cov] of the second sensor of a file, as opened. *)
Definition xcol (cov : nat) (d : file) : list R := map (fun row => f32 (nth (cov - 1) row 0%R)) (d_X2 R d).
(** The label and the name of a variable: given with the sensor data, or "X1", "X2", ... *)
Definition var_label (cov : nat) (sensor : string) : string :=
  match lookup sensor sd with Some (Some l, _) => nth (cov - 1) l EmptyString | _ => ("X" ++ nat_str cov)%string end.
Definition var_name (cov : nat) (sensor : string) : string :=
  match lookup sensor sd with Some (_, Some l) => nth (cov - 1) l EmptyString | _ => ("X" ++ nat_str cov)%string end.
(** The sensor data name the variables 1..m of the sensor. *)
Definition named (m : nat) (sensor : string) : Prop :=
  exists lab nam, lookup sensor sd = Some (lab, nam) /\
    (forall l, lab = Some l -> m <= length l) /\ (forall l, nam = Some l -> m <= length l).
(** The plot of one variable for one file. *)
Definition own_plot (cov : nat) (d : file) (Y : list R) (p : plot) : Prop :=
  pl_path p = pjoin directory (fname ++ "." ++ var_name cov (d_s2 R d) ++ "_" ++ d_s2 R d ++ "_binned." ++ both "_" d ++ ".pdf")%string /\
  pl_xlbl p = ("$" ++ var_label cov (d_s2 R d) ++ "$ (Binned)" ++ " - " ++ d_s2 R d)%string /\
  pl_ylbl p = (title ++ " (" ++ both " - " d ++ ")")%string /\
  exists lo hi l, range_of (xcol cov d) lo hi /\ pl_lines p = [l] /\ binned_line Y (xcol cov d) lo hi l.
(** The plot of file [d], but with the sensors of file [dl] in its label. *)
Definition labelled_plot (dl : file) (cov : nat) (d : file) (Y : list R) (p : plot) : Prop :=
  own_plot cov d Y (mkPlot (pl_path p) (pl_xlbl p) (title ++ " (" ++ both " - " d ++ ")")%string (pl_lines p) (pl_legend p)) /\
  pl_ylbl p = (title ++ " (" ++ both " - " dl ++ ")")%string.
(** The variable takes two values in the file. *)
Definition varies (cov : nat) (d : file) : Prop := exists x y, In x (xcol cov d) /\ In y (xcol cov d) /\ x <> y.
(** The plot of one variable for all files: a line with its legend for every file, all on the same bins. *)
Definition joint_plot (cov : nat) (ds : list file) (Ys : list (list R)) (p : plot) : Prop :=
  (exists d, In d ds /\ pl_path p = pjoin directory (fname ++ "." ++ var_name cov (d_s2 R d) ++ "_sensor_2_binned.pdf")%string /\
     pl_xlbl p = ("$" ++ var_label cov (d_s2 R d) ++ "$ (Binned)" ++ " - Sensor 2")%string) /\
  pl_ylbl p = title /\ pl_legend p = map (both " - ") ds /\ length (pl_lines p) = length ds /\
  exists lo hi, range_of (concat (map (xcol cov) ds)) lo hi /\
    forall k d Y l, nth_error ds k = Some d -> nth_error Ys k = Some Y -> nth_error (pl_lines p) k = Some l ->
      binned_line Y (xcol cov d) lo hi l.
(** The plots of one variable: one for every file, then the one for all. *)
Definition variable_plots (ds : list file) (Ys : list (list R)) (cov : nat) (ps : list plot) : Prop :=
  exists own joint, ps = own ++ [joint] /\ length own = length ds /\ joint_plot cov ds Ys joint /\
    forall k d Y p, nth_error ds k = Some d -> nth_error Ys k = Some Y -> nth_error own k = Some p -> own_plot cov d Y p.
End Binned.

(** ** Comparison of calibrations *)
(** The plots of the first [j] files, [n] simulated match-ups each: both sensors, with their own columns. *)
Definition part {A} (n k : nat) (l : list A) : list A := firstn n (skipn (n * k) l).
Fixpoint compare_plots (n : nat) (m1 diff u : list R * list R) (k : nat) (ds : list (dataset R)) : list (string * (list R * list R * list R)) :=
  match ds with
  | [] => []
  | d :: ds' => (d_s1 R d, (part n k (fst m1), part n k (fst diff), part n k (fst u))) ::
                (d_s2 R d, (part n k (snd m1), part n k (snd diff), part n k (snd u))) :: compare_plots n m1 diff u (S k) ds'
  end.
Definition all_sensors_in (ds few : list (dataset R)) : Prop :=
  forall d sd, In d ds -> exists d' sd', In d' few /\ sname d' sd' = sname d sd.
