(** * Model of the plots of match-up data: the points sampled for scatter plots, the labels, the binned
    plots, and the comparison of calibrations.

    Files: MV = /repo/harmonisation_eiv/harmonisation/core/matchup/matchupVis/MatchUpVis.py,
    HV = /repo/harmonisation_eiv/harmonisation/core/matchup/matchupToolbox/harmonisation/harmonisationVis/
    HarmonisationVis.py, PL = /repo/harmonisation_eiv/harmonisation/core/utils/plots.py.

    Numbers are exact reals without NaN, except the averages and standard deviations of empty bins.  A plot
    is the file it is written to with its labels and lines; drawing itself is not modelled.  The quantities
    computed once and kept (L1_nom, kres_nom_nom, labels, ...) are functions of the match-up data, which no
    query changes; the sampled ones depend on random numbers and are kept in the state. *)
From Coq Require Import Reals DecimalString.
From Verif Require Import Base ReaderModel UncModel MuModel TransformModel SimModel DirModel.
Open Scope nat_scope.

(** [str(n)] for a natural number *)
Definition nat_str (n : nat) : string := NilEmpty.string_of_uint (Nat.to_uint n).
(** numpy's sort of an array of integers *)
Fixpoint insert (x : nat) (l : list nat) : list nat :=
  match l with [] => [x] | y :: l' => if x <=? y then x :: l else y :: insert x l' end.
Fixpoint sort (l : list nat) : list nat := match l with [] => [] | x :: l' => insert x (sort l') end.

Section Mv.
Variable T : Type.
Notation mu_t := (matchup R T).
(** The i-th call of [rand(n)] of this object, MV:187; [rnd i n] is the array returned. *)
Variable rnd : nat -> nat -> list R.

(** MV:29 *)
Definition MAX_SCATTER_SAMPLES : Z := 10000.
(** MV:62-71 and 73-82: any exception becomes ValueError *)
Definition get_L_nom (side : string) (m : mu_t) : res (list R) :=
  match getAdditionalData R T m ("nominal_measurand" ++ side)%string None with Ok v => Ok v | Raise _ => Raise ValueError end.
Definition get_L1_nom : mu_t -> res (list R) := get_L_nom "1".
Definition get_L2_nom : mu_t -> res (list R) := get_L_nom "2".
(** MV:84-92 *)
Definition get_kres_nom_nom (m : mu_t) : res (list R) :=
  do l2 <- get_L2_nom m;; do l1 <- get_L1_nom m;; do d <- bop Rminus l2 l1;; bop Rminus d (mu_ks R T m).
(** MV:94-100: an opened match-up object always has time2 *)
Definition get_times (m : mu_t) : res (list T) := Ok (mu_time2 R T m).

(** zip(cNm[:-1], cNm[1:]) *)
Definition series (m : mu_t) : list (nat * nat) := combine (removelast (cNm (mu_idx R T m))) (tl (cNm (mu_idx R T m))).
(** [(total_i * rand(n)).astype(int)] truncates *)
Definition to_index (total : nat) (u : R) : nat := Z.to_nat (Int_part (INR total * u)).
(** MV:172-194: the indices sampled in every series.  (The number of samples is computed exactly; the code
    multiplies by a float64 ratio before truncating.) *)
Definition draw_samples (m : mu_t) : res (list (list nat)) :=
  do k <- get_kres_nom_nom m;;
  let total := Z.of_nat (length k) in
  Ok (map (fun p => let '(i, (i_start, i_end)) := p in
        let total_i := i_end - i_start in
        if (MAX_SCATTER_SAMPLES <? total)%Z
        then sort (map (to_index total_i) (rnd i (Z.to_nat (Z.of_nat total_i * MAX_SCATTER_SAMPLES / total))))
        else seq 0 total_i) (enumerate (series m))).
(** MV:238-244 *)
Definition musample_values {A} (m : mu_t) (is : list (list nat)) (values : list A) : res (list (list A)) :=
  mapM (fun p => take (slice (fst (fst p)) (snd (fst p)) values) (snd p)) (combine (series m) is).

(** The caches that depend on the random numbers, MV:44-56. *)
Record mv := mkMv { v_is : option (list (list nat)); v_total : option nat;
  v_sL1 : option (list (list R)); v_sL2 : option (list (list R)); v_sk : option (list (list R)); v_st : option (list (list T)) }.
Definition new_mv : mv := mkMv None None None None None None.
(** MV:172-194 *)
Definition get_i_musamples (m : mu_t) (s : mv) : mv * res (list (list nat)) :=
  match v_is s with
  | Some is => (s, Ok is)
  | None => match draw_samples m with
            | Ok is => (mkMv (Some is) (v_total s) (v_sL1 s) (v_sL2 s) (v_sk s) (v_st s), Ok is)
            | Raise e => (s, Raise e)
            end
  end.
(** The body common to MV:146-164: [values] is computed first, then sampled. *)
Definition sampled {A} (m : mu_t) (values : res (list A)) (s : mv) : mv * res (list (list A)) :=
  match values with
  | Raise e => (s, Raise e)
  | Ok v => match get_i_musamples m s with
            | (s1, Ok is) => (s1, musample_values m is v)
            | (s1, Raise e) => (s1, Raise e)
            end
  end.
(** MV:146-149 *)
Definition get_L1_nom_musamples (m : mu_t) (s : mv) : mv * res (list (list R)) :=
  match v_sL1 s with
  | Some l => (s, Ok l)
  | None => match sampled m (get_L1_nom m) s with
            | (s1, Ok l) => (mkMv (v_is s1) (v_total s1) (Some l) (v_sL2 s1) (v_sk s1) (v_st s1), Ok l)
            | r => r
            end
  end.
(** MV:151-154 *)
Definition get_L2_nom_musamples (m : mu_t) (s : mv) : mv * res (list (list R)) :=
  match v_sL2 s with
  | Some l => (s, Ok l)
  | None => match sampled m (get_L2_nom m) s with
            | (s1, Ok l) => (mkMv (v_is s1) (v_total s1) (v_sL1 s1) (Some l) (v_sk s1) (v_st s1), Ok l)
            | r => r
            end
  end.
(** MV:156-159 *)
Definition get_kres_nom_nom_musamples (m : mu_t) (s : mv) : mv * res (list (list R)) :=
  match v_sk s with
  | Some l => (s, Ok l)
  | None => match sampled m (get_kres_nom_nom m) s with
            | (s1, Ok l) => (mkMv (v_is s1) (v_total s1) (v_sL1 s1) (v_sL2 s1) (Some l) (v_st s1), Ok l)
            | r => r
            end
  end.
(** MV:161-164 *)
Definition get_times_musamples (m : mu_t) (s : mv) : mv * res (list (list T)) :=
  match v_st s with
  | Some l => (s, Ok l)
  | None => match sampled m (get_times m) s with
            | (s1, Ok l) => (mkMv (v_is s1) (v_total s1) (v_sL1 s1) (v_sL2 s1) (v_sk s1) (Some l), Ok l)
            | r => r
            end
  end.
(** MV:196-202; [None] when nothing has been sampled *)
Definition get_musamples_total (s : mv) : mv * option nat :=
  match v_total s with
  | Some n => (s, Some n)
  | None => match v_is s with
            | None => (s, None)
            | Some is => let n := list_sum (map (@length nat) is) in
                         (mkMv (v_is s) (Some n) (v_sL1 s) (v_sL2 s) (v_sk s) (v_st s), Some n)
            end
  end.

(** Queries and what they return, in any order. *)
Inductive query := QL1 | QL2 | QK | QTimes | QTotal.
Inductive answer := AReals (r : res (list (list R))) | ATimes (r : res (list (list T))) | ATotal (n : option nat).
Definition ask (m : mu_t) (s : mv) (q : query) : mv * answer :=
  match q with
  | QL1 => let (s1, r) := get_L1_nom_musamples m s in (s1, AReals r)
  | QL2 => let (s1, r) := get_L2_nom_musamples m s in (s1, AReals r)
  | QK => let (s1, r) := get_kres_nom_nom_musamples m s in (s1, AReals r)
  | QTimes => let (s1, r) := get_times_musamples m s in (s1, ATimes r)
  | QTotal => let (s1, r) := get_musamples_total s in (s1, ATotal r)
  end.
Fixpoint asks (m : mu_t) (s : mv) (qs : list query) : list answer :=
  match qs with [] => [] | q :: qs' => let (s1, a) := ask m s q in a :: asks m s1 qs' end.

(** ** Labels, MV:212-236: [sep] is " - " for the labels and "_" for file names *)
Definition pair_names (sep : string) (m : mu_t) : res (list string) :=
  mapM (fun i => do p <- get (Im (mu_idx R T m)) i;;
                 do s1 <- get (sensors (mu_idx R T m)) (fst p);; do s2 <- get (sensors (mu_idx R T m)) (snd p);;
                 Ok (s1 ++ sep ++ s2)%string) (seq 0 (length (Nm (mu_idx R T m)))).
Definition get_mu_labels : mu_t -> res (list string) := pair_names " - ".
Definition get_mu_fname_suffix : mu_t -> res (list string) := pair_names "_".

(** ** Binned plots *)
(** Points of one line: positions, averages and error bars ([None]: nan). *)
Definition line : Type := list R * list (option R) * list (option R).
(** A call of plot_scatter: file, axis labels, lines, legend. *)
Record plot := mkPlot { pl_path : string; pl_xlbl : string; pl_ylbl : string; pl_lines : list line; pl_legend : list string }.
(** [l[~isnan(y)]] *)
Definition is_num (o : option R) : bool := match o with Some _ => true | None => false end.
Definition keep {A} (y : list (option R)) (l : list A) : list A := map snd (filter (fun p => is_num (fst p)) (combine y l)).
Definition drop_nan (l : line) : line := let '(x, y, e) := l in (keep y x, keep y y, keep y e).
(** PL:18-208 for one array (Y, X, yerr) without legend: nan removed (68-72; X, the bin centres, has none), X[0] is
    looked at (146), which raises IndexError when nothing is left. *)
Definition plot_one (path xlbl ylbl : string) (l : line) : res plot :=
  let l' := drop_nan l in
  match fst (fst l') with [] => Raise IndexError | _ => Ok (mkPlot path xlbl ylbl [l'] ["__nolegend__"%string]) end.
(** PL:18-208 for lists of arrays with a legend: an empty list is taken for a list of strings (55-58) and raises
    TypeError (64); line i gets legend[i] (173). *)
Definition plot_lines (path xlbl ylbl : string) (ls : list line) (legend : list string) : res plot :=
  match ls with
  | [] => Raise TypeError
  | _ => if length legend <? length ls then Raise IndexError else Ok (mkPlot path xlbl ylbl (map drop_nan ls) legend)
  end.

(** sensor_data[name]["sensor_model_variable_labels"] and [...]["sensor_model_variable_names"], where given. *)
Definition vdata : Type := list (string * (option (list string) * option (list string))).
(** MV:112-122 *)
Definition get_X_label (sd : vdata) (cov : nat) (sensor : string) : res string :=
  match lookup sensor sd with
  | None => Raise KeyError
  | Some (Some l, _) => get l (cov - 1)
  | Some (None, _) => Ok ("X" ++ nat_str cov)%string
  end.
Definition get_X_name (sd : vdata) (cov : nat) (sensor : string) : res string :=
  match lookup sensor sd with
  | None => Raise KeyError
  | Some (_, Some l) => get l (cov - 1)
  | Some (_, None) => Ok ("X" ++ nat_str cov)%string
  end.

(** Python 2's max and min of a list that may contain None, which is below every number. *)
Definition omax (a b : option R) : option R := match a, b with Some x, Some y => Some (Rmax x y) | Some x, None => Some x | None, o => o end.
Definition omin (a b : option R) : option R := match a, b with Some x, Some y => Some (Rmin x y) | _, _ => None end.
Definition fold1 (f : option R -> option R -> option R) (l : list (option R)) : res (option R) :=
  match l with [] => Raise ValueError | x :: l' => Ok (fold_left f l' x) end.
(** Sensor 2 of series mu (from 1): its index in idx['sensors'], MV:131-132 *)
Definition sensor2 (m : mu_t) (mu : nat) : res nat := do p <- pyget (Im (mu_idx R T m)) (Z.of_nat mu - 1);; Ok (snd p).
(** MV:128-138: the values of [agg] (max or min) for the series whose second sensor has the variable *)
Definition x_agg (agg : list R -> res R) (m : mu_t) (n : nat) (cov : nat) : res (list (option R)) :=
  foldM (fun acc mu => do b <- sensor2 m mu;;
           do name <- get (sensors (mu_idx R T m)) b;; do m2 <- get (sensor_ms (mu_idx R T m)) b;;
           if cov <=? m2 then do v <- getVariableDataAgg R T agg m cov name (Some mu);; Ok (acc ++ [v]) else Ok acc)
        (seq 1 n) [].
(** MV:124-144 *)
Definition set_Xmax_Xmin (m : mu_t) : res (list (option R) * list (option R)) :=
  do mm <- pymax (sensor_ms (mu_idx R T m));; do n <- pymax (n_mu (mu_idx R T m));;
  do l <- mapM (fun cov => do xa <- x_agg rmax m n cov;; do ia <- x_agg rmin m n cov;;
                           do x <- fold1 omax xa;; do i <- fold1 omin ia;; Ok (x, i)) (seq 1 mm);;
  Ok (map fst l, map snd l).
(** [bin(Y, X, bins=50, X_range=[lo, hi])] with limits that may be None (TypeError) *)
Definition bin50 (Y X : list R) (lo hi : option R) : res line :=
  match lo, hi with
  | Some a, Some b => do r <- stats_bin Y X 50 (Some (a, b));; let '(av, sd, xs) := r in Ok (xs, av, sd)
  | _, _ => Raise TypeError
  end.

Section Binned.
Variables (directory title fname : string) (sd : vdata) (m : mu_t) (Y : list R).
(** State of the loops: the plots written, the lines of the joint plot, the variables cov_name and cov_label
    (which keep their value after the loop). *)
Record bst := mkB { b_plots : list plot; b_lines : list line; b_last : option (string * string) }.
(** MV:334-359, one match-up series *)
Definition binned_mu (labels suffix : list string) (Xmin Xmax : option R) (cov : nat) (st : bst) (p : nat * nat) : res bst :=
  let '(i, mu) := p in
  do i1 <- pyget (cNm (mu_idx R T m)) (Z.of_nat mu - 1);;
  do i2 <- pyget (cNm (mu_idx R T m)) (Z.of_nat mu);;
  do b <- sensor2 m mu;;
  do s2 <- get (sensors (mu_idx R T m)) b;;
  do cov_name <- get_X_name sd cov s2;;
  do lab <- get_X_label sd cov s2;;
  let cov_label := ("$" ++ lab ++ "$ (Binned)")%string in
  do mu_fn <- pyget suffix (Z.of_nat mu - 1);;
  do m2 <- get (sensor_ms (mu_idx R T m)) b;;
  if cov <=? m2 then
    do X <- getVariableData R T m cov s2 (Some mu);;
    do lo <- rmin X;; do hi <- rmax X;;
    do l1 <- bin50 (slice i1 i2 Y) X (Some lo) (Some hi);;
    do own <- get labels i;;
    do pl <- plot_one (pjoin directory (fname ++ "." ++ cov_name ++ "_" ++ s2 ++ "_binned." ++ mu_fn ++ ".pdf")%string)
                      (cov_label ++ " - " ++ s2)%string (title ++ " (" ++ own ++ ")")%string l1;;
    do l2 <- bin50 (slice i1 i2 Y) X Xmin Xmax;;
    Ok (mkB (b_plots st ++ [pl]) (b_lines st ++ [drop_nan l2]) (Some (cov_name, cov_label)))
  else Ok (mkB (b_plots st) (b_lines st) (Some (cov_name, cov_label))).
(** MV:322-366, one variable *)
Definition binned_cov (labels suffix : list string) (mus : list nat) (lims : list (option R) * list (option R))
    (st : bst) (cov : nat) : res bst :=
  do Xmin <- get (snd lims) (cov - 1);; do Xmax <- get (fst lims) (cov - 1);;
  do st1 <- foldM (binned_mu labels suffix Xmin Xmax cov) (enumerate mus) (mkB (b_plots st) [] (b_last st));;
  match b_last st1 with
  | None => Raise UnboundLocalError
  | Some (cov_name, cov_label) =>
      do pl <- plot_lines (pjoin directory (fname ++ "." ++ cov_name ++ "_sensor_2_binned.pdf")%string)
                          (cov_label ++ " - Sensor 2")%string title (b_lines st1) labels;;
      Ok (mkB (b_plots st1 ++ [pl]) [] (b_last st1))
  end.
(** MV:309-366; [mus = None]: all series.  (The limits are computed in the first pass, MV:325.) *)
Definition plot_Y_X_binned_line (mus : option (list nat)) : res (list plot) :=
  do labels <- get_mu_labels m;; do suffix <- get_mu_fname_suffix m;;
  do n <- pymax (n_mu (mu_idx R T m));;
  let ms := match mus with Some l => l | None => seq 1 n end in
  do mm <- pymax (sensor_ms (mu_idx R T m));;
  do lims <- set_Xmax_Xmin m;;
  do st <- foldM (binned_cov labels suffix ms lims) (seq 1 mm) (mkB [] [] None);;
  Ok (b_plots st).
End Binned.

(** ** Comparison of calibrations, HV:257-293: the loop over match-up series (HV:275-293).  [m1], [diff], [u]
    are the columns (side 0, side 1) of the measurand, the difference and the uncertainty, arrays over all
    match-ups; a plot is the name of the sensor with the three arrays plotted.  [n] bounds the number of
    passes: [i_mu] runs out of idx['cNm'] before. *)
Definition side {A} (k : nat) (p : A * A) : A := if k =? 0 then fst p else snd p.
Fixpoint compare_loop (fuel : nat) (ix : idx_t) (m1 diff u : list R * list R) (i_mu : nat) (plotted : list string)
    (out : list (string * (list R * list R * list R))) : res (list (string * (list R * list R * list R))) :=
  if forallb (fun s => existsb (String.eqb s) plotted) (sensors ix) && forallb (fun s => existsb (String.eqb s) (sensors ix)) plotted
  then Ok out
  else match fuel with
       | 0 => Raise OtherError
       | S k =>
           do istart <- get (cNm ix) i_mu;; do iend <- get (cNm ix) (i_mu + 1);;
           do pr <- get (Im ix) i_mu;;
           do s1 <- get (sensors ix) (fst pr);; do s2 <- get (sensors ix) (snd pr);;
           let one k s := (s, (slice istart iend (side k m1), slice istart iend (side k diff), slice istart iend (side k u))) in
           compare_loop k ix m1 diff u (i_mu + 1) (plotted ++ [s1; s2]) (out ++ [one 0 s1; one 1 s2])
       end.
Definition compare_calibration (ix : idx_t) (m1 diff u : list R * list R) : res (list (string * (list R * list R * list R))) :=
  compare_loop (length (cNm ix) + 1) ix m1 diff u 0 [] [].
End Mv.
