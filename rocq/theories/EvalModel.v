(** * Model of matchup_maths: evaluate_measurand, evaluate_adjusted_measurand, evaluate_K, and of the
    sensor-data attributes of a MatchUp object.

    File: /repo/harmonisation_eiv/harmonisation/core/matchup/matchupToolbox/utils/matchup_maths.py.

    Numbers are reals (the float32 of the arrays is not modelled).  A 2-D array is the list of its
    columns. *)
From Coq Require Import Reals.
From Verif Require Import Base ReaderModel UncModel MuModel TransformModel.
Open Scope nat_scope.

Section Eval.
Variable T : Type.
Notation mobj := (mobj R T).

(** A sensor function: covariates (columns), parameters, constants, across-track index, along-track
    index, time; returns the measurand and the Jacobian (columns), which is None for a reference
    sensor.  (See the sensor functions under harmonisation/sensor_data.) *)
Definition smodel : Type :=
  list (list R) -> list R -> list R -> option (list R) -> option (list R) -> option (list T) ->
  res (list R * option (list (list R))).
(** An adjustment function: measurand to adjusted measurand and its derivative. *)
Definition amodel : Type := list R -> res (list R * list R).

(** The attributes a, sensor_model_constant, sensor_model, adjustment_model of MatchUp (MatchUp.py:151-156)
    and the entry idx['sensor_model_constant_sensor'].  idx['parameter_sensor'] is [m_ps]; the two
    entries are only ever set together (MatchUpReader.py:577-614), so an absent [m_ps] means both are
    absent, and the lookup of 'parameter_sensor' comes first. *)
Record sdat := mkSdat {
  sd_a : list R; sd_c : list R; sd_cs : list string;
  sd_model : list smodel; sd_adj : list amodel
}.

(** MatchUpReader.py:616-633, _default_adjustment_model: the measurand and derivative 1. *)
Definition default_adj : amodel := fun x => Ok (x, map (fun _ => 1%R) x).

(** [[v for s, v in zip(labels, vals) if s == name]], matchup_maths.py:109-110, GN_algo.py:493-500. *)
Definition select (labels : list string) (vals : list R) (name : string) : list R :=
  map snd (filter (fun p => String.eqb (fst p) name) (combine labels vals)).

(** [list(set(l))] for small positive integers: CPython iterates such a set in increasing order. *)
Definition distinct (l : list nat) : list nat :=
  filter (fun n => mem Nat.eqb n l) (seq 0 (S (list_max l))).

(** The argument matchup_series: 0, an integer, or a list (matchup_maths.py:54-57). *)
Inductive sel := SelAll | SelOne (n : nat) | SelList (l : list nat).
Definition sel_list (ix : idx_t) (s : sel) : list nat :=
  match s with SelAll => distinct (n_mu ix) | SelOne n => [n] | SelList l => l end.

(** matchup_maths.py:60-65, :191-196. *)
Definition sel_cNm (ix : idx_t) (series : list nat) : list nat :=
  cumul 0 (map snd (filter (fun p => mem Nat.eqb (fst p + 1) series) (enumerate (Nm ix)))).

(** The three accessors, see ReaderModel.getSensorX (MatchUp.py:210-292). *)
Definition m_getAcross (m : mobj) (n : nat) (s : string) :=
  getSensorX (m_across1 R T m) (m_across2 R T m) (m_idx R T m) (Z.of_nat n) s.
Definition m_getAlong (m : mobj) (n : nat) (s : string) :=
  getSensorX (m_along1 R T m) (m_along2 R T m) (m_idx R T m) (Z.of_nat n) s.
Definition m_getTime (m : mobj) (n : nat) (s : string) :=
  getSensorX (m_time1 R T m) (m_time2 R T m) (m_idx R T m) (Z.of_nat n) s.

(** matchup_maths.py:99-126: sensor function of one sensor of one series. *)
Definition side_eval (m : mobj) (sd : sdat) (n_mu_i n_sensor_i : nat) : res (list R * option (list (list R))) :=
  let ix := m_idx R T m in
  do name <- get (sensors ix) n_sensor_i;;
  let cov_block_idxs := map fst (filter (fun p => eqb2 (snd p) (n_sensor_i, n_mu_i)) (enumerate (combine (n_sensor ix) (n_mu ix)))) in
  do cov_idxs <- mapM (fun b => do lo <- get (idxs ix) b;; do hi <- get (idxs ix) (b + 1);; Ok (lo, hi)) cov_block_idxs;;
  do ps <- match m_ps R T m with Some l => Ok l | None => Raise KeyError end;;
  do first <- get cov_idxs 0;;
  do X <- mapM (fun r => column_of (snd first - fst first) (slice (fst r) (snd r) (m_values R T m))) cov_idxs;;
  do xt <- m_getAcross m n_mu_i name;;
  do at_ <- m_getAlong m n_mu_i name;;
  do t <- m_getTime m n_mu_i name;;
  do f <- get (sd_model sd) n_sensor_i;;
  f X (select ps (sd_a sd) name) (select (sd_cs sd) (sd_c sd) name) xt at_ t.

(** Write to column [side] (0 or 1) of a two-column array. *)
Definition assign_side (side : nat) (s e : nat) (v : list R) (arr : list R * list R) : res (list R * list R) :=
  match side with
  | 0 => do c <- assign s e v (fst arr);; Ok (c, snd arr)
  | _ => do c <- assign s e v (snd arr);; Ok (fst arr, c)
  end.
Definition side_of (side : nat) (arr : list R * list R) : list R :=
  match side with 0 => fst arr | _ => snd arr end.

(** matchup_maths.py:23-152 with return_derivatives=False and parameter_covariance_matrix=None. *)
Definition evaluate_measurand (m : mobj) (sd : sdat) (s : sel) : res (list R * list R) :=
  let ix := m_idx R T m in
  let series := sel_list ix s in
  let cN := sel_cNm ix series in
  do total <- pylast cN;;
  foldM (fun arr p =>
    do pr <- pyget (Im ix) (Z.of_nat (snd p) - 1);;
    do i_start <- get cN (fst p);;
    do i_end <- get cN (fst p + 1);;
    foldM (fun arr q =>
      do r <- side_eval m sd (snd p) (snd q);;
      assign_side (fst q) i_start i_end (fst r) arr) [(0, fst pr); (1, snd pr)] arr)
    (enumerate series) (repeat 0%R total, repeat 0%R total).

(** matchup_maths.py:155-245 with return_derivatives=False. *)
Definition evaluate_adjusted_measurand (m : mobj) (sd : sdat) (s : sel) : res (list R * list R) :=
  let ix := m_idx R T m in
  let series := sel_list ix s in
  let cN := sel_cNm ix series in
  do meas <- evaluate_measurand m sd (SelList series);;
  foldM (fun arr p =>
    do pr <- pyget (Im ix) (Z.of_nat (snd p) - 1);;
    do i_start <- get cN (fst p);;
    do i_end <- get cN (fst p + 1);;
    foldM (fun arr q =>
      do b <- get (sd_adj sd) (snd q);;
      do r <- b (slice i_start i_end (side_of (fst q) arr));;
      assign_side (fst q) i_start i_end (fst r) arr) [(0, fst pr); (1, snd pr)] arr)
    (enumerate series) meas.

(** matchup_maths.py:248-268 *)
Definition evaluate_K (m : mobj) (sd : sdat) (s : sel) : res (list R) :=
  do adj <- evaluate_adjusted_measurand m sd s;;
  bop Rminus (snd adj) (fst adj).

(** matchup_maths.py:74-81: the derivative arrays, first statement executed when
    return_derivatives=True.  No code of the repository ever sets idx['sensor_a'] (the keys are those
    set in MatchUpReader.py:160-290, :577-614), so as soon as there is a series the lookup raises. *)
Definition derivative_arrays (m : mobj) : res unit :=
  let ix := m_idx R T m in
  do _l <- mapM (fun im : nat * nat => do _x <- get (sensor_ms ix) (fst im);; (Raise KeyError : res unit)) (Im ix);;
  Ok tt.
End Eval.
