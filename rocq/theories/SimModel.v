(** * Model of the simulated match-ups and of the binning statistics.

    Files: /repo/harmonisation_eiv/harmonisation/core/matchup/matchupProcessing/simulate_matchup/SimulateMatchUp.py,
    /repo/harmonisation_eiv/harmonisation/core/utils/stats.py.  Numbers are exact reals (the code keeps
    float32 resp. float64 arrays). *)
From Coq Require Import Reals.
From Verif Require Import Base ReaderModel UncModel MuModel TransformModel.
Open Scope nat_scope.

(** [min(l)], [max(l)]: ValueError on an empty sequence. *)
Definition rmin (l : list R) : res R := match l with [] => Raise ValueError | x :: l' => Ok (fold_left Rmin l' x) end.
Definition rmax (l : list R) : res R := match l with [] => Raise ValueError | x :: l' => Ok (fold_left Rmax l' x) end.

(** ** SimulateMatchUp *)
(** numpy's linspace(a, b, n). *)
Definition linspace (a b : R) (n : nat) : list R :=
  match n with
  | 0 => []
  | 1 => [a]
  | _ => map (fun i => (a + INR i * ((b - a) / (INR n - 1)))%R) (seq 0 n)
  end.
(** SimulateMatchUp.py:129-131 *)
Definition space_fill_sim (values : list R) (n_sim : nat) : res (list R) :=
  do lo <- rmin values;; do hi <- rmax values;; Ok (linspace lo hi n_sim).
(** SimulateMatchUp.py:94-117 *)
Definition return_simulation_idx (ix : idx_t) (n : nat) : idx_t :=
  let nv := map (fun _ => n) (N_var ix) in
  let nm := map (fun _ => n) (Nm ix) in
  mkIdx nm (cumul 0 nm) (Im ix) (sensors ix) (sensor_ms ix) (n_sensor ix) (n_mu ix) (n_cov ix) nv (cumul 0 nv).
(** SimulateMatchUp.py:119-127 *)
Definition return_simulation_x (x : list R) (ix six : list nat) : res (list R) :=
  do total <- pylast six;;
  foldM (fun sx p => let '((istart, iend), (sstart, send)) := p in
    do v <- space_fill_sim (slice istart iend x) (send - sstart);;
    assign sstart send v sx)
    (combine (combine (removelast ix) (tl ix)) (combine (removelast six) (tl six))) (repeat 0%R total).
Section Sim.
Variable T : Type.
(** SimulateMatchUp.py:40-69 with verbose=False (the printing of ranges is not modelled); uncertainties,
    times, track indices and additional values of the new object are those of an empty MatchUp()
    (MatchUp.py:129-160).  The parameters, sensor model and constants are passed on unchanged. *)
Definition simulate (m : mobj R T) (n_samples_mu : nat) : res (mobj R T) :=
  let six := return_simulation_idx (m_idx R T m) n_samples_mu in
  do values <- return_simulation_x (m_values R T m) (idxs (m_idx R T m)) (idxs six);;
  do ks <- return_simulation_x (m_ks R T m) (cNm (m_idx R T m)) (cNm six);;
  Ok (mkMobj R T six (m_ps R T m) (m_oidx R T m) (m_ops R T m) values ks [] [] [] [] None None None None None None None).
End Sim.

(** ** stats.bin, stats.py:53-78 *)
(** [np.where(cond)] then [Y[ind]]: the elements of Y at the positions where the condition holds of X. *)
Definition where_idx {A} (c : A -> bool) (X : list A) : list nat :=
  flat_map (fun p => if c (snd p) then [fst p] else []) (enumerate X).
(** np.average, np.std; [None]: nan *)
Definition average (l : list R) : option R := match l with [] => None | _ => Some (rsum l / INR (length l))%R end.
Definition std (l : list R) : option R :=
  match l with [] => None | _ => let mu := (rsum l / INR (length l))%R in Some (sqrt (rsum (map (fun x => (x - mu) * (x - mu)) l) / INR (length l)))%R end.
Definition rle (x y : R) : bool := if Rle_dec x y then true else false.
Definition rlt (x y : R) : bool := if Rlt_dec x y then true else false.
(** stats.py:60.  (bins = 0: division by zero; numpy scalars would give nan with a warning.) *)
Definition bin_ranges (lo hi : R) (bins : nat) : res (list R) :=
  if bins =? 0 then Raise ZeroDivisionError
  else Ok (map (fun i => lo + INR i * (hi - lo) / INR bins)%R (seq 0 (bins + 1))).
Definition bin_range (X : list R) (range : option (R * R)) : res (R * R) :=
  match range with Some p => Ok p | None => do lo <- rmin X;; do hi <- rmax X;; Ok (lo, hi) end.
(** Result: averages, standard deviations, bin centres. *)
Definition stats_bin (Y X : list R) (bins : nat) (X_range : option (R * R)) : res (list (option R) * list (option R) * list R) :=
  do (lo, hi) <- bin_range X X_range;;
  do br <- bin_ranges lo hi bins;;
  let edges := combine (removelast br) (tl br) in
  do vs <- mapM (fun e => do vals <- take Y (where_idx (fun x => rle (fst e) x && rlt x (snd e)) X);; Ok (average vals, std vals)) edges;;
  Ok (map fst vs, map snd vs, map (fun e => ((snd e + fst e) / 2)%R) edges).

(** ** stats.time_average, stats.py:6-50 *)
Section Time.
(** Times are integers (microseconds); the calendar is a parameter: [period t] is the number of the hour,
    day, month or year of [t] and [start k] the first instant of number [k]. *)
Variables (period start : Z -> Z).
Definition zmin (l : list Z) : res Z := match l with [] => Raise ValueError | x :: l' => Ok (fold_left Z.min l' x) end.
Definition zmax (l : list Z) : res Z := match l with [] => Raise ValueError | x :: l' => Ok (fold_left Z.max l' x) end.
Definition time_average (data : list R) (times : list Z) : res (list (option R) * list Z) :=
  do tmin <- zmin times;; do tmax <- zmax times;;
  let first := period tmin in
  let n := Z.to_nat (period tmax - first + 1) in
  let ks := map (fun i => (first + Z.of_nat i)%Z) (seq 0 n) in
  do av <- mapM (fun k => do vals <- take data (where_idx (fun t => (start k <? t)%Z && (t <? start (k + 1))%Z) times);; Ok (average vals)) ks;;
  Ok (av, map start ks).
End Time.
