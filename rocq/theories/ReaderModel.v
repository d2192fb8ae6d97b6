(** * Model of harmonisation_eiv/harmonisation/core/matchup/matchupIO/MatchUpReader.py
    (layout, values, K, times, optional indices, additional values) and of the
    accessors of .../matchupIO/MatchUp.py.

    Abbreviations in citations: MatchUpReader.py and MatchUp.py are in
    /repo/harmonisation_eiv/harmonisation/core/matchup/matchupIO/.

    Simplifications: a netCDF dataset is a record of variables; numbers are elements of an
    abstract type [V] (the reader never computes with them), storage in a float32 array is
    an abstract function [f32], int32 conversion [i32], time conversion [todate]. *)
From Verif Require Import Base.

Section Reader.
Variable V : Type.            (* numbers stored in netCDF variables *)
Variable T : Type.            (* datetime objects *)
Variable zeroV nanV : V.
Variable zeroT : T.
Variable f32 i32 : V -> V.    (* float32 / int32 casts on assignment *)
Variable todate : V -> T.     (* datetime.fromtimestamp(int(time)), MatchUpReader.py:503-505 *)
Variable isfill : V -> bool.  (* == -1e30, MatchUpReader.py:548-549 *)

(** A match-up file, as far as the reader looks at it (dimensions M, m1, m2; global
    attributes sensor_1_name, sensor_2_name; variables), cf. MatchUpReader.py:218-247,
    :306, :461-475, :483-488, :509-529, :531-553.  2-D variables are lists of rows;
    [d_vars] lists the variables of dimension ("M",) other than time1, time2, K, Kr, Ks. *)
Record dataset := mkDataset {
  d_M : nat; d_m1 : nat; d_m2 : nat;
  d_s1 : string; d_s2 : string;
  d_X1 : list (list V); d_X2 : list (list V);
  d_K : list V;
  d_time1 : list V; d_time2 : list V;
  d_vars : list (string * list V)
}.

(** netCDF variable lookup among [d_vars]: [dataset.variables[name]] (first match; names are
    unique in a netCDF file). *)
Fixpoint lookup {B} (name : string) (l : list (string * B)) : option B :=
  match l with
  | [] => None
  | (n, b) :: l' => if String.eqb n name then Some b else lookup name l'
  end.

(** [variable[:, i]] of a 2-D netCDF variable with [m] columns. *)
Definition column (m : nat) (rows : list (list V)) (i : nat) : res (list V) :=
  if i <? m then Ok (map (fun r => nth i r zeroV) rows) else Raise IndexError.

(** The "idx" dictionary, MatchUpReader.py:203-213. *)
Record idx_t := mkIdx {
  Nm : list nat; cNm : list nat; Im : list (nat * nat);
  sensors : list string; sensor_ms : list nat;
  n_sensor : list nat; n_mu : list nat; n_cov : list nat;
  N_var : list nat; idxs : list nat
}.

(** MatchUpReader.py:218-219 *)
Definition get_Nm (ds : list dataset) : list nat := map d_M ds.

(** MatchUpReader.py:221-227 *)
Definition get_cNm (ds : list dataset) : list nat := cumul 0 (map d_M ds).

(** MatchUpReader.py:229-240, body of the inner loop. *)
Definition add_sensor (st : list string * list nat) (p : string * nat) : list string * list nat :=
  let '(ss, ms) := st in
  if mem String.eqb (fst p) ss then (ss, ms) else (ss ++ [fst p], ms ++ [snd p]).

(** MatchUpReader.py:229-240 *)
Definition get_sensors (ds : list dataset) : list string * list nat :=
  fold_left (fun st d =>
               fold_left add_sensor [(d_s1 d, d_m1 d); (d_s2 d, d_m2 d)] st)
            ds ([], []).

(** MatchUpReader.py:242-246 *)
Definition get_Im (ds : list dataset) (ss : list string) : res (list (nat * nat)) :=
  mapM (fun d => do a <- index String.eqb (d_s1 d) ss;;
                 do b <- index String.eqb (d_s2 d) ss;;
                 Ok (a, b)) ds.

(** [range(1, n + 1)] *)
Definition range1 (n : nat) : list nat := seq 1 n.

(** [nth s ms 0] below is [sensor_ms[s]], always in range because Im comes from
    [sensors.index]. *)
(** MatchUpReader.py:248-252: iterates the flattened pair list, without the enumeration. *)
Definition get_n_sensor (Im : list (nat * nat)) (ms : list nat) : res (list nat) :=
  do mx <- pymax ms;;
  Ok (flat_map (fun m_i => filter (fun s => m_i <=? nth s ms 0)
                                  (flat_map (fun p => [fst p; snd p]) Im)) (range1 mx)).

(** MatchUpReader.py:254-258 *)
Definition get_n_mu (Im : list (nat * nat)) (ms : list nat) : res (list nat) :=
  do mx <- pymax ms;;
  Ok (flat_map (fun m_i =>
        flat_map (fun ip : nat * (nat * nat) =>
          map (fun _ => fst ip + 1)
              (filter (fun s => m_i <=? nth s ms 0) [fst (snd ip); snd (snd ip)])) (enumerate Im))
      (range1 mx)).

(** MatchUpReader.py:260-264 *)
Definition get_n_cov (Im : list (nat * nat)) (ms : list nat) : res (list nat) :=
  do mx <- pymax ms;;
  Ok (flat_map (fun m_i => map (fun _ => m_i)
                             (filter (fun s => m_i <=? nth s ms 0)
                                     (flat_map (fun p => [fst p; snd p]) Im))) (range1 mx)).

(** MatchUpReader.py:266-267 *)
Definition get_N_var (Nm n_mu : list nat) : res (list nat) :=
  mapM (fun n => get Nm (n - 1)) n_mu.

(** MatchUpReader.py:269-275 *)
Definition get_idxs (N_var : list nat) : list nat := cumul 0 N_var.

(** MatchUpReader.py:191-213 *)
Definition get_idx (ds : list dataset) : res idx_t :=
  let Nm := get_Nm ds in
  let cNm := get_cNm ds in
  let '(ss, ms) := get_sensors ds in
  do Im <- get_Im ds ss;;
  do ns <- get_n_sensor Im ms;;
  do nm <- get_n_mu Im ms;;
  do nc <- get_n_cov Im ms;;
  do nv <- get_N_var Nm nm;;
  Ok (mkIdx Nm cNm Im ss ms ns nm nc nv (get_idxs nv)).

(** MatchUpReader.py:215-216: zip of the three descriptor lists. *)
Definition zip3 (a b c : list nat) : list (nat * nat * nat) := combine (combine a b) c.
Definition get_block_idxs (ix : idx_t) : list (nat * nat * nat) :=
  zip3 (n_sensor ix) (n_mu ix) (n_cov ix).

(** [dataset.variables['X' + str(i_sensor_pair + 1)]] with its number of columns. *)
Definition Xside (d : dataset) (side : nat) : nat * list (list V) :=
  match side with 0 => (d_m1 d, d_X1 d) | _ => (d_m2 d, d_X2 d) end.

(** Body of the innermost loop of MatchUpReader.py:295-308. *)
Definition write_cov (ix : idx_t) (i_matchup : nat) (d : dataset) (side n_sens : nat)
           (values : list V) (i_cov : nat) : res (list V) :=
  do b <- index eqb3 (n_sens, i_matchup + 1, i_cov + 1) (get_block_idxs ix);;
  do i_start <- get (idxs ix) b;;
  do i_end <- get (idxs ix) (b + 1);;
  do col <- column (fst (Xside d side)) (snd (Xside d side)) i_cov;;
  assign i_start i_end (map f32 col) values.

(** MatchUpReader.py:287-310 *)
Definition open_values (ds : list dataset) (ix : idx_t) : res (list V) :=
  do total <- pylast (idxs ix);;
  foldM (fun values imd =>
    let '(i_matchup, d) := imd in
    do pr <- get (Im ix) i_matchup;;
    foldM (fun values sp =>
      let '(side, n_sens) := sp in
      do m <- get (sensor_ms ix) n_sens;;
      foldM (write_cov ix i_matchup d side n_sens) (seq 0 m) values)
      (enumerate [fst pr; snd pr]) values)
    (enumerate ds) (repeat zeroV total).

(** Generic form of the loops MatchUpReader.py:465-469, :481-488, :519-527: fill a
    per-match-up array series by series with [f d]. *)
Definition fill_by_series {B} (f : dataset -> list B) (z : B) (ds : list dataset) (ix : idx_t)
  : res (list B) :=
  do total <- pylast (cNm ix);;
  foldM (fun arr imd =>
    let '(i_matchup, d) := imd in
    do i_start <- get (cNm ix) i_matchup;;
    do i_end <- get (cNm ix) (i_matchup + 1);;
    assign i_start i_end (f d) arr) (enumerate ds) (repeat z total).

(** MatchUpReader.py:461-471 *)
Definition open_ks (ds : list dataset) (ix : idx_t) : res (list V) :=
  fill_by_series d_K zeroV ds ix.

(** MatchUpReader.py:476-488, :490-507 (time1 then time2 in the same loop; the two arrays are
    independent, so the loop is split in two). *)
Definition open_time1 (ds : list dataset) (ix : idx_t) : res (list T) :=
  fill_by_series (fun d => map todate (d_time1 d)) zeroT ds ix.
Definition open_time2 (ds : list dataset) (ix : idx_t) : res (list T) :=
  fill_by_series (fun d => map todate (d_time2 d)) zeroT ds ix.

(** MatchUpReader.py:509-529.  [[nanV]] is the scalar nan, broadcast over the slice. *)
Definition has_var (name : string) (d : dataset) : bool :=
  match lookup name (d_vars d) with Some _ => true | None => false end.
Definition open_optional_index (name : string) (ds : list dataset) (ix : idx_t)
  : res (option (list V)) :=
  if existsb (has_var name) ds then
    do arr <- fill_by_series
                (fun d => match lookup name (d_vars d) with
                          | Some v => map i32 v
                          | None => [nanV]
                          end) zeroV ds ix;;
    Ok (Some arr)
  else Ok None.

(** STANDARD_VARIABLE_NAMES, MatchUpReader.py:33-34. *)
Definition STANDARD_VARIABLE_NAMES : list string :=
  ["time1"; "time2"; "K"; "Kr"; "Ks"; "across_track_index1"; "across_track_index2";
   "along_track_index1"; "along_track_index2"]%string.

(** MatchUpReader.py:277-285.  [list(set)] has an unspecified order: [ord] is any function
    (Python's set iteration order). *)
Definition additional_names (ord : list string -> list string) (ds : list dataset) : list string :=
  ord (nodup string_dec
         (flat_map (fun d => filter (fun v => negb (mem String.eqb v STANDARD_VARIABLE_NAMES))
                                    (map fst (d_vars d))) ds)).

(** MatchUpReader.py:531-553, one column of [additional_values] (the 2-D array is modelled by
    its columns). *)
Definition open_additional_column (ds : list dataset) (ix : idx_t) (name : string)
  : res (list V) :=
  fill_by_series (fun d => match lookup name (d_vars d) with
                           | Some v => map (fun x => if isfill x then nanV else x) v
                           | None => [nanV]
                           end) zeroV ds ix.
Definition open_additional (ord : list string -> list string) (ds : list dataset) (ix : idx_t)
  : res (list string * list (list V)) :=
  let names := additional_names ord ds in
  do cols <- mapM (open_additional_column ds ix) names;;
  Ok (names, cols).

(** The MatchUp object (data part), MatchUp.py:136-160. *)
Record matchup := mkMatchup {
  mu_idx : idx_t;
  mu_values : list V;
  mu_ks : list V;
  mu_time1 : list T; mu_time2 : list T;
  mu_across1 : option (list V); mu_across2 : option (list V);
  mu_along1 : option (list V); mu_along2 : option (list V);
  mu_add_names : list string; mu_add : list (list V)
}.

(** MatchUpReader.py:110-153, without uncertainties and sensor data (see UncModel and
    SensorDataModel), with open_additional_values=True. *)
Definition openMatchUp (ord : list string -> list string) (ds : list dataset) : res matchup :=
  do ix <- get_idx ds;;
  do v <- open_values ds ix;;
  do k <- open_ks ds ix;;
  do t1 <- open_time1 ds ix;;
  do t2 <- open_time2 ds ix;;
  do ac1 <- open_optional_index "across_track_index1" ds ix;;
  do ac2 <- open_optional_index "across_track_index2" ds ix;;
  do al1 <- open_optional_index "along_track_index1" ds ix;;
  do al2 <- open_optional_index "along_track_index2" ds ix;;
  do nc <- open_additional ord ds ix;;
  Ok (mkMatchup ix v k t1 t2 ac1 ac2 al1 al2 (fst nc) (snd nc)).

(** ** Accessors, MatchUp.py *)

(** Key compared by [block_idxs.index] in MatchUp.py:179-182; the match-up number in the key
    may be [None] (the Python None), which equals no integer. *)
Definition key_eqb (a : string * nat * nat) (k : string * option nat * nat) : bool :=
  let '(s, m, c) := a in let '(s', m', c') := k in
  String.eqb s s' && match m' with Some x => m =? x | None => false end && (c =? c').

Fixpoint find_key (k : string * option nat * nat) (l : list (string * nat * nat)) (i : nat) : res nat :=
  match l with
  | [] => Raise ValueError
  | a :: l' => if key_eqb a k then Ok i else find_key k l' (S i)
  end.

(** MatchUp.py:169-185.  (The local list matchup_numbers, :171-177, is computed and never used.)
    [nth s sensors ""] is [sensors[s]], in range for every opened object. *)
Definition getVariableData (mu : matchup) (variable_number : nat) (sensor_name : string)
           (matchup_number : option nat) : res (list V) :=
  let ix := mu_idx mu in
  let blocks := combine (combine (map (fun s => nth s (sensors ix) EmptyString) (n_sensor ix))
                                 (n_mu ix)) (n_cov ix) in
  do b <- find_key (sensor_name, matchup_number, variable_number) blocks 0;;
  do istart <- get (idxs ix) b;;
  do iend <- get (idxs ix) (b + 1);;
  Ok (slice istart iend (mu_values mu)).

(** MatchUp.py:187-192 and :194-199: [agg] is Python's max or min of a numpy array, which raises
    ValueError on an empty one; a ValueError of either call is turned into None. *)
Definition getVariableDataAgg (agg : list V -> res V) (mu : matchup) (variable_number : nat)
           (sensor_name : string) (matchup_number : option nat) : res (option V) :=
  match (do l <- getVariableData mu variable_number sensor_name matchup_number;; agg l) with
  | Ok v => Ok (Some v)
  | Raise ValueError => Ok None
  | Raise e => Raise e
  end.

(** MatchUp.py:201-208 *)
Definition getAdditionalData (mu : matchup) (name : string) (matchup_number : option Z)
  : res (list V) :=
  match matchup_number with
  | None =>
      do c <- index String.eqb name (mu_add_names mu);;
      get (mu_add mu) c
  | Some n =>
      do s <- pyget (cNm (mu_idx mu)) (n - 1)%Z;;
      do e <- pyget (cNm (mu_idx mu)) n;;
      do c <- index String.eqb name (mu_add_names mu);;
      do col <- get (mu_add mu) c;;
      Ok (slice s e col)
  end.

(** Common body of getSensorAlongTrackIndex (MatchUp.py:210-236), getSensorAcrossTrackIndex
    (:238-264) and getSensorTime (:266-292); [None] is the Python None. *)
Definition getSensorX {B} (x1 x2 : option (list B)) (ix : idx_t) (n_mu : Z) (sensor_name : string)
  : res (option (list B)) :=
  do istart <- pyget (cNm ix) (n_mu - 1)%Z;;
  do iend <- pyget (cNm ix) n_mu;;
  do pr <- pyget (Im ix) (n_mu - 1)%Z;;
  do sA <- get (sensors ix) (fst pr);;
  if String.eqb sensor_name sA then
    Ok (match x1 with Some l => Some (slice istart iend l) | None => None end)
  else
    do sB <- get (sensors ix) (snd pr);;
    if String.eqb sensor_name sB then
      Ok (match x2 with Some l => Some (slice istart iend l) | None => None end)
    else Raise IndexError.

Definition getSensorAlongTrackIndex (mu : matchup) (n_mu : Z) (s : string) :=
  getSensorX (mu_along1 mu) (mu_along2 mu) (mu_idx mu) n_mu s.
Definition getSensorAcrossTrackIndex (mu : matchup) (n_mu : Z) (s : string) :=
  getSensorX (mu_across1 mu) (mu_across2 mu) (mu_idx mu) n_mu s.
Definition getSensorTime (mu : matchup) (n_mu : Z) (s : string) :=
  getSensorX (Some (mu_time1 mu)) (Some (mu_time2 mu)) (mu_idx mu) n_mu s.

End Reader.
