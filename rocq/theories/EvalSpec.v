(** * Specification vocabulary for C20, C21, C25, C26. *)
From Coq Require Import Reals Sorted.
From Verif Require Import Base ReaderModel UncModel MuModel SensorSpec SampleSpec TransformModel EvalModel.
Open Scope nat_scope.

Section Spec.
Context {T : Type}.

(** Numbers of the blocks of sensor [s] in series [n], in stored order. *)
Definition blocks_of (ix : idx_t) (s n : nat) : list nat :=
  filter (fun b => (nth b (n_sensor ix) 0 =? s) && (nth b (n_mu ix) 0 =? n)) (seq 0 (length (n_mu ix))).

(** The covariates of sensor [s] in series [n]: one column per block. *)
Definition covariates (m : mobj R T) (s n : nat) (X : list (list R)) : Prop :=
  Forall2 (is_block (idxs (m_idx R T m)) (m_values R T m)) (blocks_of (m_idx R T m) s n) X.

(** The part of an optional per-match-up array that belongs to series [n]. *)
Definition series_part {A} (m : mobj R T) (n : nat) (o v : option (list A)) : Prop :=
  match o, v with
  | None, None => True
  | Some l, Some v => is_block (cNm (m_idx R T m)) l (n - 1) v
  | _, _ => False
  end.

(** Everything the sensor function of side [side] (0: first sensor, 1: second) of series [n] is given:
    the sensor number, its covariates, its own parameters and constants, and that side's indices and
    times for that series. *)
Record side_input (m : mobj R T) (sd : sdat T) (n side s : nat) (X : list (list R)) (a c : list R)
       (xt al : option (list R)) (t : option (list T)) : Prop := {
  si_n : 1 <= n;
  si_sensor : exists p, nth_error (Im (m_idx R T m)) (n - 1) = Some p /\ s = (if side =? 0 then fst p else snd p);
  si_X : covariates m s n X;
  si_a : exists name ps, nth_error (sensors (m_idx R T m)) s = Some name /\ m_ps R T m = Some ps /\
           a = labelled name ps (sd_a T sd) /\ c = labelled name (sd_cs T sd) (sd_c T sd);
  si_xt : series_part m n (if side =? 0 then m_across1 R T m else m_across2 R T m) xt;
  si_al : series_part m n (if side =? 0 then m_along1 R T m else m_along2 R T m) al;
  si_t : series_part m n (if side =? 0 then m_time1 R T m else m_time2 R T m) t
}.

(** Objects on which sensor functions can be evaluated: what opening with sensor data produces. *)
Record evaluable (m : mobj R T) (sd : sdat T) : Prop := {
  ev_cnm : cNm (m_idx R T m) = cumul 0 (Nm (m_idx R T m));
  ev_idxs : idxs (m_idx R T m) = cumul 0 (N_var (m_idx R T m));
  ev_len : length (n_mu (m_idx R T m)) = length (N_var (m_idx R T m)) /\ length (n_sensor (m_idx R T m)) = length (N_var (m_idx R T m));
  ev_series : forall b n, nth_error (n_mu (m_idx R T m)) b = Some n ->
     1 <= n /\ exists N, nth_error (Nm (m_idx R T m)) (n - 1) = Some N /\ nth_error (N_var (m_idx R T m)) b = Some N;
  ev_all : forall n, 1 <= n <= length (Nm (m_idx R T m)) -> In n (n_mu (m_idx R T m));
  ev_values : length (m_values R T m) = list_sum (N_var (m_idx R T m));
  ev_im : length (Im (m_idx R T m)) = length (Nm (m_idx R T m));
  ev_names : NoDup (sensors (m_idx R T m));
  ev_pair : forall n p, nth_error (Im (m_idx R T m)) n = Some p ->
     fst p <> snd p /\ forall s, s = fst p \/ s = snd p ->
       s < length (sensors (m_idx R T m)) /\ s < length (sd_model T sd) /\ s < length (sd_adj T sd) /\
       blocks_of (m_idx R T m) s (n + 1) <> [];
  ev_ps : exists ps, m_ps R T m = Some ps;
  ev_opt : forall l, In (Some l) [m_across1 R T m; m_across2 R T m; m_along1 R T m; m_along2 R T m] ->
     length l = list_sum (Nm (m_idx R T m));
  ev_times : forall l, In (Some l) [m_time1 R T m; m_time2 R T m] -> length l = list_sum (Nm (m_idx R T m))
}.

(** The sensor functions and adjustment functions return one value per match-up of the series. *)
Definition models_total (m : mobj R T) (sd : sdat T) : Prop :=
  (forall n side s X a c xt al t N f, side_input m sd n side s X a c xt al t -> nth_error (sd_model T sd) s = Some f ->
     nth_error (Nm (m_idx R T m)) (n - 1) = Some N ->
     exists r J, f X a c xt al t = Ok (r, J) /\ length r = N) /\
  (forall s b r, nth_error (sd_adj T sd) s = Some b -> exists r' d, b r = Ok (r', d) /\ length r' = length r).

(** [r] is the adjusted measurand of one side of series [n]: the adjustment function of the sensor
    applied to its sensor function. *)
Definition adjusted_side (m : mobj R T) (sd : sdat T) (n side : nat) (r : list R) : Prop :=
  exists s X a c xt al t f J b r0 d, side_input m sd n side s X a c xt al t /\ nth_error (sd_model T sd) s = Some f /\
    f X a c xt al t = Ok (r0, J) /\ nth_error (sd_adj T sd) s = Some b /\ b r0 = Ok (r, d).

(** The sensor function computes row by row: output i is [g] of row i. *)
Definition at_row {A} (i : nat) (o : option (list A)) : option A :=
  match o with Some l => nth_error l i | None => None end.
Definition rowwise (f : smodel T) (g : list R -> list R -> list R -> option R -> option R -> option T -> R) : Prop :=
  forall X a c xt al t r J i x, f X a c xt al t = Ok (r, J) -> nth_error r i = Some x ->
    x = g (map (fun col => nth i col 0%R) X) a c (at_row i xt) (at_row i al) (at_row i t).

(** A selection of series: existing ones, in increasing order. *)
Definition selection (m : mobj R T) (l : list nat) : Prop :=
  StronglySorted lt l /\ forall n, In n l -> 1 <= n <= length (Nm (m_idx R T m)).

(** Number of match-ups of the series in [l]. *)
Definition n_matchups (m : mobj R T) (l : list nat) : nat := list_sum (map (fun n => nth (n - 1) (Nm (m_idx R T m)) 0) l).

(** Rows of the k-th selected series in an array with the selected series one after the other. *)
Definition series_rows {A} (m : mobj R T) (l : list nat) (k : nat) (arr : list A) : list A :=
  slice (n_matchups m (firstn k l)) (n_matchups m (firstn (S k) l)) arr.
End Spec.
