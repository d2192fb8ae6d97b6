(** * Model of MatchUpReader.extract_sensor_data and MatchUp.setSensorData
    (/repo/harmonisation_eiv/harmonisation/core/matchup/matchupIO/).

    Parameters are elements of [V]; constants, sensor functions and adjustment functions are
    opaque values of types [C], [F], [A]. *)
From Verif Require Import Base ReaderModel.

Section Sensor.
Variables V C F A : Type.
Variable f32 : V -> V.       (* asarray(..., dtype=float32), MatchUpReader.py:613 *)
Variable default_adj : A.    (* self._default_adjustment_model, MatchUpReader.py:616-633 *)

(** One entry of the SENSOR_DATA dictionary: keys "sensor_model_parameter",
    "sensor_model_constant", "sensor_model" (required) and the optional keys "adjustment_model",
    "sensor_adjustment_model". *)
Record sentry := mkSentry {
  s_param : list V; s_const : list C; s_model : F;
  s_adj : option A; s_sadj : option A
}.

(** The dictionary in its iteration order (unspecified in Python 2: any order). *)
Definition sdict := list (string * sentry).

Record extracted := mkExtracted {
  e_a : list V; e_const : list C; e_model : list F; e_adj : list A;
  e_param_sensor : list string; e_const_sensor : list string
}.

(** MatchUpReader.py:608-611: tests the key "adjustment_model" but reads
    "sensor_adjustment_model". *)
Definition adjustment (e : sentry) : res A :=
  match s_adj e with
  | Some _ => match s_sadj e with Some a => Ok a | None => Raise KeyError end
  | None => Ok default_adj
  end.

(** MatchUpReader.py:577-614 *)
Definition extract_sensor_data (sd : sdict) (sensors : list string) : res extracted :=
  let mine := filter (fun kv => mem String.eqb (fst kv) sensors) sd in
  do ma <- mapM (fun s =>
             match lookup s sd with
             | None => Raise KeyError
             | Some e => do a <- adjustment e;; Ok (s_model e, a)
             end) sensors;;
  Ok (mkExtracted
        (map f32 (flat_map (fun kv => s_param (snd kv)) mine))
        (flat_map (fun kv => s_const (snd kv)) mine)
        (map fst ma) (map snd ma)
        (flat_map (fun kv => map (fun _ => fst kv) (s_param (snd kv))) mine)
        (flat_map (fun kv => map (fun _ => fst kv) (s_const (snd kv))) mine)).
End Sensor.
