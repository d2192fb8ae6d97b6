(** * Histories of setSensorData, Transform2NormInd.run and Transform2NormInd.reverse on one object.

    The Python objects share dictionaries: openMatchUp sets _original_idx to a deep copy of idx
    (MatchUpReader.py:151), run deep-copies idx and passes _original_idx on (Transform2NormInd.py:80,
    :124-125), reverse makes idx and _original_idx the same dictionary (Transform2NormInd.py:225-226),
    and setSensorData writes into idx (MatchUp.py:162-167, MatchUpReader.py:610-611).  [h_alias] says
    that idx and _original_idx are the same dictionary.  (Other objects that share the dictionary are
    not represented.) *)
From Coq Require Import Reals.
From Verif Require Import Base ReaderModel UncModel MuModel TransformModel EvalModel.
Open Scope nat_scope.

Section Hist.
Variable T : Type.
Notation mobj := (mobj R T).

Definition set_ps (m : mobj) (ps ops : option (list string)) : mobj :=
  mkMobj R T (m_idx R T m) ps (m_oidx R T m) ops (m_values R T m) (m_ks R T m) (m_unc R T m) (m_unck R T m)
    (m_ws R T m) (m_us R T m) (m_time1 R T m) (m_time2 R T m) (m_across1 R T m) (m_across2 R T m)
    (m_along1 R T m) (m_along2 R T m) (m_add R T m).
Definition set_cs (sd : sdat T) (cs : list string) : sdat T :=
  mkSdat T (sd_a T sd) (sd_c T sd) cs (sd_model T sd) (sd_adj T sd).

Record hobj := mkH { h_m : mobj; h_sd : sdat T; h_ocs : list string; h_alias : bool }.

(** One operation; [OpSet ps sd] is setSensorData with the extracted labels [ps] and data [sd]
    (extract_sensor_data: SensorModel.v). *)
Inductive op := OpSet (ps : list string) (sd : sdat T) | OpRun | OpReverse.
Definition exec (h : hobj) (o : op) : res hobj :=
  match o with
  | OpSet ps sd =>
      if h_alias h then Ok (mkH (set_ps (h_m h) (Some ps) (Some ps)) sd (sd_cs T sd) true)
      else Ok (mkH (set_ps (h_m h) (Some ps) (m_ops R T (h_m h))) sd (h_ocs h) false)
  | OpRun => do d <- tn_run T (h_m h);; Ok (mkH d (h_sd h) (h_ocs h) false)
  | OpReverse => do r <- tn_reverse T (h_m h);; Ok (mkH r (set_cs (h_sd h) (h_ocs h)) (h_ocs h) true)
  end.
Definition exec_all (h : hobj) (os : list op) : res hobj := foldM exec os h.

(** openMatchUp with sensor data (MatchUpReader.py:146-151): idx, with the labels, is deep-copied. *)
Definition opened_with (m : mobj) (ps : list string) (sd : sdat T) : hobj :=
  mkH (set_ps m (Some ps) (Some ps)) sd (sd_cs T sd) false.
(** openMatchUp without sensor data: no labels, empty attributes (MatchUp.py:151-156). *)
Definition opened_without (m : mobj) : hobj :=
  mkH (set_ps m None None) (mkSdat T [] [] [] [] []) [] false.
End Hist.
