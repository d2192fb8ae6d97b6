(** * Model of the harmonised quantities of HarmonisationVis (cached, computed on demand).

    File: /repo/harmonisation_eiv/harmonisation/core/matchup/matchupToolbox/harmonisation/harmonisationVis/
    HarmonisationVis.py.

    Simplified: idx['parameter_sensor'] is not shared with another object (see HistModel.v); the plots and
    the quantities derived by selecting rows (musamples, monthly means) are not modelled. *)
From Coq Require Import Reals.
From Verif Require Import Base ReaderModel UncModel MuModel TransformModel EvalModel HistModel.
Open Scope nat_scope.

Section Vis.
Variable T : Type.
Notation mobj := (mobj R T).
(** HarmResult.parameter, HarmResult.parameter_sensors. *)
Variables (hpar : list R) (hsens : list string).
(** get_L2_nom: MatchUpData.getAdditionalData("nominal_measurand2"), MatchUpVis.py:74-83. *)
Variable nominal2 : res (list R).

(** MatchUpData (the layout and data [v_m], the attributes [v_sd]) and the caches, HarmonisationVis.py:34-75. *)
Record vis := mkVis { v_m : mobj; v_sd : sdat T;
  v_L1 : option (list R); v_L2 : option (list R); v_kk : option (list R); v_kn : option (list R) }.
Definition new_vis (m : mobj) (sd : sdat T) : vis := mkVis m sd None None None None.

Definition set_a (sd : sdat T) (a : list R) : sdat T := mkSdat T a (sd_c T sd) (sd_cs T sd) (sd_model T sd) (sd_adj T sd).

(** A method returns an array, raises, or returns an exception object. *)
Inductive ret := Arr (v : list R) | Exc (e : exc) | ExcObject.

(** HarmonisationVis.py:77-94.  On failure the parameters are left as they are. *)
Definition get_L1_harm (s : vis) : vis * ret :=
  match v_L1 s with
  | Some v => (s, Arr v)
  | None =>
      match m_ps R T (v_m s) with
      | None => (s, Exc ValueError)
      | Some old =>
          let m' := set_ps T (v_m s) (Some hsens) (m_ops R T (v_m s)) in
          let sd' := set_a (v_sd s) hpar in
          match evaluate_adjusted_measurand T m' sd' SelAll with
          | Raise _ => (mkVis m' sd' (v_L1 s) (v_L2 s) (v_kk s) (v_kn s), Exc ValueError)
          | Ok L =>
              let m'' := set_ps T m' (Some old) (m_ops R T m') in
              (mkVis m'' (set_a sd' (sd_a T (v_sd s))) (Some (fst L)) (Some (snd L)) (v_kk s) (v_kn s), Arr (fst L))
          end
      end
  end.

(** HarmonisationVis.py:96-108: evaluates with the parameters the object has. *)
Definition get_L2_harm (s : vis) : vis * ret :=
  match v_L2 s with
  | Some v => (s, Arr v)
  | None =>
      match evaluate_adjusted_measurand T (v_m s) (v_sd s) SelAll with
      | Raise _ => (s, Exc ValueError)
      | Ok L => (mkVis (v_m s) (v_sd s) (Some (fst L)) (Some (snd L)) (v_kk s) (v_kn s), Arr (snd L))
      end
  end.

(** [L2 - L1 - ks] *)
Definition kdiff (s : vis) (L2 L1 : list R) : res (list R) :=
  do d <- bop Rminus L2 L1;; bop Rminus d (m_ks R T (v_m s)).

(** HarmonisationVis.py:110-117; [return ValueError(...)]: the exception is returned, not raised. *)
Definition get_kres_harm_harm (s : vis) : vis * ret :=
  match v_kk s with
  | Some v => (s, Arr v)
  | None =>
      match get_L2_harm s with
      | (s1, Arr L2) =>
          match get_L1_harm s1 with
          | (s2, Arr L1) =>
              match kdiff s2 L2 L1 with
              | Ok k => (mkVis (v_m s2) (v_sd s2) (v_L1 s2) (v_L2 s2) (Some k) (v_kn s2), Arr k)
              | Raise _ => (s2, ExcObject)
              end
          | (s2, _) => (s2, ExcObject)
          end
      | (s1, _) => (s1, ExcObject)
      end
  end.

(** HarmonisationVis.py:119-126 *)
Definition get_kres_nom_harm (s : vis) : vis * ret :=
  match v_kn s with
  | Some v => (s, Arr v)
  | None =>
      match nominal2 with
      | Raise _ => (s, ExcObject)
      | Ok L2 =>
          match get_L1_harm s with
          | (s2, Arr L1) =>
              match kdiff s2 L2 L1 with
              | Ok k => (mkVis (v_m s2) (v_sd s2) (v_L1 s2) (v_L2 s2) (v_kk s2) (Some k), Arr k)
              | Raise _ => (s2, ExcObject)
              end
          | (s2, _) => (s2, ExcObject)
          end
      end
  end.

Inductive call := CL1 | CL2 | CKhh | CKnh.
Definition do_call (s : vis) (c : call) : vis * ret :=
  match c with CL1 => get_L1_harm s | CL2 => get_L2_harm s | CKhh => get_kres_harm_harm s | CKnh => get_kres_nom_harm s end.
(** A history: the calls in order, with what they returned. *)
Fixpoint calls (s : vis) (cs : list call) : vis * list ret :=
  match cs with
  | [] => (s, [])
  | c :: cs' => let '(s1, r) := do_call s c in let '(s2, rs) := calls s1 cs' in (s2, r :: rs)
  end.
End Vis.
