(** * Specification vocabulary for C154-C156. *)
From Coq Require Import Reals.
From Verif Require Import Base ReaderModel UncModel SensorModel MuModel TransformModel EvalModel HistModel GNModel LsmrModel EivModel FullModel SaveModel GNSpec.
Open Scope nat_scope.

Section Spec.
Context {T : Type}.
(** The solver [st] with every data value, estimate and entry of the preconditioner factor rounded. *)
Definition rounded (f4 : R -> R) (st : solver T) : solver T :=
  let m := g_m T st in
  mkSolver T (mkMobj R T (m_idx R T m) (m_ps R T m) (m_oidx R T m) (m_ops R T m) (map f4 (m_values R T m)) (m_ks R T m) (m_unc R T m) (m_unck R T m)
       (m_ws R T m) (m_us R T m) (m_time1 R T m) (m_time2 R T m) (m_across1 R T m) (m_across2 R T m) (m_along1 R T m) (m_along2 R T m) (m_add R T m))
    (g_sd T st) (g_ocs T st) (map f4 (g_xyza T st)) (map (map f4) (g_S T st)).
End Spec.

(** Two results that agree in everything but the covariance of the parameters. *)
Record same_but_covariance (h h' : houtput) : Prop := {
  sb_sensors : h_sensors h' = h_sensors h;
  sb_idx : h_idx h' = h_idx h;
  sb_a : e_a (h_result h') = e_a (h_result h);
  sb_cost : e_cost (h_result h') = e_cost (h_result h) /\ e_dof (h_result h') = e_dof (h_result h);
  sb_residuals : e_values (h_result h') = e_values (h_result h) /\ e_ks (h_result h') = e_ks (h_result h);
  sb_systematic : e_sys (h_result h') = e_sys (h_result h);
  sb_run : e_iter (h_result h') = e_iter (h_result h) /\ e_conv (h_result h') = e_conv (h_result h) /\ e_log (h_result h') = e_log (h_result h);
  sb_estimates : e_xyza (h_result h') = e_xyza (h_result h)
}.

(** Half the sum of two numbers ([None]: nan). *)
Definition half_sum (a b : option R) : option R := match a, b with Some x, Some y => Some ((x + y) / 2)%R | _, _ => None end.

(** No sensor function of the sensor data uses the times of the match-ups. *)
Definition dict_ignores_times {T} (dict : sensor_dict (T := T)) : Prop :=
  forall s e X a c xt al t, In (s, e) dict -> SensorModel.s_model _ _ _ _ e X a c xt al t = SensorModel.s_model _ _ _ _ e X a c xt al None.

(** Each K value is unchanged by the transformation: it equals K divided by its uncertainty. *)
Definition ks_normal {T} (m : mobj R T) : Prop :=
  forall i, i < length (m_ks R T m) -> (nth i (m_ks R T m) 0 / nth i (GNSpec.all_uK m) 0 = nth i (m_ks R T m) 0)%R.
