(** Specification for the scripts and the comparison plots (C163-C165). *)
From Verif Require Import Base ReaderModel ToolModel.
Open Scope nat_scope.

Section Spec.
Context {A : Type}.
(** A match-up series: the names of its two sensors, and, row by row, the measurand of either sensor
    and its difference from the comparison. *)
Record series := mkSeries { se_1 : string; se_2 : string; se_meas : list (A * A); se_diff : list (A * A) }.

(** The index data [ix] describe the series: the sensors of each, and where its rows are. *)
Definition indexes (ix : idx_t) (ss : list series) : Prop :=
  Forall2 (fun s p => nth_error (sensors ix) (fst p) = Some (se_1 s) /\
                      nth_error (sensors ix) (snd p) = Some (se_2 s)) ss (Im ix) /\
  cNm ix = cumul 0 (map (fun s => length (se_meas s)) ss) /\
  (forall s, In s ss -> length (se_diff s) = length (se_meas s)) /\
  (forall n, In n (sensors ix) -> exists s, In s ss /\ (n = se_1 s \/ n = se_2 s)).

(** The two plots of a series. *)
Definition plots_of (s : series) : list (plot A) :=
  [mkPlot A (se_1 s) (map fst (se_diff s)) (map fst (se_meas s));
   mkPlot A (se_2 s) (map snd (se_diff s)) (map snd (se_meas s))].

(** Every sensor is one of a series of the list. *)
Definition covered (names : list string) (ss : list series) : Prop :=
  forall n, In n names -> exists s, In s ss /\ (n = se_1 s \/ n = se_2 s).
End Spec.
Arguments series A : clear implicits.
