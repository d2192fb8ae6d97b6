(** * Specification of the harmonised quantities, C37 and C68. *)
From Coq Require Import Reals.
From Verif Require Import Base ReaderModel UncModel MuModel TransformModel EvalModel HistModel VisModel.
Open Scope nat_scope.

Section Spec.
Context {T : Type}.
(** The adjusted measurands of both sensors with given parameters and labels. *)
Definition adjusted_with (m : mobj R T) (sd : sdat T) (par : list R) (labels : list string) : res (list R * list R) :=
  evaluate_adjusted_measurand T (set_ps T m (Some labels) (m_ops R T m))
    (mkSdat T par (sd_c T sd) (sd_cs T sd) (sd_model T sd) (sd_adj T sd)) SelAll.
(** What each method should return, given the harmonised measurands and the nominal measurand. *)
Definition residual (L2 L1 ks : list R) (r : ret) : Prop :=
  length L2 = length ks -> length L1 = length ks ->
  r = Arr (map (fun i => nth i L2 0 - nth i L1 0 - nth i ks 0)%R (seq 0 (length ks))).
Definition harmonised_answer (H1 H2 ks : list R) (nominal2 : res (list R)) (c : call) (r : ret) : Prop :=
  match c with
  | CL1 => r = Arr H1
  | CL2 => r = Arr H2
  | CKhh => residual H2 H1 ks r
  | CKnh => forall N2, nominal2 = Ok N2 -> residual N2 H1 ks r
  end.
End Spec.
