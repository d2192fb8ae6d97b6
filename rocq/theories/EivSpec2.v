(** * Specification: a well-conditioned Hessian. *)
From Coq Require Import Reals.
From Verif Require Import Base GNModel GNSpec.
Open Scope nat_scope.
Section Spec.
Context {T : Type}.
(** The curvature of the (preconditioned) cost is at least [alpha] in every direction: no eigenvalue of the Hessian is below [alpha]. *)
Definition curvature_at_least (alpha : R) (st : solver T) : Prop :=
  forall x h, unknowns_vec st x -> calc_Hx T st x = Ok h -> (alpha * sum_sq x <= inner x h)%R.
End Spec.
