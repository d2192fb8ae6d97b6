(** * Specification vocabulary for the Gauss-Newton run with its inner solvers, C110-C114. *)
From Coq Require Import Reals.
From Verif Require Import Base ReaderModel UncModel MuModel TransformModel EvalModel GNModel LsmrModel MinresModel EivModel GNSpec.
Open Scope nat_scope.

Section Spec.
Context {T : Type}.

(** The residuals [f] at [x] (the estimate whose derivatives the operators use is [x] too) and the gradient [g] of half their sum of
    squares with respect to the preconditioned unknowns. *)
Definition residuals_at (st : solver T) (x f : list R) : Prop := calc_f T (with_xyza T st x) x = Ok f.
Definition gradient_at (st : solver T) (x g : list R) : Prop :=
  exists f, residuals_at st x f /\ calc_prod_JPx T (with_xyza T st x) f true = Ok g.
Definition all_zero (g : list R) : Prop := forall a, In a g -> a = 0%R.
(** The gradient vanishes at [x]. *)
Definition stationary (st : solver T) (x : list R) : Prop := exists g, gradient_at st x g /\ all_zero g.
(** The cost of [x], the sum of squares of the residuals. *)
Definition cost_at (st : solver T) (x : list R) : R := match calc_f T (with_xyza T st x) x with Ok f => sum_sq f | Raise _ => 0%R end.
(** The linearised equations can be solved exactly at [x]: some step makes every linearised residual 0. *)
Definition linearly_solvable (st : solver T) (x : list R) : Prop :=
  exists f s Js, residuals_at st x f /\ unknowns_vec st s /\ calc_prod_JPx T (with_xyza T st x) s false = Ok Js /\ Js = vscale (-1) f.

(** An outer iteration takes the vector [s] from LSMR and moves [x] to [x']; [before] is the vector of the iteration before. *)
Definition moves (st : solver T) (x s x' : list R) : Prop :=
  exists d, calc_Px T (with_xyza T st x) s false = Ok d /\ x' = vadd x d /\ length d = length x.
Definition eiv_step (st : solver T) (before : option (list R)) (x s x' : list R) : Prop :=
  unknowns_vec st x /\ unknowns_vec st s /\ moves st x s x' /\
  (stationary st x -> before = Some s) /\
  (~ stationary st x -> exists f g Js, residuals_at st x f /\ gradient_at st x g /\
     calc_prod_JPx T (with_xyza T st x) s false = Ok Js /\
     (sum_sq (vadd f Js) < sum_sq f)%R /\ (2 * inner g s < - sum_sq Js)%R).

(** The iterates [xs] of a run from [x0] and the vectors [ss] LSMR left. *)
Definition eiv_steps (st : solver T) (x0 : list R) (xs ss : list (list R)) : Prop :=
  length xs = S (length ss) /\ nth_error xs 0 = Some x0 /\
  forall k x s x', nth_error xs k = Some x -> nth_error ss k = Some s -> nth_error xs (S k) = Some x' ->
    eiv_step st (match k with 0 => None | S k' => nth_error ss k' end) x s x'.

(** [d] is a direction in which the cost falls from [x]. *)
Definition descent (st : solver T) (x d : list R) : Prop :=
  exists t0, (0 < t0)%R /\ forall t, (0 < t < t0)%R -> (cost_at st (vadd x (vscale t d)) < cost_at st x)%R.

(** The system MINRES solves for parameter [j] - the Hessian times [z] is the preconditioned unit vector of the parameter - and an exact
    solution [z] of it; entry [i] of the corresponding column of the covariance. *)
Definition system_of (st : solver T) (j : nat) (b : list R) : Prop :=
  calc_Px T st (unit_vec (n_vars st + n_pars st) (n_vars st + j)) true = Ok b.
Definition exact_solution (st : solver T) (j : nat) (z : list R) : Prop :=
  exists b, system_of st j b /\ unknowns_vec st z /\ calc_Hx T st z = Ok b.
Definition exact_entry (st : solver T) (z : list R) (i : nat) (w : R) : Prop :=
  exists p, calc_Px T st z false = Ok p /\ w = nth (n_vars st + i) p 0%R.
(** What MINRES left for parameter [j]; no pivot as small as the machine epsilon. *)
Definition solved_for (eps : R) (xr : list vec) (st : solver T) (j : nat) (o : outcome) : Prop :=
  exists b, system_of st j b /\ minres_call T eps xr st (n_vars st) b = o.
Definition pivots_ok (eps : R) (s : mstate) : Prop := 0 < m_itn s -> (eps < m_gmin s)%R.
End Spec.
