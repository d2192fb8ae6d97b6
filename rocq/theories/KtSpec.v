(** * Vocabulary of the properties of the Krylov utilities. *)
From Coq Require Import Reals.
From Verif Require Import Base TransformModel LsmrModel.
Open Scope R_scope.

(** The quadratic. *)
Definition quad (q2 q1 q0 x : R) : R := q2 * x ^ 2 + q1 * x + q0.

(** Sum over all entries of an n x n table. *)
Definition total (n : nat) (f : nat -> nat -> R) : R :=
  rsum (map (fun i => rsum (map (fun j => f i j) (seq 0 n))) (seq 0 n)).
(** The squares of the Frobenius norms of A and of A minus its transpose. *)
Definition size2 (n : nat) (A : matrix) : R := total n (fun i j => (A i j) ^ 2).
Definition asymmetry2 (n : nat) (A : matrix) : R := total n (fun i j => (A i j - A j i) ^ 2).

(** What [numpy.random.random(n)] may return: every component in [0, 1). *)
Definition uniform (n : nat) (x : vec) : Prop := forall i, (i < n)%nat -> 0 <= x i < 1.
Definition nonzero (n : nat) (x : vec) : Prop := exists i, (i < n)%nat /\ x i <> 0.
(** x' A x *)
Definition form (n : nat) (A : matrix) (x : vec) : R := vdot n x (mul n A x).
Definition positive_definite (n : nat) (A : matrix) : Prop := forall x, nonzero n x -> 0 < form n A x.
Definition positive_semidefinite (n : nat) (A : matrix) : Prop := forall x, 0 <= form n A x.
