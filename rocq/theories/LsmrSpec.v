(** * Specification vocabulary for the least-squares solver. *)
From Coq Require Import Reals.
From Verif Require Import Base TransformModel LsmrModel.
Open Scope R_scope.

(** b - A x, for A with n columns *)
Definition residual (n : nat) (A : matrix) (b x : vec) : vec := fun i => b i - mul n A x i.
(** A x = b, for an m x n matrix *)
Definition solves (m n : nat) (A : matrix) (b x : vec) : Prop := forall i, (i < m)%nat -> mul n A x i = b i.
(** What the documentation of [solve] says of the flags 1, 2, 3, 7 and 8 (pykrylov_lsmr.py:95-101, 133-146),
    with the values of the last iteration. *)
Definition flag_right (m n : nat) (A : matrix) (b : vec) (atol btol conlim : R) (itnlim : nat) (s : state) : Prop :=
  let x := l_x s in let r := residual n A b x in
  (l_istop s = 1%nat /\ vnorm m r <= atol * l_normA s * vnorm n x + btol * vnorm m b) \/
  (l_istop s = 2%nat /\ vnorm n (mulH m A r) <= atol * l_normA s * vnorm m r) \/
  (l_istop s = 3%nat /\ 0 < conlim /\ conlim <= l_condA s) \/
  (l_istop s = 7%nat /\ l_itn s = itnlim) \/
  (l_istop s = 8%nat /\ (window < l_itn s)%nat /\ sqrt (rsum (map (fun e => e * e) (l_dErr s))) < etol * sqrt (l_xNrgNorm2 s)).
(** Symmetry of the n x n matrix A. *)
Definition symmetric (n : nat) (A : matrix) : Prop := forall i j, (i < n)%nat -> (j < n)%nat -> A i j = A j i.
