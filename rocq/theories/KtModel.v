(** * Model of the utilities of the Krylov solvers.

    File: /repo/harmonisation_eiv/harmonisation/core/matchup/matchupToolbox/harmonisation/
    harmonisationProcessing/harmonisation_eiv/pykrylov_tools_utils.py (line numbers below).

    Numbers are exact reals; an operator is a matrix of reals with its shape. *)
From Coq Require Import Reals.
From Verif Require Import Base TransformModel LsmrModel.
Open Scope R_scope.

(** 7-9: the machine epsilon of double precision *)
Definition machine_epsilon : R := / 2 ^ 52.

(** ** roots_quadratic, 12-60 *)

(** [math.copysign(x, y)] for x >= 0.  (The reals have one zero, which counts as positive: a1 = -0.0 would
    only exchange the two roots.) *)
Definition copysign (x y : R) : R := if Rltb y 0 then - x else x.
(** 52-57: one pass of the inner loop, [continue] when the derivative vanishes *)
Definition newton (a2 a1 a0 : R) (root : R) : res R :=
  let val := (a2 * root + a1) * root + a0 in
  let der := 2 * a2 * root + a1 in
  if Reqb der 0 then Ok root else do q <- pdiv val der;; Ok (root - q).
(** 51: [for _ in range(nitref)] *)
Fixpoint refine (nitref : nat) (a2 a1 a0 root : R) : res R :=
  match nitref with
  | O => Ok root
  | S k => do r <- newton a2 a1 a0 root;; refine k a2 a1 a0 r
  end.
(** 25-47: the roots before refinement; [Final] for the early returns (lines 29, 31, 40). *)
Inductive start := Final (roots : list R) | Guess (roots : list R).
Definition first_roots (a2 a1 a0 tol : R) : res start :=
  if Reqb a2 0 then
    if Reqb a1 0 then
      if Reqb a0 0 then Ok (Final [0]) else Ok (Final [])
    else do r <- pdiv (- a0) a1;; Ok (Guess [r])
  else
    let rhs := tol * a1 * a1 in
    if Rltb rhs (Rabs (a0 * a2)) then
      let rho := a1 * a1 - 4 * a2 * a0 in
      if Rltb rho 0 then Ok (Final [])
      else
        let d := - (1 / 2) * (a1 + copysign (sqrt rho) a1) in
        do r1 <- pdiv d a2;; do r2 <- pdiv a0 d;; Ok (Guess [r1; r2])
    else do r <- pdiv (- a1) a2;; Ok (Guess [r; 0]).
(** 12-60 *)
Definition roots_quadratic (q2 q1 q0 tol : R) (nitref : nat) : res (list R) :=
  do s <- first_roots q2 q1 q0 tol;;
  match s with
  | Final l => Ok l
  | Guess l => mapM (refine nitref q2 q1 q0) l
  end.
(** The defaults of line 12. *)
Definition default_tol : R := 1 / 10 ^ 8.
Definition default_nitref : nat := 1.

(** ** The random numbers: numpy's global generator is a seed and the number of vectors drawn from it;
    [stream seed k] is the k-th vector drawn after seeding, of which the first n components count. *)
Record rng := mkRng { g_seed : nat; g_pos : nat }.
Section Checks.
Variable stream : nat -> nat -> vec.
(** [np.random.random(n)] *)
Definition random (g : rng) : vec * rng := (stream (g_seed g) (g_pos g), mkRng (g_seed g) (S (g_pos g))).

(** [eps**(1.0/3)], 82 *)
Definition cbrt_eps : R := Rpower machine_epsilon (1 / 3).
(** 76-84: what is done with one vector *)
Definition symmetric_on (n : nat) (A : matrix) (x : vec) : bool :=
  let w := mul n A x in
  let r := mul n A w in
  let s := vdot n w w in
  let t := vdot n x r in
  let z := Rabs (s - t) in
  let epsa := (s + machine_epsilon) * cbrt_eps in
  negb (Rltb epsa z).
(** 75-85: the loop, which stops at the first vector that fails *)
Fixpoint trials (test : vec -> bool) (repeats : nat) (g : rng) : bool * rng :=
  match repeats with
  | O => (true, g)
  | S k => let '(x, g1) := random g in if test x then trials test k g1 else (false, g1)
  end.
(** 63-85: the answer and the state of the generator afterwards; seed 1 (line 74) whatever it was. *)
Definition check_symmetric (m n : nat) (A : matrix) (repeats : nat) (g : rng) : bool * rng :=
  if Nat.eqb m n then trials (symmetric_on n A) repeats (mkRng 1 0) else (false, g).

(** 100-111, for a real operator: the imaginary part is 0 *)
Definition definite_on (semi : bool) (n : nat) (A : matrix) (v : vec) : bool :=
  let w := mul n A v in
  let vw := vdot n v w in
  if Rltb (sqrt machine_epsilon * Rabs vw) 0 then false
  else if semi then negb (Rltb vw 0) else negb (Rleb vw 0).
(** 88-112; the generator is not seeded *)
Definition check_positive_definite (m n : nat) (A : matrix) (repeats : nat) (semi : bool) (g : rng) : bool * rng :=
  if Nat.eqb m n then trials (definite_on semi n A) repeats g else (false, g).
End Checks.
