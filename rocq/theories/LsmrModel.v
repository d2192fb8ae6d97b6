(** * Model of the least-squares solver LSMR.

    File: /repo/harmonisation_eiv/harmonisation/core/matchup/matchupToolbox/harmonisation/
    harmonisationProcessing/harmonisation_eiv/pykrylov_lsmr.py (line numbers below).

    Numbers are exact reals.  A vector of length n is a function giving its components, of which those
    with index below n count; the operator A is an m x n matrix.  Preconditioners (M, N), printing and the
    optional histories are not modelled: no caller in the repository uses them. *)
From Coq Require Import Reals.
From Verif Require Import Base TransformModel.
Open Scope R_scope.

Definition vec := nat -> R.
Definition vzero : vec := fun _ => 0.
Definition vadd (x y : vec) : vec := fun i => x i + y i.
Definition vsub (x y : vec) : vec := fun i => x i - y i.
Definition vscal (c : R) (x : vec) : vec := fun i => c * x i.
(** [x /= c] *)
Definition vdiv (x : vec) (c : R) : vec := fun i => x i / c.
(** [dot(x, y)] of arrays of length n, and [norm(x)] *)
Definition vdot (n : nat) (x y : vec) : R := rsum (map (fun i => x i * y i) (seq 0 n)).
Definition vnorm (n : nat) (x : vec) : R := sqrt (vdot n x x).
(** [A * x] and [A.H * y] for an m x n matrix of reals *)
Definition matrix := nat -> nat -> R.
Definition mul (n : nat) (A : matrix) (x : vec) : vec := fun i => rsum (map (fun j => A i j * x j) (seq 0 n)).
Definition mulH (m : nat) (A : matrix) (y : vec) : vec := fun j => rsum (map (fun i => A i j * y i) (seq 0 m)).

Definition Rltb (x y : R) : bool := if Rlt_dec x y then true else false.
Definition Rleb (x y : R) : bool := if Rle_dec x y then true else false.
Definition Reqb (x y : R) : bool := if Req_EM_T x y then true else false.
(** Division of Python numbers. *)
Definition pdiv (x y : R) : res R := if Reqb y 0 then Raise ZeroDivisionError else Ok (x / y).

(** pykrylov_lsmr.py:497-499 *)
Definition sign (a : R) : R := if Rltb a 0 then -1 else 1.
(** pykrylov_lsmr.py:502-521.  The divisors are not 0: b and s, or a and c, in their branches. *)
Definition symOrtho (a b : R) : R * R * R :=
  if Reqb b 0 then (sign a, 0, Rabs a)
  else if Reqb a 0 then (0, sign b, Rabs b)
  else if Rltb (Rabs a) (Rabs b) then
    let tau := a / b in let s := sign b / sqrt (1 + tau * tau) in let c := s * tau in (c, s, b / s)
  else
    let tau := b / a in let c := sign a / sqrt (1 + tau * tau) in let s := c * tau in (c, s, a / c).

Section Solve.
Variables (m n : nat) (A : matrix).
(** The arguments of [solve] (66-67; etol and window, 159-162, keep their defaults). *)
Variables (damp atol btol conlim : R) (itnlim : nat).
Definition etol : R := 1 / 1000000.
Definition window : nat := 5.
(** 278-279 *)
Definition ctol : R := if Rltb 0 conlim then 1 / conlim else 0.

(** The local variables carried from one iteration to the next.  Without preconditioners u is the array
    Mu and v the array Nv (aliases, normalised in place). *)
Record state := mkState {
  l_itn : nat; l_u : vec; l_v : vec; l_alpha : R; l_alphabar : R; l_rho : R; l_rhobar : R; l_cbar : R; l_sbar : R;
  l_zeta : R; l_zetabar : R; l_h : vec; l_hbar : vec; l_x : vec;
  l_betadd : R; l_betad : R; l_rhodold : R; l_tautildeold : R; l_thetatilde : R; l_d : R;
  l_normA2 : R; l_maxrbar : R; l_minrbar : R; l_xNrgNorm2 : R; l_dErr : list R;
  l_istop : nat; l_normr : R; l_normar : R; l_normA : R; l_condA : R; l_normx : R
}.

(** 210-215, 312-322: normalise the next u; its norm beta. *)
Definition next_u (Mu : vec) : vec * R :=
  let beta := sqrt (vdot m Mu Mu) in ((if Rltb 0 beta then vdiv Mu beta else Mu), beta).
(** 224-234, 324-334: normalise the next v; its norm alpha. *)
Definition next_v (Nv : vec) : vec * R :=
  let alpha := sqrt (vdot n Nv Nv) in ((if Rltb 0 alpha then vdiv Nv alpha else Nv), alpha).

(** 210-284 *)
Definition init (b : vec) : state :=
  let (u, beta) := next_u b in
  let (v, alpha) := if Rltb 0 beta then next_v (mulH m A u) else (vzero, 0) in
  mkState 0 u v alpha alpha 1 1 1 0 0 (alpha * beta) v vzero vzero
          beta 0 1 0 0 0 (alpha * alpha) 0 (10 ^ 100) 0 (repeat 0 window) 0 beta (alpha * beta) (sqrt (alpha * alpha)) 1 0.

(** 441-450 *)
Definition flags (itn istop : nat) (test1 test2 test3 t1 rtol : R) : nat :=
  let istop := if Nat.leb itnlim itn then 7%nat else istop in
  let istop := if Rleb (1 + test3) 1 then 6%nat else istop in
  let istop := if Rleb (1 + test2) 1 then 5%nat else istop in
  let istop := if Rleb (1 + t1) 1 then 4%nat else istop in
  let istop := if Rleb test3 ctol then 3%nat else istop in
  let istop := if Rleb test2 atol then 2%nat else istop in
  if Rleb test1 rtol then 1%nat else istop.

(** 305-450: one iteration; [normb] is the norm of b (276). *)
Definition step (normb : R) (s : state) : res state :=
  let itn := S (l_itn s) in
  let (u, beta) := next_u (vsub (mul n A (l_v s)) (vscal (l_alpha s) (l_u s))) in
  let (v, alpha) := if Rltb 0 beta then next_v (vsub (mulH m A u) (vscal beta (l_v s))) else (l_v s, l_alpha s) in
  let '(chat, shat, alphahat) := symOrtho (l_alphabar s) damp in
  let rhoold := l_rho s in
  let '(c, s_, rho) := symOrtho alphahat beta in
  let thetanew := s_ * alpha in
  let alphabar := c * alpha in
  let rhobarold := l_rhobar s in
  let zetaold := l_zeta s in
  let thetabar := l_sbar s * rho in
  let rhotemp := l_cbar s * rho in
  let '(cbar, sbar, rhobar) := symOrtho (l_cbar s * rho) thetanew in
  let zeta := cbar * l_zetabar s in
  let zetabar := - sbar * l_zetabar s in
  do q1 <- pdiv (thetabar * rho) (rhoold * rhobarold);;
  let hbar := vsub (l_h s) (vscal q1 (l_hbar s)) in
  do q2 <- pdiv zeta (rho * rhobar);;
  let x := vadd (l_x s) (vscal q2 hbar) in
  do q3 <- pdiv thetanew rho;;
  let h := vsub v (vscal q3 (l_h s)) in
  let xNrgNorm2 := l_xNrgNorm2 s + zeta * zeta in
  let dErr := upd (itn mod window) zeta (l_dErr s) in
  let istop := if Nat.ltb window itn && Rltb (sqrt (rsum (map (fun e => e * e) dErr))) (etol * sqrt xNrgNorm2) then 8%nat else l_istop s in
  let betaacute := chat * l_betadd s in
  let betacheck := - shat * l_betadd s in
  let betahat := c * betaacute in
  let betadd := - s_ * betaacute in
  let '(ctildeold, stildeold, rhotildeold) := symOrtho (l_rhodold s) thetabar in
  let thetatilde := stildeold * rhobar in
  let rhodold := ctildeold * rhobar in
  let betad := - stildeold * l_betad s + ctildeold * betahat in
  do tautildeold <- pdiv (zetaold - l_thetatilde s * l_tautildeold s) rhotildeold;;
  do taud <- pdiv (zeta - thetatilde * tautildeold) rhodold;;
  let d := l_d s + betacheck * betacheck in
  let normr := sqrt (d + (betad - taud) ^ 2 + betadd * betadd) in
  let normA2 := l_normA2 s + beta * beta in
  let normA := sqrt normA2 in
  let normA2 := normA2 + alpha * alpha in
  let maxrbar := Rmax (l_maxrbar s) rhobarold in
  let minrbar := if Nat.ltb 1 itn then Rmin (l_minrbar s) rhobarold else l_minrbar s in
  do condA <- pdiv (Rmax maxrbar rhotemp) (Rmin minrbar rhotemp);;
  let normar := Rabs zetabar in
  let normx := vnorm n x in
  do test1 <- pdiv normr normb;;
  do test2 <- pdiv normar (normA * normr);;
  do test3 <- pdiv 1 condA;;
  let t1 := test1 / (1 + normA * normx / normb) in
  let rtol := btol + atol * normA * normx / normb in
  Ok (mkState itn u v alpha alphabar rho rhobar cbar sbar zeta zetabar h hbar x
              betadd betad rhodold tautildeold thetatilde d normA2 maxrbar minrbar xNrgNorm2 dErr
              (flags itn istop test1 test2 test3 t1 rtol) normr normar normA condA normx).

(** 304, 476: the loop, ending with the iteration limit or with a flag; [fuel] is the number of iterations left. *)
Fixpoint loop (fuel : nat) (normb : R) (s : state) : res state :=
  match fuel with
  | O => Ok s
  | S fuel' => do s' <- step normb s;; if Nat.ltb 0 (l_istop s') then Ok s' else loop fuel' normb s'
  end.

(** 66-494.  The values returned, and the attribute [x] of the object afterwards, given the one before
    ([None] initially, 49): line 288 returns without setting it, an exception leaves it as it is. *)
Definition solve (self_x : option vec) (b : vec) : res state * option vec :=
  let s := init b in
  if Reqb (l_normar s) 0 then (Ok s, self_x)
  else match loop itnlim (l_normr s) s with Ok s' => (Ok s', Some (l_x s')) | Raise e => (Raise e, self_x) end.
End Solve.
