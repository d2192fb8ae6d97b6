(** * Model of the symmetric solver MINRES.

    File: /repo/harmonisation_eiv/harmonisation/core/matchup/matchupToolbox/harmonisation/
    harmonisationProcessing/harmonisation_eiv/pykrylov_minres.py (line numbers below).

    Numbers are exact reals; the operator A is an n x n matrix.  The numbers are numpy floats, so a division by
    zero does not raise: it gives an infinity or nan, which spreads.  The preconditioner and the shift (121-122)
    keep their defaults, None and 0 (the only caller, GN_algo.py:948, does not give them); printing and the
    optional histories are left out. *)
From Coq Require Import Reals ZArith.
From Verif Require Import Base TransformModel LsmrModel.
Open Scope R_scope.

(** 112-113 *)
Definition normof2 (x y : R) : R := sqrt (x ^ 2 + y ^ 2).

Section Minres.
Variables (n : nat) (A : matrix).
(** [eps] is the machine epsilon (110); rtol, etol and itnlim the arguments (125-127), window = 5 (130). *)
Variables (eps rtol etol : R) (itnlim : nat).

(** The local variables carried from one iteration to the next.  Without preconditioner the array y is equal
    to r2 whenever an iteration starts.  [m_Acond] is [None] for infinity (gmax / gmin with gmin = 0). *)
Record mstate := mkM {
  m_itn : nat; m_r1 : vec; m_r2 : vec; m_oldb : R; m_beta : R; m_dbar : R; m_epsln : R; m_phibar : R; m_rhs1 : R; m_rhs2 : R;
  m_tnorm2 : R; m_ynorm2 : R; m_cs : R; m_sn : R; m_w : vec; m_w2 : vec; m_x : vec; m_xNrg : R; m_dErr : list R;
  m_gmax : R; m_gmin : R; m_istop : Z; m_Arnorm : R; m_rnorm : R; m_Anorm : R; m_ynorm : R; m_Acond : option R
}.

(** 135-138, 153-154, 161-166, 179-180, 202-208 *)
Definition minit (b : vec) : mstate :=
  let beta1 := sqrt (vdot n b b) in
  mkM 0 b b 0 beta1 0 0 beta1 beta1 0 0 0 (-1) 0 vzero vzero vzero 0 (repeat 0 window) 0 0 0 0 0 0 0 (Some 0).

(** 349-361.  [None] as Acond exceeds every bound. *)
Definition mflags (istop : Z) (itn : nat) (test1 test2 epsx beta1 : R) (Acond : option R) : Z :=
  if Z.eqb istop 0 then
    let istop := if Rleb (1 + test2) 1 then 2%Z else istop in
    let istop := if Rleb (1 + test1) 1 then 1%Z else istop in
    let istop := if Nat.leb itnlim itn then 6%Z else istop in
    let istop := match Acond with None => 4%Z | Some a => if Rleb (1 / 10 / eps) a then 4%Z else istop end in
    let istop := if Rleb beta1 epsx then 3%Z else istop in
    let istop := if Rleb test2 rtol then 2%Z else istop in
    if Rleb test1 rtol then 1%Z else istop
  else istop.

(** 221-361: one iteration.  [None]: the previous beta is 0 (or, 333-334, a norm is), so that a division by
    zero makes every component of v - and then of x - not a number.  [dot(r2, r2)] is not negative: the branch
    of 252-254 is never taken without preconditioner. *)
Definition mstep (beta1 : R) (s : mstate) : option mstate :=
  let itn := S (m_itn s) in
  if Reqb (m_beta s) 0 then None else
  let v := vscal (1 / m_beta s) (m_r2 s) in
  let y := mul n A v in
  let y := if Nat.leb 2 itn then vsub y (vscal (m_beta s / m_oldb s) (m_r1 s)) else y in
  let alfa := vdot n v y in
  let y := vadd (vscal (- alfa / m_beta s) (m_r2 s)) y in
  let r1 := m_r2 s in
  let r2 := y in
  let oldb := m_beta s in
  let beta := sqrt (vdot n r2 y) in
  let tnorm2 := m_tnorm2 s + alfa ^ 2 + oldb ^ 2 + beta ^ 2 in
  let istop := if Nat.eqb itn 1 then (if Rleb (beta / beta1) (10 * eps) then (-1)%Z else m_istop s) else m_istop s in
  let gmax := if Nat.eqb itn 1 then Rabs alfa else m_gmax s in
  let gmin := if Nat.eqb itn 1 then gmax else m_gmin s in
  let oldeps := m_epsln s in
  let delta := m_cs s * m_dbar s + m_sn s * alfa in
  let gbar := m_sn s * m_dbar s - m_cs s * alfa in
  let epsln := m_sn s * beta in
  let dbar := - m_cs s * beta in
  let root := normof2 gbar dbar in
  let Arnorm := m_phibar s * root in
  let gamma := Rmax (normof2 gbar beta) eps in
  let cs := gbar / gamma in
  let sn := beta / gamma in
  let phi := cs * m_phibar s in
  let phibar := sn * m_phibar s in
  let denom := 1 / gamma in
  let w1 := m_w2 s in
  let w2 := m_w s in
  let w := vscal denom (vsub (vsub v (vscal oldeps w1)) (vscal delta w2)) in
  let x := vadd (m_x s) (vscal phi w) in
  let xNrg := m_xNrg s + phi * phi in
  let dErr := upd (itn mod window) phi (m_dErr s) in
  let istop := if Nat.ltb window itn && Rltb (sqrt (rsum (map (fun e => e * e) dErr))) (etol * sqrt xNrg) then 10%Z else istop in
  let gmax := Rmax gmax gamma in
  let gmin := Rmin gmin gamma in
  let z := m_rhs1 s / gamma in
  let ynorm2 := z ^ 2 + m_ynorm2 s in
  let rhs1 := m_rhs2 s - delta * z in
  let rhs2 := - epsln * z in
  let Anorm := sqrt tnorm2 in
  let ynorm := sqrt ynorm2 in
  let epsx := Anorm * ynorm * eps in
  let rnorm := phibar in
  if Reqb (Anorm * ynorm) 0 then None else
  let test1 := rnorm / (Anorm * ynorm) in
  let test2 := root / Anorm in
  let Acond := if Reqb gmin 0 then None else Some (gmax / gmin) in
  Some (mkM itn r1 r2 oldb beta dbar epsln phibar rhs1 rhs2 tnorm2 ynorm2 cs sn w w2 x xNrg dErr gmax gmin
            (mflags istop itn test1 test2 epsx beta1 Acond) Arnorm rnorm Anorm ynorm Acond).

(** What [solve] leaves in the attributes x, istop, itn, rnorm, ...: numbers, or - [NotANumber] with istop and
    itn - an x of nan. *)
Inductive outcome := Finite (s : mstate) | NotANumber (istop : Z) (itn : nat).

(** 220, 381.  Once nan, the tests of 252-361 are false, except that of the iteration limit (made if the flag is 0):
    a flag of -1 stays, and the loop goes on to the limit. *)
Fixpoint mloop (fuel : nat) (beta1 : R) (s : mstate) : outcome :=
  match fuel with
  | O => Finite s
  | S fuel' =>
      match mstep beta1 s with
      | None => NotANumber (if Z.eqb (m_istop s) 0 then 6%Z else m_istop s) itnlim
      | Some s' => if Z.ltb 0 (m_istop s') then Finite s' else mloop fuel' beta1 s'
      end
  end.
(** The flag set before the loop, as it appears in the attribute. *)
Definition with_istop (i : Z) (s : mstate) : mstate :=
  mkM (m_itn s) (m_r1 s) (m_r2 s) (m_oldb s) (m_beta s) (m_dbar s) (m_epsln s) (m_phibar s) (m_rhs1 s) (m_rhs2 s) (m_tnorm2 s) (m_ynorm2 s)
      (m_cs s) (m_sn s) (m_w s) (m_w2 s) (m_x s) (m_xNrg s) (m_dErr s) (m_gmax s) (m_gmin s) i (m_Arnorm s) (m_rnorm s) (m_Anorm s) (m_ynorm s) (m_Acond s).
(** 115-409.  [symmetric] is the answer of the randomised check of line 187 (check is True by default). *)
Definition msolve (symmetric : bool) (b : vec) : outcome :=
  let s := minit b in
  if negb symmetric then Finite (with_istop 7 s)
  else if Reqb (vdot n b b) 0 then Finite s
  else mloop itnlim (m_beta s) s.
(** 395 *)
Definition converged (o : outcome) : bool :=
  match o with
  | Finite s => existsb (Z.eqb (m_istop s)) [1; 2; 3; 4; 10]%Z
  | NotANumber i _ => existsb (Z.eqb i) [1; 2; 3; 4; 10]%Z
  end.
End Minres.
