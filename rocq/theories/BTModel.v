(** * Model of tools/convert_bt_to_radiance.py: band-corrected radiances and brightness temperatures.

    Numbers are exact reals; an element of an array, or a number, is [None] when it is not finite (nan or
    inf).  Arrays are their number of dimensions and their elements in storage order. *)
From Coq Require Import Reals.
From Verif Require Import Base.
Open Scope R_scope.

(** The attributes nuc, aval, bval (convert_bt_to_radiance.py:85-87). *)
Record coefs := mkCoefs { nuc : list R; aval : list R; bval : list R }.
(** convert_bt_to_radiance.py:10-81, the branches of [return_band_coefs]. *)
Definition band_table : list (string * coefs) :=
  [("m02"%string, mkCoefs [268511 / 100; 926605 / 1000; 837805 / 1000] [199126 / 100000; 448099 / 1000000; 382986 / 1000000] [996287 / 1000000; 998631 / 1000000; 998879 / 1000000]);
   ("n19"%string, mkCoefs [267851 / 100; 928179 / 1000; 832010 / 1000] [190192 / 100000; 406106 / 1000000; 391425 / 1000000] [999063 / 1000000; 998698 / 1000000; 998849 / 1000000]);
   ("n18"%string, mkCoefs [267531 / 100; 928680 / 1000; 834073 / 1000] [210086 / 100000; 348003 / 1000000; 408531 / 1000000] [100006 / 100000; 998861 / 1000000; 998805 / 1000000]);
   ("n17"%string, mkCoefs [267819 / 100; 927486 / 1000; 840187 / 1000] [193286 / 100000; 431676 / 1000000; 370802 / 1000000] [999144 / 1000000; 998637 / 1000000; 998917 / 1000000]);
   ("n16"%string, mkCoefs [268843 / 100; 919600 / 1000; 836710 / 1000] [185548 / 100000; 693914 / 1000000; 440396 / 1000000] [995179 / 1000000; 998170 / 1000000; 998707 / 1000000]);
   ("n15"%string, mkCoefs [268715 / 100; 926258 / 1000; 840231 / 1000] [140674 / 100000; 451169 / 1000000; 365465 / 1000000] [996299 / 1000000; 998636 / 1000000; 998931 / 1000000]);
   ("n14"%string, mkCoefs [267439 / 100; 930521 / 1000; 835544 / 1000] [239486 / 100000; 621590 / 1000000; 419563 / 1000000] [100004 / 100000; 998294 / 1000000; 998769 / 1000000]);
   ("n12"%string, mkCoefs [267181 / 100; 921925 / 1000; 838003 / 1000] [242853 / 100000; 560212 / 1000000; 398581 / 1000000] [100102 / 100000; 998415 / 1000000; 998832 / 1000000]);
   ("n11"%string, mkCoefs [268285 / 100; 928047 / 1000; 842869 / 1000] [168218 / 100000; 393074 / 1000000; 406868 / 1000000] [997630 / 1000000; 998759 / 1000000; 998803 / 1000000]);
   ("n10"%string, mkCoefs [267911 / 100; 910515 / 1000; - 1] [193677 / 100000; 457244 / 1000000; - 1] [998787 / 1000000; 998768 / 1000000; - 1]);
   ("n09"%string, mkCoefs [268584 / 100; 929574 / 1000; 846292 / 1000] [174231 / 100000; 347473 / 1000000; 493176 / 1000000] [996351 / 1000000; 998839 / 1000000; 998698 / 1000000]);
   ("n08"%string, mkCoefs [267112 / 100; 915281 / 1000; - 1] [231640 / 100000; 497544 / 1000000; - 1] [100146 / 100000; 998654 / 1000000; - 1]);
   ("n07"%string, mkCoefs [268318 / 100; 927508 / 1000; 841403 / 1000] [173290 / 100000; 405709 / 1000000; 392737 / 1000000] [997424 / 1000000; 998741 / 1000000; 998845 / 1000000]);
   ("n06"%string, mkCoefs [267859 / 100; 913461 / 1000; - 1] [194528 / 100000; 505261 / 1000000; - 1] [998976 / 1000000; 998636 / 1000000; - 1]);
   ("tn"%string, mkCoefs [267250 / 100; 913041 / 1000; - 1] [211244 / 100000; 531096 / 1000000; - 1] [100119 / 100000; 998563 / 1000000; - 1]);
   ("aatsr"%string, mkCoefs [268159 / 100; 923695 / 1000; 832715 / 1000] [177887 / 100000; 454752 / 1000000; 498667 / 1000000] [998005 / 1000000; 998814 / 1000000; 998525 / 1000000]);
   ("atsr1"%string, mkCoefs [268635 / 100; 918255 / 1000; 841035 / 1000] [213333 / 100000; 532039 / 1000000; 432575 / 1000000] [995620 / 1000000; 998695 / 1000000; 998729 / 1000000]);
   ("atsr2"%string, mkCoefs [269900 / 100; 917236 / 1000; 831569 / 1000] [204002 / 100000; 597643 / 1000000; 467731 / 1000000] [990740 / 1000000; 998578 / 1000000; 998620 / 1000000])].
(** convert_bt_to_radiance.py:8-87 and 158-160 (the constructor); [raise Exception] is [OtherError]. *)
Definition convertBT (instr : string) : res coefs :=
  match find (fun q => String.eqb (fst q) instr) band_table with Some (_, c) => Ok c | None => Raise OtherError end.

(** convert_bt_to_radiance.py:97-98 *)
Definition C1 : R := 1191062 / 100000000000.
Definition C2 : R := 14387863 / 10000000.

Definition Rltb (x y : R) : bool := if Rlt_dec x y then true else false.
Definition Reqb (x y : R) : bool := if Req_EM_T x y then true else false.

Inductive data := Scalar (x : option R) | Array (ndim : nat) (xs : list (option R)).
(** [outR = zeros(shape)]; then nan for the numbers of dimensions listed (101-107; 136-142). *)
Definition fill (dims : list nat) (ndim : nat) : option R := if existsb (Nat.eqb ndim) dims then None else Some 0.
(** [gd = (x > 0.) & isfinite(x); out[gd] = f(x[gd])] (109-114; 144-148) *)
Definition where_good (f : R -> R) (bad : option R) (xs : list (option R)) : list (option R) :=
  map (fun o => match o with Some x => if Rltb 0 x then Some (f x) else bad | None => bad end) xs.

(** convert_bt_to_radiance.py:110-114 (116-120): one element.  [filterval-1] may be negative, a Python index. *)
Definition rad_of (n a b t : R) : R := C1 * n ^ 3 / (exp (C2 * n / (a + b * t)) - 1).
(** convert_bt_to_radiance.py:92-122.  A number [temperature] is a Python float: [C2*nuc/tstar] raises for [tstar = 0]. *)
Definition temp2rad (c : coefs) (temperature : data) (filterval : Z) : res data :=
  do n <- pyget (nuc c) (filterval - 1);;
  if Rltb n 0 then Raise OtherError
  else
    do a <- pyget (aval c) (filterval - 1);;
    do b <- pyget (bval c) (filterval - 1);;
    match temperature with
    | Array nd xs => Ok (Array nd (where_good (rad_of n a b) (fill [3; 2; 1]%nat nd) xs))
    | Scalar None => Ok (Scalar None)
    | Scalar (Some t) => if Reqb (a + b * t) 0 then Raise ZeroDivisionError else Ok (Scalar (Some (rad_of n a b t)))
    end.

(** convert_bt_to_radiance.py:145-148 (151-154): one element. *)
Definition temp_of (n a b r : R) : R := (C2 * n / ln (C1 * n ^ 3 / r + 1) - a) / b.
(** convert_bt_to_radiance.py:127-156.  Line 135 tests [isinstance(temperature, ...)]; neither the function nor the module defines [temperature]. *)
Definition rad2temp (c : coefs) (rad : data) (filterval : Z) : res data :=
  do n <- pyget (nuc c) (filterval - 1);;
  if Rltb n 0 then Raise OtherError else Raise NameError.
(** convert_bt_to_radiance.py:135-156 with [isinstance(rad, ...)] at line 135: the rest of the function (line 141 repeats the case of two
    dimensions, so that one-dimensional arrays are not filled with nan).  For a number, [C1*nuc**3/rad] raises if it is 0; logarithms of
    non-positive numbers (negative radiances) are not modelled. *)
Definition rad2temp_body (c : coefs) (rad : data) (filterval : Z) : res data :=
  do n <- pyget (nuc c) (filterval - 1);;
  if Rltb n 0 then Raise OtherError
  else
    do a <- pyget (aval c) (filterval - 1);;
    do b <- pyget (bval c) (filterval - 1);;
    match rad with
    | Array nd xs => Ok (Array nd (where_good (temp_of n a b) (fill [3; 2]%nat nd) xs))
    | Scalar None => Ok (Scalar None)
    | Scalar (Some r) => if Reqb r 0 then Raise ZeroDivisionError else Ok (Scalar (Some (temp_of n a b r)))
    end.
