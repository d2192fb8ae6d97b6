(** Specification: the calendar and the names a user expects. *)
From Verif Require Import Base FtModel.
From Coq Require Import QArith Qround.
Open Scope string_scope.
Open Scope nat_scope.
Open Scope list_scope.

(** ** The Gregorian calendar *)
Record date := mkDate { d_year : Z; d_month : Z; d_day : Z }.

Definition leap (y : Z) : bool :=
  ((y mod 4 =? 0) && (negb (y mod 100 =? 0) || (y mod 400 =? 0)))%Z.
Definition days_in_month (y m : Z) : Z :=
  if (m =? 2)%Z then if leap y then 29%Z else 28%Z
  else if ((m =? 4) || (m =? 6) || (m =? 9) || (m =? 11))%Z then 30%Z else 31%Z.
Definition valid_date (d : date) : Prop :=
  (1 <= d_month d <= 12 /\ 1 <= d_day d <= days_in_month (d_year d) (d_month d))%Z.
(** The day after. *)
Definition next_date (d : date) : date :=
  if (d_day d <? days_in_month (d_year d) (d_month d))%Z
  then mkDate (d_year d) (d_month d) (d_day d + 1)
  else if (d_month d <? 12)%Z then mkDate (d_year d) (d_month d + 1) 1
       else mkDate (d_year d + 1) 1 1.
Fixpoint later (n : nat) (d : date) : date :=
  match n with 0 => d | S n' => next_date (later n' d) end.
Definition unix_epoch : date := mkDate 1970 1 1.
(** [d] is the date [n] days after 1 January 1970 (before it, when [n] is negative). *)
Definition falls_on (n : Z) (d : date) : Prop :=
  valid_date d /\
  ((0 <= n)%Z -> later (Z.to_nat n) unix_epoch = d) /\
  ((n < 0)%Z -> later (Z.to_nat (- n)) d = unix_epoch).

(** Decimal number with leading zeros. *)
Fixpoint decimals (w : nat) (z : Z) : string :=
  match w with
  | 0 => ""
  | S w' => (decimals w' (z / 10)%Z
             ++ nth (Z.to_nat (z mod 10)) ["0";"1";"2";"3";"4";"5";"6";"7";"8";"9"] "")%string
  end.
(** yyyymmddThhmmssZ *)
Definition iso_text (d : date) (hour minute second : Z) : string :=
  (decimals 4 (d_year d) ++ decimals 2 (d_month d) ++ decimals 2 (d_day d) ++ "T"
   ++ decimals 2 hour ++ decimals 2 minute ++ decimals 2 second ++ "Z")%string.

(** A time a 32-bit integer can count in seconds since the epoch. *)
Definition int32_time (uts : Q) : Prop := (-2147483648 <= Qfloor uts <= 2147483647)%Z.

(** ** Names of datasets *)
(** Text without trailing blanks. *)
Definition no_trailing_blank (s : fstr) : Prop := forall s', s <> s' ++ [" "%char].
(** The value a Fortran variable of length [n] holds after assignment of a text that fits. *)
Definition holds (n : nat) (v s : fstr) : Prop := v = s ++ repeat " "%char (n - length s).
(** Parts separated by underscores. *)
Fixpoint underscored (parts : list fstr) : fstr :=
  match parts with
  | [] => []
  | [p] => p
  | p :: ps => p ++ "_"%char :: underscored ps
  end.
