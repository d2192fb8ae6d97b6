(** * Specification vocabulary for C148-C153: registered sensor data. *)
From Coq Require Import Reals.
From Verif Require Import Base ReaderModel ReaderSpec CheckModel InstModel HRModel PmhModel AvModel AvSpec ConvModel SdModel.
Open Scope nat_scope.

(** Numbers of the ATSR platforms and of the AVHRR platforms in the files to be converted. *)
Definition atsr_numbers : list Z := [-12; -11; -10]%Z.
Definition avhrr_numbers : list Z := [-1; 19; 18; 17; 16; 15; 14; 12; 11; 10; 9; 8; 7]%Z.
(** The first sensor of the file is an ATSR if it is a reference sensor, otherwise an AVHRR; the second is an AVHRR. *)
Definition platforms (f : avin) (ref : bool) : Prop := In (a_s1 f) (if ref then atsr_numbers else avhrr_numbers) /\ In (a_s2 f) avhrr_numbers.
(** A file with four (otherwise five) quantities of the second sensor made by AVHRR_to_updated_spec.py from a good input file. *)
Definition avhrr_converted (torad : option string -> list fl -> res (list fl)) (f32 : R -> R) (trunc : R -> Z) (nanV : R) (four : bool) (g : ncfile) : Prop :=
  exists f k1 k2 band bt ref_bt ref files j o, good_input torad f k1 k2 band bt ref_bt /\ sensor1_is f ref /\ platforms f ref /\
    av_main torad f None = Ok files /\ nth_error files j = Some o /\ Nat.even j = four /\ av_nc f32 trunc nanV o = Ok g.

(** ** Coefficient tables (HIRS/coeffs/coef_ch<n>.dat) *)
(** A line with a name and at least three numbers. *)
Definition coeff_row (pyfloat : text -> res R) (line : text) (r : text * list R) : Prop :=
  exists w1 w2 w3 rest x1 x2 x3, split line = fst r :: w1 :: w2 :: w3 :: rest /\ pyfloat w1 = Ok x1 /\ pyfloat w2 = Ok x2 /\ pyfloat w3 = Ok x3 /\ snd r = [x1; x2; x3].
(** The last row for a name. *)
Definition last_given (rows : list (text * list R)) (n : text) (c : list R) : Prop :=
  exists i, nth_error rows i = Some (n, c) /\ forall j c', i < j -> nth_error rows j <> Some (n, c').

(** ** Sensor data files *)
(** The file named in a call exists and gives [d]. *)
Definition gives {D} (call : disk (D := D) * (string * string)) (d : D) : Prop := fst call (fst (snd call)) (snd (snd call)) = Some d.
Definition call_name {D} (call : disk (D := D) * (string * string)) : string := snd (snd call).
