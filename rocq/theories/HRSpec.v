(** * Specification vocabulary for the result files, C32-C34, C61-C63. *)
From Coq Require Import Permutation.
From Verif Require Import Base ReaderModel HRModel SampleSpec.

(** ** Regular expressions (the part of Python's [re] that is used) *)
Inductive re := Chr (c : ascii) | Dot | Seq (a b : re) | Star (a : re) | Ahead (a : re) | NotAhead (a : re).
Inductive star {A} (R : A -> A -> Prop) : A -> A -> Prop :=
| star0 x : star R x x
| starS x y z : R x y -> star R y z -> star R x z.
(** [matches r s s']: [r] matches the beginning of [s] and [s'] is left. *)
Fixpoint matches (r : re) (s s' : text) : Prop :=
  match r with
  | Chr c => s = c :: s'
  | Dot => exists c, c <> newline /\ s = c :: s'
  | Seq a b => exists t, matches a s t /\ matches b t s'
  | Star a => star (matches a) s s'
  | Ahead a => s' = s /\ exists t, matches a s t
  | NotAhead a => s' = s /\ ~ exists t, matches a s t
  end.
(** [re.match]: matches at the beginning. *)
Definition re_match (r : re) (name : string) : Prop := exists s', matches r (tx name) s'.
Definition any : re := Star Dot.
(** harm(?:(?!.{star}res.{star}).{star})\.nc, {star} standing for the asterisk. *)
Definition ch (n : nat) : re := Chr (ascii_of_nat n).
Definition harm_ : re -> re := fun r => Seq (Chr "h") (Seq (Chr "a") (Seq (Chr "r") (Seq (Chr "m") r))).
Definition res_ : re -> re := fun r => Seq (Chr "r") (Seq (Chr "e") (Seq (Chr "s") r)).
Definition dot_nc : re := Seq (Chr ".") (Seq (Chr "n") (Chr "c")).
Definition output_rule : re := harm_ (Seq (Seq (NotAhead (Seq any (res_ any))) any) dot_nc).
(** harm(?:(?=.{star}res.{star}).{star})\.nc *)
Definition residual_rule : re := harm_ (Seq (Seq (Ahead (Seq any (res_ any))) any) dot_nc).

(** ** Names *)
Definition has_sub (sub s : string) : Prop := exists a b, s = (a ++ sub ++ b)%string.
Definition one_line (s : string) : Prop := ~ In newline (tx s).
(** A name for results: harm...nc without "res" in it. *)
Definition harm_name (out : string) : Prop :=
  one_line out /\ ~ has_sub "res" out /\ exists mid, out = ("harm" ++ mid ++ ".nc")%string.

(** A label that fits and has no blanks around it. *)
Definition blank (c : ascii) : Prop := In (nat_of_ascii c) [9; 10; 11; 12; 13; 32].
Definition clean_label (l : string) : Prop :=
  String.length l <= 80 /\ ~ In (ascii_of_nat 0) (tx l) /\
  (forall c s, tx l = c :: s -> ~ blank c) /\ (forall c s, tx l = s ++ [c] -> ~ blank c).

(** ** Results *)
Section Spec.
Context {V A : Type}.

(** Names of the sensors of series [i]. *)
Definition series_names (ix : ridx) (i : nat) (s1 s2 : string) : Prop :=
  exists p, nth_error (rx_Im ix) i = Some p /\ nth_error (rx_sensors ix) (fst p) = Some s1 /\ nth_error (rx_sensors ix) (snd p) = Some s2.

(** A consistent result: sizes fit. *)
Record wf_result (r : result V A) : Prop := {
  wr_cNm : rx_cNm (h_idx V A r) = cumul 0 (rx_Nm (h_idx V A r));
  wr_Im : length (rx_Im (h_idx V A r)) = length (rx_Nm (h_idx V A r));
  wr_sensors : forall i p, nth_error (rx_Im (h_idx V A r)) i = Some p ->
     fst p < length (rx_sensors (h_idx V A r)) /\ snd p < length (rx_sensors (h_idx V A r));
  wr_ks : length (h_ks V A r) = list_sum (rx_Nm (h_idx V A r));
  wr_blocks : rx_blocks (h_idx V A r) <> None
}.
(** No two series have the same pair of sensors (more precisely: the same joined name). *)
Definition distinct_pairs (r : result V A) : Prop :=
  forall i j s1 s2 t1 t2, series_names (h_idx V A r) i s1 s2 -> series_names (h_idx V A r) j t1 t2 ->
    (s1 ++ "_" ++ s2 = t1 ++ "_" ++ t2)%string -> i = j.
(** Additional attributes do not use the names of the required ones. *)
Definition free_attrs (l : list (string * A)) : Prop :=
  forall k v, In (k, v) l -> ~ In k ["cost"; "cost_dof"; "cost_p_value"]%string.
End Spec.

(** A directory without result files. *)
Definition no_results {V A} (d : dir V A) : Prop :=
  forall name f, In (name, f) d -> ~ re_match output_rule name /\ ~ re_match residual_rule name.
(** The same result: parameters, labels, covariance, statistics; the series may be in another order
    ([order] gives the series of [r] at each position of [r']), their names, numbers of match-ups and
    K residuals belong together as before. *)
Definition same_results {V A} (r r' : result V A) (order : list nat) : Prop :=
  h_par V A r' = h_par V A r /\ h_sens V A r' = h_sens V A r /\ h_cov V A r' = h_cov V A r /\
  h_cost V A r' = h_cost V A r /\ h_dof V A r' = h_dof V A r /\ h_p V A r' = h_p V A r /\
  Permutation order (seq 0 (length (rx_Nm (h_idx V A r)))) /\
  length (rx_Nm (h_idx V A r')) = length order /\ length (rx_Im (h_idx V A r')) = length order /\
  forall j i, nth_error order j = Some i ->
    nth_error (rx_Nm (h_idx V A r')) j = nth_error (rx_Nm (h_idx V A r)) i /\
    (forall s1 s2, series_names (h_idx V A r) i s1 s2 -> series_names (h_idx V A r') j s1 s2) /\
    (forall k, is_block (rx_cNm (h_idx V A r)) (h_ks V A r) i k -> is_block (rx_cNm (h_idx V A r')) (h_ks V A r') j k).
