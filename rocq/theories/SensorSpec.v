(** * Specification vocabulary for C09. *)
From Verif Require Import Base.

(** The values whose label is [s], in order. *)
Definition labelled {B} (s : string) (labels : list string) (vals : list B) : list B :=
  map snd (filter (fun p => String.eqb (fst p) s) (combine labels vals)).
