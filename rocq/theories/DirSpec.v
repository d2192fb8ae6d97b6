(** * Which files should be read and written, independently of the model. *)
From Coq Require Import String Permutation Sorted.
From Verif Require Import Base DirModel.
Open Scope nat_scope.

(** A file name ending in .nc *)
Definition nc_name (f : string) : Prop := exists stem, f = (stem ++ ".nc")%string.
(** Lexicographic order of strings, by the characters' codes. *)
Inductive lex : string -> string -> Prop :=
| lex_nil s : lex EmptyString s
| lex_lt a b s t : Ascii.nat_of_ascii a < Ascii.nat_of_ascii b -> lex (String a s) (String b t)
| lex_eq a s t : lex s t -> lex (String a s) (String a t).
(** [ps] are the paths of the .nc files of a directory, in order, each once. *)
Definition nc_files (d : string) (names ps : list string) : Prop :=
  StronglySorted lex ps /\ Permutation ps (map (fun f => (d ++ "/" ++ f)%string) (filter is_nc names)) /\ forall f, is_nc f = true <-> nc_name f.
