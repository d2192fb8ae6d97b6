(** * Base: Python exceptions as values, Python lists / numpy 1-D arrays as lists.

    These are the semantics ASSUMED of the Python 2.7 / numpy runtime; they do not
    model a line of /repo, but every model file is written in terms of them. *)
From Coq Require Export String Ascii.
From Coq Require Export List Arith ZArith Lia Bool.
Export ListNotations.
Open Scope list_scope.

(** Python exception classes that the modelled code can raise. *)
Inductive exc : Set :=
| ValueError | IndexError | KeyError | AttributeError | TypeError
| NameError | UnboundLocalError | IOError | ZeroDivisionError | OtherError.

(** Result of a Python call: a value, or an exception that propagates. *)
Inductive res (A : Type) : Type :=
| Ok (a : A)
| Raise (e : exc).
Arguments Ok {A} a.
Arguments Raise {A} e.

Definition bind {A B} (m : res A) (f : A -> res B) : res B :=
  match m with Ok a => f a | Raise e => Raise e end.
Notation "'do' x <- m ;; k" := (bind m (fun x => k))
  (at level 200, x pattern, m at level 100, k at level 200, right associativity).

(** A [for] loop with loop-carried state [s]; an exception leaves the loop. *)
Fixpoint foldM {S A} (f : S -> A -> res S) (l : list A) (s : S) : res S :=
  match l with
  | [] => Ok s
  | a :: l' => match f s a with Ok s' => foldM f l' s' | Raise e => Raise e end
  end.

(** A list comprehension whose body may raise. *)
Fixpoint mapM {A B} (f : A -> res B) (l : list A) : res (list B) :=
  match l with
  | [] => Ok []
  | a :: l' => match f a with
               | Raise e => Raise e
               | Ok b => match mapM f l' with Ok bs => Ok (b :: bs) | Raise e => Raise e end
               end
  end.

(** [enumerate l] *)
Definition enumerate {A} (l : list A) : list (nat * A) := combine (seq 0 (length l)) l.

(** [l[i]] for a non-negative index: IndexError when out of range. *)
Definition get {A} (l : list A) (i : nat) : res A :=
  match nth_error l i with Some a => Ok a | None => Raise IndexError end.

(** [l[i]] for a Python integer index, negative indices counting from the end. *)
Definition pyget {A} (l : list A) (i : Z) : res A :=
  if (0 <=? i)%Z then get l (Z.to_nat i)
  else if (0 <=? Z.of_nat (length l) + i)%Z then get l (Z.to_nat (Z.of_nat (length l) + i))
  else Raise IndexError.

(** [l[s:e]] for 0 <= s, 0 <= e. *)
Definition slice {A} (s e : nat) (l : list A) : list A := firstn (e - s) (skipn s l).

(** [l[s:e] = v] for a numpy array [l]: the right-hand side must have the length of the
    slice, or length 1 (broadcast); otherwise numpy raises ValueError. *)
Definition assign {A} (s e : nat) (v : list A) (l : list A) : res (list A) :=
  let n := length (slice s e l) in
  if length v =? n then Ok (firstn s l ++ v ++ skipn (s + n) l)
  else match v with
       | [x] => Ok (firstn s l ++ repeat x n ++ skipn (s + n) l)
       | _ => Raise ValueError
       end.

(** [l[i] = v] for an in-range non-negative index. *)
Fixpoint upd {A} (i : nat) (v : A) (l : list A) : list A :=
  match l, i with
  | [], _ => []
  | _ :: l', 0 => v :: l'
  | a :: l', S i' => a :: upd i' v l'
  end.

Definition setitem {A} (i : nat) (v : A) (l : list A) : res (list A) :=
  if i <? length l then Ok (upd i v l) else Raise IndexError.

(** [l.index(x)]: position of the first element equal to x, ValueError if there is none. *)
Fixpoint index_from {A} (eqb : A -> A -> bool) (x : A) (l : list A) (i : nat) : res nat :=
  match l with
  | [] => Raise ValueError
  | a :: l' => if eqb a x then Ok i else index_from eqb x l' (S i)
  end.
Definition index {A} (eqb : A -> A -> bool) (x : A) (l : list A) : res nat :=
  index_from eqb x l 0.

(** [x in l] *)
Definition mem {A} (eqb : A -> A -> bool) (x : A) (l : list A) : bool :=
  existsb (fun a => eqb a x) l.

(** Running totals [t, t+n0, t+n0+n1, ...]. *)
Fixpoint cumul (t : nat) (ns : list nat) : list nat :=
  match ns with
  | [] => [t]
  | n :: ns' => t :: cumul (t + n) ns'
  end.

(** [max(l)] for a list of non-negative integers; ValueError on the empty list. *)
Definition pymax (l : list nat) : res nat :=
  match l with [] => Raise ValueError | _ => Ok (list_max l) end.

(** Equality tests on the tuples used as keys. *)
Definition eqb3 (x y : nat * nat * nat) : bool :=
  let '(a, b, c) := x in let '(a', b', c') := y in
  (a =? a') && (b =? b') && (c =? c').
Definition eqb2 (x y : nat * nat) : bool :=
  (fst x =? fst y) && (snd x =? snd y).

(** Last element of a non-empty list, [l[-1]]. *)
Definition pylast {A} (l : list A) : res A := pyget l (-1).
