(** Specification of the text shown for a match-up dataset (C157-C159), in terms of the files only. *)
From Verif Require Import Base ReaderModel ReaderSpec UncModel UncSpec ReprModel.
Open Scope string_scope.
Open Scope nat_scope.
Open Scope list_scope.

(** The names, each once, in the order in which they are first met. *)
Fixpoint first_met (l : list string) : list string :=
  match l with
  | [] => []
  | s :: l' => s :: filter (fun t => negb (String.eqb t s)) (first_met l')
  end.

Section Spec.
Context {V : Type}.

(** One line of numbers. *)
Definition line (vs : list V) : list (piece V) :=
  [Tx "["] ++ concat (map (fun v => [Fl v; Tx ", "]) vs) ++ [Tx ("]" ++ nl)%string].

(** Fewer than ten lines are all shown; otherwise the first three, "..." and [final]. *)
Definition abridged (ls : list (list V)) (final : list V) : list (piece V) :=
  if length ls <? 10 then concat (map line ls)
  else concat (map line (firstn 3 ls)) ++ [Tx ("..." ++ nl)%string] ++ line final.

(** What is shown of one sensor of a file: its values, one line per match-up, and, when the
    uncertainties were opened, the uncertainty type of each of its covariates. *)
Definition sensor_text (f32 : V -> V) (with_unc : bool) (f : ufile V) (sd : side) : list (piece V) :=
  let lines := map (map f32) (sX (uf_d V f) sd) in
  [Tx (nl ++ "- ")%string; Tx (sname (uf_d V f) sd); Tx (" Sensor State Data " ++ nl)%string]
  ++ abridged lines (last lines [])
  ++ (if with_unc then
        [Tx nl; Tx (sname (uf_d V f) sd); Tx " Sensor State Data Uncertainty Types: "; Tx "["]
        ++ concat (map (fun t => [Nu t; Tx ", "]) (stypes (uf_u V f) sd)) ++ [Tx ("]" ++ nl)%string]
      else []).

(** What is shown of file number [n] (from 1); [k]: the K value shown as the last one when only
    some are shown. *)
Definition series_text (f32 : V -> V) (with_unc : bool) (n : nat) (f : ufile V) (k : V)
  : list (piece V) :=
  let d := uf_d V f in
  let title := [Tx (nl ++ "Match-up Series ")%string; Nu n] in
  title ++ [Tx nl; Dashes title; Tx nl;
    Tx "Series Sensors: "; Tx (d_s1 V d); Tx ", "; Tx (d_s2 V d); Tx nl;
    Tx "Series Match-ups: "; Nu (d_M V d); Tx nl]
  ++ sensor_text f32 with_unc f Side1 ++ sensor_text f32 with_unc f Side2
  ++ [Tx (nl ++ "- Series K" ++ nl)%string]
  ++ abridged (map (fun x => [x]) (d_K V d)) [k]
  ++ (if with_unc then [Tx (nl ++ "Series K Uncertainty Type: ")%string; Nu 1] else [])
  ++ [Tx nl].

(** The whole text, for a shown number of series and shown last K values. *)
Definition text (f32 : V -> V) (with_unc : bool) (fs : list (ufile V)) (series : nat)
           (last_k : nat -> ufile V -> V) : list (piece V) :=
  let ds := map (uf_d V) fs in
  let total := list_sum (map (d_M V) ds) in
  [Tx ("Match-Up Dataset" ++ nl)%string; Tx ("=================" ++ nl)%string;
   Tx "Sensors - "; Nl (first_met (concat (map (fun d => [d_s1 V d; d_s2 V d]) ds)));
   Tx (nl ++ "Total Match-Ups - ")%string; Nu total;
   Tx (nl ++ "Match-Up Series - ")%string; Nu series;
   Tx (nl ++ "Total Match-Ups - ")%string; Nu total;
   Tx (nl ++ "Total Sensor State Data Values - ")%string;
   Nu (list_sum (map (fun d => d_M V d * (d_m1 V d + d_m2 V d)) ds)); Tx nl]
  ++ concat (map (fun p => series_text f32 with_unc (fst p + 1) (snd p) (last_k (fst p + 1) (snd p)))
                 (enumerate fs)).

(** The K value of the last match-up of a file. *)
Definition own_last (z : V) (n : nat) (f : ufile V) : V := last (d_K V (uf_d V f)) z.

(** The K value of the match-up before the first match-up of file [n] (of the last match-up of all
    for the first file). *)
Definition preceding (z : V) (fs : list (ufile V)) (n : nat) (f : ufile V) : V :=
  let ks := concat (map (fun f => d_K V (uf_d V f)) fs) in
  let b := before (map (uf_d V) fs) n in
  if b =? 0 then last ks z else nth (b - 1) ks z.

(** The files read with their uncertainties ([with_unc]) or without. *)
Definition usable (with_unc : bool) (fs : list (ufile V)) : Prop :=
  good_files (map (uf_d V) fs) /\ (with_unc = true -> forall f, In f fs -> valid_file f).

(** The list of uncertainties the object holds: None, or, for every block, one with the type declared
    in the file. *)
Definition uncertainties (zeroV : V) (ord : list nat -> list nat) (with_unc : bool)
           (fs : list (ufile V)) (ix : idx_t) : res (option (list (option (unc V)))) :=
  if with_unc then do r <- open_unc V zeroV ord fs ix;; Ok (Some (fst (fst r))) else Ok None.

(** Type 1 for every file (Uncertainty(1, ...), MatchUpReader.py:473-474). *)
Definition k_types (with_unc : bool) (fs : list (ufile V)) : option (list nat) :=
  if with_unc then Some (map (fun _ => 1) fs) else None.
End Spec.
