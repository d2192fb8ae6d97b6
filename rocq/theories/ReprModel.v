(** Model of MatchUp.__repr__ (core/matchup/matchupIO/MatchUp.py:324-409): the text shown for a
    match-up dataset.  No proofs. *)
From Verif Require Import Base ReaderModel UncModel.
From Coq Require Import Ascii.
Open Scope string_scope.
Open Scope nat_scope.
Open Scope list_scope.

(** The newline character. *)
Definition nl : string := String (ascii_of_nat 10) EmptyString.

Section Repr.
Variables V T : Type.

(** A part of the text: a literal string, str() of an integer, "{:.2f}".format of a float, str() of
    a list of strings, or a row of hyphens as long as some text (the underline of a title).
    The text is the concatenation of its parts; how numbers are formatted is not modelled. *)
Inductive piece :=
| Tx (s : string)
| Nu (n : nat)
| Fl (v : V)
| Nl (l : list string)
| Dashes (l : list piece).

(** MatchUp.py:346-351: the match-ups shown. *)
Definition shortened (m : nat) : bool := negb (m <? 10).
Definition n_mu_sel (m : nat) : list Z :=
  if shortened m then [0; 1; 2; 3; -1]%Z else map Z.of_nat (seq 0 m).

(** MatchUp.py:356-374 and 389-402: one line per selected match-up; in the shortened form the last
    but one is replaced by "...". *)
Definition rows (m : nat) (line : Z -> res (list piece)) : res (list piece) :=
  do ls <- mapM (fun p : nat * Z =>
      if shortened m && (fst p =? length (n_mu_sel m) - 2) then Ok [Tx ("..." ++ nl)%string]
      else line (snd p)) (enumerate (n_mu_sel m));;
  Ok (concat ls).

(** MatchUp.py:363-367 and 369-374 (the same text): the sensor's values of one match-up. *)
Definition state_line (mu : matchup V T) (n_mu n_sensor : nat) (i : Z) : res (list piece) :=
  do m <- get (sensor_ms (mu_idx V T mu)) n_sensor;;
  do cs <- mapM (fun n_cov =>
      do s <- get (sensors (mu_idx V T mu)) n_sensor;;
      do v <- getVariableData V T mu (n_cov + 1) s (Some (n_mu + 1));;
      do x <- pyget v i;;
      Ok [Fl x; Tx ", "]) (seq 0 m);;
  Ok ([Tx "["] ++ concat cs ++ [Tx ("]" ++ nl)%string]).

(** indices.index(...), MatchUp.py:379, 382. *)
Definition trip_eqb (a b : nat * nat * nat) : bool :=
  let '(x, y, z) := a in let '(x', y', z') := b in (x =? x') && (y =? y') && (z =? z').

(** MatchUp.py:376-384.  An entry None of the list (no object stored by the reader) has no
    attribute typeID. *)
Definition unc_line (mu : matchup V T) (uncs : list (option (unc V))) (n_mu n_sensor : nat)
  : res (list piece) :=
  do s <- get (sensors (mu_idx V T mu)) n_sensor;;
  do m <- get (sensor_ms (mu_idx V T mu)) n_sensor;;
  do cs <- mapM (fun n_cov =>
      do im <- index trip_eqb (n_sensor, n_mu + 1, n_cov + 1) (get_block_idxs (mu_idx V T mu));;
      do u <- get uncs im;;
      match u with
      | Some u => Ok [Nu (typeID V (u_kind V u)); Tx ", "]
      | None => Raise AttributeError
      end) (seq 0 m);;
  Ok ([Tx nl; Tx s; Tx " Sensor State Data Uncertainty Types: "; Tx "["] ++ concat cs
      ++ [Tx ("]" ++ nl)%string]).

(** MatchUp.py:353-384: the part of one sensor. *)
Definition sensor_part (mu : matchup V T) (uncs : option (list (option (unc V))))
           (n_mu Nm_mu n_sensor : nat) : res (list piece) :=
  do s <- get (sensors (mu_idx V T mu)) n_sensor;;
  do ls <- rows Nm_mu (state_line mu n_mu n_sensor);;
  do us <- match uncs with
           | Some l => unc_line mu l n_mu n_sensor
           | None => Ok []
           end;;
  Ok ([Tx (nl ++ "- ")%string; Tx s; Tx (" Sensor State Data " ++ nl)%string] ++ ls ++ us).

(** MatchUp.py:386-402: the K values; [self.ks[i_start + n_mu_i]] with n_mu_i = -1 for the last of a
    shortened list. *)
Definition k_line (mu : matchup V T) (i_start : nat) (i : Z) : res (list piece) :=
  do k <- pyget (mu_ks V T mu) (Z.of_nat i_start + i)%Z;;
  Ok [Tx "["; Fl k; Tx ", "; Tx ("]" ++ nl)%string].

(** MatchUp.py:335-407: one match-up series.  [unck]: the typeID of each K uncertainty. *)
Definition series_part (mu : matchup V T) (uncs : option (list (option (unc V))))
           (unck : option (list nat)) (p : nat * (nat * nat)) : res (list piece) :=
  let n_mu := fst p in let ix := mu_idx V T mu in
  do Nm_mu <- get (Nm ix) n_mu;;
  let title := [Tx (nl ++ "Match-up Series ")%string; Nu (n_mu + 1)] in
  do s1 <- get (sensors ix) (fst (snd p));;
  do s2 <- get (sensors ix) (snd (snd p));;
  do p1 <- sensor_part mu uncs n_mu Nm_mu (fst (snd p));;
  do p2 <- sensor_part mu uncs n_mu Nm_mu (snd (snd p));;
  do i_start <- get (cNm ix) n_mu;;
  do i_end <- get (cNm ix) (n_mu + 1);;
  do ks <- rows Nm_mu (k_line mu i_start);;
  do uk <- match unck with
           | Some l => do t <- get l n_mu;; Ok [Tx (nl ++ "Series K Uncertainty Type: ")%string; Nu t]
           | None => Ok []
           end;;
  Ok (title ++ [Tx nl; Dashes title; Tx nl;
      Tx "Series Sensors: "; Tx s1; Tx ", "; Tx s2; Tx nl;
      Tx "Series Match-ups: "; Nu Nm_mu; Tx nl] ++ p1 ++ p2
      ++ [Tx (nl ++ "- Series K" ++ nl)%string] ++ ks ++ uk ++ [Tx nl]).

(** MatchUp.py:324-409.  [uncs], [unck]: the attributes unc and unck (None when the object was opened
    without uncertainties). *)
Definition repr (mu : matchup V T) (uncs : option (list (option (unc V)))) (unck : option (list nat))
  : res (list piece) :=
  let ix := mu_idx V T mu in
  do total <- pyget (cNm ix) (-1)%Z;;
  do values <- pyget (idxs ix) (-1)%Z;;
  do series <- mapM (series_part mu uncs unck) (enumerate (Im ix));;
  Ok ([Tx ("Match-Up Dataset" ++ nl)%string; Tx ("=================" ++ nl)%string;
       Tx "Sensors - "; Nl (sensors ix);
       Tx (nl ++ "Total Match-Ups - ")%string; Nu total;
       Tx (nl ++ "Match-Up Series - ")%string; Nu (length (cNm ix));
       Tx (nl ++ "Total Match-Ups - ")%string; Nu total;
       Tx (nl ++ "Total Sensor State Data Values - ")%string; Nu values; Tx nl] ++ concat series).

End Repr.
Arguments Tx {V} _.
Arguments Nu {V} _.
Arguments Fl {V} _.
Arguments Nl {V} _.
Arguments Dashes {V} _.
