(** * The in-memory MatchUp object used by the processors.
    /repo/harmonisation_eiv/harmonisation/core/matchup/matchupIO/MatchUp.py:129-160.

    Numbers are elements of [V], datetime objects of [T].  [None] models the Python None.
    The dictionaries idx and _original_idx are modelled by [idx_t] (the layout entries) plus the
    entry "parameter_sensor" ([m_ps], [m_ops]; None: key absent); [m_oidx = None] is the initial
    empty dictionary. Sensor models and constants are attached in the files that use them. *)
From Verif Require Import Base ReaderModel UncModel.

Section Mu.
Variables V T : Type.
Record mobj := mkMobj {
  m_idx : idx_t;
  m_ps : option (list string);
  m_oidx : option idx_t;
  m_ops : option (list string);
  m_values : list V;
  m_ks : list V;
  m_unc : list (unc V);
  m_unck : list (list V);          (* uR of the type-1 uncertainty of each series *)
  m_ws : list (csr V);
  m_us : list (list V);
  m_time1 : option (list T); m_time2 : option (list T);
  m_across1 : option (list V); m_across2 : option (list V);
  m_along1 : option (list V); m_along2 : option (list V);
  m_add : option (list string * list (list V))
}.

(** Fancy indexing [arr[list]]. *)
Definition take {A} (arr : list A) (is : list nat) : res (list A) := mapM (get arr) is.

(** [arr = zeros(total)], then for each (i, x): [arr[idx[i]:idx[i+1]] = F (i, x)] - the shape of
    all block-filling loops of the processors. *)
Definition fill {A X} (z : A) (ix : list nat) (F : nat * X -> res (list A)) (xs : list X) : res (list A) :=
  do total <- pylast ix;;
  foldM (fun arr p =>
    do s <- get ix (fst p);;
    do e <- get ix (fst p + 1);;
    do v <- F p;;
    assign s e v arr) (enumerate xs) (repeat z total).
End Mu.
