(** * Model of the batch workflow.

    Files: /repo/harmonisation_eiv/lsf/fullEIVsolverLSF.sh, fullEIVsolverLSF_MCtrials.sh (shell scripts
    that submit jobs to a queueing system and poll the file system), together with what the submitted
    jobs do to the files the scripts look at
    (/repo/harmonisation_eiv/harmonisation/tools/fullEIVsolver_covariance_analytical.py:77-91,
    HarmonisationOp.py:371-386). *)
From Coq Require Import Reals.
From Verif Require Import Base ReaderModel HRModel OpModel.
Open Scope nat_scope.

(** ** The jobs *)
(** fullEIVsolverLSF.sh:85, 99, 114, 152, 175: preconditioner, transformation, solver, one element of the
    covariance matrix, combination of the elements. *)
Inductive job := JPC | JTransform | JSolver | JElement (i j : nat) | JCombine.
(** [Writing]: an element job whose savetxt has opened (so created or emptied) its file but not yet written
    the number. *)
Inductive stage := Queued | Writing.
Definition job_eqb (a b : job) : bool :=
  match a, b with
  | JPC, JPC | JTransform, JTransform | JSolver, JSolver | JCombine, JCombine => true
  | JElement i j, JElement k l => (i =? k) && (j =? l)
  | _, _ => false end.

(** Where the script is.  (The text and log files of the scripts, their names, queue options and echo are
    left out.) *)
Inductive phase :=
  | Start                                        (** lines 60-104: submit preconditioner and transformation *)
  | WaitFirst                                    (** lines 117-130 *)
  | WaitSolver                                   (** lines 134-144 *)
  | SubmitElements (n : nat) (todo : list (nat * nat))   (** lines 145-155: the two for loops *)
  | WaitElements (n : nat)                       (** lines 165-183 *)
  | WaitCombine                                  (** lines 186-198 *)
  | Finished                                     (** line 191: plotting starts *)
  | Broken.                                      (** N_a could not be determined (no output file): shell errors *)
(** [w_logs]: log files that exist (written by the queueing system when the job has ended, also if it failed).
    [w_temp]: the files of the temp directory that match parameter_covariance*.dat, with the number they
    contain (None: empty).  [w_out]: the output file: number of parameters, covariance matrix if one was
    written by the combination. *)
Record world := mkWorld { w_phase : phase; w_logs : list job; w_queue : list (job * stage);
  w_temp : list (string * option R); w_out : option (nat * option (list (list R))) }.
Definition ended (j : job) (w : world) : bool := existsb (job_eqb j) (w_logs w).
Definition submit (ph : phase) (js : list job) (w : world) : world :=
  mkWorld ph (w_logs w) (w_queue w ++ map (fun j => (j, Queued)) js) (w_temp w) (w_out w).
(** The pairs in the order of the two for loops, lines 145-146. *)
Definition pairs (n : nat) : list (nat * nat) := flat_map (fun i => map (fun j => (i, j)) (seq 0 n)) (seq 0 n).

(** One step of the script: a submission, or one test of the current while loop (sleep in between). *)
Definition script (w : world) : world :=
  match w_phase w with
  | Start => submit WaitFirst [JPC; JTransform] w
  | WaitFirst => if ended JPC w && ended JTransform w then submit WaitSolver [JSolver] w else w
  | WaitSolver =>
      if ended JSolver w then
        match w_out w with
        | Some (n, _) => submit (SubmitElements n (pairs n)) [] w
        | None => submit Broken [] w
        end
      else w
  | SubmitElements n [] => submit (WaitElements n) [] w
  | SubmitElements n ((i, j) :: todo) => submit (SubmitElements n todo) [JElement i j] w
  | WaitElements n => if length (w_temp w) =? n * n then submit WaitCombine [JCombine] w else w
  | WaitCombine => if ended JCombine w then submit Finished [] w else w
  | Finished | Broken => w
  end.

(** Creating or overwriting a file. *)
Fixpoint put (name : string) (c : option R) (t : list (string * option R)) : list (string * option R) :=
  match t with
  | [] => [(name, c)]
  | (m, d) :: t' => if String.eqb m name then (m, c) :: t' else (m, d) :: put name c t'
  end.
(** loadtxt of all files; an empty file gives an empty array, which cannot be assigned to an element of the
    matrix (ValueError). *)
Definition load_all (t : list (string * option R)) : res (list (string * R)) :=
  mapM (fun f => match snd f with Some v => Ok (fst f, v) | None => Raise ValueError end) t.
(** fullEIVsolver_covariance_analytical.py:85-91: the combination; the output file keeps its contents if
    anything fails.  (Reading the files is taken to be one step; the matrix must have the size of the
    variable.) *)
Definition combination (w : world) : option (nat * option (list (list R))) :=
  match w_out w with
  | None => None
  | Some (n, c) =>
      match (do files <- load_all (w_temp w);; combine_elements files) with
      | Ok m => if length m =? n then Some (n, Some m) else Some (n, c)
      | Raise _ => Some (n, c)
      end
  end.

Section Jobs.
(** What the programs compute: [na]: the number of parameters in the output file of the solver job (None: it
    fails); [elem i j]: the element computed by job (i, j) (None: it fails).  Whether the first two jobs
    fail makes no difference to the script; their result files are not modelled. *)
Variables (na : option nat) (elem : nat -> nat -> option R).

Definition remove_at {A} (k : nat) (l : list A) : list A := firstn k l ++ skipn (S k) l.
Definition finish (k : nat) (j : job) (t : list (string * option R)) (o : option (nat * option (list (list R)))) (w : world) : world :=
  mkWorld (w_phase w) (w_logs w ++ [j]) (remove_at k (w_queue w)) t o.
(** One step of the k-th job of the queue (the queueing system may take them in any order). *)
Definition work (k : nat) (w : world) : world :=
  match nth_error (w_queue w) k with
  | None => w
  | Some (JPC, _) => finish k JPC (w_temp w) (w_out w) w
  | Some (JTransform, _) => finish k JTransform (w_temp w) (w_out w) w
  | Some (JSolver, _) =>
      finish k JSolver (w_temp w) (match na with Some n => Some (n, None) | None => w_out w end) w
  | Some (JElement i j, Queued) =>
      match elem i j with
      | None => finish k (JElement i j) (w_temp w) (w_out w) w
      | Some _ => mkWorld (w_phase w) (w_logs w) (upd k (JElement i j, Writing) (w_queue w))
                          (put (element_name i j) None (w_temp w)) (w_out w)
      end
  | Some (JElement i j, Writing) => finish k (JElement i j) (put (element_name i j) (elem i j) (w_temp w)) (w_out w) w
  | Some (JCombine, _) => finish k JCombine (w_temp w) (combination w) w
  end.

(** A schedule: which of the script and the jobs makes the next step. *)
Inductive event := Script | Job (k : nat).
Definition step (w : world) (e : event) : world := match e with Script => script w | Job k => work k w end.
Definition run (es : list event) (w : world) : world := fold_left step es w.
End Jobs.

(** ** fullEIVsolverLSF_MCtrials.sh *)
(** The shell's [ words -eq n ]: with exactly one word that is an integer the comparison, otherwise an error
    message and status 2, which counts as false.  (Words without shell operators.) *)
Definition digit (c : ascii) : bool := let n := nat_of_ascii c in (48 <=? n) && (n <=? 57).
Fixpoint to_number (acc : nat) (s : list ascii) : option nat :=
  match s with
  | [] => Some acc
  | c :: s' => if digit c then to_number (10 * acc + (nat_of_ascii c - 48)) s' else None
  end.
Definition test_eq (words : list string) (n : nat) : bool :=
  match words with
  | [w] => match tx w with [] => false | s => match to_number 0 s with Some k => k =? n | None => false end end
  | _ => false
  end.
(** [m_input], [m_output]: the regular files of the two directories; [m_trials]: the paths printed by
    find, line 133 (files of the MC directory). *)
Record mcdirs := mkMC { m_input : list string; m_output : list string; m_trials : list string }.
Inductive mcphase := MCInitial | MCTrials | MCDone.
(** Lines 86-145: one test of the current while loop: trials are submitted if there is one output file more
    than input files; the outputs are combined if the test of line 133 succeeds. *)
Definition mcscript (ntrials : nat) (ph : mcphase) (d : mcdirs) : mcphase :=
  match ph with
  | MCInitial => if length (m_output d) =? length (m_input d) + 1 then MCTrials else MCInitial
  | MCTrials => if test_eq (m_trials d) ntrials then MCDone else MCTrials
  | MCDone => MCDone
  end.
