(** * Which files are read, and which are written.

    Files: harmonisation/core/matchup/matchupIO/MatchUpReader.py:155-189 (open_nc_datasets) and
    /repo/tools/simulation_set_true_K.py (the same as /repo/tools/simulated_AVHRR.py but for a path). *)
From Coq Require Import String.
From Verif Require Import Base.
Open Scope nat_scope.

(** What is at a path: nothing, a file, or a directory with the names [listdir] returns, in that (arbitrary) order. *)
Inductive node := Absent | File | Dir (names : list string).
Definition is_file (n : node) : bool := match n with File => true | _ => false end.
Definition is_dir (n : node) : bool := match n with Dir _ => true | _ => false end.
(** [listdir] *)
Definition listdir (n : node) : res (list string) := match n with Dir l => Ok l | _ => Raise OtherError end.

(** [os.path.join], for a directory without a final separator and a name that is no absolute path. *)
Definition pjoin (d f : string) : string := d ++ "/" ++ f.
(** [fname[-3:] == ".nc"] *)
Definition is_nc (f : string) : bool := String.eqb (String.substring (String.length f - 3) 3 f) ".nc".
(** [sorted] on strings (bytes, in Python 2); the result does not depend on the algorithm. *)
Fixpoint insert (x : string) (l : list string) : list string :=
  match l with [] => [x] | y :: l' => if String.leb x y then x :: l else y :: insert x l' end.
Fixpoint sorted (l : list string) : list string := match l with [] => [] | x :: l' => insert x (sorted l') end.

(** The argument paths_matchup: a string or a list of strings. *)
Inductive paths := PStr (s : string) | PList (l : list string).
(** MatchUpReader.py:168-187: the paths opened (189), in this order; [None] when the function returns None.
    The loop variable of 184-185 accumulates; [listdir] cannot fail as the path was just seen to be a directory. *)
Definition open_nc_datasets (fs : string -> node) (p : paths) : res (option (list string)) :=
  match p with
  | PStr s =>
      if is_dir (fs s) then do l <- listdir (fs s);; Ok (Some (sorted (map (pjoin s) (filter is_nc l))))
      else if is_file (fs s) then Ok (Some [s]) else Ok None
  | PList l =>
      if forallb (fun q => is_file (fs q)) l then Ok (Some l)
      else if forallb (fun q => is_dir (fs q)) l then
        do r <- foldM (fun acc d => do ns <- listdir (fs d);; Ok (acc ++ map (pjoin d) ns)) l [];; Ok (Some r)
      else Ok None
  end.

Section TrueK.
(** The rest of a match-up file, and a number of the K variable. *)
Variables X K : Type.
(** A match-up file: its K variable and everything else. *)
Record mfile := mkMfile { f_K : list K; f_rest : X }.
(** A directory of files: names and contents in the order of [listdir]; subdirectories are not modelled. *)
Definition dir := list (string * mfile).
Fixpoint find_file (name : string) (d : dir) : option mfile :=
  match d with [] => None | (n, f) :: d' => if String.eqb n name then Some f else find_file name d' end.
Fixpoint put_file (name : string) (f : mfile) (d : dir) : dir :=
  match d with [] => [(name, f)] | (n, g) :: d' => if String.eqb n name then (n, f) :: d' else (n, g) :: put_file name f d' end.

(** [MatchUp(directory, ...)]: the match-up series, from the .nc files in the order of their paths (that of their names; MatchUpReader.py:171). *)
Definition open_dataset (d : dir) : list mfile :=
  flat_map (fun n => match find_file n d with Some f => [f] | None => [] end) (sorted (filter is_nc (map fst d))).
(** distutils' [copy_tree]: every file of the source is copied into the destination. *)
Definition copy_tree (src dst : dir) : dir := fold_left (fun acc nf => put_file (fst nf) (snd nf) acc) src dst.

(** simulation_set_true_K.py:33-60.  [eval] is [evaluate_K] on the opened dataset (C21), [idx['cNm']] the
    cumulative numbers of match-ups.  The result is the input and the output directory afterwards.
    [variables['K'][:] = v] needs as many values as match-ups, or one value (assumed of netCDF4 as of numpy). *)
Definition set_true_K (eval : list mfile -> res (list K)) (input output : dir) : res (dir * dir) :=
  let dataset_in := open_dataset input in
  do k_true <- eval dataset_in;;
  let cNm := cumul 0 (map (fun f => length (f_K f)) dataset_in) in
  let output := copy_tree input output in
  do input' <- foldM (fun inp p =>
      let '(i_mu, fname) := p in
      do istart <- get cNm i_mu;;
      do iend <- get cNm (S i_mu);;
      match find_file fname inp with
      | None => Raise IOError
      | Some f => do k <- assign 0 (length (f_K f)) (slice istart iend k_true) (f_K f);; Ok (put_file fname (mkMfile k (f_rest f)) inp)
      end) (enumerate (map fst input)) input;;
  Ok (input', output).
End TrueK.
Arguments mkMfile {X K}.
Arguments f_K {X K}.
Arguments f_rest {X K}.
Arguments find_file {X K}.
Arguments put_file {X K}.
Arguments open_dataset {X K}.
Arguments copy_tree {X K}.
Arguments set_true_K {X K}.
