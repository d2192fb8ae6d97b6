(** * Model of the operators and command line tools.

    Files: /repo/harmonisation_eiv/harmonisation/tools/HarmonisationOp.py, common.py, full_eiv_solver.py,
    fullEIVsolver_covariance_analytical.py. *)
From Coq Require Import Reals DecimalString.
From Verif Require Import Base ReaderModel HRModel.
Open Scope nat_scope.

(** ** Covariance elements computed one by one *)
(** [str(n)] *)
Definition str_nat (n : nat) : string := NilEmpty.string_of_uint (Nat.to_uint n).
(** fullEIVsolver_covariance_analytical.py:80: name of the file of element (i, j) (without the directory). *)
Definition element_name (i j : nat) : string :=
  ("parameter_covariance_matrix[" ++ str_nat i ++ "," ++ str_nat j ++ "].dat")%string.
(** [name[-k]] *)
Definition from_end (k : nat) (name : string) : res ascii := get (rev (tx name)) (k - 1).
(** [int(c)] of one character. *)
Definition int_char (c : ascii) : res nat :=
  let n := nat_of_ascii c in if (48 <=? n) && (n <=? 57) then Ok (n - 48) else Raise ValueError.
(** [m[i, j] = v] *)
Definition set2 (i j : nat) (v : R) (m : list (list R)) : res (list (list R)) :=
  do row <- get m i;; do row' <- setitem j v row;; setitem i row' m.
(** HarmonisationOp.py:371-387; [files]: the names and contents in the order of glob. *)
Definition combine_elements (files : list (string * R)) : res (list (list R)) :=
  let n := Nat.sqrt (length files) in
  do m <- foldM (fun m f =>
    do ci <- from_end 8 (fst f);; do i <- int_char ci;;
    do cj <- from_end 6 (fst f);; do j <- int_char cj;;
    set2 i j (snd f) m) files (repeat (repeat 0%R n) n);;
  Ok (map (fun i => map (fun j => (nth j (nth i m []) 0 + nth i (nth j m []) 0) / 2)%R (seq 0 n)) (seq 0 n)).

(** ** Monte Carlo trials *)
(** HarmonisationOp.py:521-545: running mean and variance of the residuals of the trials (k_res; H_res is
    computed in the same way).  [n]: n_trial.  (The function around it refers to get_harm_paths, which is
    not defined anywhere, and unpacks eight values where four are returned: see DESIGN.md.) *)
Definition vop (f : R -> R -> R) (a b : list R) : list R := map (fun p => f (fst p) (snd p)) (combine a b).
Definition mc_first (k : list R) : list R * list R := (k, map (fun _ => 0%R) k).
Definition mc_step (n : nat) (st : list R * list R) (ki : list R) : list R * list R :=
  let (e, var) := st in
  let mu := vop (fun e ki => e + (ki - e) / INR n)%R e ki in
  let dev := vop (fun e mu => (INR n - 1) * ((e - mu) * (e - mu)))%R e mu in
  let v := vop Rplus (vop Rplus (map (fun x => (INR n - 2) * x)%R var) dev) (vop (fun ki mu => (ki - mu) * (ki - mu))%R ki mu) in
  (mu, map (fun x => x / (INR n - 1))%R v).
Fixpoint mc_loop (n : nat) (st : list R * list R) (trials : list (list R)) : list R * list R :=
  match trials with [] => st | k :: ts => mc_loop (S n) (mc_step n st k) ts end.
Definition mc_stats (trials : list (list R)) : option (list R * list R) :=
  match trials with [] => None | k :: ts => Some (mc_loop 2 (mc_first k) ts) end.
(** HarmonisationOp.py:577-603: parameters of the trials; a failed trial ([None]) is a row of zeros, and
    rows of zeros are dropped.  (numpy's exact comparison with 0.) *)
Definition zero_row (row : list R) : bool := forallb (fun x => if Req_EM_T x 0 then true else false) row.
Definition mc_parameters (n_a : nat) (trials : list (option (list R))) : list (list R) :=
  filter (fun row => negb (zero_row row)) (map (fun t => match t with Some a => a | None => repeat 0%R n_a end) trials).

(** ** Command line, common.py:46-124 *)
Record cmdline := mkCmd { c_job : option string; c_in : option string; c_sensor : option string; c_out : option string;
  c_pc_input : option string; c_save_pc : option string; c_gn_input : option string; c_save_gn : option string;
  c_verbose : bool; c_quiet : bool }.
(** Truth value of an option: None and the empty string are false. *)
Definition truthy (o : option string) : bool := match o with Some s => negb (String.eqb s "") | None => false end.
(** The verdict on parsed arguments; false: sys.exit(2).  (--verbose with --quiet is refused by argparse.) *)
Definition parse_ok (solver_options : bool) (a : cmdline) : bool :=
  negb (c_verbose a && c_quiet a) &&
  negb (truthy (c_job a) && (truthy (c_in a) || truthy (c_sensor a) || truthy (c_out a) ||
        (solver_options && (truthy (c_save_pc a) || truthy (c_pc_input a) || truthy (c_gn_input a) || truthy (c_save_gn a))))) &&
  (truthy (c_job a) || (truthy (c_in a) && truthy (c_sensor a) && truthy (c_out a))).
(** common.py:175-199 without reading of files: what is taken from the command line. *)
Inductive source := JobFile (path : string) | Arguments (dataset sensor output : option string).
(** [x is not None] of a store_true flag, which is True or False. *)
Definition flag_is_not_none (_b : bool) : bool := true.
Definition read_cmdline (a : cmdline) : source * nat :=
  let show := if flag_is_not_none (c_quiet a) then 0 else if flag_is_not_none (c_verbose a) then 2 else 1 in
  (match c_job a with Some p => JobFile p | None => Arguments (c_in a) (c_sensor a) (c_out a) end, show).

(** ** Writing the result, HarmonisationOp.py:127-142 (startDate and endDate are empty) *)
Definition cfg_get (k : string) (cfg : list (string * string)) : res string :=
  match lookup k cfg with Some v => Ok v | None => Raise KeyError end.
Section Write.
Variables (V A : Type) (fillV : V) (sa : string -> A).
Definition set_attrs (r : result V A) (l : list (string * A)) : result V A :=
  mkResult V A (h_par V A r) (h_sens V A r) (h_cov V A r) (h_cost V A r) (h_dof V A r) (h_p V A r) (h_idx V A r) (h_values V A r) (h_ks V A r) l.
Definition op_write (software_cfg : option (list (string * string))) (r : result V A) (d : dir V A) : res (dir V A) :=
  do cfg <- match software_cfg with Some c => Ok c | None => Raise TypeError end;;
  do software <- cfg_get "software" cfg;;
  do version <- cfg_get "version" cfg;;
  do tag <- cfg_get "tag" cfg;;
  do job <- cfg_get "job_id" cfg;;
  do ds <- cfg_get "matchup_dataset" cfg;;
  let r' := set_attrs r [("software"%string, sa software); ("software_version"%string, sa version); ("software_tag"%string, sa tag);
                         ("job_id"%string, sa job); ("matchup_dataset"%string, sa (ds ++ "_" ++ "_")%string)] in
  save V A fillV ("harm" ++ "_" ++ software ++ "_" ++ version ++ "_" ++ tag ++ "_" ++ job ++ "_" ++ ds ++ ".nc")%string true r' d.
(** full_eiv_solver.py:54: the configuration the command line tool passes. *)
Definition solver_cfg (short_name version tag : string) : list (string * string) :=
  [("software"%string, short_name); ("version"%string, version); ("tag"%string, tag)].
End Write.
