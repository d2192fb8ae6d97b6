(** * Model of the result files (HarmonisationResult.py).

    File: /repo/harmonisation_eiv/harmonisation/core/matchup/matchupToolbox/harmonisation/
    harmonisationIO/HarmonisationResult.py (line numbers below).

    A directory is a list of (name, contents); paths are file names within one directory (a "/" in a
    sensor name is not given a meaning).  netCDF files are records of what is stored in them.  Not
    modelled: additional_variables, descriptions, compression, files left behind by an exception. *)
From Verif Require Import Base ReaderModel.

(** ** Text *)
Definition text := list ascii.
Definition tx : string -> text := list_ascii_of_string.
Definition newline : ascii := ascii_of_nat 10.

Fixpoint starts (p s : text) : bool :=
  match p, s with
  | [], _ => true
  | a :: p', b :: s' => Ascii.eqb a b && starts p' s'
  | _ :: _, [] => false
  end.
Fixpoint contains (sub s : text) : bool :=
  starts sub s || match s with [] => false | _ :: s' => contains sub s' end.
(** The characters before the first line break: what [.*] can reach. *)
Fixpoint first_line (s : text) : text :=
  match s with [] => [] | c :: s' => if Ascii.eqb c newline then [] else c :: first_line s' end.

(** HarmonisationResult.py:187, :191: the rule of result files, [HRSpec.output_rule]. *)
Definition is_output (name : string) : bool :=
  let s := tx name in let rest := first_line (skipn 4 s) in
  starts (tx "harm") s && negb (contains (tx "res") rest) && contains (tx ".nc") rest.
(** HarmonisationResult.py:218, :221: the rule of residual files, [HRSpec.residual_rule]. *)
Definition is_residual (name : string) : bool :=
  let s := tx name in let rest := first_line (skipn 4 s) in
  starts (tx "harm") s && contains (tx "res") rest && contains (tx ".nc") rest.

(** posixpath.splitext, used at HarmonisationResult.py:695: split at the last dot, unless only dots
    precede it. *)
Fixpoint last_dot (s : text) (i : nat) (acc : option nat) : option nat :=
  match s with [] => acc | c :: s' => last_dot s' (S i) (if Ascii.eqb c "."%char then Some i else acc) end.
Definition splitext (name : string) : string * string :=
  let s := tx name in
  match last_dot s 0 None with
  | Some i => if forallb (fun c => Ascii.eqb c "."%char) (firstn i s) then (name, EmptyString)
              else (string_of_list_ascii (firstn i s), string_of_list_ascii (skipn i s))
  | None => (name, EmptyString)
  end.
(** HarmonisationResult.py:694-709: name of the residual file of a pair of sensors. *)
Definition res_name (out : string) (s1 s2 : string) : string :=
  let p := splitext out in
  (fst p ++ "_" ++ "res" ++ "_" ++ s1 ++ "_" ++ s2 ++ snd p)%string.

(** Python's [str.isspace] characters for str.strip. *)
Definition is_blank (c : ascii) : bool :=
  mem Nat.eqb (nat_of_ascii c) [9; 10; 11; 12; 13; 32].
Fixpoint lstrip (s : text) : text :=
  match s with c :: s' => if is_blank c then lstrip s' else s | [] => [] end.
Definition strip (s : text) : text := rev (lstrip (rev (lstrip s))).
(** [chartostring]: trailing NUL characters are not part of a numpy string. *)
Definition is_nul (c : ascii) : bool := nat_of_ascii c =? 0.
Fixpoint drop_nul (s : text) : text :=
  match s with c :: s' => if is_nul c then drop_nul s' else s | [] => [] end.
Definition rstrip_nul (s : text) : text := rev (drop_nul (rev s)).

(** HarmonisationResult.py:612-618: [stringtochar(asarray(['{0: <80}'.format(p) ...]))] into a variable of
    80 columns.  The array has the width of the longest label; if that is not 80 the assignment fails. *)
Definition max_l_name : nat := 80.
Definition pad (s : text) : text := s ++ repeat " "%char (max_l_name - length s).
Definition write_labels (ls : list string) : res (list text) :=
  let rows := map (fun l => pad (tx l)) ls in
  if forallb (fun r => length r =? max_l_name) rows then Ok rows else Raise ValueError.
(** HarmonisationResult.py:285: [[s.strip() for s in chartostring(...)]]. *)
Definition read_labels (rows : list text) : list string :=
  map (fun r => string_of_list_ascii (strip (rstrip_nul r))) rows.

(** ** Files *)
Section HR.
Variables (V A : Type) (zeroV fillV : V).

Record out_file := mkOut { o_attrs : list (string * A); o_par : list V; o_cov : list (list V); o_sens : list text }.
(** X residuals: numbers of covariates and, per match-up, the values. *)
Record res_file := mkRes { rf_s1 : string; rf_s2 : string; rf_M : nat;
  rf_X : option ((nat * list (list V)) * (nat * list (list V))); rf_k : list V }.
Inductive file := FOut (f : out_file) | FRes (f : res_file) | FOther.
Definition dir := list (string * file).

Fixpoint write (name : string) (f : file) (d : dir) : dir :=
  match d with
  | [] => [(name, f)]
  | p :: d' => if String.eqb (fst p) name then (name, f) :: d' else p :: write name f d'
  end.

(** The idx dictionary; the last part is missing after opening files without X residuals. *)
Record blocks_t := mkBlocks { b_sensor : list nat; b_mu : list nat; b_cov : list nat; b_N : list nat; b_idx : list nat }.
Record ridx := mkRidx { rx_Nm : list nat; rx_cNm : list nat; rx_Im : list (nat * nat); rx_sensors : list string;
  rx_ms : list nat; rx_blocks : option blocks_t }.

Record result := mkResult { h_par : list V; h_sens : list string; h_cov : list (list V);
  h_cost : A; h_dof : A; h_p : A; h_idx : ridx; h_values : option (list V); h_ks : list V; h_attrs : list (string * A) }.

(** [setncattr]: replaces an attribute of the same name. *)
Fixpoint set_attr (k : string) (v : A) (l : list (string * A)) : list (string * A) :=
  match l with
  | [] => [(k, v)]
  | p :: l' => if String.eqb (fst p) k then (k, v) :: l' else p :: set_attr k v l'
  end.

(** HarmonisationResult.py:566-651 *)
Definition out_of (r : result) : res out_file :=
  let at0 := set_attr "cost_p_value" (h_p r) (set_attr "cost_dof" (h_dof r) (set_attr "cost" (h_cost r) [])) in
  let attrs := fold_left (fun l p => set_attr (fst p) (snd p) l) (h_attrs r) at0 in
  do sens <- write_labels (h_sens r);;
  Ok (mkOut attrs (h_par r) (h_cov r) sens).

(** HarmonisationResult.py:732-763: the X residuals of one sensor are collected, but [X_res_var = X_res[:]]
    rebinds a local name: the file keeps fill values. *)
Definition res_X (r : result) (b : blocks_t) (values : list V) (i_mu n_s M : nat) : res (nat * list (list V)) :=
  do m <- get (rx_ms (h_idx r)) n_s;;
  do _cols <- mapM (fun i_cov =>
     do k <- index eqb3 (n_s, i_mu + 1, i_cov + 1) (zip3 (b_sensor b) (b_mu b) (b_cov b));;
     do s <- get (b_idx b) k;;
     do e <- get (b_idx b) (k + 1);;
     let v := slice s e values in
     if length v =? M then Ok v else Raise ValueError) (seq 0 m);;
  Ok (m, repeat (repeat fillV m) M).

(** HarmonisationResult.py:669-786.  (The assignment of k_res also accepts one value for all.) *)
Definition write_res (out : string) (r : result) (d : dir) : res dir :=
  let ix := h_idx r in
  do b <- match rx_blocks ix with Some b => Ok b | None => Raise KeyError end;;
  foldM (fun d p =>
    let i := fst p in
    do s1 <- get (rx_sensors ix) (fst (snd p));;
    do s2 <- get (rx_sensors ix) (snd (snd p));;
    do M <- get (rx_Nm ix) i;;
    do X <- match h_values r with
            | None => Ok None
            | Some values =>
                do x1 <- res_X r b values i (fst (snd p)) M;;
                do x2 <- res_X r b values i (snd (snd p)) M;;
                Ok (Some (x1, x2))
            end;;
    do s <- get (rx_cNm ix) i;;
    do e <- get (rx_cNm ix) (i + 1);;
    let k := slice s e (h_ks r) in
    if length k =? M then Ok (write (res_name out s1 s2) (FRes (mkRes s1 s2 M X k)) d) else Raise ValueError)
  (enumerate (rx_Im ix)) d.

(** HarmonisationResult.py:542-564 *)
Definition save (out : string) (save_residuals : bool) (r : result) (d : dir) : res dir :=
  do f <- out_of r;;
  let d := write out (FOut f) d in
  if save_residuals then write_res out r d else Ok d.

(** HarmonisationResult.py:174-203; [listing]: the directory in the order of listdir. *)
Definition find_output (listing : dir) : res file :=
  match filter (fun p => is_output (fst p)) listing with
  | [] => Raise IOError
  | [p] => Ok (snd p)
  | _ => Raise IOError
  end.
(** HarmonisationResult.py:205-229: None if there is none. *)
Definition find_residuals (listing : dir) : option (list file) :=
  match filter (fun p => is_residual (fst p)) listing with [] => None | l => Some (map snd l) end.

(** HarmonisationResult.py:231-313.  (A file without these variables or attributes raises; the kind of
    exception is simplified.) *)
Definition required_attrs : list string := ["cost"; "cost_dof"; "cost_p_value"]%string.
Definition attr (k : string) (l : list (string * A)) : res A :=
  match lookup k l with Some v => Ok v | None => Raise AttributeError end.
Definition underscore (k : string) : bool := starts (tx "_") (tx k).
Definition open_output (f : file) : res (list V * list string * list (list V) * (A * A * A) * list (string * A)) :=
  match f with
  | FOut o =>
      do cost <- attr "cost" (o_attrs o);;
      do dof <- attr "cost_dof" (o_attrs o);;
      do p <- attr "cost_p_value" (o_attrs o);;
      let extra := filter (fun p => negb (mem String.eqb (fst p) required_attrs) && negb (underscore (fst p))) (o_attrs o) in
      Ok (o_par o, read_labels (o_sens o), o_cov o, (cost, dof, p), extra)
  | FRes _ => Raise AttributeError
  | FOther => Raise IOError
  end.

Definition as_res (f : file) : res res_file :=
  match f with FRes r => Ok r | FOut _ => Raise KeyError | FOther => Raise IOError end.

(** HarmonisationResult.py:383-444 *)
Definition res_index (fs : list res_file) : res ridx :=
  let avail := forallb (fun f => match rf_X f with Some _ => true | None => false end) fs in
  let ms f := match rf_X f with Some X => if avail then (fst (fst X), fst (snd X)) else (0, 0) | None => (0, 0) end in
  let '(ss, sm) := fold_left add_sensor (flat_map (fun f => [(rf_s1 f, fst (ms f)); (rf_s2 f, snd (ms f))]) fs) ([], []) in
  do Im <- mapM (fun f => do a <- index String.eqb (rf_s1 f) ss;; do b <- index String.eqb (rf_s2 f) ss;; Ok (a, b)) fs;;
  let Nm := map rf_M fs in
  do bl <-
    (if avail then
       let flat := flat_map (fun p => [fst p; snd p]) Im in
       let refs := filter (fun s => s =? 0) flat in
       let sens := filter (fun s => negb (s =? 0)) flat in
       do mx <- pymax sm;;
       (* n_sensor *)
       do ns <- mapM (fun s => get sm s) flat;;
       let big (m s : nat) := m <=? nth s sm 0 in
       let n_sensor := map (fun _ => 0) refs ++ flat_map (fun m => filter (big m) sens) (range1 mx) in
       (* n_mu *)
       let n_mu := map (fun p => fst p + 1) (filter (fun p => (fst (snd p) =? 0) || (snd (snd p) =? 0)) (enumerate Im)) ++
         flat_map (fun m => flat_map (fun p => map (fun _ => fst p + 1) (filter (fun s => big m s && negb (s =? 0)) [fst (snd p); snd (snd p)])) (enumerate Im)) (range1 mx) in
       (* n_cov *)
       let n_cov := map (fun _ => 1) refs ++
         flat_map (fun m => flat_map (fun p => map (fun _ => m) (filter (fun s => big m s && negb (s =? 0)) [fst p; snd p])) Im) (range1 mx) in
       do N <- mapM (fun n => get Nm (n - 1)) n_mu;;
       Ok (Some (mkBlocks n_sensor n_mu n_cov N (cumul 0 N)))
     else Ok None);;
  Ok (mkRidx Nm (cumul 0 Nm) Im ss sm bl).

(** HarmonisationResult.py:495-522 *)
Definition read_X (b : blocks_t) (fs : list res_file) (Im : list (nat * nat)) : res (list V) :=
  do tot <- pylast (b_idx b);;
  foldM (fun vals p =>
    let '(i, (f, pr)) := p in
    do X <- match rf_X f with Some X => Ok X | None => Raise KeyError end;;
    foldM (fun vals q =>
      foldM (fun vals i_cov =>
        do k <- index eqb3 (fst q, i + 1, i_cov + 1) (zip3 (b_sensor b) (b_mu b) (b_cov b));;
        do s <- get (b_idx b) k;;
        do e <- get (b_idx b) (k + 1);;
        do col <- column V zeroV (fst (snd q)) (snd (snd q)) i_cov;;
        assign s e col vals) (seq 0 (fst (snd q))) vals) [(fst pr, fst X); (snd pr, snd X)] vals)
  (enumerate (combine fs Im)) (repeat zeroV tot).

(** HarmonisationResult.py:524-535 *)
Definition read_k (fs : list res_file) (cNm : list nat) : res (list V) :=
  do tot <- pylast cNm;;
  foldM (fun ks p => do s <- get cNm (fst p);; do e <- get cNm (fst p + 1);; assign s e (rf_k (snd p)) ks)
    (enumerate fs) (repeat zeroV tot).

(** HarmonisationResult.py:315-540; the attributes are those of the first file. *)
Variable str_attr : string -> A.
Definition open_res (fs : list file) : res (option (list V) * list V * ridx * list (string * A)) :=
  do rs <- mapM as_res fs;;
  do f0 <- get rs 0;;
  do ix <- res_index rs;;
  do vals <- match rx_blocks ix with Some b => do v <- read_X b rs (rx_Im ix);; Ok (Some v) | None => Ok None end;;
  do ks <- read_k rs (rx_cNm ix);;
  Ok (vals, ks, ix, [("sensor_1_name"%string, str_attr (rf_s1 f0)); ("sensor_2_name"%string, str_attr (rf_s2 f0))]).

(** HarmonisationResult.py:150-172: HarmonisationResult(output_dir).  ([for path in None] is a TypeError.) *)
Definition open_result (listing : dir) : res result :=
  do f <- find_output listing;;
  do o <- open_output f;;
  let '(par, sens, cov, (cost, dof, p), _attrs) := o in
  do fs <- match find_residuals listing with Some l => Ok l | None => Raise TypeError end;;
  do x <- open_res fs;;
  let '(vals, ks, ix, attrs) := x in
  Ok (mkResult par sens cov cost dof p ix vals ks attrs).
(** HarmonisationResult(output_dir, open_residuals=False): only the output file. *)
Definition open_output_only (listing : dir) : res (list V * list string * list (list V) * (A * A * A) * list (string * A)) :=
  do f <- find_output listing;; open_output f.
End HR.
