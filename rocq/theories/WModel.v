(** * Model of tools/generate_w_matrices.py and of tools/MW_add_W_matrices.py.

    Simplifications: exact reals; times and scan-line time are Python floats. *)
From Coq Require Import Reals.
From Verif Require Import Base ReaderModel UncModel TransformModel EvalModel GNModel SimModel.
Open Scope nat_scope.

(** Python 2 [round(x)] (half away from zero), [round(x, 2)]. *)
Definition pround (x : R) : Z := if Rle_dec 0 x then Int_part (x + / 2) else (- Int_part (- x + / 2))%Z.
Definition round2 (x : R) : R := (IZR (pround (x * 100)) / 100)%R.

(** kernel_uncertainty: a float, or one row per match-up. *)
Inductive kunc := KF (x : R) | KA (rows : list (list R)).

(** generate_w_matrices.py:55-66 *)
Definition kernel (ku : kunc) (weights : option (list R)) (ksize : option nat) : res (list R) :=
  match weights, ksize, ku with
  | Some w, _, _ => Ok w
  | None, Some k, _ => Ok (repeat (1 / INR k)%R k)
  | None, None, KA rows => do r <- get rows 0;; Ok (repeat (1 / INR (length r))%R (length r))
  | None, None, KF _ => Raise TypeError
  end.
(** :79-85, for match-up [i] at time [t] *)
Definition scan_position (t0 dt : R) (p : nat * R) : res Z :=
  let '(i, t) := p in
  if i =? 0 then Ok 0%Z
  else if Req_EM_T dt 0 then Raise ZeroDivisionError
  else let rel := round2 (dt * IZR (pround ((t - t0) / dt)))%R in Ok (pround (rel / dt)%R).
(** :77-90 *)
Definition column_positions (times : list R) (dt : R) : res (list nat) :=
  do ps <- mapM (scan_position (hd 0%R times) dt) (enumerate times);;
  do mn <- zmin ps;;
  Ok (map (fun p => Z.to_nat (p - mn)) ps).

(** scipy: stored entries (column, value) of row [i]; [w[:, cols]] for increasing [cols] (entries of the other
    columns are dropped, the rest renumbered). *)
Definition csr_row (w : csr R) (i : nat) : list (nat * R) :=
  let s := nth i (c_indptr R w) 0 in let e := nth (i + 1) (c_indptr R w) 0 in
  combine (slice s e (c_indices R w)) (slice s e (c_data R w)).
Fixpoint index_of (c : nat) (cols : list nat) : option nat :=
  match cols with [] => None | d :: l => if d =? c then Some 0 else option_map S (index_of c l) end.
Definition renumber (cols : list nat) (row : list (nat * R)) : list (nat * R) :=
  flat_map (fun e => match index_of (fst e) cols with Some n => [(n, snd e)] | None => [] end) row.
Definition csr_of_rows (nc : nat) (rows : list (list (nat * R))) : csr R :=
  mkCsr R (map snd (concat rows)) (map fst (concat rows)) (cumul 0 (map (@length _) rows)) (length rows) nc.
Definition csr_select (w : csr R) (cols : list nat) : csr R :=
  csr_of_rows (length cols) (map (fun i => renumber cols (csr_row w i)) (seq 0 (c_nrows R w))).
(** [unique(w.nonzero()[1])]: the columns with an entry other than 0, in increasing order. *)
Definition nonzero_columns (w : csr R) : list nat :=
  filter (fun j => existsb (fun i => if Req_EM_T (csr_entry w i j) 0 then false else true) (seq 0 (c_nrows R w))) (seq 0 (c_ncols R w)).

(** A numpy row assigned to a slice of length [k]. *)
Definition row_of (k : nat) (r : list R) : res (list R) := if length r =? k then Ok r else if length r =? 1 then Ok (repeat (hd 0%R r) k) else Raise ValueError.
(** :22-130.  The loops :101-107 and :124-125 fill WA, JA, UA block by block and IA with multiples of the kernel size. *)
Definition gen_w (times : list R) (dt : R) (ku : kunc) (weights : option (list R)) (ksize : option nat) : res (csr R * list R) :=
  do ws <- kernel ku weights ksize;;
  let K := length ws in
  do cols <- column_positions times dt;;
  let M := length cols in
  let JA := flat_map (fun p => seq p K) cols in
  let WA := flat_map (fun _ => ws) cols in
  let IA := map (fun i => i * K) (seq 0 (M + 1)) in
  do mx <- pymax JA;;
  do w <- csr_new R WA JA IA M (mx + 1);;
  let used := nonzero_columns w in
  let w' := csr_select w used in
  match ku with
  | KF x => Ok (w', repeat x (c_ncols R w'))
  | KA rows =>
      do UA <- mapM (fun i => do r <- get rows i;; row_of K r) (seq 0 M);;
      do u <- csr_new R (concat UA) JA IA M (mx + 1);;
      let u' := csr_select u used in
      do uv <- mapM (fun j => rmax (map (fun i => csr_entry u' i j) (seq 0 M))) (seq 0 (c_ncols R u'));;
      Ok (w', uv)
  end.

(** ** MW_add_W_matrices.py *)
Inductive instrument := Ref | AMSUB | MHS.
(** :38-96: time2 is read from the variable time1. *)
Record mwfile := mkMw { mw_time1 : list R; mw_time2 : list R; mw_ur1 : list (list R); mw_ur2 : list (list R) }.
Definition mw_weights : list R := [/ 16; / 8; 3 / 16; / 4; 3 / 16; / 8; / 16]%R.
Definition read_matchup_data (f : mwfile) : res (list R * list R * list R * list R * R * list R) :=
  do r1 <- get (mw_ur1 f) 0;; do r2 <- get (mw_ur2 f) 0;;
  Ok (mw_time1 f, mw_time1 f, r1, r2, (8 / 3)%R, mw_weights).
(** The use tables :189-224; for a first sensor "ref" or not, and a second sensor "ref" none applies. *)
Definition w_uses (k : nat) (a : instrument) : list nat := match a with Ref => [0] | AMSUB => repeat k 9 ++ [0; 0] | MHS => repeat k 7 ++ [0; 0] end.
Definition u_uses (k : nat) (a : instrument) : list nat := match a with Ref => [0] | AMSUB => [k; k + 1] ++ repeat (k + 2) 7 ++ [0; 0] | MHS => [k; k + 1] ++ repeat (k + 2) 5 ++ [0; 0] end.
Definition use_tables (s1 s2 : instrument) : res (list nat * list nat * list nat * list nat) :=
  match s1, s2 with
  | _, Ref => Raise UnboundLocalError
  | Ref, _ => Ok (w_uses 1 s1, w_uses 1 s2, u_uses 1 s1, u_uses 1 s2)
  | _, _ => Ok (w_uses 1 s1, w_uses 2 s2, u_uses 1 s1, u_uses 4 s2)
  end.
(** :165-227 *)
Definition mw_variables (time1 time2 : list R) (dt : R) (uR1 uR2 weights : list R) (s1 s2 : instrument) : res (matvars R) :=
  do x <- get uR2 0;;
  do g2 <- gen_w time2 dt (KF x) (Some weights) None;; let '(w2, u20) := g2 in
  do y1 <- get uR2 1;; do y2 <- get uR2 2;;
  let ones_ v := repeat v (length u20) in
  do p <- (if length uR1 =? 1 then Ok ([w2], [u20; ones_ y1; ones_ y2])
           else do z <- get uR1 0;; do g1 <- gen_w time1 dt (KF z) (Some weights) None;; let '(w1, u10) := g1 in
                do z1 <- get uR1 1;; do z2 <- get uR1 2;;
                Ok ([w1; w2], [u10; ones_ z1; ones_ z2; u20; ones_ y1; ones_ y2]));;
  let '(ws, us) := p in
  do mv <- return_w_matrix_variables R 0%R [] [] [] [] ws us;;
  do t <- use_tables s1 s2;; let '(a, b, c, d) := t in
  Ok (mkMatvars R a b c d (w_nnz R mv) (w_row R mv) (w_col R mv) (w_val R mv) (u_row_count R mv) (u_val R mv)).
(** :279-289 *)
Definition mw_types (a : instrument) : list nat := match a with Ref => [1] | AMSUB => [3; 3] ++ repeat 4 7 ++ [1; 2] | MHS => [3; 3] ++ repeat 4 5 ++ [1; 2] end.
(** run, :241-264: reading the data and generating the variables. *)
Definition mw_run (f : mwfile) (s1 s2 : instrument) : res (matvars R) :=
  do d <- read_matchup_data f;; let '(t1, t2, r1, r2, dt, ws) := d in mw_variables t1 t2 dt r1 r2 ws s1 s2.
