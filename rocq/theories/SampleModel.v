(** * Model of Sample2Ind.run, get_sample_idxs and SampleMatchUp.run.

    Files: /repo/harmonisation_eiv/harmonisation/core/matchup/matchupProcessing/
      sample2ind/Sample2Ind.py, sample2ind/cython_lib_sample2ind.pyx, sample/SampleMatchUp.py.

    [smp c l k] is what [random.sample(l, k)] returns at call number [c]: an arbitrary function
    (the theorems assume only that it returns k elements at distinct positions of l).
    Sampling factors are rationals (float rounding not modelled). *)
From Coq Require Export QArith.
From Verif Require Import Base ReaderModel UncModel MuModel.
Open Scope nat_scope.

Section Sample.
Variables V T : Type.
Variables (zeroV : V) (zeroT : T).
Variable rms : list V -> Z -> V.   (* npsum(u**2)**0.5 / n**0.5, Sample2Ind.py:191 *)
Variable smp : nat -> list nat -> nat -> list nat.

(** random.sample: ValueError unless 0 <= k <= len(l). *)
Definition sample (call : nat) (l : list nat) (k : Z) : res (list nat) :=
  if (0 <=? k)%Z && (k <=? Z.of_nat (length l))%Z then Ok (smp call l (Z.to_nat k)) else Raise ValueError.

(** sorted() of a list of integers. *)
Fixpoint insert (x : nat) (l : list nat) : list nat :=
  match l with [] => [x] | y :: l' => if x <=? y then x :: l else y :: insert x l' end.
Fixpoint sorted (l : list nat) : list nat :=
  match l with [] => [] | x :: l' => insert x (sorted l') end.

(** ** cython_lib_sample2ind.pyx *)

(** pyx:34: column indices of row i. *)
Definition row_cols (w : csr V) (i : nat) : res (list nat) :=
  do s <- get (c_indptr V w) i;;
  do e <- get (c_indptr V w) (i + 1);;
  Ok (slice s e (c_indices V w)).

(** pyx:43-49: all columns of the row unused so far. *)
Definition unused (used : list bool) (cols : list nat) : res bool :=
  do l <- mapM (get used) cols;;
  Ok (forallb negb l).

(** pyx:54: [sampled_cols[j][row_cols] = True]. *)
Definition mark (used : list bool) (cols : list nat) : res (list bool) :=
  foldM (fun u c => setitem c true u) cols used.

(** pyx:29-55, body of the loop over rows. *)
Definition greedy_step (ws : list (csr V)) (st : list (list bool) * list nat) (i : nat)
  : res (list (list bool) * list nat) :=
  let '(used, idxs) := st in
  do cols <- mapM (fun w => row_cols w i) ws;;
  do tests <- mapM (fun uc => unused (fst uc) (snd uc)) (combine used cols);;
  if negb (length tests =? 0) && forallb (fun b => b) tests then
    do used' <- mapM (fun uc => mark (fst uc) (snd uc)) (combine used cols);;
    Ok (used', idxs ++ [i])
  else Ok (used, idxs).

(** pyx:22-55: greedy pass.  The zip of the indptr lists stops at the shortest matrix. *)
Definition nrows_common (ws : list (csr V)) : nat :=
  match map (fun w => length (c_indptr V w) - 1) ws with
  | [] => 0
  | n :: ns => fold_left Nat.min ns n
  end.
Definition greedy (ws : list (csr V)) : res (list nat) :=
  do st <- foldM (greedy_step ws) (seq 0 (nrows_common ws))
                 (map (fun w => repeat false (c_ncols V w)) ws, []);;
  Ok (snd st).

(** pyx:11-60 *)
Definition get_sample_idxs (call : nat) (w_indices : list nat) (mu_samples : Z) (w_matrices : list (csr V))
  : res (list nat) :=
  do ws <- mapM (get w_matrices) w_indices;;
  do idxs <- greedy ws;;
  if (mu_samples <? Z.of_nat (length idxs))%Z then sample call idxs mu_samples else Ok idxs.

(** ** Sample2Ind.py *)
Notation mobj := (mobj V T).

(** Sample2Ind.py:69-70 *)
Definition effective_sf (total : nat) (sf : Q) (n_max : Z) : res Q :=
  if Qle_bool (inject_Z (Z.of_nat total) * sf) (inject_Z n_max) then Ok sf
  else if total =? 0 then Raise ZeroDivisionError
  else Ok (inject_Z n_max / inject_Z (Z.of_nat total))%Q.

(** int(x): truncation towards zero. *)
Definition qint (q : Q) : Z := Z.quot (Qnum q) (Zpos (Qden q)).

(** set(n_mu), iterated in increasing order (CPython's order for small non-negative ints). *)
Definition series_set (n_mu : list nat) : list nat :=
  filter (fun n => mem Nat.eqb n n_mu) (seq 0 (S (list_max n_mu))).

(** Sample2Ind.py:90-98: blocks of the series. *)
Definition series_blocks (n_mu : list nat) (n : nat) : list nat :=
  map fst (filter (fun p => snd p =? n) (enumerate n_mu)).

(** Attribute w_i of types 3 and 4. *)
Definition w_index (k : ukind V) : list nat :=
  match k with UK3 _ w _ => [w] | UK4 _ w _ _ => [w] | _ => [] end.

(** Sample2Ind.py:90-115, one series. *)
Definition select_series (m : mobj) (sf : Q) (n : nat) : res (list nat) :=
  let ix := m_idx V T m in
  let blocks := series_blocks (n_mu ix) n in
  do sizes <- mapM (get (N_var ix)) blocks;;
  do mu_total <- get sizes 0;;
  let mu_samples := qint (inject_Z (Z.of_nat mu_total) * sf) in
  do us <- mapM (get (m_unc V T m)) blocks;;
  let w_indices := flat_map (fun u => w_index (u_kind V u)) us in
  if length w_indices =? 0 then
    do l <- sample n (seq 0 mu_total) mu_samples;; Ok (sorted l)
  else
    do idxs <- get_sample_idxs n w_indices mu_samples (m_ws V T m);;
    if (mu_samples <? Z.of_nat (length idxs))%Z
    then do l <- sample n idxs mu_samples;; Ok (sorted l)
    else Ok idxs.

(** Sample2Ind.py:82-115: the dictionary sampling_idxs. *)
Definition sampling_idxs (m : mobj) (sf : Q) : res (list (nat * list nat)) :=
  mapM (fun n => do l <- select_series m sf n;; Ok (n, l)) (series_set (n_mu (m_idx V T m))).

(** sampling_idxs[n] *)
Fixpoint dget {A} (n : nat) (d : list (nat * A)) : res A :=
  match d with
  | [] => Raise KeyError
  | (k, a) :: d' => if k =? n then Ok a else dget n d'
  end.

(** Sample2Ind.py:131-152.  (N_var has one entry per entry of n_mu, so every entry is replaced.) *)
Definition sampled_idx (ix : idx_t) (sel : list (nat * list nat)) : res idx_t :=
  do nv <- mapM (fun n => do l <- dget n sel;; Ok (length l)) (n_mu ix);;
  let n_mus := series_set (n_mu ix) in
  do ns <- mapM (fun n => do l <- dget n sel;; Ok (length l)) n_mus;;
  do nm <- foldM (fun nm p => setitem (fst p) (snd p) nm) (enumerate ns) (Nm ix);;
  Ok (mkIdx nm (cumul 0 ns) (Im ix) (sensors ix) (sensor_ms ix) (n_sensor ix) (n_mu ix) (n_cov ix)
            nv (cumul 0 nv)).

(** Sample2Ind.py:186-191: new random uncertainty of a match-up from W and u. *)
Definition w_uncertainty (w : csr V) (u : list V) (s_i : nat) : res V :=
  do p <- get (c_indptr V w) s_i;;
  do q <- get (c_indptr V w) (s_i + 1);;
  do col_start <- get (c_indices V w) p;;
  do last_col <- pyget (c_indices V w) (Z.of_nat q - 1);;
  let col_end := last_col + 1 in
  Ok (rms (slice col_start col_end u) (Z.of_nat col_end - Z.of_nat col_start)).

(** Sample2Ind.py:176-194, one block. *)
Definition sampled_unc (m : mobj) (sel : list (nat * list nat)) (p : nat * unc V) : res (unc V) :=
  do n <- get (n_mu (m_idx V T m)) (fst p);;
  do s_idx <- dget n sel;;
  let of_w w_i u_i :=
    do w <- get (m_ws V T m) w_i;;
    do u <- get (m_us V T m) u_i;;
    do uR <- mapM (w_uncertainty w u) s_idx;;
    Ok (mkUnc V (UK1 V uR) None) in
  match u_kind V (snd p) with
  | UK1 _ uR => do r <- take uR s_idx;; Ok (mkUnc V (UK1 V r) None)
  | UK2 _ uR _ => do r <- take uR s_idx;; Ok (mkUnc V (UK1 V r) None)
  | UK3 _ w_i u_i => of_w w_i u_i
  | UK4 _ w_i u_i _ => of_w w_i u_i
  end.

(** [src[idx[i]:idx[i+1]][s_idx]], Sample2Ind.py:174, :247-267. *)
Definition pick {A} (src : list A) (ix : list nat) (i : nat) (s_idx : list nat) : res (list A) :=
  do s <- get ix i;;
  do e <- get ix (i + 1);;
  take (slice s e src) s_idx.

(** Sample2Ind.py:239-267 for one per-match-up array.  (The Python loop fills all arrays in the same
    iteration; the arrays are independent, so it is split by array.) *)
Definition sample_series {A} (z : A) (m : mobj) (ix' : idx_t) (sel : list (nat * list nat)) (src : list A)
  : res (list A) :=
  fill z (cNm ix') (fun p => do s_idx <- dget (fst p + 1) sel;; pick src (cNm (m_idx V T m)) (fst p) s_idx)
       (m_unck V T m).
Definition sample_series_opt {A} (z : A) (m : mobj) (ix' : idx_t) sel (src : option (list A))
  : res (option (list A)) :=
  match src with None => Ok None | Some l => do r <- sample_series z m ix' sel l;; Ok (Some r) end.

(** Subscripting the Python None is a TypeError (time1, time2: :266-267). *)
Definition not_none {A} (o : option A) : res A :=
  match o with Some a => Ok a | None => Raise TypeError end.

(** Sample2Ind.py:117-277 *)
Definition apply_sampling (m : mobj) (sel : list (nat * list nat)) : res mobj :=
  do ix' <- sampled_idx (m_idx V T m) sel;;
  do vals <- fill zeroV (idxs ix')
               (fun p => do n <- get (n_mu (m_idx V T m)) (fst p);;
                         do s_idx <- dget n sel;;
                         pick (m_values V T m) (idxs (m_idx V T m)) (fst p) s_idx) (m_unc V T m);;
  do uncs <- mapM (sampled_unc m sel) (enumerate (m_unc V T m));;
  do ks <- sample_series zeroV m ix' sel (m_ks V T m);;
  do unck <- mapM (fun p => do s_idx <- dget (fst p + 1) sel;; take (snd p) s_idx)
                  (enumerate (m_unck V T m));;
  do ac1 <- sample_series_opt zeroV m ix' sel (m_across1 V T m);;
  do ac2 <- sample_series_opt zeroV m ix' sel (m_across2 V T m);;
  do al1 <- sample_series_opt zeroV m ix' sel (m_along1 V T m);;
  do al2 <- sample_series_opt zeroV m ix' sel (m_along2 V T m);;
  do s1 <- not_none (m_time1 V T m);;
  do t1 <- sample_series zeroT m ix' sel s1;;
  do s2 <- not_none (m_time2 V T m);;
  do t2 <- sample_series zeroT m ix' sel s2;;
  Ok (mkMobj V T ix' (m_ps V T m) None None vals ks uncs unck [] [] (Some t1) (Some t2)
             ac1 ac2 al1 al2 None).

(** Sample2Ind.py:48-277 *)
Definition sample2ind (m : mobj) (sf : Q) (n_max : Z) : res mobj :=
  do total <- pylast (cNm (m_idx V T m));;
  do sf' <- effective_sf total sf n_max;;
  do sel <- sampling_idxs m sf';;
  apply_sampling m sel.

(** ** SampleMatchUp.py:41-200.  [mu_total/sf] is an integer division (Python 2, sf an int;
    ZeroDivisionError for 0).  The attribute [form] (:147) does not exist on Uncertainty objects
    (Uncertainty.py defines typeID), so the first block raises AttributeError; what would follow is
    not modelled (empty fields). *)
Definition sm_select (m : mobj) (sf : Z) (n : nat) : res (nat * list nat) :=
  do sizes <- mapM (get (N_var (m_idx V T m))) (series_blocks (n_mu (m_idx V T m)) n);;
  do mu_total <- get sizes 0;;
  do k <- (if (sf =? 0)%Z then Raise ZeroDivisionError else Ok (Z.of_nat mu_total / sf)%Z);;
  do l <- sample n (seq 0 mu_total) k;;
  Ok (n, sorted l).
Definition sample_matchup (m : mobj) (sf : Z) : res mobj :=
  do sel <- mapM (sm_select m sf) (series_set (n_mu (m_idx V T m)));;
  do ix' <- sampled_idx (m_idx V T m) sel;;
  do vals <- fill zeroV (idxs ix')
               (fun p => do n <- get (n_mu (m_idx V T m)) (fst p);;
                         do s_idx <- dget n sel;;
                         do v <- pick (m_values V T m) (idxs (m_idx V T m)) (fst p) s_idx;;
                         do _form <- (Raise AttributeError : res unit);;
                         Ok v) (m_unc V T m);;
  Ok (mkMobj V T ix' (m_ps V T m) None None vals [] [] [] [] [] None None None None None None None).
End Sample.
