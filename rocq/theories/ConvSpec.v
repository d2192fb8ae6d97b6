(** * Specification vocabulary for C140-C146: the files of the conversion tools and the checker.
    Vocabulary of files and forms of uncertainty: CheckSpec.v; of match-up data: IOSpec.v. *)
From Coq Require Import Reals.
From Verif Require Import Base ReaderModel ReaderSpec UncModel UncSpec WModel WSpec CheckModel CheckSpec HRModel PmhModel IOModel IOSpec.
Open Scope nat_scope.

(** The data of a covariate have the form [t] and no other; [w] is the number of its W matrix (0: none). *)
Definition only_form (t : Z) (ur us : list R) (w : nat) : Prop :=
  form t ur us (Z.of_nat w) /\ forall t', form t' ur us (Z.of_nat w) -> t' = t.
(** Two sensors, uncertainties of K, and for every covariate uncertainties of the declared form only. *)
Definition good_with (p : mdata) (use : side -> list nat) : Prop :=
  p_name p Side1 <> p_name p Side2 /\
  (forall i r s, nth_error (p_Kr p) i = Some r -> nth_error (p_Ks p) i = Some s -> (0 <= r /\ 0 <= s /\ (0 < r \/ 0 < s))%R) /\
  forall sd cov ty ur us w, 1 <= cov -> nth_error (p_type p sd) (cov - 1) = Some ty -> ReaderSpec.is_column (p_Ur p sd) cov ur -> ReaderSpec.is_column (p_Us p sd) cov us ->
    nth_error (use sd) (cov - 1) = Some w -> only_form ty ur us w.
(** Use tables of a side. *)
Definition wuse (mv : matvars R) (sd : side) : list nat := match sd with Side1 => wuse1 R mv | Side2 => wuse2 R mv end.
Definition uuse (mv : matvars R) (sd : side) : list nat := match sd with Side1 => uuse1 R mv | Side2 => uuse2 R mv end.

(** No uncertainty of a covariate is negative. *)
Definition x_nonneg (p : mdata) : Prop := forall sd r x, In r (p_Ur p sd) \/ In r (p_Us p sd) -> In x r -> (0 <= x)%R.

(** ** Files *)
(** A file of the format, without W matrices, holds the data [p] (additional variables are left open). *)
Definition w_dim_names := ["w_matrix_count"; "w_matrix_row_count"; "w_matrix_nnz_sum"; "u_matrix_count"; "u_matrix_row_count_sum"]%string.
Record base_file (f : ncfile) (p : mdata) : Prop := {
  bf_wf : wf_nc f; bf_req : required f; bf_now : forall n, In n w_names -> ~ present f n; bf_nod : forall n k, In n w_dim_names -> ~ size f n k;
  bf_M : size f "M" (p_M p); bf_m : forall sd, size f ("m" ++ snum sd) (p_m p sd);
  bf_names : forall sd, file_sensor f sd (p_name p sd);
  bf_time : forall sd, data f ("time" ++ snum sd) (Arr1 (p_time p sd));
  bf_X : forall sd, data f ("X" ++ snum sd) (Arr2 (p_X p sd));
  bf_type : forall sd, data f ("uncertainty_type" ++ snum sd) (IArr1 (p_type p sd));
  bf_ur : forall sd, data f ("Ur" ++ snum sd) (Arr2 (p_Ur p sd));
  bf_us : forall sd, data f ("Us" ++ snum sd) (Arr2 (p_Us p sd));
  bf_k : data f "K" (Arr1 (p_K p)); bf_kr : data f "Kr" (Arr1 (p_Kr p)); bf_ks : data f "Ks" (Arr1 (p_Ks p))
}.
(** A file of the format with the data [p] and the matrix variables [mv]. *)
Definition zs1 (l : list nat) : arr := IArr1 (map Z.of_nat l).
Record has_file (f : ncfile) (p : mdata) (mv : matvars R) : Prop := {
  hf_wf : wf_nc f; hf_req : required f; hf_w : w_variables f;
  hf_M : size f "M" (p_M p); hf_m : forall sd, size f ("m" ++ snum sd) (p_m p sd);
  hf_names : forall sd, file_sensor f sd (p_name p sd);
  hf_time : forall sd, data f ("time" ++ snum sd) (Arr1 (p_time p sd));
  hf_X : forall sd, data f ("X" ++ snum sd) (Arr2 (p_X p sd));
  hf_type : forall sd, data f ("uncertainty_type" ++ snum sd) (IArr1 (p_type p sd));
  hf_ur : forall sd, data f ("Ur" ++ snum sd) (Arr2 (p_Ur p sd));
  hf_us : forall sd, data f ("Us" ++ snum sd) (Arr2 (p_Us p sd));
  hf_k : data f "K" (Arr1 (p_K p)); hf_kr : data f "Kr" (Arr1 (p_Kr p)); hf_ks : data f "Ks" (Arr1 (p_Ks p));
  hf_nnz : data f "w_matrix_nnz" (zs1 (w_nnz R mv)); hf_row : data f "w_matrix_row" (IArr2 (map (map Z.of_nat) (w_row R mv)));
  hf_col : data f "w_matrix_col" (zs1 (w_col R mv)); hf_val : data f "w_matrix_val" (Arr1 (w_val R mv));
  hf_use : forall sd, data f ("w_matrix_use" ++ snum sd) (zs1 (wuse mv sd));
  hf_uuse : forall sd, data f ("u_matrix_use" ++ snum sd) (zs1 (uuse mv sd));
  hf_cnt : data f "u_matrix_row_count" (zs1 (u_row_count R mv)); hf_uval : data f "u_matrix_val" (Arr1 (u_val R mv))
}.

(** Matrix variables of which the values are stored by [g]. *)
Definition smv (g : R -> R) (mv : matvars R) : matvars R :=
  mkMatvars R (wuse1 R mv) (wuse2 R mv) (uuse1 R mv) (uuse2 R mv) (w_nnz R mv) (w_row R mv) (w_col R mv) (map g (w_val R mv)) (u_row_count R mv) (map g (u_val R mv)).

(** Match-up data of which the values are stored by [g]. *)
Definition mapped (g : R -> R) (p : mdata) : mdata :=
  mkData (p_M p) (p_m p) (p_name p) (fun sd => map (map g) (p_X p sd)) (fun sd => map (map g) (p_Ur p sd)) (fun sd => map (map g) (p_Us p sd))
    (p_type p) (p_time p) (map g (p_K p)) (map g (p_Kr p)) (map g (p_Ks p)) (p_more p).

(** ** Concatenated matrices *)
(** The variables [mv] are the matrices [ws], of [r] rows and with entries in their last columns, and the vectors [us]; the use tables, of [m1] and [m2]
    entries, number all of them, and give to each covariate a vector with one uncertainty per column of its matrix. *)
Record packed (mv : matvars R) (ws : list (csr R)) (us : list (list R)) (r m1 m2 : nat) : Prop := {
  pk_nnz : w_nnz R mv = map (fun w => length (c_indices R w)) ws;
  pk_row : w_row R mv = map (c_indptr R) ws;
  pk_col : w_col R mv = concat (map (c_indices R) ws);
  pk_val : w_val R mv = concat (map (c_data R) ws);
  pk_cnt : u_row_count R mv = map (@length R) us;
  pk_uval : u_val R mv = concat us;
  pk_w : ws <> [] /\ forall w, In w ws -> wf_csr w /\ c_nrows R w = r /\ last_column_used w;
  pk_len : length (wuse1 R mv) = m1 /\ length (wuse2 R mv) = m2 /\ length (uuse1 R mv) = m1 /\ length (uuse2 R mv) = m2 /\ m1 <> 0 /\ m2 <> 0;
  pk_numw : (forall x, In x (wuse1 R mv ++ wuse2 R mv) -> x <= length ws) /\ forall k, 1 <= k <= length ws -> In k (wuse1 R mv ++ wuse2 R mv);
  pk_numu : (forall x, In x (uuse1 R mv ++ uuse2 R mv) -> x <= length us) /\ forall k, 1 <= k <= length us -> In k (uuse1 R mv ++ uuse2 R mv);
  pk_zero : forall i w u, nth_error (wuse1 R mv ++ wuse2 R mv) i = Some w -> nth_error (uuse1 R mv ++ uuse2 R mv) i = Some u -> (w = 0 <-> u = 0);
  pk_size : forall i k u W, nth_error (wuse1 R mv ++ wuse2 R mv) i = Some (k + 1) -> nth_error (uuse1 R mv ++ uuse2 R mv) i = Some u -> nth_error ws k = Some W ->
    exists U, nth_error us (u - 1) = Some U /\ length U = c_ncols R W
}.

(** ** Microwave match-up files (MW_add_W_matrices.py) *)
(** The names of the sensors of an instrument. *)
Definition mw_name (a : instrument) (n : string) : Prop :=
  match a with MHS => In n ["19"; "ma"; "mb"] | AMSUB => In n ["15"; "16"; "17"] | Ref => n = "18" end%string.
Definition mw_covariates (a : instrument) : nat := match a with MHS => 9 | AMSUB => 11 | Ref => 1 end.
(** Random and systematic uncertainties of covariate number [c] (from 0): [averaged a] averaged covariates (the first two without, the target temperatures with
    a systematic uncertainty), then one with a random uncertainty only, then one with both. *)
Definition mw_column (a : instrument) (c : nat) (ur us : list R) : Prop :=
  if c <? averaged a then (if c <? 2 then Forall (eq 0%R) us else Forall (Rlt 0) us)
  else Forall (Rlt 0) ur /\ (if c =? averaged a then Forall (eq 0%R) us else Forall (Rlt 0) us).
(** The uncertainties of the first match-up, which the tool uses for all scan lines, are positive. *)
Definition mw_first (a : instrument) (rows : list (list R)) : Prop :=
  a <> Ref -> forall r c x, hd_error rows = Some r -> c < 3 -> nth_error r c = Some x -> (0 < x)%R.
Definition mw_good (p : mdata) (a : side -> instrument) : Prop :=
  p_name p Side1 <> p_name p Side2 /\
  (forall i r s, nth_error (p_Kr p) i = Some r -> nth_error (p_Ks p) i = Some s -> (0 <= r /\ 0 <= s /\ (0 < r \/ 0 < s))%R) /\
  forall sd, mw_first (a sd) (p_Ur p sd) /\
    forall c ur us, c < p_m p sd -> CheckSpec.is_column (p_Ur p sd) c ur -> CheckSpec.is_column (p_Us p sd) c us -> mw_column (a sd) c ur us.
(** The data of the converted file: the averaged covariates have no random uncertainties, the uncertainty types are those of the instrument. *)
Definition mw_type_of (a : instrument) (c : nat) : Z := if c <? averaged a then (if c <? 2 then 3 else 4) else if c =? averaged a then 1 else 2.
Definition mw_converted (p : mdata) (a : side -> instrument) : mdata :=
  mkData (p_M p) (p_m p) (p_name p) (p_X p) (fun sd => map (fun r => repeat 0%R (averaged (a sd)) ++ skipn (averaged (a sd)) r) (p_Ur p sd)) (p_Us p)
    (fun sd => map (mw_type_of (a sd)) (seq 0 (mw_covariates (a sd)))) (p_time p) (p_K p) (p_Kr p) (p_Ks p) (p_more p).

(** ** Files converted from PMH tables (pmh2fiduceo.py) *)
Definition rows_of (o : option (list (list R))) : list (list R) := match o with Some l => l | None => [] end.
Definition pmh_data (f : pfile) : mdata :=
  let d := uf_d R (p_file f) in let u := uf_u R (p_file f) in
  mkData (d_M R d) (fun sd => match sd with Side1 => d_m1 R d | Side2 => d_m2 R d end) (fun sd => match sd with Side1 => d_s1 R d | Side2 => d_s2 R d end)
    (fun sd => match sd with Side1 => d_X1 R d | Side2 => d_X2 R d end)
    (fun sd => rows_of match sd with Side1 => ur1 R u | Side2 => ur2 R u end) (fun sd => rows_of match sd with Side1 => us1 R u | Side2 => us2 R u end)
    (fun sd => map Z.of_nat match sd with Side1 => ut1 R u | Side2 => ut2 R u end) (fun sd => match sd with Side1 => d_time1 R d | Side2 => d_time2 R d end)
    (d_K R d) (PmhModel.p_Kr f) (PmhModel.p_Ks f) [].
(** The file of the sensors [a], [b] with [n] match-ups, of which the last file has [last]; [uref], [k] and [vs] are the uncertainties of the reference sensor, of K
    and of the variables; [g] is the storage of the values of the W matrix variables. *)
Definition pmh_good (g : R -> R) (uref k : R) (vs : list uvar) (a b : text) (n last : Z) : Prop :=
  a <> b /\ n = last /\ (0 < k)%R /\ (a = tx "0" -> (0 < uref)%R) /\
  (forall v, In v vs -> v_type v <> 3 -> (0 < v_uR v)%R /\ (v_type v = 2 -> (0 < v_uS v)%R)) /\
  exists c v, nth_error vs c = Some v /\ v_type v = 3 /\ (0 < g (v_uR v))%R /\ forall c' v', c' < c -> nth_error vs c' = Some v' -> v_type v' <> 3.
