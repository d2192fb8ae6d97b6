(** * Specification vocabulary for C106-C109: match-up data, written to files, checked, and read back. *)
From Coq Require Import Reals.
From Verif Require Import Base ReaderModel ReaderSpec UncModel CheckModel CheckSpec IOModel.
Open Scope nat_scope.

(** The data of one match-up file. *)
Record mdata := mkData {
  p_M : nat; p_m : side -> nat; p_name : side -> string;
  p_X : side -> list (list R); p_Ur : side -> list (list R); p_Us : side -> list (list R);
  p_type : side -> list Z; p_time : side -> list R;
  p_K : list R; p_Kr : list R; p_Ks : list R; p_more : list addvar
}.
(** Handed to the writer, with W matrix variables or not. *)
Definition args_of (p : mdata) (w : option (matvars R)) : margs :=
  mkArgs (D2 (p_X p Side1) (p_m p Side1)) (D2 (p_X p Side2) (p_m p Side2)) (D2 (p_Ur p Side1) (p_m p Side1)) (D2 (p_Ur p Side2) (p_m p Side2))
         (D2 (p_Us p Side1) (p_m p Side1)) (D2 (p_Us p Side2) (p_m p Side2)) (DI (p_type p Side1)) (DI (p_type p Side2))
         (D1 (p_K p)) (D1 (p_Kr p)) (D1 (p_Ks p)) (D1 (p_time p Side1)) (D1 (p_time p Side2)) (p_name p Side1) (p_name p Side2)
         w (match p_more p with [] => None | l => Some l end).
(** A 2-D array of [n] rows and [k] columns. *)
Definition matrix {A} (rows : list (list A)) (n k : nat) : Prop := length rows = n /\ forall r, In r rows -> length r = k.
(** The names of the format. *)
Definition format_names : list string :=
  ["X1"; "X2"; "Ur1"; "Ur2"; "Us1"; "Us2"; "K"; "Kr"; "Ks"; "time1"; "time2"; "uncertainty_type1"; "uncertainty_type2"]%string ++ w_names.
Definition dim_size (p : mdata) (d : string) (k : nat) : Prop :=
  (d = "M"%string /\ k = p_M p) \/ (d = "m1"%string /\ k = p_m p Side1) \/ (d = "m2"%string /\ k = p_m p Side2).
(** An additional variable has the shape of its dimensions. *)
Definition add_shaped (p : mdata) (v : addvar) : Prop :=
  match ad_data v with
  | D1 l => exists d, ad_dim v = [d] /\ dim_size p d (length l)
  | DI l => exists d, ad_dim v = [d] /\ dim_size p d (length l)
  | D2 rows k => exists d e, ad_dim v = [d; e] /\ dim_size p d (length rows) /\ dim_size p e k /\ forall r, In r rows -> length r = k
  end.
Definition well_shaped (p : mdata) : Prop :=
  (forall sd, matrix (p_X p sd) (p_M p) (p_m p sd) /\ matrix (p_Ur p sd) (p_M p) (p_m p sd) /\ matrix (p_Us p sd) (p_M p) (p_m p sd) /\
              length (p_type p sd) = p_m p sd /\ length (p_time p sd) = p_M p) /\
  length (p_K p) = p_M p /\ length (p_Kr p) = p_M p /\ length (p_Ks p) = p_M p /\
  NoDup (map ad_name (p_more p)) /\ forall v, In v (p_more p) -> ~ In (ad_name v) format_names /\ add_shaped p v.

(** Two sensors, uncertainties of K, and for every covariate uncertainties of the declared type, 1 or 2. *)
Definition good_values (p : mdata) : Prop :=
  p_name p Side1 <> p_name p Side2 /\
  (forall i r s, nth_error (p_Kr p) i = Some r -> nth_error (p_Ks p) i = Some s -> (0 <= r /\ 0 <= s /\ (0 < r \/ 0 < s))%R) /\
  forall sd cov ty ur us, 1 <= cov -> nth_error (p_type p sd) (cov - 1) = Some ty -> ReaderSpec.is_column (p_Ur p sd) cov ur -> ReaderSpec.is_column (p_Us p sd) cov us ->
    p_M p <> 0 /\ ((ty = 1%Z /\ Forall (Rlt 0) ur /\ Forall (eq 0%R) us) \/ (ty = 2%Z /\ Forall (Rlt 0) ur /\ Forall (Rlt 0) us)).

(** Sets of match-up data that can be opened together: two different sensors each, the same number of covariates for a sensor everywhere. *)
Definition match_set (ps : list mdata) : Prop :=
  ps <> [] /\ (forall p, In p ps -> well_shaped p /\ p_name p Side1 <> p_name p Side2) /\
  forall p p' sd sd', In p ps -> In p' ps -> p_name p sd = p_name p' sd' -> p_m p sd = p_m p' sd'.
(** Only types 1 and 2. *)
Definition simple_types (p : mdata) : Prop := forall sd ty, In ty (p_type p sd) -> ty = 1%Z \/ ty = 2%Z.
(** Number of match-ups in the data before number [n] (from 1). *)
Definition rows_before (ps : list mdata) (n : nat) : nat := list_sum (map p_M (firstn (n - 1) ps)).

(** The uncertainty of a column is the one given. *)
Definition unc_given (p : mdata) (sd : side) (cov : nat) (u : unc R) : Prop :=
  exists ty ur us, nth_error (p_type p sd) (cov - 1) = Some ty /\ ReaderSpec.is_column (p_Ur p sd) cov ur /\ ReaderSpec.is_column (p_Us p sd) cov us /\
    ((ty = 1%Z /\ u_kind R u = UK1 R ur) \/ (ty = 2%Z /\ u_kind R u = UK2 R ur us)).

(** ** Sets of files *)
Definition snum (sd : side) : string := match sd with Side1 => "1" | Side2 => "2" end%string.
Definition file_sensor (f : ncfile) (sd : side) (s : string) : Prop := In ("sensor_" ++ snum sd ++ "_name", s)%string (nc_attrs f).
Definition agree (fs : list ncfile) : Prop :=
  forall f f' sd sd' s m m', In f fs -> In f' fs -> file_sensor f sd s -> file_sensor f' sd' s -> size f ("m" ++ snum sd) m -> size f' ("m" ++ snum sd') m' -> m = m'.
(** A file with a covariate of type 4 has at least two match-ups. *)
Definition two_rows (f : ncfile) : Prop :=
  forall sd l M, data f ("uncertainty_type" ++ snum sd) (IArr1 l) -> In 4%Z l -> size f "M" M -> 2 <= M.
