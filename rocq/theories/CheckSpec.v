(** * Specification vocabulary for C43, C44, C72, C73: what an acceptable input file is. *)
From Coq Require Import Reals.
From Verif Require Import Base UncModel CheckModel.
Open Scope nat_scope.

(** ** netCDF files *)
(** The data of a variable have the sizes of its dimensions and the kind of its type. *)
Definition size (f : ncfile) (d : string) (k : nat) : Prop := In (d, k) (nc_dims f).
Definition fits (f : ncfile) (v : ncvar) : Prop :=
  match v_data v with
  | Arr1 l => In (v_dtype v) ["float32"; "float64"]%string /\ exists d, v_dims v = [d] /\ size f d (length l)
  | Arr2 rows => In (v_dtype v) ["float32"; "float64"]%string /\ exists d e k, v_dims v = [d; e] /\ size f d (length rows) /\ size f e k /\ forall r, In r rows -> length r = k
  | IArr1 l => v_dtype v = "int32"%string /\ exists d, v_dims v = [d] /\ size f d (length l)
  | IArr2 rows => v_dtype v = "int32"%string /\ exists d e k, v_dims v = [d; e] /\ size f d (length rows) /\ size f e k /\ forall r, In r rows -> length r = k
  | ArrOther => ~ In (v_dtype v) ["float32"; "float64"; "int32"]%string \/ (length (v_dims v) <> 1 /\ length (v_dims v) <> 2)
  end.
Definition wf_nc (f : ncfile) : Prop :=
  NoDup (map fst (nc_dims f)) /\ NoDup (map v_name (nc_vars f)) /\ NoDup (map fst (nc_attrs f)) /\ forall v, In v (nc_vars f) -> fits f v.
(** Data of a variable. *)
Definition data (f : ncfile) (n : string) (a : arr) : Prop := exists v, In v (nc_vars f) /\ v_name v = n /\ v_data v = a.
Definition present (f : ncfile) (n : string) : Prop := exists v, In v (nc_vars f) /\ v_name v = n.
(** The variable is there with these dimensions and one of these types. *)
Definition declared (f : ncfile) (n : string) (dims types : list string) : Prop :=
  exists v, In v (nc_vars f) /\ v_name v = n /\ v_dims v = dims /\ In (v_dtype v) types.

(** ** The format *)
Definition float_types := ["float32"; "float64"]%string.
Definition int_types := ["int32"]%string.
Definition required (f : ncfile) : Prop :=
  (declared f "X1" ["M"; "m1"] float_types /\ declared f "X2" ["M"; "m2"] float_types /\
   declared f "Ur1" ["M"; "m1"] float_types /\ declared f "Ur2" ["M"; "m2"] float_types /\
   declared f "Us1" ["M"; "m1"] float_types /\ declared f "Us2" ["M"; "m2"] float_types /\
   declared f "K" ["M"] float_types /\ declared f "Kr" ["M"] float_types /\ declared f "Ks" ["M"] float_types /\
   declared f "time1" ["M"] float_types /\ declared f "time2" ["M"] float_types /\
   declared f "uncertainty_type1" ["m1"] int_types /\ declared f "uncertainty_type2" ["m2"] int_types)%string.
Definition w_variables (f : ncfile) : Prop :=
  (declared f "w_matrix_nnz" ["w_matrix_count"] int_types /\ declared f "w_matrix_row" ["w_matrix_count"; "w_matrix_row_count"] int_types /\
   declared f "w_matrix_col" ["w_matrix_nnz_sum"] int_types /\ declared f "w_matrix_val" ["w_matrix_nnz_sum"] float_types /\
   declared f "w_matrix_use1" ["m1"] int_types /\ declared f "w_matrix_use2" ["m2"] int_types /\
   declared f "u_matrix_row_count" ["u_matrix_count"] int_types /\ declared f "u_matrix_val" ["u_matrix_row_count_sum"] float_types /\
   declared f "u_matrix_use1" ["m1"] int_types /\ declared f "u_matrix_use2" ["m2"] int_types)%string.
Definition w_names := ["w_matrix_nnz"; "w_matrix_row"; "w_matrix_col"; "w_matrix_val"; "w_matrix_use1"; "w_matrix_use2"; "u_matrix_row_count"; "u_matrix_val"; "u_matrix_use1"; "u_matrix_use2"]%string.
(** All of the W and u matrix variables, or none of them. *)
Definition w_or_none (f : ncfile) : Prop := w_variables f \/ forall n, In n w_names -> ~ present f n.
(** Two different sensors. *)
Definition two_sensors (f : ncfile) : Prop :=
  exists a b, In ("sensor_1_name"%string, a) (nc_attrs f) /\ In ("sensor_2_name"%string, b) (nc_attrs f) /\ a <> b.
(** Uncertainties of K are not negative and not both 0; those of X are not negative. *)
Definition k_uncertainties (f : ncfile) : Prop :=
  forall kr ks, data f "Kr" (Arr1 kr) -> data f "Ks" (Arr1 ks) -> forall i r s, nth_error kr i = Some r -> nth_error ks i = Some s ->
    (0 <= r /\ 0 <= s /\ (0 < r \/ 0 < s))%R.
Definition x_uncertainties (f : ncfile) : Prop :=
  forall n rows r x, In n ["Ur1"; "Ur2"; "Us1"; "Us2"]%string -> data f n (Arr2 rows) -> In r rows -> In x r -> (0 <= x)%R.

(** ** Correlation forms: the data of a covariate have form [t] (1 to 4) *)
Definition form (t : Z) (ur us : list R) (w : Z) : Prop :=
  (t = 1%Z /\ Forall (Rlt 0) ur /\ Forall (eq 0%R) us) \/ (t = 2%Z /\ Forall (Rlt 0) ur /\ Forall (Rlt 0) us) \/
  (t = 3%Z /\ (0 < w)%Z /\ Forall (eq 0%R) us) \/ (t = 4%Z /\ (0 < w)%Z /\ Forall (Rlt 0) us).
(** The column of a 2-D variable. *)
Definition is_column (rows : list (list R)) (col : nat) (c : list R) : Prop :=
  length c = length rows /\ forall i r, nth_error rows i = Some r -> nth_error c i = nth_error r col.
(** W matrix number used by a covariate; 0 if the file has no W matrices. *)
Definition w_used (f : ncfile) (n : string) (col : nat) (w : Z) : Prop :=
  (exists l, data f n (IArr1 l) /\ nth_error l col = Some w) \/ (~ present f n /\ w = 0%Z).
(** The declared type is the form, the only one, that the data have. *)
Definition assigned (f : ncfile) (side : string) (col : nat) : Prop :=
  exists ts t urs uss ur us w, data f ("uncertainty_type" ++ side) (IArr1 ts) /\ nth_error ts col = Some t /\
    data f ("Ur" ++ side) (Arr2 urs) /\ is_column urs col ur /\ data f ("Us" ++ side) (Arr2 uss) /\ is_column uss col us /\
    w_used f ("w_matrix_use" ++ side) col w /\ form t ur us w /\ forall t', form t' ur us w -> t' = t.
Definition all_assigned (f : ncfile) : Prop :=
  (forall m col, size f "m1" m -> col < m -> assigned f "1" col) /\ (forall m col, size f "m2" m -> col < m -> assigned f "2" col).

(** ** W and u matrices *)
(** The numbers used are 0 and all of 1, ..., n. *)
Definition numbered (use : list Z) (n : nat) : Prop :=
  (forall x, In x use -> (0 <= x <= Z.of_nat n)%Z) /\ forall k, (1 <= k <= Z.of_nat n)%Z -> In k use.
(** Largest element. *)
Definition largest (l : list Z) (m : Z) : Prop := In m l /\ forall x, In x l -> (x <= m)%Z.
Definition w_consistent (f : ncfile) : Prop :=
  exists M nw nu nr nn nru nnz rows col w1 w2 cnt uval u1 u2,
    (size f "M" M /\ size f "w_matrix_count" nw /\ size f "u_matrix_count" nu /\ size f "w_matrix_row_count" nr /\ size f "w_matrix_nnz_sum" nn /\ size f "u_matrix_row_count_sum" nru /\
     data f "w_matrix_nnz" (IArr1 nnz) /\ data f "w_matrix_row" (IArr2 rows) /\ data f "w_matrix_col" (IArr1 col) /\ data f "w_matrix_use1" (IArr1 w1) /\ data f "w_matrix_use2" (IArr1 w2) /\
     data f "u_matrix_row_count" (IArr1 cnt) /\ data f "u_matrix_val" (Arr1 uval) /\ data f "u_matrix_use1" (IArr1 u1) /\ data f "u_matrix_use2" (IArr1 u2))%string /\
    w1 <> [] /\ w2 <> [] /\
    numbered (w1 ++ w2) nw /\ numbered (u1 ++ u2) nu /\ nr = M + 1 /\
    Z.of_nat nn = fold_right Z.add 0%Z nnz /\ Z.of_nat nru = fold_right Z.add 0%Z cnt /\
    (forall i w u, nth_error (w1 ++ w2) i = Some w -> nth_error (u1 ++ u2) i = Some u -> (w = 0 <-> u = 0)%Z) /\
    (forall n, In n nnz -> 0 <= n)%Z /\ (forall n, In n (concat rows) -> 0 <= n)%Z /\ (forall n, In n col -> 0 <= n)%Z /\ (forall n, In n cnt -> 0 <= n)%Z /\
    (forall x, In x uval -> 0 < x)%R /\
    forall k n, nth_error nnz k = Some n -> exists mx, largest (slice (Z.to_nat (fold_right Z.add 0 (firstn k nnz))%Z) (Z.to_nat (fold_right Z.add 0 (firstn (k + 1) nnz))%Z) col) mx /\
      forall i u, nth_error (w1 ++ w2) i = Some (Z.of_nat k + 1)%Z -> nth_error (u1 ++ u2) i = Some u -> nth_error cnt (Z.to_nat (u - 1)) = Some (mx + 1)%Z.

(** ** Acceptable files *)
Definition acceptable (f : ncfile) : Prop :=
  required f /\ ((w_variables f /\ w_consistent f) \/ (forall n, In n w_names -> ~ present f n)) /\ two_sensors f /\ k_uncertainties f /\ x_uncertainties f /\ all_assigned f.

(** The report names covariate [col] of sensor [side]. *)
Definition reported (es : list err) (side col : nat) : Prop := In (EForm side col) es \/ In (EOneForm side col) es.
Definition side_name (side : nat) : string := (if Nat.eqb side 1 then "1" else "2")%string.
Definition covariate (f : ncfile) (side col : nat) : Prop := (side = 1 \/ side = 2) /\ exists m, size f ("m" ++ side_name side) m /\ col < m.

(** ** Reading the matrices of a file *)
Definition read_matvars (f : ncfile) (mv : UncModel.matvars R) : Prop :=
  exists nnz rows col val w1 w2 cnt uval u1 u2,
    (data f "w_matrix_nnz" (IArr1 nnz) /\ data f "w_matrix_row" (IArr2 rows) /\ data f "w_matrix_col" (IArr1 col) /\ data f "w_matrix_val" (Arr1 val) /\ data f "w_matrix_use1" (IArr1 w1) /\ data f "w_matrix_use2" (IArr1 w2) /\
     data f "u_matrix_row_count" (IArr1 cnt) /\ data f "u_matrix_val" (Arr1 uval) /\ data f "u_matrix_use1" (IArr1 u1) /\ data f "u_matrix_use2" (IArr1 u2))%string /\
    mv = UncModel.mkMatvars R (map Z.to_nat w1) (map Z.to_nat w2) (map Z.to_nat u1) (map Z.to_nat u2) (map Z.to_nat nnz) (map (map Z.to_nat) rows) (map Z.to_nat col) val (map Z.to_nat cnt) uval.
(** The row pointers of every W matrix start with 0 and stay within its entries (which the checker does not look at). *)
Definition row_pointers (f : ncfile) : Prop :=
  forall nnz rows k r n, data f "w_matrix_nnz" (IArr1 nnz) -> data f "w_matrix_row" (IArr2 rows) -> nth_error rows k = Some r -> nth_error nnz k = Some n -> hd_error r = Some 0%Z /\ (last r 0 <= n)%Z.
