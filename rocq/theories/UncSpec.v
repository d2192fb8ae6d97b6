(** * Specification vocabulary for C06: what a file declares about the uncertainty of a column. *)
From Verif Require Import Base ReaderModel ReaderSpec UncModel.

Section Spec.
Context {V : Type}.

Definition stypes (u : uncvars V) (sd : side) : list nat :=
  match sd with Side1 => ut1 V u | Side2 => ut2 V u end.
Definition sUr (u : uncvars V) (sd : side) : option (list (list V)) :=
  match sd with Side1 => ur1 V u | Side2 => ur2 V u end.
Definition sUs (u : uncvars V) (sd : side) : option (list (list V)) :=
  match sd with Side1 => us1 V u | Side2 => us2 V u end.
Definition swuse (mv : matvars V) (sd : side) : list nat :=
  match sd with Side1 => wuse1 V mv | Side2 => wuse2 V mv end.
Definition suuse (mv : matvars V) (sd : side) : list nat :=
  match sd with Side1 => uuse1 V mv | Side2 => uuse2 V mv end.

(** A 2-D variable of shape (M, m). *)
Definition shaped (rows : list (list V)) (M m : nat) : Prop :=
  length rows = M /\ forall r, In r rows -> length r = m.

(** Column [cov] (from 1) of a side is declared type [ty]; [valid_decl] says that the file holds
    what that type needs. *)
Definition valid_decl (f : ufile V) (sd : side) (cov ty : nat) : Prop :=
  let d := uf_d V f in let u := uf_u V f in
  let mats := exists mv w ui W U, umat V u = Some mv /\
      nth_error (swuse mv sd) (cov - 1) = Some w /\ w <> 0 /\ open_w_matrix V mv w = Ok W /\
      nth_error (suuse mv sd) (cov - 1) = Some ui /\ ui <> 0 /\ open_u_matrix V mv ui = Ok U in
  match ty with
  | 1 => exists r, sUr u sd = Some r /\ shaped r (d_M V d) (sm d sd)
  | 2 => (exists r, sUr u sd = Some r /\ shaped r (d_M V d) (sm d sd)) /\
         (exists s, sUs u sd = Some s /\ shaped s (d_M V d) (sm d sd))
  | 3 => mats
  | 4 => mats /\ (exists s, sUs u sd = Some s /\ shaped s (d_M V d) (sm d sd)) /\ 2 <= d_M V d
  | _ => False
  end.

Definition valid_file (f : ufile V) : Prop :=
  forall sd,
    length (stypes (uf_u V f) sd) = sm (uf_d V f) sd /\
    (forall mv, umat V (uf_u V f) = Some mv ->
       length (swuse mv sd) = sm (uf_d V f) sd /\ length (suuse mv sd) = sm (uf_d V f) sd) /\
    (forall cov ty, 1 <= cov -> nth_error (stypes (uf_u V f) sd) (cov - 1) = Some ty ->
       valid_decl f sd cov ty).

(** The opened uncertainty [k] (with the opened matrix lists) is the one declared. *)
Definition as_declared (f : ufile V) (sd : side) (cov ty : nat) (k : ukind V)
           (ws : list (option (csr V))) (us : list (option (list V))) : Prop :=
  let u := uf_u V f in
  let mats wi ui := exists mv w uj W U, umat V u = Some mv /\
      nth_error (swuse mv sd) (cov - 1) = Some w /\ open_w_matrix V mv w = Ok W /\
      nth_error ws wi = Some (Some W) /\
      nth_error (suuse mv sd) (cov - 1) = Some uj /\ open_u_matrix V mv uj = Ok U /\
      nth_error us ui = Some (Some U) in
  match k with
  | UK1 _ uR => ty = 1 /\ exists r, sUr u sd = Some r /\ is_column r cov uR
  | UK2 _ uR uS => ty = 2 /\ (exists r, sUr u sd = Some r /\ is_column r cov uR) /\
                   (exists s, sUs u sd = Some s /\ is_column s cov uS)
  | UK3 _ wi ui => ty = 3 /\ mats wi ui
  | UK4 _ wi ui uS => ty = 4 /\ mats wi ui /\
       (exists s col, sUs u sd = Some s /\ is_column s cov col /\ nth_error col 1 = Some uS)
  end.

(** The uncertainty has a systematic component (types 2 and 4). *)
Definition systematic (u : unc V) : Prop :=
  match u_kind V u with UK2 _ _ _ | UK4 _ _ _ _ => True | _ => False end.

(** A CSR matrix without padding: row pointers from 0 to the number of entries. *)
Definition wf_csr (w : csr V) : Prop :=
  length (c_indptr V w) = c_nrows V w + 1 /\ nth_error (c_indptr V w) 0 = Some 0 /\
  length (c_indices V w) = length (c_data V w) /\ last (c_indptr V w) 0 = length (c_data V w).

(** Some entry lies in the last column, and none outside the matrix. *)
Definition last_column_used (w : csr V) : Prop :=
  In (c_ncols V w - 1) (c_indices V w) /\ forall j, In j (c_indices V w) -> j < c_ncols V w.
End Spec.
