From Coq Require Import String.
From Verif Require Import Base FoModel FrModel FdModel FwModel FwSpec.
From Coq Require Import Reals Lia.
Open Scope string_scope.
Open Scope nat_scope.
Open Scope list_scope.

Lemma ad_eq a b : assert_dimension a b = Ok tt <-> a = b.
Proof. unfold assert_dimension. destruct (Nat.eqb_spec a b); split; intros; try discriminate; auto; contradiction. Qed.

Definition with_var (f : ncfile) (v : ncvar) : ncfile := mkNc (nc_atts f) (nc_dims f) (nc_vars f ++ [v]) (nc_defining f).

Lemma add_vector_iff f n ty s d r : add_vector f n ty s d = Ok r <->
  inq_dimlen f d = Ok s /\ bad_name (map v_name (nc_vars f)) n = false /\
  r = (with_var f (mkVar n ty [d] None), S (length (nc_vars f))).
Proof.
  unfold add_vector, def_var, with_var. destruct (inq_dimlen f d) as [l|] eqn:E; cbn [bind].
  2: { split; [discriminate|intros [H _]; discriminate]. }
  unfold assert_dimension. destruct (Nat.eqb_spec l s) as [->|N]; cbn [bind].
  2: { split; [discriminate|intros [H _]; congruence]. }
  destruct (bad_name _ n); split; try discriminate; intros H.
  - destruct H as (_ & H & _). discriminate.
  - repeat split; congruence.
  - destruct H as (_ & _ & ->). reflexivity.
Qed.
Lemma add_text_iff f n s l d r : add_text f n s l d = Ok r <->
  inq_dimlen f d = Ok s /\ bad_name (map v_name (nc_vars f)) n = false /\
  r = (with_var f (mkVar n NChar [l; d] None), S (length (nc_vars f))).
Proof.
  unfold add_text, def_var, with_var. destruct (inq_dimlen f d) as [k|] eqn:E; cbn [bind].
  2: { split; [discriminate|intros [H _]; discriminate]. }
  unfold assert_dimension. destruct (Nat.eqb_spec k s) as [->|N]; cbn [bind].
  2: { split; [discriminate|intros [H _]; congruence]. }
  destruct (bad_name _ n); split; try discriminate; intros H.
  - destruct H as (_ & H & _). discriminate.
  - repeat split; congruence.
  - destruct H as (_ & _ & ->). reflexivity.
Qed.
Lemma add_matrix_iff f n a d e r : add_matrix f n a d e = Ok r <->
  inq_dimlen f d = Ok (mx_1 a) /\ inq_dimlen f e = Ok (mx_2 a) /\ bad_name (map v_name (nc_vars f)) n = false /\
  r = (with_var f (mkVar n NDouble [d; e] None), S (length (nc_vars f))).
Proof.
  unfold add_matrix, def_var, with_var. destruct (inq_dimlen f d) as [k|] eqn:E; cbn [bind].
  2: { split; [discriminate|intros [H _]; discriminate]. }
  destruct (inq_dimlen f e) as [k'|] eqn:E'; cbn [bind].
  2: { split; [discriminate|intros [_ [H _]]; discriminate]. }
  unfold assert_dimension. destruct (Nat.eqb_spec k (mx_1 a)) as [->|N]; cbn [bind].
  2: { split; [discriminate|intros [H _]; congruence]. }
  destruct (Nat.eqb_spec k' (mx_2 a)) as [->|N]; cbn [bind].
  2: { split; [discriminate|intros [_ [H _]]; congruence]. }
  destruct (bad_name _ n); split; try discriminate; intros H.
  - destruct H as (_ & _ & H & _). discriminate.
  - repeat split; congruence.
  - destruct H as (_ & _ & _ & ->). reflexivity.
Qed.
Lemma add_dimension_ok f n l : bad_name (map fst (nc_dims f)) n = false -> l <> 0 ->
  add_dimension f n l = Ok (mkNc (nc_atts f) (nc_dims f ++ [(n, l)]) (nc_vars f) (nc_defining f), S (length (nc_dims f))).
Proof. intros B N. unfold add_dimension. rewrite B. destruct l; [contradiction|reflexivity]. Qed.

(** The shape of data agrees with the dimensions of the variable. *)
Definition fits (f : ncfile) (ds : list nat) (d : ncdata) : Prop :=
  match d, ds with
  | DInt l, [i] => inq_dimlen f i = Ok (length l)
  | DReal l, [i] => inq_dimlen f i = Ok (length l)
  | DText l, [_; i] => inq_dimlen f i = Ok (length l)
  | DMatrix a, [i; j] => inq_dimlen f i = Ok (mx_1 a) /\ inq_dimlen f j = Ok (mx_2 a)
  | _, _ => False
  end.
Lemma write_ok round f k v d : nth_error (nc_vars f) k = Some v -> nc_defining f = false -> fits f (v_dims v) d ->
  write_variable round f (S k) d =
  Ok (mkNc (nc_atts f) (nc_dims f) (upd k (mkVar (v_name v) (v_type v) (v_dims v) (Some (stored round (v_type v) d))) (nc_vars f)) false).
Proof.
  intros E D F. unfold write_variable, put_var. rewrite E, D.
  assert (X : forall n, assert_dimension n n = Ok tt) by (intros; apply ad_eq; reflexivity).
  destruct d; cbn [fits] in F; destruct (v_dims v) as [|i [|j [|]]]; try contradiction.
  - rewrite F. cbn [bind]. rewrite X. reflexivity.
  - rewrite F. cbn [bind]. rewrite X. reflexivity.
  - rewrite F. cbn [bind]. rewrite X. reflexivity.
  - destruct F as [F1 F2]. rewrite F1, F2. cbn [bind]. rewrite X. cbn [bind]. rewrite X. reflexivity.
Qed.

Lemma add_vector_ok f n ty s d : inq_dimlen f d = Ok s -> bad_name (map v_name (nc_vars f)) n = false ->
  add_vector f n ty s d = Ok (with_var f (mkVar n ty [d] None), S (length (nc_vars f))).
Proof. intros. apply add_vector_iff. auto. Qed.
Lemma add_text_ok f n s l d : inq_dimlen f d = Ok s -> bad_name (map v_name (nc_vars f)) n = false ->
  add_text f n s l d = Ok (with_var f (mkVar n NChar [l; d] None), S (length (nc_vars f))).
Proof. intros. apply add_text_iff. auto. Qed.
Lemma add_matrix_ok f n a d e : inq_dimlen f d = Ok (mx_1 a) -> inq_dimlen f e = Ok (mx_2 a) ->
  bad_name (map v_name (nc_vars f)) n = false ->
  add_matrix f n a d e = Ok (with_var f (mkVar n NDouble [d; e] None), S (length (nc_vars f))).
Proof. intros. apply add_matrix_iff. auto. Qed.

Ltac simp := cbn [bind with_var finish_dataset nc_atts nc_dims nc_vars nc_defining app map length upd v_name v_type v_dims v_data stored].
Ltac inq := cbn; f_equal; auto; try rewrite map_length; auto.
Ltac dim := rewrite add_dimension_ok; [|reflexivity|assumption || discriminate]; simp.
Ltac av := erewrite add_vector_ok; [|solve [inq]|reflexivity]; simp.
Ltac at_ := erewrite add_text_ok; [|solve [inq]|reflexivity]; simp.
Ltac am := erewrite add_matrix_ok; [|solve [inq]|solve [inq]|reflexivity]; simp.
Ltac wr := erewrite write_ok; [|reflexivity|reflexivity|cbn [fits v_dims]; solve [inq | split; inq]]; simp.

Section W.
Variable round : R -> R.

Lemma parameter_written c ds u : not_empty ds -> well_sized ds ->
  exists f, write_parameter_dataset round c ds u = Ok f /\
    contains f (parameter_atts c ds u) (parameter_dims ds) (parameter_vars ds).
Proof.
  intros (N1 & N2 & N3) ((A1 & A2 & [A3 A3'] & [A4 A4'] & A5 & A6 & A7) & (B1 & B2 & B3) & (C1 & C2 & C3) & D).
  unfold write_parameter_dataset.
  match goal with |- context [add_atts create_dataset ?l] =>
    assert (AT : add_atts create_dataset l = Ok (mkNc (parameter_atts c ds u) [] [] true)) by reflexivity;
    rewrite AT; clear AT end.
  unfold contains, parameter_dims, parameter_vars.
  generalize (parameter_atts c ds u). intros atts. simp.
  destruct (Nat.eqb_spec (p_nconfig ds) 0) as [Z|Z].
  - rewrite Z. cbn [Nat.ltb Nat.leb].
    do 5 dim. do 2 av. do 2 am. do 2 av. at_. do 2 av. at_. 
    unfold add_statistics. do 5 av. do 2 at_.
    do 10 wr. unfold write_statistics. do 7 wr.
    eexists. split; [reflexivity|]. repeat split.
  - assert (L : (0 <? p_nconfig ds) = true) by (apply Nat.ltb_lt; lia). rewrite L.
    destruct (D Z) as [D1 D2].
    do 6 dim. do 2 av. do 2 am. do 2 av. at_. do 2 av. do 2 av. at_. 
    unfold add_statistics. do 5 av. do 2 at_.
    do 9 wr. do 2 wr. do 1 wr. unfold write_statistics. do 7 wr.
    eexists. split; [reflexivity|]. repeat split.
Qed.
End W.
