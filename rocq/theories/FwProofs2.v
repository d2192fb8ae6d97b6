From Coq Require Import String.
From Verif Require Import Base FoModel FrModel FdModel FwModel FwSpec FwProofs.
From Coq Require Import Reals Lia.
Open Scope string_scope.
Open Scope nat_scope.
Open Scope list_scope.

Ltac simp := cbn [bind with_var finish_dataset nc_atts nc_dims nc_vars nc_defining app map length upd v_name v_type v_dims v_data stored].
Ltac inq := cbn; f_equal; auto; try rewrite map_length; auto.
Ltac dim := rewrite add_dimension_ok; [|reflexivity|assumption || discriminate]; simp.
Ltac av := erewrite add_vector_ok; [|solve [inq]|reflexivity]; simp.
Ltac at_ := erewrite add_text_ok; [|solve [inq]|reflexivity]; simp.
Ltac am := erewrite add_matrix_ok; [|solve [inq]|solve [inq]|reflexivity]; simp.
Ltac wr := erewrite write_ok; [|reflexivity|reflexivity|cbn [fits v_dims]; solve [inq | split; inq]]; simp.

Lemma bind_inv {A B} (x : res A) (k : A -> res B) b : bind x k = Ok b -> exists a, x = Ok a /\ k a = Ok b.
Proof. destruct x; cbn; intros H; [eauto|discriminate]. Qed.

(** The inquiry of the length of a dimension depends on the dimensions only. *)
Definition dimlen (l : list (string * nat)) (d : nat) : res nat :=
  match d with
  | 0 => Raise OtherError
  | S k => match nth_error l k with Some p => Ok (snd p) | None => Raise OtherError end
  end.
Lemma vector_inv {B} f n ty s d l (k : ncfile * nat -> res B) b : nc_dims f = l ->
  bind (add_vector f n ty s d) k = Ok b -> exists g i, dimlen l d = Ok s /\ nc_dims g = l /\ k (g, i) = Ok b.
Proof.
  intros L H. apply bind_inv in H. destruct H as (r & E & H). apply add_vector_iff in E. destruct E as (I & _ & ->).
  eexists _, _. split; [|split; [|exact H]]; [rewrite <- L; exact I|exact L].
Qed.
Lemma text_inv {B} f n s d0 d l (k : ncfile * nat -> res B) b : nc_dims f = l ->
  bind (add_text f n s d0 d) k = Ok b -> exists g i, dimlen l d = Ok s /\ nc_dims g = l /\ k (g, i) = Ok b.
Proof.
  intros L H. apply bind_inv in H. destruct H as (r & E & H). apply add_text_iff in E. destruct E as (I & _ & ->).
  eexists _, _. split; [|split; [|exact H]]; [rewrite <- L; exact I|exact L].
Qed.
Lemma matrix_inv {B} f n a d e l (k : ncfile * nat -> res B) b : nc_dims f = l ->
  bind (add_matrix f n a d e) k = Ok b ->
  exists g i, (dimlen l d = Ok (mx_1 a) /\ dimlen l e = Ok (mx_2 a)) /\ nc_dims g = l /\ k (g, i) = Ok b.
Proof.
  intros L H. apply bind_inv in H. destruct H as (r & E & H). apply add_matrix_iff in E. destruct E as (I & J & _ & ->).
  eexists _, _. split; [|split; [|exact H]]; [rewrite <- L; split; [exact I|exact J]|exact L].
Qed.
Lemma statistics_inv {B} f l0 d l (k : ncfile * (nat * nat * nat * nat * nat) -> res B) b : nc_dims f = l ->
  bind (add_statistics f l0 d) k = Ok b ->
  exists g i, dimlen l d = Ok (length l0) /\ nc_dims g = l /\ k (g, i) = Ok b.
Proof.
  intros L H. apply bind_inv in H. destruct H as (r & E & H). unfold add_statistics in E.
  apply (vector_inv _ _ _ _ _ _ _ _ L) in E. destruct E as (g1 & i1 & I & L1 & E).
  apply (vector_inv _ _ _ _ _ _ _ _ L1) in E. destruct E as (g2 & i2 & _ & L2 & E).
  apply (vector_inv _ _ _ _ _ _ _ _ L2) in E. destruct E as (g3 & i3 & _ & L3 & E).
  apply (vector_inv _ _ _ _ _ _ _ _ L3) in E. destruct E as (g4 & i4 & _ & L4 & E).
  apply (vector_inv _ _ _ _ _ _ _ _ L4) in E. destruct E as (g5 & i5 & _ & L5 & E).
  injection E as <-. eexists _, _. split; [exact I|]. split; [exact L5|exact H].
Qed.

Ltac vi H := let I := fresh "I" in let g := fresh "g" in let i := fresh "i" in let L := fresh "L" in
  match goal with K : nc_dims _ = _ |- _ =>
    first [ apply (vector_inv _ _ _ _ _ _ _ _ K) in H | apply (text_inv _ _ _ _ _ _ _ _ K) in H
          | apply (matrix_inv _ _ _ _ _ _ _ _ K) in H | apply (statistics_inv _ _ _ _ _ _ K) in H ];
    destruct H as (g & i & I & L & H); clear K; cbn [dimlen nth_error snd] in I; cbv beta iota in H end.

Section W.
Variable round : R -> R.

Lemma parameter_sized c ds u f : not_empty ds -> write_parameter_dataset round c ds u = Ok f -> well_sized ds.
Proof.
  intros (N1 & N2 & N3) H. revert H. unfold write_parameter_dataset.
  match goal with |- context [add_atts create_dataset ?l] =>
    assert (AT : add_atts create_dataset l = Ok (mkNc (parameter_atts c ds u) [] [] true)) by reflexivity;
    rewrite AT; clear AT end.
  cbn [bind]. generalize (parameter_atts c ds u). intros atts.
  destruct (Nat.eqb_spec (p_nconfig ds) 0) as [Z|Z].
  - rewrite Z. cbn [Nat.ltb Nat.leb]. do 5 dim.
    set (f0 := mkNc _ _ _ _). intros H.
    assert (K : nc_dims f0 = [("l_name", 80); ("l_uuid", 36); ("n", p_n ds); ("n_sensor_pair", p_nmatchup ds); ("n_sensor", p_nsensor ds)]) by reflexivity.
    clearbody f0. do 9 vi H. cbn [bind] in H. cbv beta iota in H. do 4 vi H. clear H.
    repeat split; try (intros; contradiction); try congruence; destruct I1, I2; congruence.
  - assert (L : (0 <? p_nconfig ds) = true) by (apply Nat.ltb_lt; lia). rewrite L.
    do 6 dim. set (f0 := mkNc _ _ _ _). intros H.
    assert (K : nc_dims f0 = [("l_name", 80); ("l_uuid", 36); ("n", p_n ds); ("n_sensor_pair", p_nmatchup ds); ("n_sensor", p_nsensor ds); ("n_config", p_nconfig ds)]) by reflexivity.
    clearbody f0. do 9 vi H.
    apply bind_inv in H. destruct H as ([[g' x] y] & E & H).
    match goal with K : nc_dims _ = _ |- _ => 
      apply (vector_inv _ _ _ _ _ _ _ _ K) in E; clear K end.
    destruct E as (gg & ii & J1 & K1 & E). cbv beta iota in E.
    apply (vector_inv _ _ _ _ _ _ _ _ K1) in E. destruct E as (gh & ih & J2 & K2 & E). clear K1.
    injection E as <- <- <-. cbv beta iota in H. cbn [dimlen nth_error snd] in J1, J2. do 4 vi H. clear H.
    repeat split; try congruence; try (destruct I1, I2; congruence).
Qed.

Lemma parameter_iff c ds u : not_empty ds ->
  (well_sized ds <-> exists f, write_parameter_dataset round c ds u = Ok f).
Proof.
  intros N. split.
  - intros W. destruct (parameter_written round c ds u N W) as (f & E & _). eauto.
  - intros (f & E). eapply parameter_sized; eauto.
Qed.

Lemma residuals_written (idem : forall x, round (round x) = round x) c ds u : r_m ds <> 0 -> residuals_sized ds ->
  exists f, write_residuals_dataset round c ds u = Ok f /\
    contains f (residuals_atts c ds u) [("M", r_m ds)] (residuals_vars round ds).
Proof.
  intros N (A1 & A2 & A3 & A4 & A5 & A6 & A7 & A8 & A9 & A10).
  unfold write_residuals_dataset.
  match goal with |- context [add_atts create_dataset ?l] =>
    assert (AT : add_atts create_dataset l = Ok (mkNc (residuals_atts c ds u) [] [] true)) by reflexivity;
    rewrite AT; clear AT end.
  unfold contains, residuals_vars.
  generalize (residuals_atts c ds u). intros atts. simp.
  dim. do 10 av. do 10 wr.
  eexists. split; [reflexivity|]. repeat split. cbn.
  assert (X : forall l, map round (map round l) = map round l).
  { intros l. rewrite map_map. apply map_ext. exact idem. }
  rewrite !X. reflexivity.
Qed.

Lemma residuals_sized_of c ds u f : r_m ds <> 0 -> write_residuals_dataset round c ds u = Ok f -> residuals_sized ds.
Proof.
  intros N H. revert H. unfold write_residuals_dataset.
  match goal with |- context [add_atts create_dataset ?l] =>
    assert (AT : add_atts create_dataset l = Ok (mkNc (residuals_atts c ds u) [] [] true)) by reflexivity;
    rewrite AT; clear AT end.
  cbn [bind]. generalize (residuals_atts c ds u). intros atts. dim. set (f0 := mkNc _ _ _ _). intros H.
  assert (K : nc_dims f0 = [("M", r_m ds)]) by reflexivity. clearbody f0.
  do 10 vi H. clear H. repeat split; congruence.
Qed.

Lemma demo_sized n x xc : n = 9 -> length x = n -> well_sized (demo_dataset n x xc).
Proof.
  intros -> L. unfold well_sized, is_square. cbn [demo_dataset p_n p_x p_xu p_xc p_xr p_add_offsets p_scale_factors p_x_names p_eqn_ids p_eqn_n p_sensor_names p_nsensor p_nmatchup p_nconfig p_matchup_statistics p_matchup_sensor_names p_uuids mx_1 mx_2].
  split; [repeat split; auto|]. split; [repeat split|]. split; [repeat split|]. intros K. contradiction.
Qed.
Lemma demo_unsized n x xc : well_sized (demo_dataset n x xc) -> n = 9.
Proof. intros ((_ & _ & _ & _ & _ & _ & H) & _). cbn in H. congruence. Qed.
Lemma demo_count k y1 y2 y3 : 4 <= k -> parameter_count (demo_sensors k y1 y2 y3) = 9.
Proof. intros H. destruct k as [|[|[|[|k]]]]; try lia. reflexivity. Qed.
Lemma demo_count_iff k y1 y2 y3 : parameter_count (demo_sensors k y1 y2 y3) = 9 <-> 4 <= k.
Proof. destruct k as [|[|[|[|k]]]]; cbn; split; intros; try lia; reflexivity. Qed.

(** The elements of the correlation matrix of the demonstration. *)
Lemma demo_elements k n i j d : 1 <= i <= n -> 1 <= j <= n -> (k = (i - 1) + (j - 1) * n) ->
  nth k (correlation_elements n demo_xc) d = (demo_xc i j / sqrt (demo_xc i i * demo_xc j j))%R.
Proof.
  intros I J ->. unfold correlation_elements.
  assert (G : forall m s (g : nat -> nat -> R) r, r < m -> forall a, a < n ->
    nth (a + r * n) (flat_map (fun j => map (fun i => g i j) (seq 1 n)) (seq s m)) d = g (1 + a) (s + r)).
  { induction m as [|m IH]; intros s g r R a A; [lia|]. cbn [seq flat_map].
    destruct r as [|r].
    - rewrite app_nth1 by (rewrite map_length, seq_length; lia).
      rewrite (nth_indep _ d (g 0 s)) by (rewrite map_length, seq_length; lia).
      rewrite (map_nth (fun i => g i s)), seq_nth by lia. f_equal; lia.
    - rewrite app_nth2 by (rewrite map_length, seq_length; lia). rewrite map_length, seq_length.
      replace (a + S r * n - n) with (a + r * n) by lia. rewrite IH by lia. f_equal; lia. }
  rewrite (G n 1 (fun i j => (demo_xc i j / sqrt (demo_xc i i * demo_xc j j))%R)) by lia.
  replace (1 + (i - 1)) with i by lia. replace (1 + (j - 1)) with j by lia. reflexivity.
Qed.
Lemma demo_correlations i j : 1 <= i <= 9 -> 1 <= j <= 9 ->
  mx_elt (p_xr (demo_dataset 9 (repeat 0%R 9) demo_xc)) i j = if i =? j then 1%R else (1 / 5)%R.
Proof.
  intros I J. cbn [demo_dataset p_xr mx_elt]. rewrite (demo_elements _ 9 i j 0%R I J eq_refl).
  unfold demo_xc at 2 3. rewrite !Nat.eqb_refl. rewrite sqrt_square by Lra.lra. unfold demo_xc.
  destruct (i =? j); Lra.lra.
Qed.
End W.

(** The demonstration with too little room. *)
Lemma few_parameters k y1 y2 y3 : 2 <= k < 4 -> parameter_count (demo_sensors k y1 y2 y3) <> 0.
Proof. intros K. destruct k as [|[|[|[|k]]]]; try lia; cbn; discriminate. Qed.
Lemma demo_nine round c n u f : n <> 0 ->
  write_parameter_dataset round c (demo_dataset n (repeat 0%R n) demo_xc) u = Ok f -> n = 9.
Proof.
  intros N H. eapply demo_unsized, (parameter_sized round); [|exact H]. split; [exact N|]. split; discriminate.
Qed.
Lemma demo_write_nine round c ss f : parameter_count ss <> 0 -> demo_write round c ss = Ok f -> parameter_count ss = 9.
Proof. unfold demo_write. intros N. cbv zeta. apply demo_nine, N. Qed.
