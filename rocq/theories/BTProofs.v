(** * Proofs about tools/convert_bt_to_radiance.py. *)
From Coq Require Import Reals Lra.
From Verif Require Import Base BaseLemmas BTModel BTSpec.
Open Scope R_scope.

Lemma Rltb_t x y : x < y -> Rltb x y = true. Proof. intros H. unfold Rltb. destruct (Rlt_dec x y); [reflexivity|contradiction]. Qed.
Lemma Rltb_f x y : y <= x -> Rltb x y = false. Proof. intros H. unfold Rltb. destruct (Rlt_dec x y); [exfalso; lra|reflexivity]. Qed.

Definition coefs_ok (c : coefs) : Prop :=
  match c with mkCoefs [n1; n2; n3] [a1; a2; a3] [b1; b2; b3] => (0 < n1 /\ 0 < a1 /\ 0 < b1) /\ (0 < n2 /\ 0 < a2 /\ 0 < b2) /\ ((0 < n3 /\ 0 < a3 /\ 0 < b3) \/ n3 < 0) | _ => False end.
Lemma table_ok : forall q, In q band_table -> coefs_ok (snd q).
Proof. apply Forall_forall. unfold band_table. repeat (constructor; [cbn; lra|]). constructor. Qed.
Lemma convert_in : forall s c, convertBT s = Ok c -> In (s, c) band_table.
Proof. intros s c H. unfold convertBT in H. destruct (find _ _) as [[s' c']|] eqn:E; [|discriminate]. injection H as <-. apply find_some in E. destruct E as [E1 E2]. apply String.eqb_eq in E2. cbn in E2. subst. exact E1. Qed.
Lemma convert_ok : forall s c, convertBT s = Ok c -> coefs_ok c.
Proof. intros s c H. exact (table_ok _ (convert_in _ _ H)). Qed.
Lemma convert_known : forall s, (exists c, convertBT s = Ok c) <-> In s (map fst band_table).
Proof.
  intros s. split.
  - intros [c H]. apply in_map_iff. exists (s, c). split; [reflexivity|apply convert_in, H].
  - intros H. unfold convertBT. destruct (find _ _) as [[s' c']|] eqn:E; [eauto|]. apply in_map_iff in H. destruct H as ([s' c'] & <- & H). pose proof (find_none _ _ E _ H) as F. cbn in F. rewrite String.eqb_refl in F. discriminate.
Qed.
Lemma convert_unknown : forall s, ~ In s (map fst band_table) -> convertBT s = Raise OtherError.
Proof. intros s H. destruct (convertBT s) as [c|e] eqn:E; [exfalso; apply H, convert_known; eauto|]. unfold convertBT in E. destruct (find _ _) as [[? ?]|]; congruence. Qed.
Lemma channel_pos : forall s c k n a b, convertBT s = Ok c -> channel c k n a b -> 0 < n -> (0 < a /\ 0 < b).
Proof.
  intros s c k n a b H (Hk & Hn & Ha & Hb) P. apply convert_ok in H. destruct c as [[|n1 [|n2 [|n3 [|]]]] [|a1 [|a2 [|a3 [|]]]] [|b1 [|b2 [|b3 [|]]]]]; try contradiction. cbn in H. cbn [nuc aval bval] in *.
  destruct k as [|[|[|[|k]]]]; [lia| | | |cbn in Hn; destruct k; discriminate]; cbn in Hn, Ha, Hb; injection Hn as <-; injection Ha as <-; injection Hb as <-; lra.
Qed.
Lemma get_channel {A} (l : list A) k x : (1 <= k)%nat -> nth_error l (k - 1) = Some x -> pyget l (Z.of_nat k - 1) = Ok x.
Proof. intros Hk H. unfold pyget. rewrite (proj2 (Z.leb_le 0 (Z.of_nat k - 1))) by lia. unfold get. replace (Z.to_nat (Z.of_nat k - 1)) with (k - 1)%nat by lia. rewrite H. reflexivity. Qed.

Lemma rad_of_band n a b t : rad_of n a b t = band_radiance n a b t. Proof. reflexivity. Qed.
Lemma temp2rad_array : forall c k n a b nd xs, channel c k n a b -> 0 < n -> (1 <= nd <= 3)%nat ->
  exists ys, temp2rad c (Array nd xs) (Z.of_nat k) = Ok (Array nd ys) /\ converts (band_radiance n a b) xs ys.
Proof.
  intros c k n a b nd xs (Hk & Hn & Ha & Hb) P Hd. unfold temp2rad. rewrite (get_channel _ _ _ Hk Hn), (get_channel _ _ _ Hk Ha), (get_channel _ _ _ Hk Hb). cbn [bind]. rewrite Rltb_f by lra.
  assert (F : fill [3; 2; 1]%nat nd = None). { destruct nd as [|[|[|[|nd]]]]; try lia; reflexivity. }
  rewrite F. eexists. split; [reflexivity|]. unfold where_good. split; [apply map_length|]. intros i x y Hx Hy. rewrite nth_error_map, Hx in Hy. cbn in Hy. injection Hy as <-.
  destruct x as [v|]; [|reflexivity]. split; intros Hv; [rewrite Rltb_t by lra; reflexivity|rewrite Rltb_f by lra; reflexivity].
Qed.
Lemma temp2rad_scalar : forall c k n a b T, channel c k n a b -> 0 < n -> 0 < a -> 0 < b -> 0 <= T ->
  temp2rad c (Scalar (Some T)) (Z.of_nat k) = Ok (Scalar (Some (band_radiance n a b T))).
Proof.
  intros c k n a b T (Hk & Hn & Ha & Hb) P Pa Pb HT. unfold temp2rad. rewrite (get_channel _ _ _ Hk Hn), (get_channel _ _ _ Hk Ha), (get_channel _ _ _ Hk Hb). cbn [bind]. rewrite Rltb_f by lra.
  unfold Reqb. destruct (Req_EM_T _ _) as [E|_]; [|reflexivity]. exfalso. pose proof (Rmult_le_pos b T ltac:(lra) HT). lra.
Qed.
Lemma temp2rad_absent : forall c k n a b d, channel c k n a b -> n < 0 -> temp2rad c d (Z.of_nat k) = Raise OtherError.
Proof. intros c k n a b d (Hk & Hn & _ & _) P. unfold temp2rad. rewrite (get_channel _ _ _ Hk Hn). cbn [bind]. rewrite Rltb_t by lra. reflexivity. Qed.

(** Planck's law is positive and increasing *)
Lemma exp_pos1 x : 0 < x -> 0 < exp x - 1. Proof. intros H. pose proof (exp_ineq1 x ltac:(lra)). lra. Qed.
Lemma planck_pos n T : 0 < n -> 0 < T -> 0 < planck_radiance n T.
Proof.
  intros Hn HT. unfold planck_radiance. assert (0 < n ^ 3) by (apply pow_lt, Hn). apply Rdiv_lt_0_compat; [lra|]. apply exp_pos1. apply Rdiv_lt_0_compat; lra.
Qed.
Lemma planck_lt n T T' : 0 < n -> 0 < T -> T < T' -> planck_radiance n T < planck_radiance n T'.
Proof.
  intros Hn HT HTT. unfold planck_radiance. assert (0 < n ^ 3) by (apply pow_lt, Hn). assert (X : 0 < 14387863 / 10000000 * n / T') by (apply Rdiv_lt_0_compat; lra).
  assert (L : 14387863 / 10000000 * n / T' < 14387863 / 10000000 * n / T). { unfold Rdiv. apply Rmult_lt_compat_l; [lra|]. apply Rinv_lt_contravar; [nra|lra]. }
  pose proof (exp_pos1 _ X). pose proof (exp_increasing _ _ L). unfold Rdiv at 1 5. apply Rmult_lt_compat_l; [lra|]. apply Rinv_lt_contravar; [|lra]. apply Rmult_lt_0_compat; lra.
Qed.
Lemma band_mono n a b T T' : 0 < n -> 0 < a -> 0 < b -> 0 <= T -> T < T' -> 0 < band_radiance n a b T < band_radiance n a b T'.
Proof. intros Hn Ha Hb HT HTT. pose proof (Rmult_le_pos b T ltac:(lra) HT). pose proof (Rmult_lt_compat_l b T T' Hb HTT). split; [apply planck_pos; lra|apply planck_lt; lra]. Qed.

(** Inversion *)
Lemma inverse1 n a b T : 0 < n -> 0 < a -> 0 < b -> 0 <= T -> temp_of n a b (band_radiance n a b T) = T.
Proof.
  intros Hn Ha Hb HT. pose proof (Rmult_le_pos b T ltac:(lra) HT) as HbT. assert (0 < n ^ 3) by (apply pow_lt, Hn). unfold temp_of, band_radiance, planck_radiance. fold C1 C2.
  assert (PC1 : 0 < C1) by (unfold C1; lra). assert (PC2 : 0 < C2) by (unfold C2; lra).
  assert (X : 0 < C2 * n / (a + b * T)) by (apply Rdiv_lt_0_compat; [apply Rmult_lt_0_compat; lra|lra]). pose proof (exp_pos1 _ X) as PX.
  set (e := exp (C2 * n / (a + b * T)) - 1) in *. assert (PN : 0 < C1 * n ^ 3) by (apply Rmult_lt_0_compat; lra).
  replace (C1 * n ^ 3 / (C1 * n ^ 3 / e) + 1) with (exp (C2 * n / (a + b * T))) by (assert (E : exp (C2 * n / (a + b * T)) = e + 1) by (unfold e; ring); rewrite E; field; split; lra).
  rewrite ln_exp. field. repeat split; lra.
Qed.
Lemma inverse2 n a b r : 0 < n -> 0 < b -> 0 < r -> band_radiance n a b (temp_of n a b r) = r.
Proof.
  intros Hn Hb Hr. assert (0 < n ^ 3) by (apply pow_lt, Hn). unfold temp_of, band_radiance, planck_radiance. fold C1 C2.
  assert (PC1 : 0 < C1) by (unfold C1; lra). assert (PC2 : 0 < C2) by (unfold C2; lra). assert (PN : 0 < C1 * n ^ 3) by (apply Rmult_lt_0_compat; lra).
  assert (Q : 0 < C1 * n ^ 3 / r) by (apply Rdiv_lt_0_compat; lra). assert (L : 0 < ln (C1 * n ^ 3 / r + 1)) by (rewrite <- ln_1; apply ln_increasing; lra).
  set (q := C1 * n ^ 3 / r) in *. assert (P2 : 0 < C2 * n) by (apply Rmult_lt_0_compat; lra).
  replace (C2 * n / (a + b * ((C2 * n / ln (q + 1) - a) / b))) with (ln (q + 1)) by (field; repeat split; lra).
  rewrite exp_ln by lra. unfold q. field. split; lra.
Qed.
Lemma rad2temp_raises : forall c k n a b d, channel c k n a b -> 0 < n -> rad2temp c d (Z.of_nat k) = Raise NameError.
Proof. intros c k n a b d (Hk & Hn & _ & _) P. unfold rad2temp. rewrite (get_channel _ _ _ Hk Hn). cbn [bind]. rewrite Rltb_f by lra. reflexivity. Qed.
Lemma body_array : forall c k n a b nd xs, channel c k n a b -> 0 < n -> (2 <= nd <= 3)%nat ->
  exists ys, rad2temp_body c (Array nd xs) (Z.of_nat k) = Ok (Array nd ys) /\ converts (temp_of n a b) xs ys.
Proof.
  intros c k n a b nd xs (Hk & Hn & Ha & Hb) P Hd. unfold rad2temp_body. rewrite (get_channel _ _ _ Hk Hn), (get_channel _ _ _ Hk Ha), (get_channel _ _ _ Hk Hb). cbn [bind]. rewrite Rltb_f by lra.
  assert (F : fill [3; 2]%nat nd = None). { destruct nd as [|[|[|[|nd]]]]; try lia; reflexivity. }
  rewrite F. eexists. split; [reflexivity|]. unfold where_good. split; [apply map_length|]. intros i x y Hx Hy. rewrite nth_error_map, Hx in Hy. cbn in Hy. injection Hy as <-.
  destruct x as [v|]; [|reflexivity]. split; intros Hv; [rewrite Rltb_t by lra; reflexivity|rewrite Rltb_f by lra; reflexivity].
Qed.
Lemma body_scalar : forall c k n a b r, channel c k n a b -> 0 < n -> 0 < r -> rad2temp_body c (Scalar (Some r)) (Z.of_nat k) = Ok (Scalar (Some (temp_of n a b r))).
Proof.
  intros c k n a b r (Hk & Hn & Ha & Hb) P Hr. unfold rad2temp_body. rewrite (get_channel _ _ _ Hk Hn), (get_channel _ _ _ Hk Ha), (get_channel _ _ _ Hk Hb). cbn [bind]. rewrite Rltb_f by lra.
  unfold Reqb. destruct (Req_EM_T _ _) as [E|_]; [exfalso; lra|reflexivity].
Qed.
