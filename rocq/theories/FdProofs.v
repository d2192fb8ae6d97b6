(** Proofs: reading a whole job; single precision. *)
From Verif Require Import Base FoModel FoSpec FrModel FrSpec FrProofs FrProofs2 FrProofs3 FdModel FdSpec.
From Coq Require Import QArith Qabs Qround Reals Lra Lqa.
Open Scope nat_scope.
Open Scope list_scope.

Lemma read_job_records : forall big jb enable ss es rg st rg' st',
  good_registry rg -> (forall e, In e es -> shaped (en_ds e)) ->
  read_job big jb enable ss rg st es = Ok (rg', st') ->
  good_registry rg' /\ exists mus, rg_matchups rg' = rg_matchups rg ++ mus /\ Forall2 (read_as big jb ss) es mus.
Proof.
  intros big jb enable ss. induction es as [|e es IH]; intros rg st rg' st' Hg Hsh E; unfold read_job in E; cbn [foldM] in E.
  - injection E as <- <-. split; [exact Hg|]. exists []. split; [symmetry; apply app_nil_r|constructor].
  - cbn [fst snd] in E.
    destruct (read_matchup_dataset big jb ss rg st (en_ds e) (en_i e) (en_j e) (en_s e)) as [[rg1 st1]|] eqn:E1; [|discriminate].
    cbn [bind fst snd] in E.
    destruct (read_records _ _ _ _ _ _ _ _ _ _ _ Hg (Hsh e (or_introl eq_refl)) E1)
      as (_ & Hg1 & _ & mu & ri & rj & Em & Ei & Ej & Ri & Rj & _ & _ & R).
    destruct (IH rg1 _ rg' st' Hg1 (fun x h => Hsh x (or_intror h)) E) as (Hg' & mus & Em' & F).
    split; [exact Hg'|]. exists (mu :: mus). split.
    + rewrite Em', Em, <- app_assoc. reflexivity.
    + constructor; [|exact F]. split; [exact Ei|]. split; [exact Ej|]. exists ri, rj. repeat split; try assumption; apply R.
Qed.

Lemma covariances_grow : forall big common s vs mats st st' sv M r ui ic iv iw, grows st st' ->
  covariances_of big common s vs mats st sv M r ui ic iv iw ->
  covariances_of big common s vs mats st' sv M r ui ic iv iw.
Proof.
  intros big common s vs mats st st' sv M r ui ic iv iw Hg Hc l ty H1 H2 H3.
  destruct (Hc l ty H1 H2 H3) as (a & b & c & d & E1 & E2 & E3 & E4 & C).
  exists a, b, c, d. repeat (split; [assumption|]). exact (covariance_grows _ _ _ _ _ _ _ _ _ _ _ _ _ _ _ Hg C).
Qed.

Lemma matrices_grow : forall big jb ss st st' e mu, grows st st' ->
  matrices_in big jb ss st e mu -> matrices_in big jb ss st' e mu.
Proof.
  intros big jb ss st st' e mu Hg H base vs mats Hm. destruct (H base vs mats Hm) as (ri & rj & Ri & Rj & C1 & C2).
  exists ri, rj. split; [exact Ri|]. split; [exact Rj|]. split;
    [exact (covariances_grow _ _ _ _ _ _ _ _ _ _ _ _ _ _ Hg C1)|exact (covariances_grow _ _ _ _ _ _ _ _ _ _ _ _ _ _ Hg C2)].
Qed.

Lemma read_job_matrices : forall big jb ss es rg st rg' st',
  good_registry rg -> (forall e, In e es -> shaped (en_ds e) /\ well_stored jb e) ->
  read_job big jb true ss rg st es = Ok (rg', st') ->
  grows st st' /\ exists mus, rg_matchups rg' = rg_matchups rg ++ mus /\ Forall2 (matrices_in big jb ss st') es mus.
Proof.
  intros big jb ss. induction es as [|e es IH]; intros rg st rg' st' Hg Hsh E; unfold read_job in E; cbn [foldM] in E.
  - injection E as <- <-. split; [apply grows_refl|]. exists []. split; [symmetry; apply app_nil_r|constructor].
  - cbn [fst snd] in E.
    destruct (read_matchup_dataset big jb ss rg st (en_ds e) (en_i e) (en_j e) (en_s e)) as [[rg1 st1]|] eqn:E1; [|discriminate].
    cbn [bind fst snd] in E.
    destruct (Hsh e (or_introl eq_refl)) as (Hs & Hi & Hj & base & vs & mats & Hm).
    destruct (read_ok _ _ _ _ _ _ _ _ _ _ _ _ _ _ Hg Hs Hi Hj Hm E1)
      as (_ & Hg1 & _ & G & mu & ri & rj & Em & Ei & Ej & Ri & Rj & _).
    destruct (IH rg1 _ rg' st' Hg1 (fun x h => Hsh x (or_intror h)) E) as (G' & mus & Em' & F).
    split; [exact (grows_trans _ _ _ G G')|]. exists (mu :: mus). split.
    + rewrite Em', Em, <- app_assoc. reflexivity.
    + constructor; [|exact F]. apply (matrices_grow _ _ _ _ _ _ _ G'). intros base' vs' mats' Hm'.
      destruct (read_ok _ _ _ _ _ _ _ _ _ _ _ _ _ _ Hg Hs Hi Hj Hm' E1)
        as (_ & _ & _ & _ & mu' & ri' & rj' & Em1 & _ & _ & Ri' & Rj' & _ & _ & _ & C1 & C2).
      rewrite Em in Em1. apply app_inv_head in Em1. injection Em1 as <-.
      exists ri', rj'. repeat (split; [assumption|]). exact C2.
Qed.

(** ** Correlations *)
Lemma flat_map_nth : forall (A B : Type) (f : nat -> nat -> B) (n m a : nat) j i, j < m -> i < n ->
  nth_error (flat_map (fun j => map (fun i => f i j) (seq 1 n)) (seq a m)) (i + j * n) = Some (f (S i) (a + j)).
Proof.
  intros A B f n m. induction m as [|m IH]; intros a j i Hj Hi; [lia|]. cbn [seq flat_map].
  destruct j as [|j].
  - rewrite Nat.mul_0_l, Nat.add_0_r, nth_error_app1 by (rewrite map_length, seq_length; lia).
    rewrite nth_error_map, (nth_error_nth' _ 0) by (rewrite seq_length; lia).
    rewrite seq_nth by lia. cbn. now rewrite Nat.add_0_r.
  - rewrite nth_error_app2; rewrite map_length, seq_length; [|nia].
    replace (i + S j * n - n) with (i + j * n) by nia. rewrite (IH (S a) j i) by lia.
    now rewrite Nat.add_succ_r.
Qed.

Lemma correlations_at : forall n xc i j, 1 <= i <= n -> 1 <= j <= n ->
  correlations n xc i j = Ok (xc i j / sqrt (xc i i * xc j j))%R.
Proof.
  intros n xc i j Hi Hj. unfold correlations, reshaped, correlation_elements. apply get_some.
  pose proof (flat_map_nth nat R (fun i j => xc i j / sqrt (xc i i * xc j j))%R n n 1 (j - 1) (i - 1) ltac:(lia) ltac:(lia)) as E.
  rewrite E. replace (S (i - 1)) with i by lia. replace (1 + (j - 1)) with j by lia. reflexivity.
Qed.

(** ** Single precision *)
Lemma nearest_near : forall x, (Qabs (inject_Z (nearest x) - x) <= 1 # 2)%Q.
Proof.
  intro x. unfold nearest. pose proof (Qfloor_le (x + (1 # 2))) as L. pose proof (Qlt_floor (x + (1 # 2))) as U.
  rewrite inject_Z_plus in U. change (inject_Z 1) with 1%Q in U.
  destruct (Qeq_bool (inject_Z (Qfloor (x + (1 # 2)))) (x + (1 # 2)) && Z.odd (Qfloor (x + (1 # 2)))) eqn:E.
  - apply andb_true_iff in E. destruct E as [E _]. apply Qeq_bool_iff in E.
    unfold Z.sub. rewrite inject_Z_plus. change (inject_Z (- (1))) with (-1 # 1)%Q.
    apply Qabs_Qle_condition. split; Lqa.lra.
  - apply Qabs_Qle_condition. split; Lqa.lra.
Qed.
Lemma nearest_int : forall z, nearest (inject_Z z) = z.
Proof.
  intro z. unfold nearest.
  assert (F : Qfloor (inject_Z z + (1 # 2)) = z).
  { pose proof (Qfloor_le (inject_Z z + (1 # 2))) as L. pose proof (Qlt_floor (inject_Z z + (1 # 2))) as U.
    set (k := Qfloor (inject_Z z + (1 # 2))) in *. rewrite inject_Z_plus in U. change (inject_Z 1) with 1%Q in U.
    assert (A : (inject_Z k < inject_Z (z + 1))%Q) by (rewrite inject_Z_plus; change (inject_Z 1) with 1%Q; Lqa.lra).
    assert (B : (inject_Z z < inject_Z (k + 1))%Q) by (rewrite inject_Z_plus; change (inject_Z 1) with 1%Q; Lqa.lra).
    rewrite <- Zlt_Qlt in A, B. lia. }
  rewrite F. replace (Qeq_bool (inject_Z z) (inject_Z z + (1 # 2))) with false; [reflexivity|].
  symmetry. apply not_true_iff_false. rewrite Qeq_bool_iff. intro H. Lqa.lra.
Qed.

Lemma pow_pos : forall e, (0 <= e)%Z -> (0 < inject_Z (2 ^ e))%Q.
Proof. intros e H. change 0%Q with (inject_Z 0). rewrite <- Zlt_Qlt. now apply Z.pow_pos_nonneg. Qed.

Lemma scaled_near : forall x p, (0 < p)%Q -> (Qabs (inject_Z (nearest (x / p)) * p - x) <= (1 # 2) * p)%Q.
Proof.
  intros x p Hp. pose proof (nearest_near (x / p)) as N. apply Qabs_Qle_condition in N. destruct N as [N1 N2].
  assert (E : (x == (x / p) * p)%Q) by (field; intro Z; rewrite Z in Hp; now apply Qlt_irrefl in Hp).
  set (y := (x / p)%Q) in *. set (k := inject_Z (nearest y)) in *.
  apply Qabs_Qle_condition. split.
  - assert (A : (0 <= (k - y + (1 # 2)) * p)%Q) by (apply Qmult_le_0_compat; Lqa.lra).
    setoid_replace (k * p - x)%Q with ((k - y + (1 # 2)) * p - (1 # 2) * p)%Q by (rewrite E at 1; ring). Lqa.lra.
  - assert (A : (0 <= ((1 # 2) - (k - y)) * p)%Q) by (apply Qmult_le_0_compat; Lqa.lra).
    setoid_replace (k * p - x)%Q with ((1 # 2) * p - ((1 # 2) - (k - y)) * p)%Q by (rewrite E at 1; ring). Lqa.lra.
Qed.

Lemma single_near : forall x, (Qabs x < inject_Z (2 ^ 31))%Q -> (Qabs (single x - x) <= 64)%Q.
Proof.
  intros x Hx. unfold single. destruct (Qle_bool 1 (Qabs x)) eqn:E.
  2: { setoid_replace (x - x)%Q with 0%Q by ring. discriminate. }
  apply Qle_bool_iff in E. cbv zeta. set (k := Qfloor (Qabs x)).
  assert (K : (1 <= k < 2 ^ 31)%Z).
  { pose proof (Qfloor_le (Qabs x)) as L. fold k in L. split.
    - unfold k. change 1%Z with (Qfloor 1). now apply Qfloor_resp_le.
    - assert (A : (inject_Z k < inject_Z (2 ^ 31))%Q) by (eapply Qle_lt_trans; eassumption). now rewrite <- Zlt_Qlt in A. }
  assert (Lg : (Z.log2 k <= 30)%Z). { assert (Z.log2 k < 31)%Z by (apply Z.log2_lt_pow2; lia). lia. }
  destruct (0 <=? Z.log2 k - 23)%Z eqn:S.
  - apply Z.leb_le in S. rewrite inject_Z_mult.
    eapply Qle_trans; [apply scaled_near, pow_pos, S|].
    assert (P : (2 ^ (Z.log2 k - 23) <= 2 ^ 7)%Z) by (apply Z.pow_le_mono_r; lia).
    assert (P' : (inject_Z (2 ^ (Z.log2 k - 23)) <= 128)%Q) by (change 128%Q with (inject_Z (2 ^ 7)); now rewrite <- Zle_Qle).
    Lqa.lra.
  - apply Z.leb_gt in S. set (p := inject_Z (2 ^ - (Z.log2 k - 23))).
    assert (Hp : (1 <= p)%Q).
    { change 1%Q with (inject_Z 1). unfold p. rewrite <- Zle_Qle.
      assert (0 < 2 ^ - (Z.log2 k - 23))%Z by (apply Z.pow_pos_nonneg; lia). lia. }
    pose proof (nearest_near (x * p)) as N. set (m := inject_Z (nearest (x * p))) in *.
    assert (Hp0 : ~ (p == 0)%Q) by (intro Z; rewrite Z in Hp; Lqa.lra).
    assert (Ip : (0 < / p <= 1)%Q).
    { split; [apply Qinv_lt_0_compat; Lqa.lra|]. apply Qle_shift_inv_r; Lqa.lra. }
    setoid_replace (m / p - x)%Q with ((m - x * p) * / p)%Q by (field; exact Hp0).
    rewrite Qabs_Qmult, (Qabs_pos (/ p)) by Lqa.lra.
    pose proof (Qabs_nonneg (m - x * p)).
    assert (A : (0 <= (1 - / p) * Qabs (m - x * p))%Q) by (apply Qmult_le_0_compat; Lqa.lra).
    Lqa.lra.
Qed.

Lemma nearest_comp : forall x y, (x == y)%Q -> nearest x = nearest y.
Proof.
  intros x y E. unfold nearest. assert (E2 : (x + (1 # 2) == y + (1 # 2))%Q) by (now rewrite E).
  rewrite (Qfloor_comp _ _ E2). set (k := Qfloor (y + (1 # 2))).
  replace (Qeq_bool (inject_Z k) (x + (1 # 2))) with (Qeq_bool (inject_Z k) (y + (1 # 2))); [reflexivity|].
  apply eq_true_iff_eq. rewrite !Qeq_bool_iff, E2. reflexivity.
Qed.

Lemma single_whole : forall z, (Z.abs z < 2 ^ 24)%Z -> (single (inject_Z z) == inject_Z z)%Q.
Proof.
  intros z Hz. unfold single. destruct (Qle_bool 1 (Qabs (inject_Z z))) eqn:E; [|reflexivity].
  cbv zeta. assert (Ek : Qfloor (Qabs (inject_Z z)) = Z.abs z).
  { change (Qabs (inject_Z z)) with (inject_Z (Z.abs z)). apply Qfloor_Z. }
  rewrite Ek. apply Qle_bool_iff in E. change (Qabs (inject_Z z)) with (inject_Z (Z.abs z)) in E.
  change 1%Q with (inject_Z 1) in E. rewrite <- Zle_Qle in E.
  assert (L : (Z.log2 (Z.abs z) < 24)%Z) by (apply Z.log2_lt_pow2; lia).
  destruct (0 <=? Z.log2 (Z.abs z) - 23)%Z eqn:S.
  - apply Z.leb_le in S. replace (Z.log2 (Z.abs z) - 23)%Z with 0%Z by lia. change (2 ^ 0)%Z with 1%Z.
    rewrite (nearest_comp _ (inject_Z z)) by (unfold Qdiv; change (/ inject_Z 1)%Q with 1%Q; ring).
    rewrite nearest_int, Z.mul_1_r. reflexivity.
  - apply Z.leb_gt in S. rewrite <- inject_Z_mult, nearest_int, inject_Z_mult. field.
    intro H. assert (P : (0 < 2 ^ - (Z.log2 (Z.abs z) - 23))%Z) by (apply Z.pow_pos_nonneg; lia).
    rewrite Zlt_Qlt, H in P. now apply Qlt_irrefl in P.
Qed.

Lemma correlation_unit : forall (xc : nat -> nat -> R) n i, 1 <= i <= n -> (0 < xc i i)%R ->
  correlations n xc i i = Ok 1%R.
Proof.
  intros xc n i Hi P. rewrite correlations_at by assumption. f_equal. rewrite sqrt_square by Lra.lra. field. Lra.lra.
Qed.

Lemma correlation_recovers : forall (xc : nat -> nat -> R) n i j, 1 <= i <= n -> 1 <= j <= n ->
  (0 < xc i i)%R -> (0 < xc j j)%R ->
  exists r ui uj, correlations n xc i j = Ok r /\ get (uncertainties n xc) (i - 1) = Ok ui /\
    get (uncertainties n xc) (j - 1) = Ok uj /\ (ui * ui = xc i i)%R /\ (0 < ui)%R /\ (r * ui * uj = xc i j)%R.
Proof.
  intros xc n i j Hi Hj Pi Pj. exists (xc i j / sqrt (xc i i * xc j j))%R, (sqrt (xc i i)), (sqrt (xc j j)).
  assert (U : forall k, 1 <= k <= n -> get (uncertainties n xc) (k - 1) = Ok (sqrt (xc k k))).
  { intros k Hk. apply get_some. unfold uncertainties. rewrite nth_error_map, (nth_error_nth' _ 0) by (rewrite seq_length; lia).
    rewrite seq_nth by lia. cbn [option_map]. now replace (1 + (k - 1)) with k by lia. }
  split; [now apply correlations_at|]. split; [now apply U|]. split; [now apply U|].
  split; [apply sqrt_def; Lra.lra|]. split; [now apply sqrt_lt_R0|].
  rewrite sqrt_mult by Lra.lra. pose proof (sqrt_lt_R0 _ Pi). pose proof (sqrt_lt_R0 _ Pj). field. split; Lra.lra.
Qed.

Lemma correlation_symmetric : forall (xc : nat -> nat -> R) n i j, 1 <= i <= n -> 1 <= j <= n ->
  xc i j = xc j i -> correlations n xc i j = correlations n xc j i.
Proof. intros xc n i j Hi Hj E. rewrite !correlations_at by assumption. rewrite E. do 3 f_equal. apply Rmult_comm. Qed.

Lemma correlation_bounded : forall (xc : nat -> nat -> R) n i j, 1 <= i <= n -> 1 <= j <= n ->
  (0 < xc i i)%R -> (0 < xc j j)%R -> (xc i j * xc i j <= xc i i * xc j j)%R ->
  exists r, correlations n xc i j = Ok r /\ (Rabs r <= 1)%R.
Proof.
  intros xc n i j Hi Hj Pi Pj C. eexists. split; [now apply correlations_at|].
  assert (P : (0 < xc i i * xc j j)%R) by now apply Rmult_lt_0_compat.
  pose proof (sqrt_lt_R0 _ P) as S. unfold Rdiv. rewrite Rabs_mult, (Rabs_pos_eq (/ _)) by (apply Rlt_le, Rinv_0_lt_compat, S).
  apply (Rmult_le_reg_r (sqrt (xc i i * xc j j))); [exact S|].
  rewrite Rmult_assoc, Rinv_l, Rmult_1_r, Rmult_1_l by Lra.lra.
  rewrite <- (sqrt_Rsqr_abs (xc i j)). apply sqrt_le_1_alt. exact C.
Qed.
