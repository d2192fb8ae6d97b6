(** Proofs: the stores of match-ups and sensors. *)
From Verif Require Import Base FoModel FoSpec FrModel FrSpec.
From Coq Require Import QArith Qabs.
Open Scope nat_scope.
Open Scope list_scope.

Lemma total_app : forall a b, total (a ++ b) = total a + total b.
Proof. unfold total. induction a as [|x a IH]; intro b; cbn; [reflexivity|]. rewrite IH. lia. Qed.
Lemma firstn_snoc : forall (A : Type) (l : list A) x k, k <= length l -> firstn k (l ++ [x]) = firstn k l.
Proof.
  intros A l x k H. rewrite firstn_app. replace (k - length l) with 0 by lia. cbn. apply app_nil_r.
Qed.

Lemma numbered_last : forall sizes st fi, numbered sizes st fi ->
  match length sizes with 0 => 0%Z | S k => nth k fi 0%Z end = Z.of_nat (total sizes).
Proof.
  intros sizes st fi (_ & _ & H). destruct (length sizes) as [|k] eqn:E.
  - destruct sizes; [reflexivity|discriminate].
  - destruct (H k ltac:(lia)) as [_ F]. rewrite (nth_error_nth _ _ _ F). now rewrite <- E, firstn_all.
Qed.

Lemma numbered_snoc : forall sizes st fi n, numbered sizes st fi ->
  numbered (sizes ++ [n]) (st ++ [Z.of_nat (total sizes) + 1]%Z) (fi ++ [Z.of_nat (total sizes) + Z.of_nat n]%Z).
Proof.
  intros sizes st fi n (L1 & L2 & H). unfold numbered. rewrite !app_length. cbn [length].
  split; [lia|]. split; [lia|]. intros k Hk.
  destruct (Nat.eq_dec k (length sizes)) as [->|N].
  - rewrite !nth_error_app2 by lia. rewrite L1, L2, Nat.sub_diag. cbn [nth_error].
    rewrite firstn_snoc, firstn_all by lia.
    rewrite (firstn_all2 (n := S (length sizes))) by (rewrite app_length; cbn; lia).
    rewrite total_app. cbn [total fold_right]. split; f_equal; lia.
  - rewrite !nth_error_app1 by lia. rewrite !firstn_snoc by lia. apply H. lia.
Qed.

Lemma numbered_nil : numbered [] [] [].
Proof. split; [reflexivity|]. split; [reflexivity|]. intros k h. cbn in h. lia. Qed.

Lemma has_pair_spec : forall l i j,
  has_pair l i j = true <-> In (i, j) (map (fun mu => (mu_i mu, mu_j mu)) l).
Proof.
  intros l i j. unfold has_pair. rewrite existsb_exists, in_map_iff. split.
  - intros (m & Hm & E). apply andb_true_iff in E. destruct E as [E1 E2].
    apply Z.eqb_eq in E1, E2. subst. now exists m.
  - intros (m & E & Hm). injection E as <- <-. exists m. now rewrite !Z.eqb_refl.
Qed.

Lemma acceptable_spec : forall rg i j,
  (length (rg_matchups rg) <? rg_capacity rg) && is_pair i j && negb (has_pair (rg_matchups rg) i j) = true
  <-> acceptable rg i j.
Proof.
  intros rg i j. unfold acceptable, is_pair.
  rewrite !andb_true_iff, negb_true_iff, Nat.ltb_lt, !Z.ltb_lt, <- not_true_iff_false, has_pair_spec. tauto.
Qed.

Lemma good_initial : forall c, good_registry (matchup_initialize c).
Proof.
  intro c. unfold good_registry. cbn. split; [lia|]. split; [apply numbered_nil|]. split; [tauto|constructor].
Qed.

Lemma nodup_snoc : forall (A : Type) (l : list A) x, NoDup l -> ~ In x l -> NoDup (l ++ [x]).
Proof.
  induction l as [|y l IH]; intros x H N; cbn; [repeat constructor; auto|].
  inversion_clear H as [|? ? H1 H2]. constructor.
  - rewrite in_app_iff. cbn. intros [h|[->|[]]]; [tauto|]. apply N. now left.
  - apply IH; [exact H2|]. intro h. apply N. now right.
Qed.

(** Adding a match-up. *)
Lemma add_matchup_yes : forall rg i j m ri rj, good_registry rg -> acceptable rg i j ->
  exists mu, mu_i mu = i /\ mu_j mu = j /\ mu_m mu = m /\ mu_ri mu = ri /\ mu_rj mu = rj /\
  add_matchup rg i j m ri rj =
    (mkRegistry (rg_capacity rg) (rg_matchups rg ++ [mu])
       (rg_start rg ++ [Z.of_nat (total (map mu_m (rg_matchups rg))) + 1]%Z)
       (rg_final rg ++ [Z.of_nat (total (map mu_m (rg_matchups rg))) + Z.of_nat m]%Z),
     S (length (rg_matchups rg))).
Proof.
  intros rg i j m ri rj (_ & Hn & _) Ha. unfold add_matchup.
  rewrite (proj2 (acceptable_spec rg i j) Ha).
  pose proof (numbered_last _ _ _ Hn) as L. rewrite map_length in L. cbv zeta. rewrite L.
  eexists. repeat (split; [|reflexivity || idtac]); reflexivity.
Qed.

Lemma add_matchup_no : forall rg i j m ri rj, ~ acceptable rg i j -> add_matchup rg i j m ri rj = (rg, 0).
Proof.
  intros rg i j m ri rj Ha. unfold add_matchup.
  destruct ((length (rg_matchups rg) <? rg_capacity rg) && is_pair i j && negb (has_pair (rg_matchups rg) i j))
    eqn:E; [|reflexivity]. exfalso. apply Ha. now apply acceptable_spec.
Qed.

Lemma good_snoc : forall rg mu i j, good_registry rg -> acceptable rg i j -> mu_i mu = i -> mu_j mu = j ->
  good_registry (mkRegistry (rg_capacity rg) (rg_matchups rg ++ [mu])
    (rg_start rg ++ [Z.of_nat (total (map mu_m (rg_matchups rg))) + 1]%Z)
    (rg_final rg ++ [Z.of_nat (total (map mu_m (rg_matchups rg))) + Z.of_nat (mu_m mu)]%Z)).
Proof.
  intros rg mu i j (Hc & Hn & Hp & Hd) (A1 & A2 & A3) Ei Ej. unfold good_registry. cbn [rg_capacity rg_matchups rg_start rg_final].
  split; [rewrite app_length; cbn; lia|]. rewrite !map_app. cbn [map]. split; [now apply numbered_snoc|]. split.
  - intros x Hx. apply in_app_iff in Hx. destruct Hx as [Hx|[<- |[]]]; [now apply Hp|]. lia.
  - apply nodup_snoc; [exact Hd|]. now rewrite Ei, Ej.
Qed.

Lemma acceptable_dec : forall rg i j, acceptable rg i j \/ ~ acceptable rg i j.
Proof.
  intros rg i j. destruct ((length (rg_matchups rg) <? rg_capacity rg) && is_pair i j && negb (has_pair (rg_matchups rg) i j)) eqn:E.
  - left. now apply acceptable_spec.
  - right. intro h. apply acceptable_spec in h. congruence.
Qed.

Lemma good_add : forall rg i j m ri rj, good_registry rg -> good_registry (fst (add_matchup rg i j m ri rj)).
Proof.
  intros rg i j m ri rj Hg. destruct (acceptable_dec rg i j) as [Ha|Ha].
  - destruct (add_matchup_yes rg i j m ri rj Hg Ha) as (mu & Ei & Ej & Em & _ & _ & ->). cbn [fst].
    rewrite <- Em. now apply (good_snoc rg mu i j).
  - now rewrite add_matchup_no.
Qed.

Lemma good_after : forall c qs, good_registry (registry_after c qs).
Proof.
  intros c qs. unfold registry_after. generalize (good_initial c). generalize (matchup_initialize c) as rg.
  induction qs as [|q qs IH]; intros rg Hg; [exact Hg|]. cbn. apply IH. now apply good_add.
Qed.

(** Every number belongs to exactly one group. *)
Lemma numbered_partition : forall sizes st fi, numbered sizes st fi -> forall x,
  (1 <= x <= Z.of_nat (total sizes))%Z <->
  exists! k, k < length sizes /\ exists a b, nth_error st k = Some a /\ nth_error fi k = Some b /\ (a <= x <= b)%Z.
Proof.
  intros sizes st fi (L1 & L2 & H).
  assert (Step : forall k n, nth_error sizes k = Some n -> total (firstn (S k) sizes) = total (firstn k sizes) + n).
  { clear. induction sizes as [|y sizes IH]; intros [|k] n E; cbn in E; try discriminate.
    - injection E as ->. cbn. lia.
    - rewrite !firstn_cons. cbn [total fold_right]. fold (total (firstn k sizes)) (total (firstn (S k) sizes)).
      rewrite (IH k n E). unfold total. lia. }
  assert (Mono : forall k d, k + d <= length sizes -> total (firstn k sizes) <= total (firstn (k + d) sizes)).
  { intros k. induction d as [|d IH]; intro Hd; [rewrite Nat.add_0_r; lia|].
    destruct (nth_error sizes (k + d)) as [n|] eqn:E.
    - rewrite <- plus_n_Sm, (Step _ _ E). specialize (IH ltac:(lia)). lia.
    - apply nth_error_None in E. lia. }
  intro x. split.
  - intro Hx.
    assert (Ex : exists k, k < length sizes /\ (Z.of_nat (total (firstn k sizes)) < x <= Z.of_nat (total (firstn (S k) sizes)))%Z).
    { clear H. assert (G : forall n, n <= length sizes -> (x <= Z.of_nat (total (firstn n sizes)))%Z ->
        exists k, k < n /\ (Z.of_nat (total (firstn k sizes)) < x <= Z.of_nat (total (firstn (S k) sizes)))%Z).
      { induction n as [|n IH]; intros Hn Hle; [change (total (firstn 0 sizes)) with 0 in Hle; lia|].
        destruct (Z_le_gt_dec x (Z.of_nat (total (firstn n sizes)))) as [Hl|Hl].
        - destruct (IH ltac:(lia) Hl) as (k & ? & ?). exists k. split; [lia|assumption].
        - exists n. split; [lia|]. split; [lia|exact Hle]. }
      destruct (G (length sizes) (Nat.le_refl _)) as (k & ? & ?); [rewrite firstn_all; lia|].
      exists k. now split. }
    destruct Ex as (k & Hk & Hb). exists k. split.
    + split; [exact Hk|]. destruct (H k Hk) as [E1 E2].
      eexists _, _. split; [exact E1|]. split; [exact E2|]. lia.
    + intros k' (Hk' & a & b & E1 & E2 & Hab). destruct (H k' Hk') as [F1 F2].
      assert (Ea : a = (Z.of_nat (total (firstn k' sizes)) + 1)%Z) by congruence.
      assert (Eb : b = Z.of_nat (total (firstn (S k') sizes))) by congruence. subst a b. clear E1 E2.
      destruct (lt_eq_lt_dec k k') as [[Hl|Heq]|Hl]; [|exact Heq|].
      * pose proof (Mono (S k) (k' - S k) ltac:(lia)) as M. replace (S k + (k' - S k)) with k' in M by lia. lia.
      * pose proof (Mono (S k') (k - S k') ltac:(lia)) as M. replace (S k' + (k - S k')) with k in M by lia. lia.
  - intros (k & (Hk & a & b & E1 & E2 & Hab) & _). destruct (H k Hk) as [F1 F2].
    assert (Ea : a = (Z.of_nat (total (firstn k sizes)) + 1)%Z) by congruence.
      assert (Eb : b = Z.of_nat (total (firstn (S k) sizes))) by congruence. subst a b. clear E1 E2.
    pose proof (Mono (S k) (length sizes - S k) ltac:(lia)) as M.
    replace (S k + (length sizes - S k)) with (length sizes) in M by lia. rewrite firstn_all in M. lia.
Qed.

(** ** Sensors *)
Lemma add_sensor_numbered : forall ss q,
  length (ss_sensors ss) <= ss_capacity ss -> numbered (map se_n (ss_sensors ss)) (ss_start ss) (ss_final ss) ->
  let ss' := add_sensor_request ss q in
  ss_capacity ss' = ss_capacity ss /\ length (ss_sensors ss') <= ss_capacity ss' /\
  numbered (map se_n (ss_sensors ss')) (ss_start ss') (ss_final ss').
Proof.
  intros ss q Hc Hn ss'. subst ss'. unfold add_sensor_request, add_sensor.
  destruct (length (ss_sensors ss) <? ss_capacity ss) eqn:E; cbn [fst]; [|split; [reflexivity|split; assumption]].
  apply Nat.ltb_lt in E. pose proof (numbered_last _ _ _ Hn) as L. rewrite map_length in L. rewrite L.
  cbn [ss_capacity ss_sensors ss_start ss_final]. split; [reflexivity|]. split; [rewrite app_length; cbn; lia|].
  rewrite map_app. cbn [map se_n]. now apply numbered_snoc.
Qed.

Lemma sensors_numbered : forall c qs, let ss := sensors_after c qs in
  length (ss_sensors ss) <= c /\ numbered (map se_n (ss_sensors ss)) (ss_start ss) (ss_final ss).
Proof.
  intros c qs. cbv zeta. unfold sensors_after.
  enough (G : forall ss, ss_capacity ss = c -> length (ss_sensors ss) <= ss_capacity ss ->
    numbered (map se_n (ss_sensors ss)) (ss_start ss) (ss_final ss) ->
    length (ss_sensors (fold_left add_sensor_request qs ss)) <= c /\
    numbered (map se_n (ss_sensors (fold_left add_sensor_request qs ss)))
      (ss_start (fold_left add_sensor_request qs ss)) (ss_final (fold_left add_sensor_request qs ss))).
  { apply G; cbn; [reflexivity|lia|apply numbered_nil]. }
  induction qs as [|q qs IH]; intros ss Ec Hc Hn; [cbn; split; [lia|exact Hn]|].
  cbn [fold_left]. destruct (add_sensor_numbered ss q Hc Hn) as (E1 & E2 & E3). apply IH; [congruence|exact E2|exact E3].
Qed.

Lemma neutral_nth : forall n k, k < n ->
  nth_error (concat (repeat [0%Q; 1%Q] n)) (2 * k) = Some 0%Q /\
  nth_error (concat (repeat [0%Q; 1%Q] n)) (2 * k + 1) = Some 1%Q.
Proof.
  induction n as [|n IH]; intros k H; [lia|]. destruct k as [|k]; [now split|].
  replace (2 * S k) with (S (S (2 * k))) by lia. cbn. apply IH. lia.
Qed.
Lemma neutral_length : forall n, length (concat (repeat [0%Q; 1%Q] n)) = 2 * n.
Proof. induction n as [|n IH]; cbn; [reflexivity|]. rewrite IH. lia. Qed.

Lemma diagonal_at : forall d a b, a < length d -> b < length d ->
  at2 (diagonal d) a b (if a =? b then nth a d 0%Q else 0%Q).
Proof.
  intros d a b Ha Hb. unfold at2, diagonal. eexists. split.
  - rewrite nth_error_map, (nth_error_nth' _ 0) by now rewrite seq_length.
    rewrite seq_nth by exact Ha. reflexivity.
  - rewrite nth_error_map, (nth_error_nth' _ 0) by now rewrite seq_length.
    rewrite seq_nth by exact Hb. reflexivity.
Qed.
Lemma positive_spec : forall u, is_positive u = true <-> (0 < u)%Q.
Proof.
  intro u. unfold is_positive. rewrite negb_true_iff, <- not_true_iff_false, Qle_bool_iff.
  split; [apply Qnot_le_lt|apply Qlt_not_le].
Qed.

Lemma prior_at : forall u a b x, nth_error u a = Some x -> b < length u ->
  (a <> b -> at2 (prior_c u) a b 0 /\ at2 (prior_ci u) a b 0) /\
  (a = b -> (0 < x)%Q -> at2 (prior_c u) a b (x * x) /\ at2 (prior_ci u) a b (1 / (x * x))) /\
  (a = b -> (x <= 0)%Q -> at2 (prior_c u) a b 0 /\ at2 (prior_ci u) a b 0).
Proof.
  intros u a b x Hx Hb. assert (Ha : a < length u) by (apply nth_error_Some; congruence).
  unfold prior_c, prior_ci.
  set (f := fun x => if is_positive x then (x * x)%Q else 0%Q).
  set (g := fun x => if is_positive x then (1 / (x * x))%Q else 0%Q).
  pose proof (diagonal_at (map f u) a b) as F. pose proof (diagonal_at (map g u) a b) as G.
  rewrite map_length in F, G. specialize (F Ha Hb). specialize (G Ha Hb).
  rewrite (nth_error_nth (map f u) a (x := f x)) in F by (now rewrite nth_error_map, Hx).
  rewrite (nth_error_nth (map g u) a (x := g x)) in G by (now rewrite nth_error_map, Hx).
  split; [|split].
  - intro N. apply Nat.eqb_neq in N. rewrite N in F, G. now split.
  - intros E P. apply Nat.eqb_eq in E. rewrite E in F, G. apply positive_spec in P.
    unfold f in F at 2. unfold g in G at 2. rewrite P in F, G. now split.
  - intros E P. apply Nat.eqb_eq in E. rewrite E in F, G.
    assert (P' : is_positive x = false). { apply not_true_iff_false. rewrite positive_spec. now apply Qle_not_lt. }
    unfold f in F at 2. unfold g in G at 2. rewrite P' in F, G. now split.
Qed.
