(** Proofs about the text of a match-up dataset. *)
From Verif Require Import Base BaseLemmas ReaderModel ReaderSpec ReaderProofs ReaderMain
  UncModel UncSpec UncProofs2 ReprModel ReprSpec.
Open Scope nat_scope.
Open Scope list_scope.

Lemma mapM_by {A B C} (f : A -> res B) (g : C -> B) (l : list A) : forall l' : list C,
  length l = length l' ->
  (forall i a c, nth_error l i = Some a -> nth_error l' i = Some c -> f a = Ok (g c)) ->
  mapM f l = Ok (map g l').
Proof.
  induction l as [|a l IH]; intros [|c l'] Hl H; try discriminate; [reflexivity|].
  cbn [mapM map]. rewrite (H 0 a c) by reflexivity. cbn [bind].
  rewrite (IH l'); [reflexivity| |].
  - injection Hl; auto.
  - intros i a' c' H1 H2. apply (H (S i)); auto.
Qed.

Lemma pyget_last {A} (l : list A) d : l <> [] -> pyget l (-1)%Z = Ok (last l d).
Proof.
  intros H. unfold pyget. cbn [Z.leb Z.compare].
  assert (0 < length l) by (destruct l; [congruence|cbn; lia]).
  destruct (Z.leb_spec 0 (Z.of_nat (length l) + -1)); [|lia].
  replace (Z.to_nat (Z.of_nat (length l) + -1)) with (length l - 1) by lia.
  apply get_ok. destruct (exists_last H) as (l' & a & ->).
  rewrite last_last, app_length. cbn [length]. rewrite nth_error_app2 by lia.
  replace (length l' + 1 - 1 - length l') with 0 by lia. reflexivity.
Qed.

Lemma nth_error_last {A} (l : list A) d : l <> [] -> nth_error l (length l - 1) = Some (last l d).
Proof.
  intros H. pose proof (pyget_last l d H) as E. unfold pyget in E. cbn [Z.leb Z.compare] in E.
  assert (0 < length l) by (destruct l; [congruence|cbn; lia]).
  destruct (Z.leb_spec 0 (Z.of_nat (length l) + -1)); [|lia].
  apply get_ok in E. rewrite <- E. f_equal. lia.
Qed.

Section P.
Context {V T : Type}.
Notation line := (@line V).

Lemma rows_ok (f : Z -> res (list (piece V))) (ls : list (list V)) final m :
  length ls = m ->
  (forall i l, nth_error ls i = Some l -> f (Z.of_nat i) = Ok (line l)) ->
  (10 <= m -> f (-1)%Z = Ok (line final)) ->
  rows V m f = Ok (abridged ls final).
Proof.
  intros Hm Hf Hl. unfold rows, abridged, n_mu_sel, shortened. rewrite Hm.
  destruct (Nat.ltb_spec m 10) as [Hlt|Hge].
  - cbn [negb andb]. rewrite (mapM_by _ line _ ls); [reflexivity| |].
    + rewrite enumerate_length, map_length, seq_length; auto.
    + intros i [k z] l Hk Hi. cbn [fst snd]. rewrite enumerate_nth, nth_error_map' in Hk.
      assert (Hlt' : i < m) by (rewrite <- Hm; apply nth_error_Some; congruence).
      destruct (nth_error (seq 0 m) i) as [j|] eqn:Ej; [|discriminate].
      assert (j = i).
      { apply nth_error_nth with (d := 0) in Ej. rewrite seq_nth in Ej by lia. lia. }
      subst j. injection Hk as <- <-. apply Hf; auto.
  - specialize (Hl Hge). destruct ls as [|a [|b [|c ls]]]; cbn [length] in Hm; try lia.
    cbn [negb andb].
    change (enumerate [0%Z; 1%Z; 2%Z; 3%Z; (-1)%Z]) with
      [(0, 0%Z); (1, 1%Z); (2, 2%Z); (3, 3%Z); (4, (-1)%Z)].
    cbn [negb andb mapM fst snd length Nat.eqb Nat.sub].
    rewrite (Hf 0 a eq_refl : f 0%Z = _), (Hf 1 b eq_refl : f 1%Z = _), (Hf 2 c eq_refl : f 2%Z = _), Hl.
    cbn [bind concat firstn map]. rewrite !app_nil_r, <- !app_assoc. reflexivity.
Qed.

Lemma first_met_fold l : forall acc,
  fold_left (fun ss s => if mem String.eqb s ss then ss else ss ++ [s]) l acc =
  acc ++ filter (fun t => negb (mem String.eqb t acc)) (first_met l).
Proof.
  induction l as [|s l IH]; intros acc; cbn [fold_left first_met]; [cbn; rewrite app_nil_r; reflexivity|].
  cbn [filter]. unfold mem in *. destruct (existsb (fun a => String.eqb a s) acc) eqn:E; cbn [negb].
  - rewrite IH. f_equal.
    assert (Hs : forall L, filter (fun t => negb (existsb (fun a => String.eqb a t) acc)) (filter (fun t => negb (String.eqb t s)) L)
                         = filter (fun t => negb (existsb (fun a => String.eqb a t) acc)) L).
    { induction L as [|t L IHL]; cbn [filter]; [reflexivity|].
      destruct (String.eqb_spec t s) as [->|N]; cbn [negb filter].
      - rewrite E. cbn [negb]. exact IHL.
      - destruct (existsb _ acc); cbn [negb]; rewrite IHL; reflexivity. }
    rewrite Hs. reflexivity.
  - assert (Hi : ~ In s acc).
    { intros Hi. assert (existsb (fun a => String.eqb a s) acc = true); [|congruence].
      apply existsb_exists. exists s. split; auto. apply String.eqb_refl. }
    rewrite IH.
    rewrite <- app_assoc. cbn [app]. f_equal. f_equal.
    clear IH. induction (first_met l) as [|t L IHL]; cbn [filter]; [reflexivity|].
    rewrite existsb_app. cbn [existsb]. rewrite orb_false_r.
    destruct (String.eqb_spec t s) as [->|N]; cbn [negb filter].
    + rewrite E, String.eqb_refl. cbn [orb negb]. exact IHL.
    + assert (String.eqb s t = false) as -> by (apply String.eqb_neq; congruence).
      rewrite orb_false_r. destruct (existsb _ acc); cbn [negb]; rewrite IHL; reflexivity.
Qed.

Lemma add_fst l : forall ss ms,
  fst (fold_left add_sensor l (ss, ms)) =
  fold_left (fun ss s => if mem String.eqb s ss then ss else ss ++ [s]) (map fst l) ss.
Proof.
  induction l as [|p l IH]; intros ss ms; cbn [fold_left map]; [reflexivity|].
  unfold add_sensor at 2. destruct (mem String.eqb (fst p) ss); apply IH.
Qed.

Lemma sensors_first_met (ds : list (dataset V)) ix : get_idx V ds = Ok ix ->
  sensors ix = first_met (concat (map (fun d => [d_s1 V d; d_s2 V d]) ds)).
Proof.
  unfold get_idx. destruct (get_sensors V ds) as [ss ms] eqn:E. intros H.
  assert (sensors ix = ss) as ->.
  { repeat (match type of H with bind ?x _ = _ => destruct x as [?|] eqn:?; cbn [bind] in H; [|discriminate] end).
    injection H as <-. reflexivity. }
  rewrite get_sensors_flat in E. change ss with (fst (ss, ms)). rewrite <- E, add_fst.
  rewrite first_met_fold. cbn [app].
  assert (G : forall L : list string, filter (fun t => negb (mem String.eqb t [])) L = L).
  { induction L as [|x L IH]; cbn [filter mem existsb negb]; [reflexivity|].
    cbn in IH. rewrite IH. reflexivity. }
  rewrite G. f_equal. clear. induction ds as [|d ds IH]; cbn [flat_map map concat]; [reflexivity|].
  rewrite map_app, IH. reflexivity.
Qed.
End P.
