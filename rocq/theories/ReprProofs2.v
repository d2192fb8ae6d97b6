(** Proofs about the text of a match-up dataset: the parts of a series and the whole. *)
From Verif Require Import Base BaseLemmas ReaderModel ReaderSpec ReaderProofs ReaderMain
  UncModel UncSpec UncProofs2 ReprModel ReprSpec ReprProofs.
Open Scope nat_scope.
Open Scope list_scope.

Lemma map_by_seq {A B} (f : nat -> B) (g : A -> B) (l : list A) :
  (forall i a, nth_error l i = Some a -> f i = g a) -> map f (seq 0 (length l)) = map g l.
Proof.
  intros H. apply nth_error_ext. intros i. rewrite !nth_error_map'.
  destruct (nth_error l i) as [a|] eqn:E.
  - assert (Hl : i < length l) by (apply nth_error_Some; congruence).
    rewrite (nth_error_nth' (seq 0 (length l)) 0) by (rewrite seq_length; auto).
    rewrite seq_nth by auto. cbn. rewrite (H _ _ E). reflexivity.
  - apply nth_error_None in E. assert (nth_error (seq 0 (length l)) i = None) as ->; [|reflexivity].
    apply nth_error_None. rewrite seq_length. auto.
Qed.

Lemma pyget_nat {A} (l : list A) i : pyget l (Z.of_nat i) = get l i.
Proof. unfold pyget. destruct (Z.leb_spec 0 (Z.of_nat i)); [|lia]. rewrite Nat2Z.id. reflexivity. Qed.

Lemma trip_spec a b : trip_eqb a b = true <-> a = b.
Proof.
  destruct a as [[x y] z], b as [[x' y'] z']. unfold trip_eqb.
  rewrite !andb_true_iff, !Nat.eqb_eq. split; [intros [[-> ->] ->]; reflexivity|intros [= -> -> ->]; auto].
Qed.

(** The number of values of all blocks. *)
Lemma sum_flat {A} (f : A -> list nat) l : list_sum (flat_map f l) = list_sum (map (fun a => list_sum (f a)) l).
Proof.
  induction l as [|a l IH]; cbn [flat_map map]; [reflexivity|].
  rewrite list_sum_app, IH. reflexivity.
Qed.
Lemma sum_add {A} (f g : A -> nat) l :
  list_sum (map (fun a => f a + g a) l) = list_sum (map f l) + list_sum (map g l).
Proof.
  induction l as [|a l IH]; [reflexivity|]. cbn [map].
  change (list_sum (?x :: ?y)) with (x + list_sum y).
  change (list_sum (f a + g a :: map (fun a => f a + g a) l)) with (f a + g a + list_sum (map (fun a => f a + g a) l)).
  change (list_sum (f a :: map f l)) with (f a + list_sum (map f l)).
  change (list_sum (g a :: map g l)) with (g a + list_sum (map g l)). lia.
Qed.
Lemma sum_zero {A} (l : list A) : list_sum (map (fun _ => 0) l) = 0.
Proof. induction l; [reflexivity|]. cbn [map]. exact IHl. Qed.
Lemma sum_swap {A B} (f : A -> B -> nat) l l' :
  list_sum (map (fun a => list_sum (map (f a) l')) l) = list_sum (map (fun b => list_sum (map (fun a => f a b) l)) l').
Proof.
  induction l as [|a l IH].
  - cbn [map]. rewrite sum_zero. reflexivity.
  - cbn [map]. change (list_sum (list_sum (map (f a) l') :: map (fun a => list_sum (map (f a) l')) l))
      with (list_sum (map (f a) l') + list_sum (map (fun a => list_sum (map (f a) l')) l)).
    rewrite IH, <- sum_add. f_equal.
Qed.
Lemma sum_le k n x : k <= n -> list_sum (map (fun c => if c <=? k then x else 0) (seq 1 n)) = x * k.
Proof.
  revert k. induction n as [|n IH]; intros k Hk.
  - assert (k = 0) as -> by lia. cbn. lia.
  - rewrite seq_S, map_app, list_sum_app. cbn [map]. destruct (Nat.eq_dec k (S n)) as [->|N].
    + change (1 + n) with (S n). rewrite Nat.leb_refl.
      assert (map (fun c => if c <=? S n then x else 0) (seq 1 n) = map (fun c => if c <=? n then x else 0) (seq 1 n)) as ->.
      { apply map_ext_in. intros c Hc. apply in_seq in Hc.
        destruct (Nat.leb_spec c (S n)), (Nat.leb_spec c n); auto; lia. }
      rewrite IH by lia. cbn. lia.
    + rewrite IH by lia. destruct (Nat.leb_spec (1 + n) k); [lia|]. cbn. lia.
Qed.
Lemma sum_blocks Im ms Nm' :
  (forall a b, In (a, b) Im -> a < length ms /\ b < length ms) ->
  list_sum (map (fun t => nth (snd (fst t) - 1) Nm' 0) (blocks Im ms)) =
  list_sum (map (fun ip : nat * (nat * nat) => nth (fst ip) Nm' 0 * (nth (fst (snd ip)) ms 0 + nth (snd (snd ip)) ms 0))
                (enumerate Im)).
Proof.
  intros Hb. unfold blocks, blocks_at. rewrite map_flat_map, sum_flat.
  set (G := fun (c : nat) (ip : nat * (nat * nat)) =>
        (if c <=? nth (fst (snd ip)) ms 0 then nth (fst ip) Nm' 0 else 0) +
        (if c <=? nth (snd (snd ip)) ms 0 then nth (fst ip) Nm' 0 else 0)).
  rewrite (map_ext _ (fun c => list_sum (map (G c) (enumerate Im)))).
  2:{ intros c. rewrite map_flat_map, sum_flat. f_equal. apply map_ext. intros [i [a b]].
      unfold G. cbn [fst snd filter]. destruct (c <=? nth a ms 0), (c <=? nth b ms 0);
        cbn [map fst snd list_sum fold_right]; rewrite ?Nat.add_sub; lia. }
  rewrite (sum_swap G). f_equal. apply map_ext_in. intros [i [a b]] Hi. apply in_enumerate in Hi.
  apply nth_error_In, Hb in Hi as (Ha & Hb'). unfold G. cbn [fst snd]. rewrite sum_add.
  unfold range1.
  assert (F : forall s, s < length ms -> nth s ms 0 <= list_max ms).
  { intros s Hs. assert (F : Forall (fun k => k <= list_max ms) ms) by (apply list_max_le; lia).
    rewrite Forall_forall in F. apply F. apply nth_In; auto. }
  rewrite (sum_le (nth a ms 0)), (sum_le (nth b ms 0)) by auto. lia.
Qed.

Section P.
Context {V T : Type} (zeroV nanV : V) (zeroT : T) (f32 i32 : V -> V) (todate : V -> T)
        (isfill : V -> bool) (ord : list string -> list string).
Notation openMatchUp := (openMatchUp V T zeroV nanV zeroT f32 i32 todate isfill ord).

Section File.
Variables (ds : list (dataset V)) (mu : matchup V T).
Hypothesis Hg : good_files ds.
Hypothesis Ho : openMatchUp ds = Ok mu.
Let ix := mu_idx V T mu.


Lemma rp_opened : opened zeroV nanV f32 i32 todate isfill ord ds mu.
Proof. exact (proj1 (omu_opened zeroV nanV zeroT f32 i32 todate isfill ord ds mu (proj2 (proj2 Hg)) Ho)). Qed.
Lemma rp_ix : idx_ok ds ix.
Proof. exact (op_idx _ _ _ _ _ _ _ _ _ rp_opened). Qed.
Lemma rp_ks : mu_ks V T mu = concat (map (d_K V) ds).
Proof. exact (op_ks _ _ _ _ _ _ _ _ _ rp_opened). Qed.
Lemma rp_get : get_idx V ds = Ok ix.
Proof.
  pose proof Ho as H. unfold ReaderModel.openMatchUp in H.
  destruct (get_idx V ds) as [x|] eqn:E; cbn [bind] in H; [|discriminate].
  repeat (match type of H with bind ?x _ = _ => destruct x as [?|] eqn:?; cbn [bind] in H; [|discriminate] end).
  unfold ix. injection H as <-. reflexivity.
Qed.
Lemma rp_data sensor n cov d sd : file_has ds sensor n cov d sd ->
  exists col, is_column (sX d sd) cov col /\ getVariableData V T mu cov sensor (Some n) = Ok (map f32 col).
Proof.
  destruct (columns_returned zeroV nanV zeroT f32 i32 todate isfill ord ds Hg) as (mu' & E & H & _).
  unfold omu in E. rewrite Ho in E. injection E as <-. apply H.
Qed.

Variables (n : nat) (d : dataset V) (pr : nat * nat).
Hypothesis Hd : nth_error ds n = Some d.
Hypothesis Hpr : nth_error (Im ix) n = Some pr.

Lemma rp_wf : wf_dataset d.
Proof. apply (proj2 (proj2 Hg)). eapply nth_error_In; eauto. Qed.
Lemma rp_name sd : nth_error (sensors ix) (sidx pr sd) = Some (sname d sd).
Proof.
  destruct (io_Im_sd ds ix n d rp_ix Hd) as (p & E & H). rewrite Hpr in E. injection E as <-. apply H.
Qed.
Lemma rp_m sd : nth_error (sensor_ms ix) (sidx pr sd) = Some (sm d sd).
Proof.
  destruct (io_ms _ _ rp_ix _ _ (rp_name sd)) as (d' & sd' & _ & _ & E & F).
  rewrite (first_same ds (sname d sd) n d sd Hg Hd eq_refl) in F. injection F as F. rewrite F. exact E.
Qed.
Lemma rp_Nm : nth_error (Nm ix) n = Some (d_M V d).
Proof. rewrite (io_Nm _ _ rp_ix), nth_error_map', Hd. reflexivity. Qed.
Lemma rp_before : nth_error (cNm ix) n = Some (before ds (n + 1)) /\ nth_error (cNm ix) (n + 1) = Some (before ds (n + 1) + d_M V d).
Proof.
  rewrite (io_cNm _ _ rp_ix). unfold before. rewrite Nat.add_sub.
  assert (Hl : n < length ds) by (apply nth_error_Some; congruence).
  rewrite !cumul_nth by (rewrite map_length; lia). cbn [Nat.add].
  rewrite firstn_map. split; [reflexivity|]. f_equal.
  rewrite (firstn_map (d_M V)). rewrite <- !firstn_map. rewrite Nat.add_1_r.
  rewrite (list_sum_firstn_S (map (d_M V) ds) n (d_M V d)) by (rewrite nth_error_map', Hd; reflexivity).
  reflexivity.
Qed.
Lemma rp_rows sd : length (sX d sd) = d_M V d.
Proof. destruct rp_wf as (H1 & _ & H2 & _). destruct sd; auto. Qed.
Lemma rp_row sd r row : nth_error (sX d sd) r = Some row -> length row = sm d sd.
Proof. intros H. apply nth_error_In in H. destruct rp_wf as (_ & H1 & _ & H2 & _). destruct sd; auto. Qed.

(** The line of one match-up. *)
Lemma state_line_ok sd r row z : nth_error (sX d sd) r = Some row ->
  (z = Z.of_nat r \/ z = (-1)%Z /\ r = d_M V d - 1) ->
  state_line V T mu n (sidx pr sd) z = Ok (line (map f32 row)).
Proof.
  intros Hr Hz. unfold state_line. fold ix.
  rewrite (proj2 (get_ok _ _ _) (rp_m sd)). cbn [bind].
  assert (E : mapM (fun n_cov =>
      do s <- get (sensors ix) (sidx pr sd);;
      do v <- getVariableData V T mu (n_cov + 1) s (Some (n + 1));;
      do x <- pyget v z;; Ok [Fl x; Tx ", "%string]) (seq 0 (sm d sd))
      = Ok (map (fun v => [Fl v; Tx ", "%string]) (map f32 row))).
  { apply mapM_by; [rewrite seq_length, map_length; symmetry; eapply rp_row; eauto|].
    intros c a v Ha Hv. rewrite (proj2 (get_ok _ _ _) (rp_name sd)). cbn [bind].
    rewrite nth_error_map' in Hv. destruct (nth_error row c) as [x|] eqn:Ex; [|discriminate].
    injection Hv as <-.
    assert (Hc : c < sm d sd) by (rewrite <- (rp_row sd r row Hr); apply nth_error_Some; congruence).
    assert (a = c) as -> by (apply nth_error_nth with (d := 0) in Ha; rewrite seq_nth in Ha by auto; lia).
    destruct (rp_data (sname d sd) (n + 1) (c + 1) d sd) as (col & (Hl & Hcol) & ->).
    { split; [lia|]. rewrite Nat.add_sub. split; [exact Hd|]. split; [reflexivity|lia]. }
    cbn [bind]. specialize (Hcol _ _ Hr). rewrite Nat.add_sub, Ex in Hcol.
    assert (En : nth_error (map f32 col) r = Some (f32 x)) by (rewrite nth_error_map', Hcol; reflexivity).
    assert (pyget (map f32 col) z = Ok (f32 x)) as ->; [|reflexivity].
    destruct Hz as [->|[-> Hr']].
    - rewrite pyget_nat. apply get_ok. exact En.
    - assert (Hne : map f32 col <> []) by (intros E0; rewrite E0 in En; destruct r; discriminate).
      rewrite (pyget_last _ (f32 x) Hne). f_equal.
      pose proof (nth_error_last _ (f32 x) Hne) as El.
      rewrite map_length, Hl, rp_rows, <- Hr', En in El. congruence. }
  rewrite E. reflexivity.
Qed.

Lemma state_rows_ok sd :
  rows V (d_M V d) (state_line V T mu n (sidx pr sd)) =
  Ok (abridged (map (map f32) (sX d sd)) (last (map (map f32) (sX d sd)) [])).
Proof.
  apply rows_ok.
  - rewrite map_length. apply rp_rows.
  - intros i l Hi. rewrite nth_error_map' in Hi. destruct (nth_error (sX d sd) i) as [row|] eqn:E; [|discriminate].
    injection Hi as <-. eapply state_line_ok; eauto.
  - intros Hm. assert (Hne : map (map f32) (sX d sd) <> []).
    { intros E. apply (f_equal (@length _)) in E. rewrite map_length, rp_rows in E. cbn in E. lia. }
    pose proof (nth_error_last _ [] Hne) as El. rewrite map_length, rp_rows, nth_error_map' in El.
    destruct (nth_error (sX d sd) (d_M V d - 1)) as [row|] eqn:E; [|discriminate].
    injection El as <-. eapply state_line_ok; eauto.
Qed.

Lemma k_rows_ok (k : V) :
  (10 <= d_M V d -> pyget (mu_ks V T mu) (Z.of_nat (before ds (n + 1)) + -1)%Z = Ok k) ->
  rows V (d_M V d) (k_line V T mu (before ds (n + 1))) = Ok (abridged (map (fun x => [x]) (d_K V d)) [k]).
Proof.
  intros Hk. destruct rp_wf as (_ & _ & _ & _ & HK & _). apply rows_ok.
  - rewrite map_length. exact HK.
  - intros i l Hi. rewrite nth_error_map' in Hi. destruct (nth_error (d_K V d) i) as [x|] eqn:E; [|discriminate].
    injection Hi as <-. unfold k_line.
    assert (Hi : i < d_M V d) by (rewrite <- HK; apply nth_error_Some; congruence).
    replace (Z.of_nat (before ds (n + 1)) + Z.of_nat i)%Z with (Z.of_nat (before ds (n + 1) + i)) by lia.
    rewrite pyget_nat, rp_ks.
    assert (get (concat (map (d_K V) ds)) (before ds (n + 1) + i) = Ok x) as ->; [|reflexivity].
    apply get_ok. rewrite (concat_series (d_K V) ds (n + 1) d i); auto; [|lia|rewrite Nat.add_sub; auto].
    intros d' Hd'. apply (proj2 (proj2 Hg)) in Hd' as ((_ & _ & _ & _ & H & _) & _). exact H.
  - intros Hm. unfold k_line. rewrite (Hk Hm). reflexivity.
Qed.
End File.

Section Files.
Variables (ordn : list nat -> list nat).
Hypothesis Hord : forall l x, In x (ordn l) <-> In x l.
Variables (wu : bool) (fs : list (ufile V)) (mu : matchup V T) (uncs : option (list (option (unc V)))).
Let ds := map (uf_d V) fs.
Hypothesis Hu : usable wu fs.
Hypothesis Ho : openMatchUp ds = Ok mu.
Hypothesis Hun : uncertainties zeroV ordn wu fs (mu_idx V T mu) = Ok uncs.
Let Hg : good_files ds := proj1 Hu.
Notation ix := (mu_idx V T mu).

Lemma unc_part_ok n f pr sd : nth_error fs n = Some f -> nth_error (Im ix) n = Some pr ->
  match uncs with Some l => unc_line V T mu l n (sidx pr sd) | None => Ok [] end =
  Ok (if wu then
        [Tx nl; Tx (sname (uf_d V f) sd); Tx " Sensor State Data Uncertainty Types: "%string; Tx "["%string]
        ++ concat (map (fun t => [@Nu V t; Tx ", "%string]) (stypes (uf_u V f) sd)) ++ [Tx ("]" ++ nl)%string]
      else []).
Proof.
  intros Hf Hpr. assert (Hd : nth_error ds n = Some (uf_d V f)) by (unfold ds; rewrite nth_error_map', Hf; reflexivity).
  unfold uncertainties in Hun. destruct wu eqn:Ew; [|injection Hun as <-; reflexivity].
  pose proof (proj2 Hu eq_refl) as Hval.
  destruct (unc_attached_all zeroV ordn Hord fs ix Hg Hval (rp_get ds mu Ho)) as (us & ws & uu & E & Hl & _ & H).
  rewrite E in Hun. cbn [bind fst] in Hun. injection Hun as <-.
  unfold unc_line. rewrite (proj2 (get_ok _ _ _) (rp_name ds mu Hg Ho n _ pr Hd Hpr sd)).
  cbn [bind]. rewrite (proj2 (get_ok _ _ _) (rp_m ds mu Hg Ho n _ pr Hd Hpr sd)). cbn [bind].
  assert (Em : mapM (fun n_cov =>
      do im <- index trip_eqb (sidx pr sd, n + 1, n_cov + 1) (get_block_idxs ix);;
      do u <- get us im;;
      match u with
      | Some u => Ok [@Nu V (typeID V (u_kind V u)); Tx ", "%string]
      | None => Raise AttributeError
      end) (seq 0 (sm (uf_d V f) sd)) = Ok (map (fun t => [@Nu V t; Tx ", "%string]) (stypes (uf_u V f) sd))).
  { assert (Hlen : length (stypes (uf_u V f) sd) = sm (uf_d V f) sd) by (apply (Hval f); eapply nth_error_In; eauto).
    apply mapM_by; [rewrite seq_length; auto|].
    intros c a t Ha Ht.
    assert (Hc : c < sm (uf_d V f) sd) by (rewrite <- Hlen; apply nth_error_Some; congruence).
    assert (a = c) as -> by (apply nth_error_nth with (d := 0) in Ha; rewrite seq_nth in Ha by auto; lia).
    pose proof (idx_ok_block_idxs _ _ (rp_ix ds mu Hg Ho)) as Eb.
    assert (Hin : In (sidx pr sd, n + 1, c + 1) (get_block_idxs ix)).
    { rewrite Eb. apply in_blocks. exists n, (fst pr), (snd pr). destruct pr as [x y]. cbn [fst snd].
      split; [exact Hpr|]. split; [reflexivity|]. split; [destruct sd; auto|].
      pose proof (rp_m ds mu Hg Ho n _ (x, y) Hd Hpr sd) as Em.
      rewrite (nth_nth_error _ _ 0 _ Em). lia. }
    apply In_nth_error in Hin as (b & Hb).
    assert (Hnd : NoDup (get_block_idxs ix)).
    { rewrite Eb. apply NoDup_blocks. apply (Im_ne ds ix (rp_ix ds mu Hg Ho)). intros d' Hd'. apply (proj2 (proj2 Hg) _ Hd'). }
    rewrite (index_NoDup trip_eqb trip_spec _ _ b Hnd Hb). cbn [bind].
    destruct (H _ _ _ _ Hb) as (name & f' & sd' & ty & u & H1 & _ & H2 & H3 & _ & H4 & H5 & H6).
    rewrite Nat.add_sub in H2, H4. rewrite Hf in H2. injection H2 as <-.
    pose proof (rp_name ds mu Hg Ho n _ pr Hd Hpr sd) as En.
    rewrite En in H1. injection H1 as <-.
    assert (sd' = sd) as ->.
    { assert (Hdi : distinct_sensors (uf_d V f)) by (apply (proj2 (proj2 Hg)); eapply nth_error_In; eauto).
      unfold distinct_sensors in Hdi. destruct sd, sd'; cbn in H3; auto; congruence. }
    rewrite Ht in H4. injection H4 as <-.
    rewrite (proj2 (get_ok _ _ _) H5). cbn [bind].
    assert (typeID V (u_kind V u) = t) as ->; [|reflexivity].
    unfold as_declared in H6. destruct (u_kind V u); cbn [typeID]; symmetry; apply H6. }
  rewrite Em. reflexivity.
Qed.

Lemma sensor_part_ok n f pr sd : nth_error fs n = Some f -> nth_error (Im ix) n = Some pr ->
  sensor_part V T mu uncs n (d_M V (uf_d V f)) (sidx pr sd) = Ok (sensor_text f32 wu f sd).
Proof.
  intros Hf Hpr. assert (Hd : nth_error ds n = Some (uf_d V f)) by (unfold ds; rewrite nth_error_map', Hf; reflexivity).
  unfold sensor_part, sensor_text.
  rewrite (proj2 (get_ok _ _ _) (rp_name ds mu Hg Ho n _ pr Hd Hpr sd)). cbn [bind].
  rewrite (state_rows_ok ds mu Hg Ho n _ pr Hd Hpr sd). cbn [bind].
  rewrite (unc_part_ok n f pr sd Hf Hpr). reflexivity.
Qed.

Lemma preceding_ok n f : nth_error fs n = Some f -> 10 <= d_M V (uf_d V f) ->
  pyget (mu_ks V T mu) (Z.of_nat (before ds (n + 1)) + -1)%Z = Ok (preceding zeroV fs (n + 1) f).
Proof.
  intros Hf Hm. rewrite (rp_ks ds mu Hg Ho). unfold preceding. fold ds.
  assert (Ek : concat (map (fun f => d_K V (uf_d V f)) fs) = concat (map (d_K V) ds)) by (unfold ds; rewrite map_map; reflexivity).
  rewrite Ek. set (b := before ds (n + 1)).
  assert (Hlen : length (concat (map (d_K V) ds)) = list_sum (map (d_M V) ds)).
  { pose proof (series_lengths zeroV nanV zeroT f32 i32 todate isfill ord ds mu (proj2 (proj2 Hg)) Ho) as (H & _).
    rewrite (rp_ks ds mu Hg Ho) in H. exact H. }
  assert (Hb : b + d_M V (uf_d V f) <= list_sum (map (d_M V) ds)).
  { assert (Hd : nth_error ds n = Some (uf_d V f)) by (unfold ds; rewrite nth_error_map', Hf; reflexivity).
    unfold b, before. rewrite Nat.add_sub.
    rewrite <- (firstn_skipn n ds) at 2. rewrite map_app, list_sum_app.
    destruct (skipn n ds) as [|x r] eqn:Es.
    - apply (f_equal (@length _)) in Es. rewrite skipn_length in Es. cbn in Es.
      assert (n < length ds) by (apply nth_error_Some; congruence). lia.
    - assert (x = uf_d V f).
      { rewrite <- (firstn_skipn n ds), Es in Hd. rewrite nth_error_app2 in Hd by (rewrite firstn_length; lia).
        rewrite firstn_length, Nat.min_l in Hd by (assert (n < length ds) by (apply nth_error_Some; rewrite <- (firstn_skipn n ds), Es, nth_error_app2 by (rewrite firstn_length; lia); intros E0; apply nth_error_None in E0; cbn in E0; rewrite firstn_length in E0; assert (Hl := f_equal (@length _) Es); rewrite skipn_length in Hl; cbn in Hl; lia); lia).
        rewrite Nat.sub_diag in Hd. cbn in Hd. congruence. }
      subst x. cbn [map]. change (list_sum (d_M V (uf_d V f) :: map (d_M V) r)) with (d_M V (uf_d V f) + list_sum (map (d_M V) r)). lia. }
  destruct (Nat.eqb_spec b 0) as [E0|N].
  - rewrite E0. cbn [Z.of_nat Z.add]. apply pyget_last. intros E. rewrite E in Hlen. cbn in Hlen. lia.
  - replace (Z.of_nat b + -1)%Z with (Z.of_nat (b - 1)) by lia. rewrite pyget_nat. apply get_ok.
    apply nth_error_nth'. lia.
Qed.

Lemma series_part_ok n f pr : nth_error fs n = Some f -> nth_error (Im ix) n = Some pr ->
  series_part V T mu uncs (k_types wu fs) (n, pr) =
  Ok (series_text f32 wu (n + 1) f (preceding zeroV fs (n + 1) f)).
Proof.
  intros Hf Hpr. assert (Hd : nth_error ds n = Some (uf_d V f)) by (unfold ds; rewrite nth_error_map', Hf; reflexivity).
  unfold series_part, series_text. cbn [fst snd].
  rewrite (proj2 (get_ok _ _ _) (rp_Nm ds mu Hg Ho n _ Hd)). cbn [bind].
  pose proof (rp_name ds mu Hg Ho n _ pr Hd Hpr Side1) as E1. pose proof (rp_name ds mu Hg Ho n _ pr Hd Hpr Side2) as E2.
  cbn [sidx] in E1, E2.
  rewrite (proj2 (get_ok _ _ _) E1), (proj2 (get_ok _ _ _) E2). cbn [bind].
  rewrite (sensor_part_ok n f pr Side1 Hf Hpr : sensor_part V T mu uncs n _ (fst pr) = _).
  rewrite (sensor_part_ok n f pr Side2 Hf Hpr : sensor_part V T mu uncs n _ (snd pr) = _). cbn [bind].
  destruct (rp_before ds mu Hg Ho n _ Hd) as (B1 & B2).
  rewrite (proj2 (get_ok _ _ _) B1), (proj2 (get_ok _ _ _) B2). cbn [bind].
  rewrite (k_rows_ok ds mu Hg Ho n _ Hd (preceding zeroV fs (n + 1) f)) by (intros; apply preceding_ok; auto).
  cbn [bind]. unfold k_types. destruct wu; cbn [bind].
  - rewrite (proj2 (get_ok _ _ _) (map_nth_error (fun _ => 1) n fs Hf : nth_error _ n = Some 1)). cbn [bind]. reflexivity.
  - reflexivity.
Qed.

Lemma values_total : pyget (idxs ix) (-1)%Z = Ok (list_sum (map (fun d => d_M V d * (d_m1 V d + d_m2 V d)) ds)).
Proof.
  pose proof (rp_ix ds mu Hg Ho) as Hix.
  rewrite (io_idx _ _ Hix). etransitivity; [apply cumul_last|]. f_equal. cbn [Nat.add].
  rewrite (io_nv _ _ Hix), sum_blocks.
  - f_equal. apply nth_error_ext. intros i. rewrite !nth_error_map', enumerate_nth.
    destruct (nth_error (Im ix) i) as [pr|] eqn:Ep; cbn [option_map].
    + assert (Hl : i < length ds) by (rewrite <- (io_Imlen _ _ Hix); apply nth_error_Some; congruence).
      destruct (nth_error ds i) as [d|] eqn:Ed; [|apply nth_error_None in Ed; lia].
      cbn [option_map fst snd].
      rewrite (nth_nth_error _ _ 0 _ (rp_Nm ds mu Hg Ho i d Ed)).
      rewrite (nth_nth_error _ _ 0 _ (rp_m ds mu Hg Ho i d pr Ed Ep Side1 : nth_error _ (fst pr) = _)).
      rewrite (nth_nth_error _ _ 0 _ (rp_m ds mu Hg Ho i d pr Ed Ep Side2 : nth_error _ (snd pr) = _)). reflexivity.
    + assert (nth_error ds i = None) as ->; [|reflexivity].
      apply nth_error_None in Ep. apply nth_error_None. rewrite <- (io_Imlen _ _ Hix). exact Ep.
  - intros a b Hi. apply In_nth_error in Hi as (i & Ep).
    assert (Hl : i < length ds) by (rewrite <- (io_Imlen _ _ Hix); apply nth_error_Some; congruence).
    destruct (nth_error ds i) as [d|] eqn:Ed; [|apply nth_error_None in Ed; lia].
    pose proof (rp_m ds mu Hg Ho i d (a, b) Ed Ep Side1) as H1. pose proof (rp_m ds mu Hg Ho i d (a, b) Ed Ep Side2) as H2.
    cbn [sidx fst snd] in H1, H2. split; apply nth_error_Some; congruence.
Qed.

Theorem repr_text : repr V T mu uncs (k_types wu fs) =
  Ok (text f32 wu fs (length fs + 1) (preceding zeroV fs)).
Proof.
  pose proof (rp_ix ds mu Hg Ho) as Hix.
  unfold repr, text. fold ds.
  rewrite (io_cNm _ _ Hix) at 1.
  assert (E : pyget (cumul 0 (map (d_M V) ds)) (-1)%Z = Ok (list_sum (map (d_M V) ds))) by apply (cumul_last 0).
  rewrite E. cbn [bind]. rewrite values_total. cbn [bind].
  assert (Es : mapM (series_part V T mu uncs (k_types wu fs)) (enumerate (Im ix)) =
    Ok (map (fun p => series_text f32 wu (fst p + 1) (snd p) (preceding zeroV fs (fst p + 1) (snd p))) (enumerate fs))).
  { apply mapM_by; [rewrite !enumerate_length, (io_Imlen _ _ Hix); unfold ds; apply map_length|].
    intros i [j pr] [k f] Hj Hk. pose proof (enumerate_nth fs i) as Ek. rewrite enumerate_nth in Hj.
    assert (Hk' : option_map (fun a => (i, a)) (nth_error fs i) = Some (k, f)) by (rewrite <- Ek; exact Hk). clear Hk Ek. rename Hk' into Hk.
    destruct (nth_error (Im ix) i) as [pr'|] eqn:Ep; [|discriminate]. injection Hj as <- <-.
    destruct (nth_error fs i) as [f'|] eqn:Ef; [|discriminate]. injection Hk as <- <-.
    cbn [fst snd]. apply series_part_ok; auto. }
  rewrite Es. cbn [bind]. rewrite (io_cNm _ _ Hix), cumul_length, map_length.
  pose proof (sensors_first_met ds ix (rp_get ds mu Ho)) as Em. rewrite <- Em.
  unfold ds. rewrite map_length. rewrite Nat.add_1_r. reflexivity.
Qed.
End Files.
End P.
