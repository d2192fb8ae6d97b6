(** * Proofs for C132-C135. *)
From Coq Require Import Reals Sorted Lra Lia.
From Verif Require Import Base BaseLemmas ReaderModel ReaderSpec ReaderProofs ReaderMain UncModel MuModel MuProofs TransformModel TransformProofs2 SimModel SimProofs MvModel MvSpec.
Open Scope nat_scope.

Lemma in_insert x l y : In y (insert x l) <-> y = x \/ In y l.
Proof.
  induction l as [|z l IH]; cbn; [intuition congruence|]. destruct (x <=? z); cbn; [intuition congruence|].
  rewrite IH. intuition congruence.
Qed.
Lemma in_sort l y : In y (sort l) <-> In y l.
Proof. induction l as [|x l IH]; cbn; [tauto|]. rewrite in_insert, IH. intuition congruence. Qed.
Lemma insert_len x l : length (insert x l) = S (length l).
Proof. induction l as [|z l IH]; cbn; [reflexivity|]. destruct (x <=? z); cbn; congruence. Qed.
Lemma sort_len l : length (sort l) = length l.
Proof. induction l as [|x l IH]; cbn; [reflexivity|]. rewrite insert_len, IH. reflexivity. Qed.
Lemma insert_sorted x l : Sorted le l -> Sorted le (insert x l).
Proof.
  induction 1 as [|z l Hs IH Hr]; cbn; [repeat constructor|].
  destruct (Nat.leb_spec x z); [repeat constructor; auto|].
  constructor; auto. destruct l as [|w l]; cbn; [constructor; lia|].
  inversion Hr; subst. destruct (x <=? w); constructor; lia.
Qed.
Lemma sort_sorted l : Sorted le (sort l).
Proof. induction l; cbn; [constructor|apply insert_sorted; auto]. Qed.
Lemma seq_sorted n : forall a, Sorted le (seq a n).
Proof. induction n as [|n IH]; intros a; cbn; constructor; auto. destruct n; cbn; constructor. lia. Qed.

Lemma to_index_lt n u : (0 <= u < 1)%R -> 0 < n -> to_index n u < n.
Proof.
  intros Hu Hn. unfold to_index. destruct (base_Int_part (INR n * u)) as (H1 & H2).
  assert (Hp : (0 < INR n)%R) by (apply lt_0_INR; lia).
  assert (Hlt : (INR n * u < INR n)%R) by (rewrite <- (Rmult_1_r (INR n)) at 2; apply Rmult_lt_compat_l; lra).
  assert (Hge : (0 <= INR n * u)%R) by (apply Rmult_le_pos; lra).
  assert (Hz : (Int_part (INR n * u) < Z.of_nat n)%Z) by (apply lt_IZR; rewrite <- INR_IZR_INZ; lra).
  lia.
Qed.

Lemma ne_in {A} (l : list A) : l <> [] -> exists x, In x l.
Proof. destruct l as [|x l]; [congruence|]. exists x; left; auto. Qed.

Lemma forall2_nths {A B} (P : A -> B -> Prop) l1 l2 : length l1 = length l2 ->
  (forall i a, nth_error l1 i = Some a -> exists b, nth_error l2 i = Some b /\ P a b) -> Forall2 P l1 l2.
Proof.
  revert l2; induction l1 as [|a l1 IH]; intros [|b l2] HL H; cbn in HL; try discriminate; constructor.
  - destruct (H 0 a eq_refl) as (b' & E & Hp). injection E as ->. auto.
  - apply IH; [lia|]. intros i x Hi. apply (H (S i) x Hi).
Qed.
Lemma forall2_at {A B} (P : A -> B -> Prop) l1 l2 : Forall2 P l1 l2 -> forall i a, nth_error l1 i = Some a -> exists b, nth_error l2 i = Some b /\ P a b.
Proof. induction 1 as [|a b l1 l2 Hp H IH]; intros [|i] x E; cbn in *; try discriminate; [injection E as ->; eauto|eauto]. Qed.
Lemma forall2_seq {A} (l x : list A) : Forall2 (fun i x => nth_error l i = Some x) (seq 0 (length l)) x -> x = l.
Proof.
  intros H. assert (HL : length x = length l).
  { assert (G : length (seq 0 (length l)) = length x) by (clear - H; induction H; cbn; auto). rewrite seq_length in G. auto. }
  apply nth_error_ext. intros i. destruct (Nat.lt_ge_cases i (length l)) as [Hi|Hi].
  - assert (Hs : nth_error (seq 0 (length l)) i = Some i) by (rewrite (nth_error_nth' _ 0) by (rewrite seq_length; auto); rewrite seq_nth; auto).
    destruct (forall2_at _ _ _ H i i Hs) as (b & E1 & E2). congruence.
  - rewrite !(proj2 (nth_error_None _ _)); auto; lia.
Qed.

Section Mv.
Context {T : Type} (zeroV nanV : R) (zeroT : T) (f32 i32 : R -> R) (todate : R -> T) (isfill : R -> bool).
Notation omu := (omu zeroV nanV zeroT f32 i32 todate isfill).
Notation file := (dataset R).
Variables (ord : list string -> list string) (rnd : nat -> nat -> list R) (ds : list file) (m : matchup R T).
Hypothesis (Hord : forall l x, In x (ord l) <-> In x l).
Hypothesis (Hr : readable ds) (Hn : forall d, In d ds -> has_nominal isfill d).
Hypothesis (Eo : omu ord ds = Ok m).

Lemma opened_m : opened zeroV nanV f32 i32 todate isfill ord ds m.
Proof. exact (proj1 (omu_opened _ _ _ _ _ _ _ ord ds m Hr Eo)). Qed.
Lemma ds_ne : ds <> [].
Proof. exact (proj2 (proj2 (omu_opened _ _ _ _ _ _ _ ord ds m Hr Eo))). Qed.

Lemma nom_all name : name = "nominal_measurand1"%string \/ name = "nominal_measurand2"%string ->
  getAdditionalData R T m name None = Ok (concat (map (var name) ds)) /\ forall d, In d ds -> length (var name d) = d_M R d.
Proof.
  intros Hname.
  assert (Hv : forall d, In d ds -> exists v, lookup name (d_vars R d) = Some v /\ forall x, In x v -> isfill x = false).
  { intros d Hd. destruct (Hn d Hd) as (H1 & H2). destruct Hname as [-> | ->]; auto. }
  split.
  - assert (Hin : In name (mu_add_names R T m)).
    { destruct (ne_in ds ds_ne) as (d0 & Hd0). destruct (Hv d0 Hd0) as (v & El & _).
      destruct (In_nth_error _ _ Hd0) as (k & Hk).
      apply (proj2 (proj2 (additional_data zeroV nanV zeroT f32 i32 todate isfill ord ds m name (S k) d0 Hr Eo Hord ltac:(lia) ltac:(replace (S k - 1) with k by lia; auto)))).
      split; [destruct Hname as [-> | ->]; cbn; intuition discriminate|].
      exists d0. split; auto. apply lookup_in in El. apply (in_map fst) in El. exact El. }
    unfold getAdditionalData. destruct (index_in String.eqb seqb_spec _ _ Hin) as (c & Ec). rewrite Ec. cbn [bind].
    apply index_ok in Ec as (Ec & _); [|apply seqb_spec].
    rewrite (op_ad _ _ _ _ _ _ _ _ _ opened_m). rewrite (op_an _ _ _ _ _ _ _ _ _ opened_m) in Ec.
    apply get_ok. rewrite nth_error_map', Ec. cbn. f_equal. f_equal. apply map_ext_in. intros d Hd.
    destruct (Hv d Hd) as (v & El & Hf). unfold optcol, var. rewrite El.
    rewrite <- (map_id v) at 2. apply map_ext_in. intros x Hx. unfold fillnan. rewrite (Hf x Hx). reflexivity.
  - intros d Hd. destruct (Hv d Hd) as (v & El & _). unfold var. rewrite El. apply lookup_in in El.
    destruct (Hr d Hd) as ((_ & _ & _ & _ & _ & _ & _ & W) & _). eapply W; eauto.
Qed.
Lemma L1_all : get_L1_nom T m = Ok (concat (map nominal1 ds)).
Proof. unfold get_L1_nom, get_L_nom. cbn [String.append]. rewrite (proj1 (nom_all _ (or_introl eq_refl))). reflexivity. Qed.
Lemma L2_all : get_L2_nom T m = Ok (concat (map nominal2 ds)).
Proof. unfold get_L2_nom, get_L_nom. cbn [String.append]. rewrite (proj1 (nom_all _ (or_intror eq_refl))). reflexivity. Qed.
Lemma times_all : get_times T m = Ok (concat (map (times todate) ds)).
Proof. unfold get_times. rewrite (op_t2 _ _ _ _ _ _ _ _ _ opened_m). reflexivity. Qed.
Lemma nominal1_len d : In d ds -> length (nominal1 d) = d_M R d.
Proof. apply (proj2 (nom_all _ (or_introl eq_refl))). Qed.
Lemma nominal2_len d : In d ds -> length (nominal2 d) = d_M R d.
Proof. apply (proj2 (nom_all _ (or_intror eq_refl))). Qed.
Lemma times_len d : In d ds -> length (times todate d) = d_M R d.
Proof. intros Hd. unfold times. rewrite map_length. apply Hr; auto. Qed.
Lemma residual_len (d : file) : length (residual d) = d_M R d.
Proof. unfold residual. rewrite map_length, seq_length. reflexivity. Qed.
Lemma ks_len d : In d ds -> length (d_K R d) = d_M R d.
Proof. intros Hd. apply Hr; auto. Qed.

Lemma zip2_app (f : R -> R -> R) l1 l1' l2 l2' : length l1 = length l2 ->
  zip2 f (l1 ++ l1') (l2 ++ l2') = zip2 f l1 l2 ++ zip2 f l1' l2'.
Proof.
  unfold zip2. revert l2; induction l1 as [|x l1 IH]; intros [|y l2] H; cbn in H; try discriminate; [reflexivity|].
  cbn. rewrite IH; auto.
Qed.
Lemma zip2_concat (f : R -> R -> R) (g1 g2 : file -> list R) l :
  (forall d, In d l -> length (g1 d) = length (g2 d)) ->
  zip2 f (concat (map g1 l)) (concat (map g2 l)) = concat (map (fun d => zip2 f (g1 d) (g2 d)) l).
Proof.
  induction l as [|d l IH]; intros H; [reflexivity|]. cbn [map concat]. rewrite zip2_app by (apply H; left; auto).
  rewrite IH; [reflexivity|]. intros; apply H; right; auto.
Qed.
Lemma concat_len {A} (g : file -> list A) l : (forall d, In d l -> length (g d) = d_M R d) -> length (concat (map g l)) = list_sum (map (d_M R) l).
Proof.
  induction l as [|d l IH]; intros H; [reflexivity|].
  change (list_sum (map (d_M R) (d :: l))) with (d_M R d + list_sum (map (d_M R) l)).
  cbn [map concat]. rewrite app_length, H by (left; auto). rewrite IH; [reflexivity|]. intros; apply H; right; auto.
Qed.
Lemma kres_all : get_kres_nom_nom T m = Ok (concat (map residual ds)).
Proof.
  unfold get_kres_nom_nom. rewrite L2_all. cbn [bind]. rewrite L1_all. cbn [bind].
  rewrite (op_ks _ _ _ _ _ _ _ _ _ opened_m).
  rewrite bop_eq by (rewrite !concat_len; auto using nominal1_len, nominal2_len).
  cbn [bind]. rewrite (zip2_concat Rminus nominal2 nominal1) by (intros; rewrite nominal1_len, nominal2_len; auto).
  assert (HL : forall d, In d ds -> length (zip2 Rminus (nominal2 d) (nominal1 d)) = d_M R d).
  { intros d Hd. rewrite zip2_length; rewrite ?nominal2_len, ?nominal1_len; auto. }
  rewrite bop_eq by (rewrite !concat_len; auto using ks_len).
  f_equal. rewrite (zip2_concat Rminus (fun d => zip2 Rminus (nominal2 d) (nominal1 d)) (d_K R)) by (intros; rewrite HL, ks_len; auto).
  f_equal. apply map_ext_in. intros d Hd.
  apply nth_error_ext. intros i. unfold residual.
  destruct (Nat.lt_ge_cases i (d_M R d)) as [Hi|Hi].
  - rewrite nth_error_map', (nth_error_nth' (seq 0 (d_M R d)) 0) by (rewrite seq_length; lia).
    rewrite seq_nth by lia. cbn [option_map plus].
    assert (Z1 : nth_error (zip2 Rminus (nominal2 d) (nominal1 d)) i = Some (nth i (nominal2 d) 0 - nth i (nominal1 d) 0)%R).
    { apply zip2_nth_error; apply nth_error_nth'; rewrite ?nominal2_len, ?nominal1_len; auto. }
    apply zip2_nth_error; auto. apply nth_error_nth'. rewrite ks_len; auto.
  - rewrite (proj2 (nth_error_None _ _)), (proj2 (nth_error_None _ _)); auto.
    + rewrite map_length, seq_length; auto.
    + rewrite zip2_length; rewrite ?HL, ?ks_len; auto.
Qed.

(** ** the samples *)
Lemma series_all : series T m = pairs 0 (map (d_M R) ds).
Proof. unfold series. rewrite (io_cNm _ _ (op_idx _ _ _ _ _ _ _ _ _ opened_m)). apply pairs_eq. Qed.

Lemma slice_mid {A} (pre mid rest : list A) a b : a = length pre -> b = length pre + length mid -> slice a b (pre ++ mid ++ rest) = mid.
Proof.
  intros -> ->. unfold slice. replace (length pre + length mid - length pre) with (length mid) by lia.
  rewrite skipn_app, skipn_all, Nat.sub_diag. cbn. rewrite firstn_app, firstn_all, Nat.sub_diag. cbn. apply app_nil_r.
Qed.
Lemma musample_from {A} (g : file -> list A) l Is : (forall d, In d l -> length (g d) = d_M R d) ->
  choice l Is -> forall pre t, t = length pre ->
  exists rs, mapM (fun p => take (slice (fst (fst p)) (snd (fst p)) (pre ++ concat (map g l))) (snd p)) (combine (pairs t (map (d_M R) l)) Is) = Ok rs /\
    picked g l Is rs.
Proof.
  intros Hg Hc. induction Hc as [|d I l Is (Hlt & Hs) Hc IH]; intros pre t ->.
  - exists []. split; [reflexivity|]. split; [reflexivity|]. split; [reflexivity|]. intros [|k] ? ? ? H; discriminate.
  - cbn [map pairs combine mapM fst snd concat].
    rewrite (slice_mid pre (g d) (concat (map g l))) by (rewrite ?(Hg d (or_introl eq_refl)); reflexivity).
    assert (Ht : exists r, take (g d) I = Ok r).
    { unfold take. destruct (mapM_ok_ex (get (g d)) I) as (r & Er); [|eauto].
      intros i Hi. destruct (nth_error (g d) i) as [x|] eqn:E; [exists x; apply get_ok; auto|].
      apply nth_error_None in E. rewrite Hg in E by (left; auto). specialize (Hlt i Hi). lia. }
    destruct Ht as (r & Er). rewrite Er. cbn [bind].
    assert (Hg' : forall d0, In d0 l -> length (g d0) = d_M R d0) by (intros; apply Hg; right; auto).
    destruct (IH Hg' (pre ++ g d) (length pre + d_M R d)) as (rs & Ers & Hp); [rewrite app_length, Hg by (left; auto); auto|].
    rewrite <- app_assoc in Ers. rewrite Ers. cbn [bind]. exists (r :: rs). split; [reflexivity|].
    destruct Hp as (P1 & P2 & P3). split; [cbn; auto|]. split; [cbn; auto|].
    intros [|k] d0 I0 l0 H1 H2 H3; cbn in H1, H2, H3; [|eapply P3; eauto].
    injection H1 as <-. injection H2 as <-. injection H3 as <-.
    apply take_picks in Er as (El & Ep). clear - El Ep.
    revert r El Ep. induction I as [|i I IH]; intros [|x r] El Ep; cbn in El; try discriminate; constructor.
    + destruct (Ep 0 i eq_refl) as (y & Hy & Hx). cbn in Hx. congruence.
    + apply IH; auto. intros j i' Hi'. apply (Ep (S j) i'). exact Hi'.
Qed.
Lemma musample_ok {A} (g : file -> list A) Is : (forall d, In d ds -> length (g d) = d_M R d) -> choice ds Is ->
  exists rs, musample_values T m Is (concat (map g ds)) = Ok rs /\ picked g ds Is rs.
Proof. intros Hg Hc. unfold musample_values. rewrite series_all. exact (musample_from g ds Is Hg Hc [] 0 eq_refl). Qed.

Definition chosen_size (d : file) : nat :=
  if (10000 <? Z.of_nat (all_matchups ds))%Z then share ds d else d_M R d.

Lemma draw_from (Hrnd : random_numbers rnd) l : (forall d, In d l -> In d ds) -> forall k t,
  let F := fun p : nat * (nat * nat) => let '(i, (i_start, i_end)) := p in
        let total_i := i_end - i_start in
        if (MAX_SCATTER_SAMPLES <? Z.of_nat (all_matchups ds))%Z
        then sort (map (to_index total_i) (rnd i (Z.to_nat (Z.of_nat total_i * MAX_SCATTER_SAMPLES / Z.of_nat (all_matchups ds)))))
        else seq 0 total_i in
  let Is := map F (combine (seq k (length (pairs t (map (d_M R) l)))) (pairs t (map (d_M R) l))) in
  choice l Is /\ Forall2 (fun d I => length I = chosen_size d /\ ((Z.of_nat (all_matchups ds) <= 10000)%Z -> I = seq 0 (d_M R d))) l Is.
Proof.
  induction l as [|d l IH]; intros Hin k t F Is; [split; constructor|].
  destruct (IH (fun d0 H => Hin d0 (or_intror H)) (S k) (t + d_M R d)) as (IH1 & IH2).
  assert (Hd : F (k, (t, t + d_M R d)) = F (k, (t, t + d_M R d))) by reflexivity.
  unfold F at 2 in Hd. cbv beta iota in Hd. replace (t + d_M R d - t) with (d_M R d) in Hd by lia.
  unfold Is. cbn [map pairs length seq combine].
  split; constructor; auto.
  - rewrite Hd. unfold MAX_SCATTER_SAMPLES. destruct (10000 <? Z.of_nat (all_matchups ds))%Z eqn:E.
    + split; [|apply sort_sorted]. intros i Hi. apply in_sort, in_map_iff in Hi as (u & <- & Hu).
      destruct (Hrnd k (Z.to_nat (Z.of_nat (d_M R d) * 10000 / Z.of_nat (all_matchups ds)))) as (HL & HU).
      apply to_index_lt; auto. destruct (d_M R d) as [|n]; [|lia].
      change (Z.of_nat 0 * 10000)%Z with 0%Z in HL, Hu. rewrite Zdiv_0_l in HL, Hu. destruct (rnd k (Z.to_nat 0)); [destruct Hu|discriminate].
    + split; [|apply seq_sorted]. intros i Hi. apply in_seq in Hi. lia.
  - rewrite Hd. unfold chosen_size, MAX_SCATTER_SAMPLES, share. destruct (10000 <? Z.of_nat (all_matchups ds))%Z eqn:E.
    + split; [|intros Hle; apply Z.ltb_lt in E; lia].
      rewrite sort_len, map_length. apply Hrnd.
    + split; [apply seq_length|reflexivity].
Qed.
Lemma enumerate_combine {A} (l : list A) : enumerate l = combine (seq 0 (length l)) l.
Proof. reflexivity. Qed.
Lemma draw_ok : random_numbers rnd -> exists Is, draw_samples T rnd m = Ok Is /\ choice ds Is /\
  Forall2 (fun d I => length I = chosen_size d /\ ((Z.of_nat (all_matchups ds) <= 10000)%Z -> I = seq 0 (d_M R d))) ds Is.
Proof.
  intros Hrnd. unfold draw_samples. rewrite kres_all. cbn [bind].
  rewrite (concat_len residual) by (intros; apply residual_len). fold (all_matchups ds).
  rewrite series_all, enumerate_combine.
  eexists. split; [reflexivity|]. exact (draw_from Hrnd ds (fun d H => H) 0 0).
Qed.

(** ** histories of queries *)
Section Hist.
Variable Is : list (list nat).
Hypothesis (Ed : draw_samples T rnd m = Ok Is) (Hc : choice ds Is).
Definition cached {A} (g : file -> list A) (o : option (list (list A))) : Prop := match o with None => True | Some rs => picked g ds Is rs end.
Definition inv (past : list query) (s : mv T) : Prop :=
  v_is T s = (if existsb draws past then Some Is else None) /\
  (v_total T s = None \/ v_total T s = Some (list_sum (map (@length nat) Is)) /\ existsb draws past = true) /\
  cached nominal1 (v_sL1 T s) /\ cached nominal2 (v_sL2 T s) /\ cached residual (v_sk T s) /\ cached (times todate) (v_st T s) /\
  (existsb draws past = false -> v_sL1 T s = None /\ v_sL2 T s = None /\ v_sk T s = None /\ v_st T s = None).

Lemma sampled_ok {A} (g : file -> list A) (values : res (list A)) past s :
  (forall d, In d ds -> length (g d) = d_M R d) -> values = Ok (concat (map g ds)) ->
  v_is T s = (if existsb draws past then Some Is else None) ->
  exists rs, sampled T rnd m values s = (mkMv T (Some Is) (v_total T s) (v_sL1 T s) (v_sL2 T s) (v_sk T s) (v_st T s), Ok rs) /\ picked g ds Is rs.
Proof.
  intros Hg -> Hi. unfold sampled, get_i_musamples. destruct (musample_ok g Is Hg Hc) as (rs & Ers & Hp).
  exists rs. split; auto. rewrite Hi. destruct (existsb draws past).
  - rewrite Ers. destruct s; cbn in *. rewrite Hi. reflexivity.
  - rewrite Ed. rewrite Ers. reflexivity.
Qed.
Lemma inv_drawn (past : list query) (s : mv T) q : draws q = true -> existsb draws (past ++ [q]) = true.
Proof. intros H. rewrite existsb_app. cbn. rewrite H. apply orb_true_iff. auto. Qed.
Lemma drawn_if past o : inv past o -> v_is T o = Some Is -> existsb draws past = true.
Proof. intros (H & _) E. rewrite H in E. destruct (existsb draws past); [reflexivity|discriminate]. Qed.
Ltac split7 := split; [|split; [|split; [|split; [|split; [|split]]]]].
Ltac simp := cbn [v_is v_total v_sL1 v_sL2 v_sk v_st] in *.

Lemma ask_ok past s q : inv past s -> inv (past ++ [q]) (fst (ask T rnd m s q)) /\ answers_choice todate ds Is past q (snd (ask T rnd m s q)).
Proof.
  intros (I1 & I2 & I3 & I4 & I5 & I6 & I7).
  destruct q.
  - (* QL1 *) pose proof (inv_drawn past s QL1 eq_refl) as Hd.
    unfold ask, get_L1_nom_musamples. destruct (v_sL1 T s) as [rs|] eqn:E1.
    + cbn [fst snd]. split; [|exact I3].
      assert (Hp : existsb draws past = true) by (destruct (existsb draws past); [reflexivity|destruct (I7 eq_refl) as (X & _); congruence]).
      unfold inv. rewrite Hd, Hp, E1 in *. intuition congruence.
    + destruct (sampled_ok nominal1 _ past s nominal1_len L1_all I1) as (rs & Er & Hp). rewrite Er. cbn [fst snd]. simp.
      split; [|exact Hp]. unfold inv. simp. rewrite Hd. cbn [cached]. split7; auto; try congruence. destruct I2 as [|[]]; auto.
  - (* QL2 *) pose proof (inv_drawn past s QL2 eq_refl) as Hd.
    unfold ask, get_L2_nom_musamples. destruct (v_sL2 T s) as [rs|] eqn:E1.
    + cbn [fst snd]. split; [|exact I4].
      assert (Hp : existsb draws past = true) by (destruct (existsb draws past); [reflexivity|destruct (I7 eq_refl) as (X & Y & _); congruence]).
      unfold inv. rewrite Hd, Hp, E1 in *. intuition congruence.
    + destruct (sampled_ok nominal2 _ past s nominal2_len L2_all I1) as (rs & Er & Hp). rewrite Er. cbn [fst snd]. simp.
      split; [|exact Hp]. unfold inv. simp. rewrite Hd. cbn [cached]. split7; auto; try congruence. destruct I2 as [|[]]; auto.
  - (* QK *) pose proof (inv_drawn past s QK eq_refl) as Hd.
    unfold ask, get_kres_nom_nom_musamples. destruct (v_sk T s) as [rs|] eqn:E1.
    + cbn [fst snd]. split; [|exact I5].
      assert (Hp : existsb draws past = true) by (destruct (existsb draws past); [reflexivity|destruct (I7 eq_refl) as (X & Y & Z & _); congruence]).
      unfold inv. rewrite Hd, Hp, E1 in *. intuition congruence.
    + destruct (sampled_ok residual _ past s (fun d _ => residual_len d) kres_all I1) as (rs & Er & Hp). rewrite Er. cbn [fst snd]. simp.
      split; [|exact Hp]. unfold inv. simp. rewrite Hd. cbn [cached]. split7; auto; try congruence. destruct I2 as [|[]]; auto.
  - (* QTimes *) pose proof (inv_drawn past s QTimes eq_refl) as Hd.
    unfold ask, get_times_musamples. destruct (v_st T s) as [rs|] eqn:E1.
    + cbn [fst snd]. split; [|exact I6].
      assert (Hp : existsb draws past = true) by (destruct (existsb draws past); [reflexivity|destruct (I7 eq_refl) as (X & Y & Z & W); congruence]).
      unfold inv. rewrite Hd, Hp, E1 in *. intuition congruence.
    + destruct (sampled_ok (times todate) _ past s times_len times_all I1) as (rs & Er & Hp). rewrite Er. cbn [fst snd]. simp.
      split; [|exact Hp]. unfold inv. simp. rewrite Hd. cbn [cached]. split7; auto; try congruence. destruct I2 as [|[]]; auto.
  - (* QTotal *)
    assert (Hq : existsb draws (past ++ [QTotal]) = existsb draws past) by (rewrite existsb_app; cbn; rewrite !orb_false_r; reflexivity).
    unfold ask, get_musamples_total. destruct (v_total T s) as [n|] eqn:E1.
    + destruct I2 as [I2|(I2 & Hp)]; [discriminate|]. injection I2 as ->. cbn [fst snd answers_choice]. rewrite Hp.
      split; [|reflexivity]. unfold inv. rewrite Hq, E1, Hp in *. intuition congruence.
    + rewrite I1. destruct (existsb draws past) eqn:Hp; cbn [fst snd answers_choice]; rewrite ?Hp.
      * split; [|reflexivity]. unfold inv. simp. rewrite Hq. split7; auto; congruence.
      * split; [|reflexivity]. unfold inv. rewrite Hq, E1. split7; auto.
Qed.
Lemma asks_ok qs : forall past s, inv past s ->
  length (asks T rnd m s qs) = length qs /\
  forall pre q post, qs = pre ++ q :: post -> exists a, nth_error (asks T rnd m s qs) (length pre) = Some a /\ answers_choice todate ds Is (past ++ pre) q a.
Proof.
  induction qs as [|q0 qs IH]; intros past s Hi.
  - split; [reflexivity|]. intros [|] ? ? E; discriminate.
  - destruct (ask_ok past s q0 Hi) as (H1 & H2). cbn [asks]. destruct (ask T rnd m s q0) as [s1 a1]. cbn [fst snd] in *.
    destruct (IH _ _ H1) as (L1 & L2). split; [cbn; congruence|].
    intros [|p pre] q post E; cbn [app] in E; injection E as E1 E2.
    + subst q0. rewrite app_nil_r. exists a1. split; auto.
    + subst q0. destruct (L2 pre q post E2) as (a & Ea & Ha). exists a. split; [exact Ea|].
      rewrite <- app_assoc in Ha. exact Ha.
Qed.
End Hist.

Theorem one_choice : random_numbers rnd -> exists Is, choice ds Is /\
  forall qs, length (asks T rnd m (new_mv T) qs) = length qs /\
  forall pre q post, qs = pre ++ q :: post ->
    exists a, nth_error (asks T rnd m (new_mv T) qs) (length pre) = Some a /\ answers_choice todate ds Is pre q a.
Proof.
  intros Hrnd. destruct (draw_ok Hrnd) as (Is & Ed & Hc & _). exists Is. split; auto. intros qs.
  apply (asks_ok Is Ed Hc qs [] (new_mv T)). unfold inv, new_mv. cbn. repeat split; auto.
Qed.

Lemma picked_all {A} (g : file -> list A) Is rs : (forall d, In d ds -> length (g d) = d_M R d) ->
  Forall2 (fun d I => I = seq 0 (d_M R d)) ds Is -> picked g ds Is rs -> rs = map g ds.
Proof.
  intros Hg HF (P1 & P2 & P3). apply nth_error_ext. intros k. rewrite nth_error_map'.
  destruct (nth_error ds k) as [d|] eqn:Ek; cbn.
  - destruct (nth_error rs k) as [l|] eqn:El; [|apply nth_error_None in El; assert (k < length ds) by (apply nth_error_Some; congruence); lia].
    destruct (nth_error Is k) as [I|] eqn:EI; [|apply nth_error_None in EI; assert (k < length ds) by (apply nth_error_Some; congruence); lia].
    specialize (P3 _ _ _ _ Ek EI El).
    assert (EI2 : I = seq 0 (d_M R d)).
    { clear - HF Ek EI. revert k Ek EI. induction HF as [|? ? ? ? H HF IH]; intros [|k] E1 E2; cbn in *; try discriminate; [congruence|eauto]. }
    f_equal. rewrite EI2 in P3. rewrite <- (Hg d (nth_error_In _ _ Ek)) in P3. apply forall2_seq; auto.
  - apply nth_error_None. apply nth_error_None in Ek. lia.
Qed.
Lemma picked_len {A} (g : file -> list A) Is rs : picked g ds Is rs -> map (@length A) rs = map (@length nat) Is.
Proof.
  intros (P1 & P2 & P3). apply nth_error_ext. intros k. rewrite !nth_error_map'.
  destruct (nth_error ds k) as [d|] eqn:Ek.
  - assert (k < length ds) by (apply nth_error_Some; congruence).
    destruct (nth_error rs k) as [l|] eqn:El; [|apply nth_error_None in El; lia].
    destruct (nth_error Is k) as [I|] eqn:EI; [|apply nth_error_None in EI; lia].
    cbn. f_equal. specialize (P3 _ _ _ _ Ek EI El). clear - P3. induction P3; cbn; auto.
  - apply nth_error_None in Ek. rewrite !(proj2 (nth_error_None _ _)); auto; lia.
Qed.
Lemma chosen_sizes (f : file -> nat) l Is : Forall2 (fun d I => length I = f d) l Is -> map (@length nat) Is = map f l.
Proof. induction 1; cbn; congruence. Qed.
Lemma forall2_weak {A B} (P Q : A -> B -> Prop) l1 l2 : (forall a b, P a b -> Q a b) -> Forall2 P l1 l2 -> Forall2 Q l1 l2.
Proof. intros H F. induction F; constructor; auto. Qed.

(** Up to 10000 match-ups: all of them. *)
Theorem small_all qs : random_numbers rnd -> (Z.of_nat (all_matchups ds) <= 10000)%Z ->
  Forall2 (answers_all todate ds) qs (asks T rnd m (new_mv T) qs).
Proof.
  intros Hrnd Hs. destruct (draw_ok Hrnd) as (Is & Ed & Hc & HF).
  assert (HI : Forall2 (fun d I => I = seq 0 (d_M R d)) ds Is).
  { eapply forall2_weak; [|exact HF]. intros ? ? (_ & H2). exact (H2 Hs). }
  assert (HL : list_sum (map (@length nat) Is) = all_matchups ds).
  { unfold all_matchups. f_equal. apply chosen_sizes. eapply forall2_weak; [|exact HI]. intros ? ? ->. apply seq_length. }
  destruct (asks_ok Is Ed Hc qs [] (new_mv T)) as (HL1 & HA); [unfold inv, new_mv; cbn; repeat split; auto|].
  apply forall2_nths; [symmetry; exact HL1|]. intros i q Hq.
  destruct (nth_error_split _ _ Hq) as (pre & post & Eq & El). destruct (HA pre q post Eq) as (a & Ea & Ha).
  exists a. rewrite <- El. split; auto. cbn [app] in Ha.
  destruct q, a as [[rs|]|[rs|]|n]; cbn in Ha |- *; try contradiction.
  - rewrite (picked_all nominal1 Is rs nominal1_len HI Ha). reflexivity.
  - rewrite (picked_all nominal2 Is rs nominal2_len HI Ha). reflexivity.
  - rewrite (picked_all residual Is rs (fun d _ => residual_len d) HI Ha). reflexivity.
  - rewrite (picked_all (times todate) Is rs times_len HI Ha). reflexivity.
  - subst n. rewrite HL. destruct (existsb draws pre); auto.
Qed.
(** More: every file gets its share. *)
Theorem large_shares qs i q a : random_numbers rnd -> (10000 < Z.of_nat (all_matchups ds))%Z ->
  nth_error qs i = Some q -> nth_error (asks T rnd m (new_mv T) qs) i = Some a -> draws q = true ->
  points a = Some (map (share ds) ds).
Proof.
  intros Hrnd Hs Hq Hx Hd. destruct (draw_ok Hrnd) as (Is & Ed & Hc & HF).
  destruct (asks_ok Is Ed Hc qs [] (new_mv T)) as (HL1 & HA); [unfold inv, new_mv; cbn; repeat split; auto|].
  assert (HS : map (@length nat) Is = map (share ds) ds).
  { rewrite (chosen_sizes chosen_size ds) by (eapply forall2_weak; [|exact HF]; intros ? ? (H1 & _); exact H1).
    apply map_ext. intros d. unfold chosen_size. rewrite (proj2 (Z.ltb_lt _ _) Hs). reflexivity. }
  destruct (nth_error_split _ _ Hq) as (pre & post & Eq & El). destruct (HA pre q post Eq) as (a' & Ea & Ha).
  rewrite El, Hx in Ea. injection Ea as <-. cbn [app] in Ha.
  destruct q, a as [[rs|]|[rs|]|n]; cbn in Ha, Hd |- *; try contradiction; try discriminate; rewrite (picked_len _ _ _ Ha), HS; reflexivity.
Qed.
Lemma shares_fit (l : list file) : (0 < Z.of_nat (all_matchups l))%Z -> list_sum (map (share l) l) <= Z.to_nat 10000.
Proof.
  intros Hp.
  assert (G : forall k : list file, (Z.of_nat (list_sum (map (share l) k)) * Z.of_nat (all_matchups l) <= Z.of_nat (all_matchups k) * 10000)%Z).
  { induction k as [|d k IH]; [reflexivity|]. unfold all_matchups at 2. cbn [map].
    change (list_sum (d_M R d :: map (d_M R) k)) with (d_M R d + all_matchups k).
    change (list_sum (share l d :: map (share l) k)) with (share l d + list_sum (map (share l) k)).
    rewrite !Nat2Z.inj_add.
    assert (Hsd : (Z.of_nat (share l d) * Z.of_nat (all_matchups l) <= Z.of_nat (d_M R d) * 10000)%Z).
    { unfold share. rewrite Z2Nat.id by (apply Z.div_pos; lia). rewrite Z.mul_comm. apply Z.mul_div_le; auto. }
    lia. }
  specialize (G l). nia.
Qed.

(** ** labels *)
Theorem pair_names_ok sep : pair_names T sep m = Ok (map (both sep) ds).
Proof.
  unfold pair_names. rewrite (io_Nm _ _ (op_idx _ _ _ _ _ _ _ _ _ opened_m)), map_length.
  assert (G : forall l k, (forall i d, nth_error l i = Some d -> nth_error ds (k + i) = Some d) ->
    mapM (fun i => do p <- get (Im (mu_idx R T m)) i;;
                 do s1 <- get (sensors (mu_idx R T m)) (fst p);; do s2 <- get (sensors (mu_idx R T m)) (snd p);;
                 Ok (s1 ++ sep ++ s2)%string) (seq k (length l)) = Ok (map (both sep) l)).
  { induction l as [|d l IH]; intros k Hk; [reflexivity|]. cbn [length seq mapM map].
    pose proof (Hk 0 d eq_refl) as H0. rewrite Nat.add_0_r in H0.
    destruct (io_Im _ _ (op_idx _ _ _ _ _ _ _ _ _ opened_m) k d H0) as (a & b & E1 & E2 & E3).
    rewrite (proj2 (get_ok _ _ _) E1). cbn [bind fst snd].
    rewrite (proj2 (get_ok _ _ _) E2). cbn [bind]. rewrite (proj2 (get_ok _ _ _) E3). cbn [bind].
    rewrite (IH (S k)); [reflexivity|]. intros i d' Hi. replace (S k + i) with (k + S i) by lia. apply Hk. exact Hi. }
  apply G. intros i d Hi. exact Hi.
Qed.
End Mv.
