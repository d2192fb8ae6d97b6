(** * Proofs for C45: the rolling-average matrix. *)
From Coq Require Import Reals Lra Sorting.Sorted.
From Verif Require Import Base BaseLemmas ReaderModel ReaderMain UncModel UncSpec TransformModel TransformProofs EvalModel GNModel SimModel SimProofs WModel WSpec WProofs.
Open Scope nat_scope.

Lemma fold_zmin' l : forall x, (fold_left Z.min l x <= x)%Z /\ (forall y, In y l -> fold_left Z.min l x <= y)%Z.
Proof.
  induction l as [|a l IH]; intros x; cbn [fold_left]; [split; [lia|intros y []]|]. destruct (IH (Z.min x a)) as (A & B). split; [lia|]. intros y [<-|H]; [lia|auto].
Qed.
Lemma zmin_le l m : zmin l = Ok m -> forall y, In y l -> (m <= y)%Z.
Proof. destruct l as [|x l]; [discriminate|]. cbn [zmin]. intros E. injection E as <-. destruct (fold_zmin' l x) as (A & B). intros y [<-|H]; auto. Qed.

Lemma positions_ok times dt pos : (1 / 100 < dt)%R -> column_positions times dt = Ok pos ->
  exists line mn, lines_of times dt line /\ length pos = length times /\ forall i p, nth_error pos i = Some p -> Z.of_nat p = (line i - mn)%Z.
Proof.
  intros Hd H. unfold column_positions in H. destruct (mapM _ (enumerate times)) as [ps|] eqn:E; [|discriminate]. cbn [bind] in H. destruct (zmin ps) as [mn|] eqn:Em; [|discriminate]. cbn [bind] in H. injection H as <-.
  pose proof (mapM_length _ _ _ E) as L. unfold enumerate in L. rewrite combine_length, seq_length, Nat.min_id in L.
  exists (fun i => nth i ps 0%Z), mn. split; [|split; [rewrite map_length; auto|]].
  - intros i t Ht. assert (Hi : i < length times) by (apply nth_error_Some; congruence).
    destruct (mapM_nth _ _ _ i (i, t) E) as (z & Es & Ez); [rewrite enumerate_nth, Ht; reflexivity|]. rewrite (nth_error_nth ps i 0%Z Ez).
    eapply position_ok; [exact Hd| |exact Es]. intros ->. destruct times; [discriminate|]. injection Ht as ->. reflexivity.
  - intros i p Hp. rewrite nth_error_map in Hp. destruct (nth_error ps i) as [z|] eqn:Ez; [|discriminate]. injection Hp as <-. rewrite (nth_error_nth ps i 0%Z Ez).
    pose proof (zmin_le _ _ Em z (nth_error_In _ _ Ez)). lia.
Qed.

Lemma filter_sorted (p : nat -> bool) n : forall a, StronglySorted lt (filter p (seq a n)).
Proof.
  induction n as [|n IH]; intros a; cbn [seq filter]; [constructor|]. destruct (p a); [|auto]. constructor; [auto|]. apply Forall_forall. intros x Hx. apply filter_In in Hx. destruct Hx as (Hx & _). apply in_seq in Hx. lia.
Qed.
Lemma sorted_nth l : StronglySorted lt l -> forall i j a b, i < j -> nth_error l i = Some a -> nth_error l j = Some b -> a < b.
Proof.
  induction 1 as [|x l Hs IH Hf]; intros i j a b Hij Ha Hb; [destruct i; discriminate|]. destruct j as [|j]; [lia|]. cbn [nth_error] in Hb. destruct i as [|i].
  - injection Ha as <-. rewrite Forall_forall in Hf. apply Hf. eapply nth_error_In; eauto.
  - eapply (IH i j); eauto; lia.
Qed.
Lemma flat_map_const {A B} (ws : list B) (l : list A) : flat_map (fun _ => ws) l = concat (repeat ws (length l)).
Proof. induction l; cbn; congruence. Qed.
Lemma used_iff w j : In j (nonzero_columns w) <-> j < c_ncols R w /\ exists i, i < c_nrows R w /\ csr_entry w i j <> 0%R.
Proof.
  unfold nonzero_columns. rewrite filter_In, in_seq, existsb_exists. split.
  - intros (Hj & i & Hi & E). apply in_seq in Hi. split; [lia|]. exists i. split; [lia|]. destruct (Req_EM_T (csr_entry w i j) 0); [discriminate|auto].
  - intros (Hj & i & Hi & E). split; [lia|]. exists i. split; [apply in_seq; lia|]. destruct (Req_EM_T (csr_entry w i j) 0); [contradiction|auto].
Qed.
Lemma used_nodup w : NoDup (nonzero_columns w).
Proof. apply NoDup_filter, seq_NoDup. Qed.
Lemma weight_range ws z : weight ws z <> 0%R -> (0 <= z < Z.of_nat (length ws))%Z.
Proof.
  unfold weight. destruct (Z.leb_spec 0 z) as [H|H]; [|intros E; exfalso; apply E; reflexivity]. intros E. split; [auto|]. destruct (Nat.lt_ge_cases (Z.to_nat z) (length ws)) as [|Hge]; [lia|]. exfalso. apply E. apply nth_overflow. auto.
Qed.
Lemma repeat_nth {A} (a : A) n i : i < n -> nth_error (repeat a n) i = Some a.
Proof. revert i. induction n; intros [|i] H; cbn; try lia; auto. apply IHn. lia. Qed.

Lemma pymax_le l m : pymax l = Ok m -> forall x, In x l -> x <= m.
Proof. intros E x Hx. assert (m = list_max l) by (destruct l; [discriminate|]; cbn [pymax] in E; congruence). subst m. pose proof (proj1 (list_max_le l (list_max l)) (le_n _)) as F. rewrite Forall_forall in F. auto. Qed.

(** The kernel matrix with its zero columns removed is a rolling average. *)
Lemma kmat_rolling ws pos mx line mn : pymax (flat_map (fun p => seq p (length ws)) pos) = Ok mx -> (forall i p, nth_error pos i = Some p -> Z.of_nat p = (line i - mn)%Z) ->
  let w := kmat (length ws) pos (repeat ws (length pos)) (mx + 1) in
  rolling ws line (length pos) (map (fun c => (Z.of_nat c + mn)%Z) (nonzero_columns w)) (csr_select w (nonzero_columns w)).
Proof.
  intros Hmx Hpos w. assert (HK : forall x, In x (repeat ws (length pos)) -> length x = length ws) by (intros x Hx; apply repeat_spec in Hx; subst; auto).
  assert (EN : forall i j, i < length pos -> csr_entry w i j = weight ws (Z.of_nat j + mn - line i)).
  { intros i j Hi. destruct (nth_error pos i) as [p|] eqn:Ep; [|apply nth_error_None in Ep; lia]. unfold w. rewrite (kmat_entry (length ws) pos _ _ i p ws j HK Ep) by (apply repeat_nth; auto). f_equal. rewrite (Hpos i p Ep). lia. }
  assert (EM : forall i p k, nth_error pos i = Some p -> k < length ws -> p + k < mx + 1).
  { intros i p k Hp Hk. assert (In (p + k) (flat_map (fun p => seq p (length ws)) pos)) by (apply in_flat_map; exists p; split; [eapply nth_error_In; eauto|apply in_seq; lia]).
    pose proof (pymax_le _ _ Hmx _ H). lia. }
  split; [|split; [|split; [|split]]].
  - unfold csr_select, csr_of_rows. cbn [c_nrows]. rewrite map_length, seq_length. reflexivity.
  - unfold csr_select, csr_of_rows. cbn [c_ncols]. rewrite map_length. reflexivity.
  - intros i j a b Hij Ha Hb. rewrite nth_error_map in Ha, Hb. destruct (nth_error _ i) as [a'|] eqn:Ea in Ha; [|discriminate]. destruct (nth_error _ j) as [b'|] eqn:Eb in Hb; [|discriminate]. injection Ha as <-. injection Hb as <-.
    pose proof (sorted_nth _ (filter_sorted _ _ _) i j a' b' Hij Ea Eb). lia.
  - intros c. rewrite in_map_iff. split.
    + intros (j & <- & Hj). apply used_iff in Hj. destruct Hj as (_ & i & Hi & E). change (c_nrows R w) with (length pos) in Hi. rewrite EN in E by auto. exists i. auto.
    + intros (i & Hi & E). destruct (nth_error pos i) as [p|] eqn:Ep; [|apply nth_error_None in Ep; lia]. pose proof (weight_range _ _ E) as RW. pose proof (Hpos i p Ep) as HP.
      exists (Z.to_nat (c - mn)). split; [lia|]. apply used_iff. change (c_ncols R w) with (mx + 1). change (c_nrows R w) with (length pos). split.
      * specialize (EM i p (Z.to_nat (c - line i)) Ep ltac:(lia)). lia.
      * exists i. split; [auto|]. rewrite EN by auto. replace (Z.of_nat (Z.to_nat (c - mn)) + mn - line i)%Z with (c - line i)%Z by lia. auto.
  - intros i n c Hi Hc. rewrite nth_error_map in Hc. destruct (nth_error _ n) as [j|] eqn:Ej in Hc; [|discriminate]. injection Hc as <-. rewrite (select_entry w _ i n j (used_nodup w)); [|exact Hi|exact Ej]. apply EN. auto.
Qed.

Theorem gen_rolling times dt ku wt ks ws W u : (1 / 100 < dt)%R -> kernel ku wt ks = Ok ws -> gen_w times dt ku wt ks = Ok (W, u) ->
  exists line cols, lines_of times dt line /\ rolling ws line (length times) cols W /\ length u = length cols /\
    match ku with
    | KF x => forall v, In v u -> v = x
    | KA rows => forall g, of_lines rows line (length times) (length ws) g -> forall n c, nth_error cols n = Some c -> nth_error u n = Some (g c)
    end.
Proof.
  intros Hd Hk H. unfold gen_w in H. rewrite Hk in H. cbn [bind] in H. destruct (column_positions times dt) as [pos|] eqn:Ep; [|discriminate]. cbn [bind] in H.
  destruct (pymax _) as [mx|] eqn:Em in H; [|discriminate]. cbn [bind] in H.
  assert (HK : forall x, In x (repeat ws (length pos)) -> length x = length ws) by (intros x Hx; apply repeat_spec in Hx; subst; auto).
  rewrite flat_map_const, (kmat_new (length ws) pos (repeat ws (length pos)) (mx + 1) HK (repeat_length _ _)) in H. cbn [bind] in H.
  destruct (positions_ok times dt pos Hd Ep) as (line & mn & HL & Hlen & Hpos). set (w := kmat (length ws) pos (repeat ws (length pos)) (mx + 1)) in *.
  pose proof (kmat_rolling ws pos mx line mn Em Hpos) as HR. cbv zeta in HR. fold w in HR. rewrite Hlen in HR.
  exists line, (map (fun c => (Z.of_nat c + mn)%Z) (nonzero_columns w)).
  destruct ku as [x|rows].
  - injection H as <- <-. split; [auto|]. split; [auto|]. split; [rewrite repeat_length, map_length; reflexivity|]. intros v Hv. apply repeat_spec in Hv. auto.
  - destruct (mapM _ (seq 0 (length pos))) as [UA|] eqn:EU in H; [|discriminate]. cbn [bind] in H.
    assert (LU : length UA = length pos) by (rewrite (mapM_length _ _ _ EU), seq_length; auto).
    assert (NU : forall i, i < length pos -> exists r r', nth_error rows i = Some r /\ row_of (length ws) r = Ok r' /\ nth_error UA i = Some r').
    { intros i Hi. destruct (mapM_nth _ _ _ i i EU) as (r' & E & E'); [rewrite (nth_error_nth' _ 0) by (rewrite seq_length; auto); rewrite seq_nth; auto|]. destruct (get rows i) as [r|] eqn:Er; [|discriminate]. cbn [bind] in E. apply get_ok in Er. exists r, r'. auto. }
    assert (RO : forall r r', row_of (length ws) r = Ok r' -> length r' = length ws).
    { intros r r'. unfold row_of. destruct (Nat.eqb_spec (length r) (length ws)); [intros E; injection E as <-; auto|]. destruct (length r =? 1); [intros E; injection E as <-; apply repeat_length|discriminate]. }
    assert (KU : forall x, In x UA -> length x = length ws).
    { intros x Hx. apply In_nth_error in Hx. destruct Hx as (i & Hi). assert (i < length pos) by (rewrite <- LU; apply nth_error_Some; congruence). destruct (NU i H0) as (r & r' & _ & E & E'). rewrite Hi in E'. injection E' as <-. eauto. }
    rewrite (kmat_new (length ws) pos UA (mx + 1) KU LU) in H. cbn [bind] in H. destruct (mapM _ (seq 0 (c_ncols R _))) as [uv|] eqn:Ev in H; [|discriminate]. injection H as <- <-.
    split; [auto|]. split; [auto|]. split; [rewrite (mapM_length _ _ _ Ev), seq_length, map_length; reflexivity|].
    intros g Hg n c Hc. rewrite nth_error_map in Hc. destruct (nth_error (nonzero_columns w) n) as [j|] eqn:Ej; [|discriminate]. injection Hc as <-.
    assert (Hn : n < length (nonzero_columns w)) by (apply nth_error_Some; congruence).
    destruct (mapM_nth _ _ _ n n Ev) as (v & E & Enth). { rewrite (nth_error_nth' _ 0) by (rewrite seq_length; auto). rewrite seq_nth; auto. }
    rewrite Enth. f_equal. set (l := map _ _) in E.
    assert (Hj : In j (nonzero_columns w)) by (eapply nth_error_In; eauto). apply used_iff in Hj. destruct Hj as (_ & i0 & Hi0 & En0). change (c_nrows R w) with (length pos) in Hi0.
    (* entries of the uncertainty matrix *)
    assert (EU' : forall i p, nth_error pos i = Some p -> exists r, nth_error rows i = Some r /\ length r = length ws /\ csr_entry (csr_select (kmat (length ws) pos UA (mx + 1)) (nonzero_columns w)) i n = weight r (Z.of_nat j - Z.of_nat p)).
    { intros i p Hp. assert (Hi : i < length pos) by (apply nth_error_Some; congruence). destruct (NU i Hi) as (r & r' & E1 & E2 & E3). destruct (Hg i ltac:(lia)) as (row & Er & Lr & _). rewrite E1 in Er. injection Er as <-. unfold row_of in E2. rewrite Lr, Nat.eqb_refl in E2. injection E2 as <-.
      exists r. split; [auto|]. split; [auto|]. rewrite (select_entry _ _ i n j (used_nodup w)) by auto. apply (kmat_entry (length ws) pos UA (mx + 1) i p r j KU Hp E3). }
    assert (VAL : forall r i p, nth_error pos i = Some p -> nth_error rows i = Some r -> length r = length ws -> weight r (Z.of_nat j - Z.of_nat p) = 0%R \/ weight r (Z.of_nat j - Z.of_nat p) = g (Z.of_nat j + mn)%Z).
    { intros r i p Hp Hr Lr. assert (Hi : i < length pos) by (apply nth_error_Some; congruence). destruct (Hg i ltac:(lia)) as (row & Er & _ & Hv). rewrite Hr in Er. injection Er as <-. unfold weight. destruct (Z.leb_spec 0 (Z.of_nat j - Z.of_nat p)); [|auto].
      destruct (nth_error r (Z.to_nat (Z.of_nat j - Z.of_nat p))) as [y|] eqn:Ey; [|left; apply nth_overflow, nth_error_None; auto]. right. rewrite (nth_error_nth _ _ 0%R Ey). destruct (Hv _ _ Ey) as (-> & _). f_equal. rewrite Z2Nat.id by lia. pose proof (Hpos i p Hp). lia. }
    destruct (nth_error pos i0) as [p0|] eqn:Ep0; [|apply nth_error_None in Ep0; lia].
    destruct (EU' i0 p0 Ep0) as (r0 & R0 & L0 & W0).
    assert (G0 : weight r0 (Z.of_nat j - Z.of_nat p0) = g (Z.of_nat j + mn)%Z /\ (0 <= g (Z.of_nat j + mn)%Z)%R).
    { unfold w in En0. rewrite (kmat_entry (length ws) pos _ _ i0 p0 ws j HK Ep0) in En0 by (apply repeat_nth; auto). pose proof (weight_range _ _ En0) as RW. destruct (Hg i0 ltac:(lia)) as (row & Er & _ & Hv). rewrite R0 in Er. injection Er as <-.
      destruct (nth_error r0 (Z.to_nat (Z.of_nat j - Z.of_nat p0))) as [y|] eqn:Ey; [|apply nth_error_None in Ey; lia]. destruct (Hv _ _ Ey) as (Hy & Hy0). pose proof (Hpos i0 p0 Ep0) as HP0.
      replace (line i0 + Z.of_nat (Z.to_nat (Z.of_nat j - Z.of_nat p0)))%Z with (Z.of_nat j + mn)%Z in Hy by lia.
      split; [|rewrite <- Hy; auto]. unfold weight. replace (0 <=? Z.of_nat j - Z.of_nat p0)%Z with true by (symmetry; apply Z.leb_le; lia). rewrite (nth_error_nth _ _ 0%R Ey). auto. }
    assert (Hin : In (g (Z.of_nat j + mn)%Z) l). { unfold l. apply in_map_iff. exists i0. rewrite W0. split; [tauto|apply in_seq; lia]. }
    destruct (rmax_ok l) as (v' & Ev' & Iv & Mv); [intros Enil; rewrite Enil in Hin; destruct Hin|]. rewrite E in Ev'. injection Ev' as <-.
    assert (v <= g (Z.of_nat j + mn)%Z)%R.
    { unfold l in Iv. apply in_map_iff in Iv. destruct Iv as (i & Ei & Hi). apply in_seq in Hi. destruct (nth_error pos i) as [p|] eqn:Epi; [|apply nth_error_None in Epi; lia]. destruct (EU' i p Epi) as (r & Hr & Lr & Wr). rewrite Wr in Ei. destruct (VAL r i p Epi Hr Lr) as [E0|E0]; rewrite E0 in Ei; subst v; destruct G0; lra. }
    specialize (Mv _ Hin). lra.
Qed.
