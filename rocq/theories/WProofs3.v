(** * Proofs for C45, C75: existence, format, and the microwave tool. *)
From Coq Require Import Reals Lra Sorting.Sorted.
From Verif Require Import Base BaseLemmas ReaderModel ReaderMain UncModel UncSpec UncProofs TransformModel TransformProofs EvalModel GNModel SimModel SimProofs WModel WSpec WProofs WProofs2.
Open Scope nat_scope.

(** ** Existence *)
Lemma positions_exist times dt : times <> [] -> dt <> 0%R -> exists pos, column_positions times dt = Ok pos /\ length pos = length times.
Proof.
  intros Ht Hd. unfold column_positions. destruct (mapM_ok_ex (scan_position (hd 0%R times) dt) (enumerate times)) as (ps & E).
  { intros (i & t) _. unfold scan_position. destruct (i =? 0); [eauto|]. destruct (Req_EM_T dt 0); [contradiction|eauto]. }
  rewrite E. cbn [bind]. pose proof (mapM_length _ _ _ E) as L. unfold enumerate in L. rewrite combine_length, seq_length, Nat.min_id in L.
  destruct ps as [|p ps]; [destruct times; [congruence|discriminate]|]. cbn [zmin bind]. eexists. split; [reflexivity|]. rewrite map_length. auto.
Qed.
Lemma nonempty_max (K : nat) (pos : list nat) : K <> 0 -> pos <> [] -> exists mx, pymax (flat_map (fun p => seq p K) pos) = Ok mx.
Proof. intros HK Hp. destruct pos as [|p pos]; [congruence|]. destruct K as [|K]; [congruence|]. cbn [flat_map seq app pymax]. eauto. Qed.
Theorem gen_exists times dt ku wt ks ws : times <> [] -> dt <> 0%R -> kernel ku wt ks = Ok ws -> ws <> [] ->
  match ku with KF _ => True | KA rows => forall i, i < length times -> exists r, nth_error rows i = Some r /\ length r = length ws end ->
  exists W u, gen_w times dt ku wt ks = Ok (W, u).
Proof.
  intros Ht Hd Hk Hws Hku. unfold gen_w. rewrite Hk. cbn [bind]. destruct (positions_exist times dt Ht Hd) as (pos & Ep & Lp). rewrite Ep. cbn [bind].
  destruct (nonempty_max (length ws) pos) as (mx & Em); [destruct ws; [congruence|discriminate]|destruct pos; [destruct times; [congruence|discriminate]|congruence]|]. rewrite Em. cbn [bind].
  assert (HK : forall x, In x (repeat ws (length pos)) -> length x = length ws) by (intros x Hx; apply repeat_spec in Hx; subst; auto).
  rewrite flat_map_const, (kmat_new (length ws) pos (repeat ws (length pos)) (mx + 1) HK (repeat_length _ _)). cbn [bind].
  destruct ku as [x|rows]; [eauto|].
  destruct (mapM_ok_ex (fun i => do r <- get rows i;; row_of (length ws) r) (seq 0 (length pos))) as (UA & EU).
  { intros i Hi. apply in_seq in Hi. destruct (Hku i ltac:(lia)) as (r & Hr & Lr). apply get_ok in Hr. rewrite Hr. cbn [bind]. unfold row_of. rewrite Lr, Nat.eqb_refl. eauto. }
  rewrite EU. cbn [bind]. assert (LU : length UA = length pos) by (rewrite (mapM_length _ _ _ EU), seq_length; auto).
  assert (KU : forall x, In x UA -> length x = length ws).
  { intros x Hx. apply In_nth_error in Hx. destruct Hx as (i & Hi). assert (Hl : i < length pos) by (rewrite <- LU; apply nth_error_Some; congruence).
    destruct (mapM_nth _ _ _ i i EU) as (r' & E & E'); [rewrite (nth_error_nth' _ 0) by (rewrite seq_length; auto); rewrite seq_nth; auto|]. destruct (Hku i ltac:(lia)) as (r & Hr & Lr). apply get_ok in Hr. rewrite Hr in E. cbn [bind] in E. unfold row_of in E. rewrite Lr, Nat.eqb_refl in E. injection E as <-. rewrite Hi in E'. injection E' as <-. auto. }
  rewrite (kmat_new (length ws) pos UA (mx + 1) KU LU). cbn [bind].
  match goal with |- exists W u, bind (mapM ?f ?l) _ = _ => destruct (mapM_ok_ex f l) as (uv & Ev) end.
  { intros j Hj. destruct (rmax_ok (map (fun i => csr_entry (csr_select (kmat (length ws) pos UA (mx + 1)) (nonzero_columns (kmat (length ws) pos (repeat ws (length pos)) (mx + 1)))) i j) (seq 0 (length pos)))) as (v & Hv & _).
    - destruct pos as [|p pos]; [destruct times; [congruence|discriminate]|discriminate].
    - eauto. }
  rewrite Ev. cbn [bind]. eauto.
Qed.

(** ** Format *)
Lemma rows_wf nc rows : wf_csr (csr_of_rows nc rows).
Proof.
  unfold wf_csr, csr_of_rows. cbn [c_indptr c_nrows c_indices c_data]. split; [rewrite cumul_length, map_length; lia|]. split.
  - rewrite cumul_nth by lia. reflexivity.
  - split; [rewrite !map_length; reflexivity|]. rewrite map_length. rewrite (nth_error_nth' (cumul 0 (map (@length _) rows)) 0) with (n := length rows) || idtac.
    assert (L : last (cumul 0 (map (@length (nat * R)) rows)) 0 = list_sum (map (@length _) rows)).
    { assert (Q : forall ns t, last (cumul t ns) 0 = t + list_sum ns).
      { induction ns as [|n ns IH]; intros t; [cbn; lia|]. cbn [cumul]. change (list_sum (n :: ns)) with (n + list_sum ns). specialize (IH (t + n)). destruct (cumul (t + n) ns) as [|x l] eqn:E; [destruct ns; discriminate|]. cbn [last] in *. rewrite IH. lia. }
      apply Q. }
    rewrite L. symmetry. clear. induction rows as [|r rows IH]; [reflexivity|]. cbn [concat map]. rewrite app_length, IH. reflexivity.
Qed.
Theorem gen_shape times dt ku wt ks W u : gen_w times dt ku wt ks = Ok (W, u) -> exists w cols, W = csr_select w cols /\ NoDup cols.
Proof.
  unfold gen_w. intros H. repeat (match type of H with bind ?x _ = _ => destruct x as [?|] eqn:?; cbn [bind] in H; [|discriminate] end). cbv zeta in H.
  destruct ku; repeat (match type of H with bind ?x _ = _ => destruct x as [?|] eqn:?; cbn [bind] in H; [|discriminate] end); injection H as <- _; (eexists; eexists; split; [reflexivity|apply used_nodup]).
Qed.
Lemma select_inside w cols j : NoDup cols -> In j (c_indices R (csr_select w cols)) -> j < length cols.
Proof.
  intros Hn. unfold csr_select, csr_of_rows. cbn [c_indices]. intros H. apply in_map_iff in H. destruct H as ((j' & x) & E & H). cbn in E. subst j'. apply in_concat in H. destruct H as (row & Hr & Hx). apply in_map_iff in Hr. destruct Hr as (i & <- & _).
  unfold renumber in Hx. apply in_flat_map in Hx. destruct Hx as ((c & y) & _ & Hx). cbn [fst snd] in Hx. destruct (index_of c cols) as [n|] eqn:En; [|destruct Hx]. destruct Hx as [Hx|[]]. injection Hx as <- _. eapply index_of_in; eauto.
Qed.
Lemma entry_stored w i j : csr_entry w i j <> 0%R -> In j (c_indices R w).
Proof.
  unfold csr_entry. set (l := combine _ _). intros H. destruct (filter (fun p => fst p =? j) l) as [|[c x] l'] eqn:E; [exfalso; apply H; reflexivity|].
  assert (In (c, x) (filter (fun p => fst p =? j) l)) by (rewrite E; left; auto). apply filter_In in H0. destruct H0 as (Hi & Hc). cbn [fst] in Hc. apply Nat.eqb_eq in Hc. subst c. unfold l in Hi. apply in_combine_l in Hi. unfold slice in Hi.
  apply (fun H => In_skipn _ _ _ (In_firstn _ _ _ H)) in Hi || idtac.
  assert (F : forall k (q : list nat), In j (firstn k q) -> In j q) by (intros k q Hq; rewrite <- (firstn_skipn k q); apply in_or_app; auto).
  assert (S : forall k (q : list nat), In j (skipn k q) -> In j q) by (intros k q Hq; rewrite <- (firstn_skipn k q); apply in_or_app; auto). eauto.
Qed.
Theorem gen_format times dt ku wt ks ws W u line cols : gen_w times dt ku wt ks = Ok (W, u) -> rolling ws line (length times) cols W ->
  wf_csr W /\ (cols <> [] -> last_column_used W).
Proof.
  intros H (HR1 & HR2 & HR3 & HR4 & HR5). destruct (gen_shape _ _ _ _ _ _ _ H) as (w & cs & -> & Hn). split; [apply rows_wf|]. intros Hc. unfold last_column_used. rewrite HR2. split.
  - destruct (nth_error cols (length cols - 1)) as [c|] eqn:E; [|apply nth_error_None in E; destruct cols; [congruence|cbn in E; lia]].
    destruct (proj1 (HR4 c) (nth_error_In _ _ E)) as (i & Hi & Hw). apply (entry_stored _ i). rewrite (HR5 i _ c Hi E). auto.
  - intros j Hj. apply select_inside in Hj; [|auto]. change (c_ncols R (csr_select w cs)) with (length cs) in HR2. lia.
Qed.
