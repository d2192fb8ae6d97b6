From Coq Require Import Permutation Sorted QArith.
From Verif Require Import Base BaseLemmas ReaderModel UncModel UncProofs UncProofs2 MuModel MuProofs SampleModel SampleSpec SampleProofs.
Open Scope nat_scope.

(** ** sorted *)
Lemma insert_perm x l : Permutation (insert x l) (x :: l).
Proof.
  induction l as [|y l IH]; cbn; auto. destruct (x <=? y); auto.
  rewrite IH. apply perm_swap.
Qed.
Lemma sorted_perm l : Permutation (sorted l) l.
Proof. induction l as [|x l IH]; cbn; auto. rewrite insert_perm. constructor; auto. Qed.
Lemma insert_sorted x l : StronglySorted le l -> StronglySorted le (insert x l).
Proof.
  induction l as [|y l IH]; cbn; intros H; [repeat constructor|]. inversion H; subst.
  destruct (x <=? y) eqn:E.
  - apply Nat.leb_le in E. constructor; auto. constructor; auto.
    eapply Forall_impl; [|exact H3]. cbn. intros; lia.
  - apply Nat.leb_gt in E. constructor; [auto|]. apply Forall_forall. intros z Hz.
    apply (Permutation_in _ (insert_perm x l)) in Hz as [<-|Hz]; [lia|].
    rewrite Forall_forall in H3. auto.
Qed.
Lemma sorted_sorted l : StronglySorted le (sorted l).
Proof. induction l; cbn; [constructor|apply insert_sorted; auto]. Qed.
Lemma sorted_strict l : NoDup l -> StronglySorted lt (sorted l).
Proof.
  intros H. assert (Hn : NoDup (sorted l)) by (eapply Permutation_NoDup; [symmetry; apply sorted_perm|auto]).
  pose proof (sorted_sorted l) as Hs. revert Hn Hs. generalize (sorted l). clear.
  induction l as [|x l IH]; intros Hn Hs; [constructor|]. inversion Hn; inversion Hs; subst. constructor; auto.
  rewrite Forall_forall in *. intros y Hy. specialize (H6 y Hy). assert (x <> y) by congruence. lia.
Qed.

Lemma sample_spec smp c l k s : is_sample smp -> sample smp c l k = Ok s ->
  Z.of_nat (length s) = k /\ (NoDup l -> NoDup s) /\ (forall x, In x s -> In x l).
Proof.
  intros Hs. unfold sample. destruct (_ && _) eqn:E; [|discriminate]. intros H; injection H as <-.
  apply andb_prop in E as (E1 & E2). apply Z.leb_le in E1, E2.
  destruct (Hs c l (Z.to_nat k)) as (rest & Hp & Hl); [lia|].
  split; [rewrite Hl; lia|]. split.
  - intros Hn. apply (Permutation_NoDup Hp) in Hn. clear - Hn.
    revert Hn. generalize (smp c l (Z.to_nat k)). intros s. induction s as [|x s IH]; cbn; intros H; [constructor|].
    inversion H; subst. constructor; auto. intros Hi. apply H2. apply in_or_app; auto.
  - intros x Hx. apply (Permutation_in _ (Permutation_sym Hp)). apply in_or_app; auto.
Qed.

Lemma StronglySorted_lt_NoDup l : StronglySorted lt l -> NoDup l.
Proof.
  induction 1 as [|x l Hs IH Hf]; constructor; auto. intros Hi. rewrite Forall_forall in Hf.
  specialize (Hf x Hi). lia.
Qed.

(** ** series *)
Lemma in_series_blocks nm n b : In b (series_blocks nm n) <-> nth_error nm b = Some n.
Proof.
  unfold series_blocks. rewrite in_map_iff. split.
  - intros ([i x] & <- & H). apply filter_In in H as (H & E). cbn in *. apply in_enumerate in H.
    apply Nat.eqb_eq in E. congruence.
  - intros H. exists (b, n). split; [auto|]. apply filter_In. cbn. rewrite Nat.eqb_refl. split; [|auto].
    apply in_enumerate; auto.
Qed.

Lemma filter_all {A} (p : A -> bool) l : (forall x, In x l -> p x = true) -> filter p l = l.
Proof. induction l; cbn; intros H; auto. rewrite H, IHl by auto. reflexivity. Qed.
Lemma filter_none {A} (p : A -> bool) l : (forall x, In x l -> p x = false) -> filter p l = [].
Proof. induction l; cbn; intros H; auto. rewrite H, IHl by auto. reflexivity. Qed.

Lemma series_set_seq nm K : (forall n, In n nm <-> 1 <= n <= K) -> series_set nm = seq 1 K.
Proof.
  intros H. unfold series_set.
  assert (Hm : K <= list_max nm).
  { destruct K; [lia|]. assert (Hi : In (S K) nm) by (apply H; lia).
    assert (F : Forall (fun k => k <= list_max nm) nm) by (apply list_max_le; lia).
    rewrite Forall_forall in F. apply F; auto. }
  assert (Hp : forall n, mem Nat.eqb n nm = true <-> 1 <= n <= K).
  { intros n. rewrite <- H. apply mem_in. intros; apply Nat.eqb_eq. }
  replace (S (list_max nm)) with (1 + (K + (list_max nm - K))) by lia.
  rewrite !seq_app, !filter_app.
  rewrite (filter_none _ (seq 0 1)), (filter_all _ (seq (0 + 1) K)), (filter_none _ (seq (0 + 1 + K) _)).
  - cbn. apply app_nil_r.
  - intros x Hx. apply in_seq in Hx. destruct (mem Nat.eqb x nm) eqn:E; auto. apply Hp in E. lia.
  - intros x Hx. apply in_seq in Hx. apply Hp. lia.
  - intros x Hx. apply in_seq in Hx. destruct (mem Nat.eqb x nm) eqn:E; auto. apply Hp in E. lia.
Qed.

Section S.
Context {V T : Type} (zeroV : V) (zeroT : T) (rms : list V -> Z -> V)
        (smp : nat -> list nat -> nat -> list nat).
Notation mobj := (mobj V T).
Notation select_series := (select_series V T smp).
Notation sampling_idxs := (sampling_idxs V T smp).

Lemma wf_series_iff (m : mobj) : wf_mobj m -> forall n, In n (n_mu (m_idx V T m)) <-> 1 <= n <= length (Nm (m_idx V T m)).
Proof.
  intros W n. split; [|apply (wf_all_series _ W)].
  intros H. apply In_nth_error in H as (b & H). destruct (wf_series _ W b n H) as (H1 & N & H2 & _).
  assert (n - 1 < length (Nm (m_idx V T m))) by (apply nth_error_Some; congruence). lia.
Qed.

Lemma wf_series_set (m : mobj) : wf_mobj m -> series_set (n_mu (m_idx V T m)) = seq 1 (length (Nm (m_idx V T m))).
Proof. intros W. apply series_set_seq. apply wf_series_iff; auto. Qed.

Definition size (m : mobj) (n : nat) : nat := nth (n - 1) (Nm (m_idx V T m)) 0.

Lemma select_spec (m : mobj) sf n l : wf_mobj m -> is_sample smp ->
  In n (n_mu (m_idx V T m)) -> select_series m sf n = Ok l ->
  exists ws,
    (forall w, In w ws <-> series_w m n w) /\
    NoDup l /\
    (Z.of_nat (length l) <= qint (inject_Z (Z.of_nat (size m n)) * sf))%Z /\
    (forall i j, In i l -> In j l -> i <> j -> disjoint_rows ws i j) /\
    (ws = [] -> StronglySorted lt l /\ (forall i, In i l -> i < size m n) /\
       Z.of_nat (length l) = qint (inject_Z (Z.of_nat (size m n)) * sf)) /\
    (ws <> [] -> exists g, greedy V ws = Ok g /\ (forall i, In i l -> In i g) /\
       ((Z.of_nat (length g) <= qint (inject_Z (Z.of_nat (size m n)) * sf))%Z -> l = g)).
Proof. clear rms zeroV zeroT.
  intros W Hsmp Hin. unfold SampleModel.select_series.
  destruct (mapM (get (N_var _)) _) as [sizes|] eqn:Es; cbn [bind]; [|discriminate].
  destruct (get sizes 0) as [N|] eqn:EN; cbn [bind]; [|discriminate].
  assert (HN : N = size m n).
  { apply get_ok in EN.
    destruct (nth_error (series_blocks (n_mu (m_idx V T m)) n) 0) as [b|] eqn:Eb.
    - destruct (mapM_nth _ _ _ _ _ Es Eb) as (N' & HN' & Hn'). rewrite EN in Hn'. injection Hn' as <-.
      apply get_ok in HN'. apply nth_error_In in Eb. apply in_series_blocks in Eb.
      destruct (wf_series _ W b n Eb) as (_ & N2 & H1 & H2). rewrite HN' in H2. injection H2 as ->.
      unfold size. symmetry. apply nth_nth_error. auto.
    - apply nth_error_None in Eb. pose proof (mapM_length _ _ _ Es) as Hl.
      assert (0 < length sizes) by (apply nth_error_Some; congruence). lia. }
  subst N.
  destruct (mapM (get (m_unc V T m)) _) as [us|] eqn:Eu; cbn [bind]; [|discriminate].
  set (wi := flat_map (fun u => w_index V (u_kind V u)) us).
  assert (Hwi : forall i, In i wi <-> exists b u, nth_error (n_mu (m_idx V T m)) b = Some n /\
            nth_error (m_unc V T m) b = Some u /\ w_of (u_kind V u) = Some i).
  { intros i. unfold wi. rewrite in_flat_map.
    assert (Hw : forall k, In i (w_index V k) <-> w_of k = Some i).
    { intros [| | |]; cbn; intuition congruence. }
    split.
    - intros (u & Hu & Hi). apply Hw in Hi. apply In_nth_error in Hu as (j & Hj).
      pose proof (mapM_length _ _ _ Eu) as Hl.
      destruct (nth_error (series_blocks (n_mu (m_idx V T m)) n) j) as [b|] eqn:Eb.
      + destruct (mapM_nth _ _ _ _ _ Eu Eb) as (u' & Hg & Hn'). rewrite Hj in Hn'. injection Hn' as <-.
        apply get_ok in Hg. exists b, u. apply nth_error_In, in_series_blocks in Eb. auto.
      + apply nth_error_None in Eb. assert (j < length us) by (apply nth_error_Some; congruence). lia.
    - intros (b & u & Hb & Hu & Hi). apply in_series_blocks in Hb. apply In_nth_error in Hb as (j & Hb).
      destruct (mapM_nth _ _ _ _ _ Eu Hb) as (u' & Hg & Hn'). apply get_ok in Hg. rewrite Hu in Hg. injection Hg as <-.
      exists u. split; [eapply nth_error_In; eauto|]. apply Hw; auto. }
  destruct (length wi =? 0) eqn:E0.
  - apply Nat.eqb_eq in E0. destruct wi; [|discriminate].
    destruct (sample smp n _ _) as [s|] eqn:Esm; cbn [bind]; [|discriminate]. intros E; injection E as <-.
    destruct (sample_spec _ _ _ _ _ Hsmp Esm) as (S1 & S2 & S3).
    exists []. split.
    { intros w. split; [intros []|]. intros (b & u & i & Hb & Hu & Hi & _).
      exfalso. apply (proj2 (Hwi i)). exists b, u. auto. }
    pose proof (Permutation_length (sorted_perm s)) as Hl.
    specialize (S2 (seq_NoDup _ _)). split; [apply (Permutation_NoDup (Permutation_sym (sorted_perm s))); auto|].
    split; [lia|]. split; [intros i j _ _ _ w []|]. split; [|congruence].
    intros _. split; [apply sorted_strict; auto|]. split; [|lia].
    intros i Hi. apply (Permutation_in _ (sorted_perm s)) in Hi. apply S3 in Hi. apply in_seq in Hi. lia.
  - unfold get_sample_idxs. destruct (mapM (get (m_ws V T m)) wi) as [ws|] eqn:Ew; cbn [bind]; [|discriminate].
    destruct (greedy V ws) as [g|] eqn:Eg; cbn [bind]; [|discriminate].
    assert (Hne : ws <> []).
    { intros ->. pose proof (mapM_length _ _ _ Ew) as Hl. cbn in Hl. rewrite <- Hl in E0. discriminate. }
    destruct (greedy_inv ws g Hne Eg) as (G1 & G2 & G3 & G4).
    set (k := qint _).
    assert (Hws : forall w, In w ws <-> series_w m n w).
    { intros w. split.
      - intros Hw. apply In_nth_error in Hw as (j & Hj). pose proof (mapM_length _ _ _ Ew) as Hl.
        destruct (nth_error wi j) as [i|] eqn:Ei.
        + destruct (mapM_nth _ _ _ _ _ Ew Ei) as (w' & Hg & Hn'). rewrite Hj in Hn'. injection Hn' as <-.
          apply get_ok in Hg. apply nth_error_In in Ei. apply Hwi in Ei as (b & u & Hb & Hu & Hi).
          exists b, u, i. auto.
        + apply nth_error_None in Ei. assert (j < length ws) by (apply nth_error_Some; congruence). lia.
      - intros (b & u & i & Hb & Hu & Hi & Hw).
        assert (Hiw : In i wi) by (apply Hwi; eauto). apply In_nth_error in Hiw as (j & Hj).
        destruct (mapM_nth _ _ _ _ _ Ew Hj) as (w' & Hg & Hn'). apply get_ok in Hg. rewrite Hw in Hg. injection Hg as <-.
        eapply nth_error_In; eauto. }
    assert (Main : forall s, (Z.of_nat (length s) <= k)%Z -> NoDup s -> (forall i, In i s -> In i g) ->
       ((Z.of_nat (length g) <= k)%Z -> s = g) ->
       (if (k <? Z.of_nat (length s))%Z then (do l0 <- sample smp n s k;; Ok (sorted l0)) else Ok s) = Ok l ->
       exists ws0, (forall w, In w ws0 <-> series_w m n w) /\ NoDup l /\ (Z.of_nat (length l) <= k)%Z /\
         (forall i j, In i l -> In j l -> i <> j -> disjoint_rows ws0 i j) /\
         (ws0 = [] -> StronglySorted lt l /\ (forall i, In i l -> i < size m n) /\ Z.of_nat (length l) = k) /\
         (ws0 <> [] -> exists g0, greedy V ws0 = Ok g0 /\ (forall i, In i l -> In i g0) /\
            ((Z.of_nat (length g0) <= k)%Z -> l = g0))).
    { intros s Hk Hn Hsub Heq. destruct (k <? Z.of_nat (length s))%Z eqn:Elt; [apply Z.ltb_lt in Elt; lia|].
      intros E; injection E as <-. exists ws. split; [auto|]. split; [auto|]. split; [auto|].
      split; [intros; apply G3; auto|]. split; [congruence|]. intros _. exists g. auto. }
    destruct (k <? Z.of_nat (length g))%Z eqn:Elt.
    + destruct (sample smp n g k) as [s|] eqn:Esm; cbn [bind]; [|discriminate].
      destruct (sample_spec _ _ _ _ _ Hsmp Esm) as (S1 & S2 & S3).
      apply Main; [lia|apply S2, StronglySorted_lt_NoDup; auto|auto|]. apply Z.ltb_lt in Elt. lia.
    + cbn [bind]. apply Z.ltb_ge in Elt. apply Main; auto. apply StronglySorted_lt_NoDup; auto.
Qed.

(** The dictionary. *)
Definition sel_of (d : list (nat * list nat)) (n : nat) : list nat :=
  match dget n d with Ok l => l | Raise _ => [] end.

Lemma dict_spec (f : nat -> res (list nat)) ns d : mapM (fun n => do l <- f n;; Ok (n, l)) ns = Ok d ->
  forall n, In n ns -> exists l, f n = Ok l /\ dget n d = Ok l.
Proof.
  revert d. induction ns as [|a ns IH]; cbn; intros d E n; [intros []|].
  destruct (f a) as [la|] eqn:Ea; cbn [bind] in E; [|discriminate].
  destruct (mapM _ ns) as [d'|] eqn:Em; [|discriminate]. injection E as <-. cbn.
  destruct (Nat.eqb_spec a n) as [->|Hne].
  - intros _. exists la. auto.
  - intros [H|H]; [congruence|]. apply IH; auto.
Qed.

Lemma set_all {A} (ns l : list A) : length ns = length l ->
  foldM (fun nm p => setitem (fst p) (snd p) nm) (enumerate ns) l = Ok ns.
Proof.
  unfold enumerate.
  assert (G : forall ns pre post, length ns = length post ->
    foldM (fun nm (p : nat * A) => setitem (fst p) (snd p) nm) (combine (seq (length pre) (length ns)) ns) (pre ++ post) = Ok (pre ++ ns)).
  { clear. induction ns as [|x ns IH]; intros pre [|y post] H; try discriminate; [reflexivity|].
    cbn [length seq combine foldM fst snd]. unfold setitem. rewrite (proj2 (Nat.ltb_lt _ _)) by (rewrite app_length; cbn; lia).
    specialize (IH (pre ++ [x]) post). rewrite app_length, <- !app_assoc in IH. cbn in IH.
    replace (length pre + 1) with (S (length pre)) in IH by lia.
    rewrite upd_split by (rewrite app_length; cbn; lia).
    rewrite firstn_app, firstn_all, Nat.sub_diag. cbn [firstn]. rewrite app_nil_r.
    rewrite skipn_app, skipn_all2 by lia. replace (S (length pre) - length pre) with 1 by lia. cbn [skipn app].
    apply IH. cbn in H. lia. }
  intros H. exact (G ns [] l H).
Qed.

Lemma sampled_idx_spec ix d ix' : sampled_idx ix d = Ok ix' ->
  length (series_set (n_mu ix)) = length (Nm ix) ->
  N_var ix' = map (fun n => length (sel_of d n)) (n_mu ix) /\
  Nm ix' = map (fun n => length (sel_of d n)) (series_set (n_mu ix)) /\
  cNm ix' = cumul 0 (Nm ix') /\ idxs ix' = cumul 0 (N_var ix') /\
  Im ix' = Im ix /\ sensors ix' = sensors ix /\ n_sensor ix' = n_sensor ix /\ n_mu ix' = n_mu ix /\ n_cov ix' = n_cov ix /\
  (forall n, In n (n_mu ix) -> exists l, dget n d = Ok l).
Proof.
  intros E Hl. unfold sampled_idx in E.
  assert (G : forall ns r, mapM (fun n => do l <- dget n d;; Ok (length l)) ns = Ok r ->
      r = map (fun n => length (sel_of d n)) ns /\ forall n, In n ns -> exists l, dget n d = Ok l).
  { induction ns as [|a ns IH]; cbn; intros r H; [injection H as <-; split; [auto|intros n []]|].
    unfold sel_of at 1. destruct (dget a d) as [la|] eqn:Ea; cbn [bind] in H; [|discriminate].
    destruct (mapM _ ns) as [r'|] eqn:Em; [|discriminate]. injection H as <-.
    destruct (IH _ eq_refl) as (-> & H2). split; [auto|]. intros n [<-|Hn]; eauto. }
  destruct (mapM _ (n_mu ix)) as [nv|] eqn:E1; cbn [bind] in E; [|discriminate].
  destruct (mapM _ (series_set (n_mu ix))) as [ns|] eqn:E2; cbn [bind] in E; [|discriminate].
  destruct (G _ _ E1) as (-> & H1). destruct (G _ _ E2) as (-> & _).
  rewrite set_all in E by (rewrite map_length; auto). cbn [bind] in E. injection E as <-. cbn. repeat split; auto.
Qed.

Lemma pick_block {A} (src : list A) ix i s_idx v b : pick src ix i s_idx = Ok v -> is_block ix src i b -> picks b s_idx v.
Proof.
  unfold pick. intros E (lo & hi & H1 & H2 & _ & ->).
  rewrite (proj2 (get_ok _ _ _) H1), (proj2 (get_ok _ _ _) H2) in E. cbn [bind] in E. apply take_picks; auto.
Qed.

Lemma sample_series_spec {A} (z : A) (m : mobj) ix' d src r :
  wf_mobj m -> sampled_idx (m_idx V T m) d = Ok ix' -> sample_series V T z m ix' d src = Ok r ->
  forall n v, 1 <= n <= length (Nm (m_idx V T m)) -> is_block (cNm (m_idx V T m)) src (n - 1) v ->
   exists v', is_block (cNm ix') r (n - 1) v' /\ picks v (sel_of d n) v'.
Proof.
  intros W Eix E. pose proof (wf_series_set m W) as Hss.
  destruct (sampled_idx_spec _ _ _ Eix) as (S1 & S2 & S3 & _); [rewrite Hss, seq_length; auto|].
  unfold sample_series in E. rewrite S3 in E.
  destruct (fill_inv _ _ _ _ _ E) as (vs & Hm & Hl & ->).
  - rewrite S2, Hss, map_length, seq_length. apply (wf_unck _ W).
  - intros i x v Hx HF. cbn [fst] in HF. destruct (dget (i + 1) d) as [s|] eqn:Ed; cbn [bind] in HF; [|discriminate].
    unfold pick in HF. destruct (get _ i); cbn [bind] in HF; [|discriminate]. destruct (get _ (i + 1)); cbn [bind] in HF; [|discriminate].
    apply take_picks in HF as (Hv & _). rewrite S2, Hss, nth_error_map'.
    assert (i < length (m_unck V T m)) by (apply nth_error_Some; congruence). rewrite (wf_unck _ W) in H.
    replace (nth_error (seq 1 (length (Nm (m_idx V T m)))) i) with (Some (1 + i))
      by (symmetry; rewrite nth_error_nth' with (d := 0) by (rewrite seq_length; auto); rewrite seq_nth by auto; reflexivity).
    cbn [option_map]. f_equal. unfold sel_of. replace (1 + i) with (i + 1) by lia. rewrite Ed. auto.
  - intros n v Hn Hb.
    destruct (nth_error (m_unck V T m) (n - 1)) as [u|] eqn:Eu.
    2:{ apply nth_error_None in Eu. rewrite (wf_unck _ W) in Eu. lia. }
    assert (He : nth_error (enumerate (m_unck V T m)) (n - 1) = Some (n - 1, u)) by (rewrite enumerate_nth, Eu; reflexivity).
    destruct (mapM_nth _ _ _ _ _ Hm He) as (v' & HF & Hv'). cbn [fst] in HF.
    replace (n - 1 + 1) with n in HF by lia.
    destruct (dget n d) as [s|] eqn:Ed; cbn [bind] in HF; [|discriminate].
    exists v'. split; [rewrite S3, <- Hl; apply is_block_concat; auto|].
    unfold sel_of. rewrite Ed. eapply pick_block; eauto.
Qed.

Lemma sample_series_opt_spec {A} (z : A) (m : mobj) ix' d src r :
  wf_mobj m -> sampled_idx (m_idx V T m) d = Ok ix' -> sample_series_opt V T z m ix' d src = Ok r ->
  match src, r with
  | None, None => True
  | Some arr, Some arr' =>
     forall n v, 1 <= n <= length (Nm (m_idx V T m)) -> is_block (cNm (m_idx V T m)) arr (n - 1) v ->
      exists v', is_block (cNm ix') arr' (n - 1) v' /\ picks v (sel_of d n) v'
  | _, _ => False
  end.
Proof.
  intros W E1 E. destruct src as [l|]; cbn in E.
  - destruct (sample_series V T z m ix' d l) as [r'|] eqn:Es; cbn [bind] in E; [|discriminate]. injection E as <-.
    eapply sample_series_spec; eauto.
  - injection E as <-. auto.
Qed.

Lemma apply_sampling_spec (m m' : mobj) d : wf_mobj m -> apply_sampling V T zeroV zeroT rms m d = Ok m' ->
  holds_selection m m' (sel_of d) /\
  (forall n, In n (n_mu (m_idx V T m)) -> exists l, dget n d = Ok l) /\
  (forall b u n, nth_error (m_unc V T m) b = Some u -> nth_error (n_mu (m_idx V T m)) b = Some n ->
     exists uR, nth_error (m_unc V T m') b = Some (mkUnc V (UK1 V uR) None) /\ length uR = length (sel_of d n) /\
       match u_kind V u with
       | UK1 _ r => picks r (sel_of d n) uR
       | UK2 _ r _ => picks r (sel_of d n) uR
       | UK3 _ wi ui | UK4 _ wi ui _ => exists w uv, nth_error (m_ws V T m) wi = Some w /\ nth_error (m_us V T m) ui = Some uv /\
            forall j i, nth_error (sel_of d n) j = Some i -> exists x, w_uncertainty V rms w uv i = Ok x /\ nth_error uR j = Some x
       end) /\ length (m_unc V T m') = length (m_unc V T m).
Proof.
  intros W. unfold apply_sampling.
  destruct (sampled_idx _ _) as [ix'|] eqn:Eix; cbn [bind]; [|discriminate].
  destruct (fill _ _ _ _) as [vals|] eqn:Ev; cbn [bind]; [|discriminate].
  destruct (mapM (sampled_unc V T rms m d) _) as [uncs|] eqn:Eu; cbn [bind]; [|discriminate].
  destruct (sample_series V T zeroV m ix' d (m_ks V T m)) as [ks|] eqn:Ek; cbn [bind]; [|discriminate].
  destruct (mapM _ (enumerate (m_unck V T m))) as [unck|] eqn:Euk; cbn [bind]; [|discriminate].
  destruct (sample_series_opt _ _ _ _ _ _ (m_across1 V T m)) as [ac1|] eqn:E1; cbn [bind]; [|discriminate].
  destruct (sample_series_opt _ _ _ _ _ _ (m_across2 V T m)) as [ac2|] eqn:E2; cbn [bind]; [|discriminate].
  destruct (sample_series_opt _ _ _ _ _ _ (m_along1 V T m)) as [al1|] eqn:E3; cbn [bind]; [|discriminate].
  destruct (sample_series_opt _ _ _ _ _ _ (m_along2 V T m)) as [al2|] eqn:E4; cbn [bind]; [|discriminate].
  destruct (m_time1 V T m) as [s1|] eqn:Et1; cbn [not_none bind]; [|discriminate].
  destruct (sample_series V T zeroT m ix' d s1) as [t1|] eqn:E5; cbn [bind]; [|discriminate].
  destruct (m_time2 V T m) as [s2|] eqn:Et2; cbn [not_none bind]; [|discriminate].
  destruct (sample_series V T zeroT m ix' d s2) as [t2|] eqn:E6; cbn [bind]; [|discriminate].
  intros E; injection E as <-.
  pose proof (wf_series_set m W) as Hss.
  destruct (sampled_idx_spec _ _ _ Eix) as (S1 & S2 & S3 & S4 & S5 & S6 & S7 & S8 & S9 & S10); [rewrite Hss, seq_length; auto|].
  split; [|split; [auto|split]].
  - unfold holds_selection. cbn [m_idx m_values m_ks m_unck m_time1 m_time2 m_across1 m_across2 m_along1 m_along2 m_ps].
    rewrite Et1, Et2.
    split; [auto|]. split; [auto|]. split; [auto|]. split; [auto|]. split; [auto|]. split; [auto|].
    split; [|split; [|split; [|split; [|split; [|split; [|split; [|split; [|split; [|split]]]]]]]]].
    + intros n Hn. rewrite S2, Hss, nth_error_map'.
      replace (nth_error (seq 1 (length (Nm (m_idx V T m)))) (n - 1)) with (Some n); [reflexivity|].
      symmetry. rewrite nth_error_nth' with (d := 0) by (rewrite seq_length; lia). rewrite seq_nth by lia. f_equal. lia.
    + rewrite S2, Hss, map_length, seq_length. reflexivity.
    + rewrite S4 in Ev.
      destruct (fill_inv _ _ _ _ _ Ev) as (vs & Hm & Hl & ->).
      * rewrite S1, map_length, (wf_unc _ W). symmetry. apply (wf_blocks _ W).
      * intros i x v Hx HF. cbn [fst] in HF. destruct (get (n_mu _) i) as [n|] eqn:En; cbn [bind] in HF; [|discriminate].
        destruct (dget n d) as [s|] eqn:Ed; cbn [bind] in HF; [|discriminate].
        unfold pick in HF. destruct (get (idxs (m_idx V T m)) i); cbn [bind] in HF; [|discriminate]. destruct (get (idxs (m_idx V T m)) (i + 1)); cbn [bind] in HF; [|discriminate].
        apply take_picks in HF as (Hv & _). apply get_ok in En. rewrite S1, nth_error_map', En. cbn.
        unfold sel_of. rewrite Ed. congruence.
      * intros b n v Hn Hb.
        destruct (nth_error (m_unc V T m) b) as [u|] eqn:Eub.
        2:{ apply nth_error_None in Eub. rewrite (wf_unc _ W), <- (wf_blocks _ W) in Eub.
            assert (b < length (n_mu (m_idx V T m))) by (apply nth_error_Some; congruence). lia. }
        assert (He : nth_error (enumerate (m_unc V T m)) b = Some (b, u)) by (rewrite enumerate_nth, Eub; reflexivity).
        destruct (mapM_nth _ _ _ _ _ Hm He) as (v' & HF & Hv'). cbn [fst] in HF.
        rewrite (proj2 (get_ok _ _ _) Hn) in HF. cbn [bind] in HF.
        destruct (dget n d) as [s|] eqn:Ed; cbn [bind] in HF; [|discriminate].
        exists v'. split; [rewrite S4, <- Hl; apply is_block_concat; auto|].
        unfold sel_of. rewrite Ed. eapply pick_block; eauto.
    + eapply sample_series_spec; eauto.
    + intros n u Hn Hu.
      assert (He : nth_error (enumerate (m_unck V T m)) (n - 1) = Some (n - 1, u)) by (rewrite enumerate_nth, Hu; reflexivity).
      destruct (mapM_nth _ _ _ _ _ Euk He) as (v' & HF & Hv'). cbn [fst snd] in HF.
      replace (n - 1 + 1) with n in HF by lia.
      destruct (dget n d) as [s|] eqn:Ed; cbn [bind] in HF; [|discriminate].
      exists v'. split; [auto|]. unfold sel_of. rewrite Ed. apply take_picks; auto.
    + eapply sample_series_spec; eauto.
    + eapply sample_series_spec; eauto.
    + eapply sample_series_opt_spec; eauto.
    + eapply sample_series_opt_spec; eauto.
    + eapply sample_series_opt_spec; eauto.
    + eapply sample_series_opt_spec; eauto.
  - cbn [m_unc]. intros b u n Hu Hn.
    assert (He : nth_error (enumerate (m_unc V T m)) b = Some (b, u)) by (rewrite enumerate_nth, Hu; reflexivity).
    destruct (mapM_nth _ _ _ _ _ Eu He) as (u' & HF & Hu'). rewrite Hu'. unfold sampled_unc in HF. cbn [fst snd] in HF.
    rewrite (proj2 (get_ok _ _ _) Hn) in HF. cbn [bind] in HF. unfold sel_of.
    destruct (dget n d) as [s|]; cbn [bind] in HF; [|discriminate].
    assert (OW : forall wi ui, (do w <- get (m_ws V T m) wi;; do u0 <- get (m_us V T m) ui;;
              do uR <- mapM (w_uncertainty V rms w u0) s;; Ok (mkUnc V (UK1 V uR) None)) = Ok u' ->
            exists uR, Some u' = Some (mkUnc V (UK1 V uR) None) /\ length uR = length s /\
             exists w uv, nth_error (m_ws V T m) wi = Some w /\ nth_error (m_us V T m) ui = Some uv /\
              forall j i, nth_error s j = Some i -> exists x, w_uncertainty V rms w uv i = Ok x /\ nth_error uR j = Some x).
    { intros wi ui H. destruct (get (m_ws V T m) wi) as [w|] eqn:Ew; cbn [bind] in H; [|discriminate].
      destruct (get (m_us V T m) ui) as [uv|] eqn:Euv; cbn [bind] in H; [|discriminate].
      destruct (mapM _ s) as [uR|] eqn:Er; cbn [bind] in H; [|discriminate]. injection H as <-.
      apply get_ok in Ew, Euv. exists uR. split; [auto|]. split; [apply (mapM_length _ _ _ Er)|].
      exists w, uv. split; [auto|]. split; [auto|]. intros j i Hj.
      destruct (mapM_nth _ _ _ _ _ Er Hj) as (x & Hx & Hn'). eauto. }
    destruct (u_kind V u) as [r|r s'|wi ui|wi ui s'].
    + destruct (take r s) as [v|] eqn:Et; cbn [bind] in HF; [|discriminate]. injection HF as <-.
      apply take_picks in Et. exists v. split; [auto|]. split; [apply Et|auto].
    + destruct (take r s) as [v|] eqn:Et; cbn [bind] in HF; [|discriminate]. injection HF as <-.
      apply take_picks in Et. exists v. split; [auto|]. split; [apply Et|auto].
    + auto.
    + auto.
  - cbn [m_unc]. rewrite (mapM_length _ _ _ Eu). apply enumerate_length.
Qed.
End S.
