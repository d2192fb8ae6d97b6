From Coq Require Import Permutation Sorted.
From Verif Require Import Base BaseLemmas ReaderModel UncModel UncProofs UncProofs2 MuModel MuProofs SampleModel SampleSpec.
Open Scope nat_scope.

Lemma nth_error_skipn {A} s (l : list A) k : nth_error (skipn s l) k = nth_error l (s + k).
Proof. revert l; induction s; intros l; cbn; auto. destruct l; [destruct k; reflexivity|apply IHs]. Qed.
Lemma nth_error_firstn {A} n (l : list A) k : nth_error (firstn n l) k = if k <? n then nth_error l k else None.
Proof.
  revert l k; induction n; intros l k; cbn [firstn].
  - destruct k; reflexivity.
  - destruct l as [|x l].
    + destruct (k <? S n); destruct k; reflexivity.
    + destruct k; cbn; [reflexivity|]. rewrite IHn. reflexivity.
Qed.
Lemma nth_error_slice {A} s e (l : list A) k : nth_error (slice s e l) k = if k <? e - s then nth_error l (s + k) else None.
Proof. unfold slice. rewrite nth_error_firstn, nth_error_skipn. reflexivity. Qed.

Lemma in_slice {A} s e (l : list A) x : In x (slice s e l) <-> exists k, s <= k < e /\ nth_error l k = Some x.
Proof.
  split.
  - intros H. apply In_nth_error in H as (k & H). rewrite nth_error_slice in H.
    destruct (k <? e - s) eqn:E; [|discriminate]. apply Nat.ltb_lt in E. exists (s + k). split; [lia|auto].
  - intros (k & Hk & H). apply (nth_error_In _ (k - s)). rewrite nth_error_slice.
    replace (s + (k - s)) with k by lia. destruct (k - s <? e - s) eqn:E; auto. apply Nat.ltb_ge in E. lia.
Qed.

Section G.
Context {V : Type}.
Notation uses := (@uses_column V).

Lemma row_cols_uses w i cols : row_cols V w i = Ok cols -> forall c, In c cols <-> uses w i c.
Proof.
  unfold row_cols, uses_column. destruct (get (c_indptr V w) i) as [s|] eqn:E1; cbn [bind]; [|discriminate].
  destruct (get (c_indptr V w) (i + 1)) as [e|] eqn:E2; cbn [bind]; [|discriminate].
  intros E c; injection E as <-. apply get_ok in E1, E2. rewrite in_slice. split.
  - intros (k & Hk & H). exists s, e, k. auto.
  - intros (p & q & k & Hp & Hq & Hk & H). exists k. split; [|auto]. rewrite E1 in Hp. rewrite E2 in Hq.
    injection Hp as <-. injection Hq as <-. auto.
Qed.

Lemma unused_spec u cols b : unused u cols = Ok b ->
  if b then forall c, In c cols -> nth_error u c = Some false
  else exists c, In c cols /\ nth_error u c = Some true.
Proof.
  unfold unused. destruct (mapM (get u) cols) as [l|] eqn:E; cbn [bind]; [|discriminate].
  intros H. injection H as <-. revert l E. induction cols as [|c cols IH]; cbn; intros l E.
  - injection E as <-. cbn. intros c [].
  - destruct (get u c) as [x|] eqn:Ex; [|discriminate]. destruct (mapM (get u) cols) as [l'|]; [|discriminate].
    injection E as <-. cbn. apply get_ok in Ex. specialize (IH l' eq_refl).
    destruct x; cbn.
    + exists c. auto.
    + destruct (forallb negb l').
      * intros c' [<-|Hc]; auto.
      * destruct IH as (c' & Hc & Hn). eauto.
Qed.

Lemma mark_spec u cols u' : mark u cols = Ok u' -> length u' = length u /\
  forall c, nth_error u' c = Some true <-> In c cols \/ nth_error u c = Some true.
Proof.
  unfold mark. revert u. induction cols as [|c cols IH]; cbn; intros u E.
  - injection E as <-. split; [auto|]. tauto.
  - unfold setitem in E at 1. destruct (c <? length u) eqn:Ec; [|discriminate].
    apply Nat.ltb_lt in Ec. destruct (IH _ E) as (Hl & H). rewrite upd_length in Hl. split; [auto|].
    intros c'. rewrite H. destruct (Nat.eq_dec c c') as [->|Hn].
    + rewrite upd_nth_same by auto. tauto.
    + rewrite upd_nth_other by auto. intuition congruence.
Qed.

Definition disjoint_rows (ws : list (csr V)) i i' : Prop :=
  forall w, In w ws -> forall c, ~ (uses w i c /\ uses w i' c).
Definition meets (ws : list (csr V)) i i' : Prop :=
  exists w c, In w ws /\ uses w i c /\ uses w i' c.

Record ginv (ws : list (csr V)) (k : nat) (st : list (list bool) * list nat) : Prop := {
  g_len : length (fst st) = length ws;
  g_used : forall j w u, nth_error ws j = Some w -> nth_error (fst st) j = Some u ->
     forall c, nth_error u c = Some true <-> exists i, In i (snd st) /\ uses w i c;
  g_sorted : StronglySorted lt (snd st);
  g_lt : forall i, In i (snd st) -> i < k;
  g_disj : forall i i', In i (snd st) -> In i' (snd st) -> i <> i' -> disjoint_rows ws i i';
  g_max : forall r, r < k -> ~ In r (snd st) -> exists i, In i (snd st) /\ i < r /\ meets ws i r
}.

Lemma StronglySorted_snoc l x : StronglySorted lt l -> (forall i, In i l -> i < x) -> StronglySorted lt (l ++ [x]).
Proof.
  induction l as [|a l IH]; cbn; intros H Hx; [repeat constructor|]. inversion H; subst.
  constructor; [apply IH; auto|]. apply Forall_app. split; [auto|]. constructor; [apply Hx; auto|constructor].
Qed.

Lemma greedy_step_inv ws k st st' : ws <> [] -> ginv ws k st -> greedy_step V ws st k = Ok st' -> ginv ws (S k) st'.
Proof.
  intros Hne G. destruct st as [used idxs]. unfold greedy_step.
  destruct (mapM (fun w => row_cols V w k) ws) as [cols|] eqn:Ec; cbn [bind]; [|discriminate].
  destruct (mapM _ (combine used cols)) as [tests|] eqn:Et; cbn [bind]; [|discriminate].
  pose proof (g_len _ _ _ G) as Hlu. cbn in Hlu.
  pose proof (mapM_length _ _ _ Ec) as Hlc.
  pose proof (mapM_length _ _ _ Et) as Hlt. rewrite combine_length, Hlu, Hlc, Nat.min_id in Hlt.
  assert (Hj : forall j w, nth_error ws j = Some w -> exists u cs t, nth_error used j = Some u /\
      nth_error cols j = Some cs /\ row_cols V w k = Ok cs /\ nth_error tests j = Some t /\ unused u cs = Ok t).
  { intros j w Hw. destruct (mapM_nth _ _ _ _ _ Ec Hw) as (cs & Hr & Hcs).
    assert (j < length ws) by (apply nth_error_Some; congruence).
    destruct (nth_error used j) as [u|] eqn:Eu; [|apply nth_error_None in Eu; lia].
    assert (Hcomb : nth_error (combine used cols) j = Some (u, cs)) by (rewrite nth_error_combine, Eu, Hcs; reflexivity).
    destruct (mapM_nth _ _ _ _ _ Et Hcomb) as (t & Ht & Hnt). exists u, cs, t. auto. }
  destruct (negb (length tests =? 0) && forallb (fun b => b) tests) eqn:Eb.
  - destruct (mapM _ (combine used cols)) as [used'|] eqn:Em in |- *; cbn [bind]; [|discriminate].
    intros E; injection E as <-. apply andb_prop in Eb as (_ & Eall). rewrite forallb_forall in Eall.
    assert (New : forall w, In w ws -> forall i c, In i idxs -> ~ (uses w i c /\ uses w k c)).
    { intros w Hw i c Hi (U1 & U2). apply In_nth_error in Hw as (j & Hw).
      destruct (Hj j w Hw) as (u & cs & t & Hu & Hcs & Hr & Ht & Hun).
      assert (t = true) by (apply Eall; eapply nth_error_In; eauto). subst t.
      pose proof (unused_spec _ _ _ Hun c) as Hf. cbn in Hf.
      assert (nth_error u c = Some true) by (apply (g_used _ _ _ G j w u Hw Hu); eauto).
      rewrite Hf in H by (apply (row_cols_uses _ _ _ Hr); auto). discriminate. }
    constructor; cbn [fst snd].
    + rewrite (mapM_length _ _ _ Em), combine_length, Hlu, Hlc, Nat.min_id. reflexivity.
    + intros j w u' Hw Hu' c. destruct (Hj j w Hw) as (u & cs & t & Hu & Hcs & Hr & Ht & Hun).
      assert (Hcomb : nth_error (combine used cols) j = Some (u, cs)) by (rewrite nth_error_combine, Hu, Hcs; reflexivity).
      destruct (mapM_nth _ _ _ _ _ Em Hcomb) as (u2 & Hm & Hn2). cbn in Hm. rewrite Hu' in Hn2. injection Hn2 as <-.
      destruct (mark_spec _ _ _ Hm) as (_ & Hms). rewrite Hms, (row_cols_uses _ _ _ Hr), (g_used _ _ _ G j w u Hw Hu c).
      cbn [snd]. split.
      * intros [H|(i & Hi & H)]; [exists k; split; [apply in_or_app; right; left; auto|auto]|].
        exists i. split; [apply in_or_app; auto|auto].
      * intros (i & Hi & H). apply in_app_or in Hi as [Hi|[<-|[]]]; eauto.
    + apply StronglySorted_snoc; [apply (g_sorted _ _ _ G)|apply (g_lt _ _ _ G)].
    + intros i Hi. apply in_app_or in Hi as [Hi|[<-|[]]]; [|lia]. pose proof (g_lt _ _ _ G i Hi). lia.
    + intros i i' Hi Hi' Hd w Hw c. apply in_app_or in Hi as [Hi|[<-|[]]]; apply in_app_or in Hi' as [Hi'|[<-|[]]].
      * apply (g_disj _ _ _ G i i'); auto.
      * apply New; auto.
      * intros (U1 & U2). apply (New w Hw i' c Hi'); auto.
      * congruence.
    + intros r Hr Hn. destruct (Nat.eq_dec r k) as [->|Hrk]; [exfalso; apply Hn; apply in_or_app; right; left; auto|].
      destruct (g_max _ _ _ G r) as (i & Hi & Hlt' & Hm'); [lia|intros H; apply Hn; apply in_or_app; auto|].
      exists i. split; [apply in_or_app; auto|auto].
  - intros E; injection E as <-.
    assert (Hft : exists j, nth_error tests j = Some false).
    { apply andb_false_iff in Eb as [Eb|Eb].
      - destruct ws; [congruence|]. destruct tests; [discriminate|discriminate].
      - clear - Eb. induction tests as [|t tests IH]; [discriminate|]. cbn in Eb. destruct t.
        + destruct (IH Eb) as (j & Hj). exists (S j). auto.
        + exists 0. reflexivity. }
    destruct Hft as (j & Hjt).
    destruct (nth_error ws j) as [w|] eqn:Hw.
    2:{ apply nth_error_None in Hw. assert (j < length tests) by (apply nth_error_Some; congruence). lia. }
    destruct (Hj j w Hw) as (u & cs & t & Hu & Hcs & Hr & Ht & Hun).
    rewrite Hjt in Ht. injection Ht as <-. destruct (unused_spec _ _ _ Hun) as (c & Hc & Hct).
    apply (g_used _ _ _ G j w u Hw Hu) in Hct as (i & Hi & Hui). cbn in Hi.
    destruct G as [G1 G2 G3 G4 G5 G6]; constructor; cbn [fst snd] in *; auto.
    { intros i0 Hi0. specialize (G4 i0 Hi0). lia. }
    intros r Hr' Hn. destruct (Nat.eq_dec r k) as [->|Hrk]; [|apply G6; auto; lia].
    exists i. split; [auto|]. split; [apply G4; auto|].
    exists w, c. split; [eapply nth_error_In; eauto|]. split; [auto|]. apply (row_cols_uses _ _ _ Hr); auto.
Qed.

Lemma greedy_inv ws idxs : ws <> [] -> greedy V ws = Ok idxs ->
  StronglySorted lt idxs /\ (forall i, In i idxs -> i < nrows_common V ws) /\
  (forall i i', In i idxs -> In i' idxs -> i <> i' -> disjoint_rows ws i i') /\
  (forall r, r < nrows_common V ws -> ~ In r idxs -> exists i, In i idxs /\ i < r /\ meets ws i r).
Proof.
  intros Hne. unfold greedy. destruct (foldM _ _ _) as [st|] eqn:E; cbn [bind]; [|discriminate].
  intros E'; injection E' as <-.
  assert (G : forall n k st st', ginv ws k st -> foldM (greedy_step V ws) (seq k n) st = Ok st' -> ginv ws (k + n) st').
  { induction n as [|n IH]; intros k s s' Hg Hf; cbn [seq foldM] in Hf.
    - injection Hf as <-. rewrite Nat.add_0_r. auto.
    - destruct (greedy_step V ws s k) as [s1|] eqn:Es; [|discriminate].
      replace (k + S n) with (S k + n) by lia. eapply IH; [|exact Hf]. eapply greedy_step_inv; eauto. }
  assert (G0 : ginv ws 0 (map (fun w => repeat false (c_ncols V w)) ws, [])).
  { constructor; cbn [fst snd].
    - apply map_length.
    - intros j w u Hw Hu c. rewrite nth_error_map', Hw in Hu. cbn in Hu. injection Hu as <-. split.
      + intros H. apply nth_error_In, repeat_spec in H. discriminate.
      + intros (i & [] & _).
    - constructor.
    - intros i [].
    - intros i i' [].
    - lia. }
  pose proof (G _ _ _ _ G0 E) as [H1 H2 H3 H4 H5 H6]. cbn in *. auto.
Qed.

(** The greedy pass succeeds on well-formed matrices. *)
Lemma greedy_ok ws N : (forall w, In w ws -> good_w w N) -> exists idxs, greedy V ws = Ok idxs.
Proof.
  intros Hw. destruct ws as [|w0 ws0] eqn:Ews; [exists []; reflexivity|]. rewrite <- Ews in *.
  assert (Hnr : nrows_common V ws = N).
  { unfold nrows_common. rewrite Ews. cbn [map].
    assert (H0 : length (c_indptr V w0) - 1 = N).
    { destruct (Hw w0) as (H & _); [rewrite Ews; left; auto|]. lia. }
    rewrite H0.
    assert (Hall : forall w, In w ws0 -> length (c_indptr V w) - 1 = N).
    { intros w Hi. destruct (Hw w) as (H & _); [rewrite Ews; right; auto|]. lia. }
    clear - Hall. induction ws0 as [|w ws IH]; cbn; auto. rewrite (Hall w) by (left; auto).
    rewrite Nat.min_id. apply IH. intros; apply Hall; right; auto. }
  unfold greedy. rewrite Hnr.
  assert (G : forall n k st, k + n = N -> map (@length bool) (fst st) = map (c_ncols V) ws ->
    exists st', foldM (greedy_step V ws) (seq k n) st = Ok st').
  { induction n as [|n IH]; intros k st Hk Hlen; cbn [seq foldM]; [eauto|].
    destruct st as [used idxs]. cbn in Hlen.
    assert (Hcols : exists cols, mapM (fun w => row_cols V w k) ws = Ok cols /\
        Forall2 (fun w cs => forall c, In c cs -> c < c_ncols V w) ws cols).
    { assert (Hw' : forall w, In w ws -> good_w w N) by auto. clear - Hw' Hk.
      induction ws as [|w ws IHw]; cbn; [eauto|].
      destruct (Hw' w (or_introl eq_refl)) as (L1 & L2 & L3).
      unfold row_cols at 1.
      destruct (nth_error (c_indptr V w) k) as [p|] eqn:Ep; [|apply nth_error_None in Ep; lia].
      destruct (nth_error (c_indptr V w) (k + 1)) as [q|] eqn:Eq; [|apply nth_error_None in Eq; lia].
      rewrite (proj2 (get_ok _ _ _) Ep), (proj2 (get_ok _ _ _) Eq). cbn [bind].
      destruct IHw as (cols & -> & HF); [intros; apply Hw'; right; auto|]. eexists. split; [reflexivity|].
      constructor; auto. intros c Hc. apply in_slice in Hc as (j & _ & Hj). apply L3. eapply nth_error_In; eauto. }
    destruct Hcols as (cols & Ec & HF).
    assert (HF2 : Forall2 (fun u cs => forall c, In c cs -> c < length u) used cols).
    { clear - HF Hlen. revert used Hlen. induction HF as [|w cs ws cols H HF IH]; intros [|u used] Hl; cbn in Hl; try discriminate; constructor.
      - injection Hl as -> _. auto.
      - injection Hl as _ Hl. auto. }
    assert (Ht : exists tests, mapM (fun uc => unused (fst uc) (snd uc)) (combine used cols) = Ok tests).
    { clear - HF2. induction HF2 as [|u cs used cols H HF IH]; cbn; [eauto|].
      assert (exists b, unused u cs = Ok b) as (b & ->).
      { unfold unused. destruct (mapM_ok_ex (get u) cs) as (l & ->); [|cbn; eauto].
        intros c Hc. destruct (nth_error u c) as [x|] eqn:E.
        - exists x. apply get_ok; auto.
        - apply nth_error_None in E. specialize (H c Hc). lia. }
      destruct IH as (tests & ->). eauto. }
    destruct Ht as (tests & Et).
    assert (Hm : exists used', mapM (fun uc => mark (fst uc) (snd uc)) (combine used cols) = Ok used' /\
               map (@length bool) used' = map (@length bool) used).
    { clear - HF2. induction HF2 as [|u cs used cols H HF IH]; cbn [combine mapM fst snd]; [eauto|].
      assert (exists u', mark u cs = Ok u' /\ length u' = length u) as (u' & -> & Hl).
      { clear - H. unfold mark. revert u H. induction cs as [|c cs IHc]; intros u H; cbn; [eauto|].
        unfold setitem at 1. rewrite (proj2 (Nat.ltb_lt _ _)) by (apply H; left; auto).
        destruct (IHc (upd c true u)) as (u' & E & Hl).
        - intros c' Hc'. rewrite upd_length. apply H; right; auto.
        - rewrite upd_length in Hl. eauto. }
      destruct IH as (used' & -> & Hl'). eexists; split; [reflexivity|]. cbn. congruence. }
    destruct Hm as (used' & Em & Hlm).
    unfold greedy_step at 1. rewrite Ec. cbn [bind]. rewrite Et. cbn [bind].
    destruct (_ && _).
    - rewrite Em. cbn [bind]. apply IH; [lia|]. cbn. congruence.
    - apply IH; [lia|]. auto. }
  destruct (G N 0 (map (fun w => repeat false (c_ncols V w)) ws, [])) as (st' & ->).
  - lia.
  - cbn. rewrite map_map. apply map_ext. intros. apply repeat_length.
  - cbn. eauto.
Qed.
End G.
