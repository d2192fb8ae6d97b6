From Coq Require Import Permutation Sorted QArith Qround Lqa.
From Verif Require Import Base BaseLemmas ReaderModel UncModel UncProofs UncProofs2 MuModel MuProofs SampleModel SampleSpec SampleProofs SampleProofs2 SampleMain.
Open Scope nat_scope.

Section M.
Context {V T : Type} (zeroV : V) (zeroT : T) (rms : list V -> Z -> V)
        (smp : nat -> list nat -> nat -> list nat).
Notation mobj := (mobj V T).
Notation sample2ind := (sample2ind V T zeroV zeroT rms smp).

Lemma sampled_idx_ok ix d : (forall n, In n (n_mu ix) -> exists l, dget n d = Ok l) ->
  length (series_set (n_mu ix)) = length (Nm ix) -> exists ix', sampled_idx ix d = Ok ix'.
Proof.
  intros H Hl. unfold sampled_idx.
  destruct (mapM_ok_ex (fun n => do l <- dget n d;; Ok (length l)) (n_mu ix)) as (nv & ->).
  { intros n Hn. destruct (H n Hn) as (l & ->). cbn. eauto. }
  cbn [bind].
  destruct (mapM_ok_ex (fun n => do l <- dget n d;; Ok (length l)) (series_set (n_mu ix))) as (ns & En).
  { intros n Hn. destruct (H n) as (l & ->); [|cbn; eauto]. unfold series_set in Hn. apply filter_In in Hn as (_ & Hn).
    apply existsb_exists in Hn as (x & Hx & E). apply Nat.eqb_eq in E. congruence. }
  rewrite En. cbn [bind]. rewrite set_all; [cbn; eauto|].
  rewrite (mapM_length _ _ _ En). auto.
Qed.

Lemma take_ok {A} (l : list A) s : (forall i, In i s -> i < length l) -> exists v, take l s = Ok v.
Proof.
  intros H. unfold take. apply mapM_ok_ex. intros i Hi. specialize (H i Hi).
  destruct (nth_error l i) as [x|] eqn:E; [exists x; apply get_ok; auto|apply nth_error_None in E; lia].
Qed.

Lemma pick_ok {A} (src : list A) ns i s N : length src = list_sum ns -> nth_error ns i = Some N ->
  (forall j, In j s -> j < N) -> exists v, pick src (cumul 0 ns) i s = Ok v.
Proof.
  intros Hl Hn Hs. destruct (block_exists ns src i N Hl Hn) as (v & (lo & hi & H1 & H2 & H3 & Hv) & Hlen).
  unfold pick. rewrite (proj2 (get_ok _ _ _) H1), (proj2 (get_ok _ _ _) H2). cbn [bind]. apply take_ok.
  rewrite <- Hv, Hlen. auto.
Qed.

Lemma sample_series_ok {A} (z : A) (m : mobj) ix' d src : wf_mobj m ->
  sampled_idx (m_idx V T m) d = Ok ix' -> length src = list_sum (Nm (m_idx V T m)) ->
  (forall n l, 1 <= n <= length (Nm (m_idx V T m)) -> dget n d = Ok l -> forall i, In i l -> i < size m n) ->
  exists r, sample_series V T z m ix' d src = Ok r.
Proof.
  intros W Eix Hl Hb. pose proof (wf_series_set m W) as Hss.
  destruct (sampled_idx_spec _ _ _ Eix) as (S1 & S2 & S3 & S4 & S5 & S6 & S7 & S8 & S9 & S10); [rewrite Hss, seq_length; auto|].
  unfold sample_series. rewrite S3, (wf_cnm _ W).
  destruct (mapM_ok_ex (fun p : nat * list V => do s_idx <- dget (fst p + 1) d;; pick src (cumul 0 (Nm (m_idx V T m))) (fst p) s_idx)
             (enumerate (m_unck V T m))) as (vs & Evs).
  { intros [i u] Hi. apply in_enumerate in Hi. cbn [fst].
    assert (Hi' : i < length (Nm (m_idx V T m))) by (rewrite <- (wf_unck _ W); apply nth_error_Some; congruence).
    destruct (S10 (i + 1)) as (l & Hd); [apply (wf_series_iff m W); lia|]. rewrite Hd. cbn [bind].
    destruct (nth_error (Nm (m_idx V T m)) i) as [N|] eqn:EN; [|apply nth_error_None in EN; lia].
    eapply pick_ok; eauto. intros j Hj. specialize (Hb (i + 1) l ltac:(lia) Hd j Hj).
    rewrite (size_nth m (i + 1) N) in Hb; [auto|]. replace (i + 1 - 1) with i by lia. auto. }
  exists (concat vs). apply fill_ok; [exact Evs|].
  rewrite S2, Hss. apply nth_error_ext. intros i. rewrite !nth_error_map'.
  destruct (nth_error (enumerate (m_unck V T m)) i) as [p|] eqn:Ep.
  - destruct (mapM_nth _ _ _ _ _ Evs Ep) as (v & HF & Hv). rewrite Hv.
    rewrite enumerate_nth in Ep. destruct (nth_error (m_unck V T m) i) as [u|] eqn:Eu; [|discriminate]. injection Ep as <-.
    assert (Hi' : i < length (Nm (m_idx V T m))) by (rewrite <- (wf_unck _ W); apply nth_error_Some; congruence).
    cbn [fst] in HF. destruct (dget (i + 1) d) as [l|] eqn:Hd; cbn [bind] in HF; [|discriminate].
    rewrite nth_error_nth' with (d := 0) (l := seq _ _) by (rewrite seq_length; auto). rewrite seq_nth by auto.
    cbn. unfold sel_of. replace (S i) with (i + 1) by lia. rewrite Hd. f_equal.
    unfold pick in HF. destruct (get _ i); cbn [bind] in HF; [|discriminate]. destruct (get (cumul _ _) (i + 1)); cbn [bind] in HF; [|discriminate].
    apply take_picks in HF. apply HF.
  - apply nth_error_None in Ep. rewrite enumerate_length, (wf_unck _ W) in Ep.
    rewrite (proj2 (nth_error_None (seq _ _) i)) by (rewrite seq_length; lia).
    rewrite (proj2 (nth_error_None vs i)); [auto|]. rewrite (mapM_length _ _ _ Evs), enumerate_length, (wf_unck _ W). auto.
Qed.

Lemma w_uncertainty_ok (w : csr V) uv i N : good_w w N -> i < N -> exists x, w_uncertainty V rms w uv i = Ok x.
Proof.
  intros (Hl & Hp & _) Hi. unfold w_uncertainty.
  destruct (nth_error (c_indptr V w) i) as [p|] eqn:Ep; [|apply nth_error_None in Ep; lia].
  destruct (nth_error (c_indptr V w) (i + 1)) as [q|] eqn:Eq; [|apply nth_error_None in Eq; lia].
  rewrite (proj2 (get_ok _ _ _) Ep), (proj2 (get_ok _ _ _) Eq). cbn [bind].
  destruct (Hp i p q Ep Eq) as (H1 & H2).
  destruct (nth_error (c_indices V w) p) as [c|] eqn:Ec; [|apply nth_error_None in Ec; lia].
  rewrite (proj2 (get_ok _ _ _) Ec). cbn [bind].
  unfold pyget. rewrite (proj2 (Z.leb_le 0 (Z.of_nat q - 1))) by lia.
  replace (Z.to_nat (Z.of_nat q - 1)) with (q - 1) by lia.
  destruct (nth_error (c_indices V w) (q - 1)) as [c2|] eqn:Ec2; [|apply nth_error_None in Ec2; lia].
  rewrite (proj2 (get_ok _ _ _) Ec2). cbn [bind]. eauto.
Qed.

Theorem sampling_succeeds (m : mobj) sf nmax : wf_mobj m -> complete_mobj m -> is_sample smp ->
  (0 <= sf <= 1)%Q -> (0 <= nmax)%Z -> exists m', sample2ind m sf nmax = Ok m'.
Proof.
  intros W C Hs (Hsf0 & Hsf1) Hn.
  unfold SampleModel.sample2ind. rewrite (wf_cnm _ W), pylast_cumul. cbn [bind plus].
  destruct (eff_total (list_sum (Nm (m_idx V T m))) sf nmax Hsf0 Hn) as (sf' & Ef). rewrite Ef. cbn [bind].
  destruct (eff_spec _ _ _ _ Hsf0 Hn Ef) as (F1 & F2 & _).
  assert (Hsf' : (0 <= sf' <= 1)%Q) by (split; [auto|eapply Qle_trans; eauto]).
  unfold sampling_idxs. rewrite (wf_series_set m W).
  destruct (mapM_ok_ex (fun n => do l <- select_series V T smp m sf' n;; Ok (n, l)) (seq 1 (length (Nm (m_idx V T m))))) as (d & Ed).
  { intros n Hi. apply in_seq in Hi. destruct (select_ok smp m sf' n W C Hs Hsf') as (l & -> & _); [apply (wf_series_iff m W); lia|].
    cbn. eauto. }
  rewrite Ed. cbn [bind].
  assert (Hd : forall n, 1 <= n <= length (Nm (m_idx V T m)) -> exists l, dget n d = Ok l /\ forall i, In i l -> i < size m n).
  { intros n Hi. destruct (dict_spec _ _ _ Ed n) as (l & Hl & Hg); [apply in_seq; lia|]. exists l. split; [auto|].
    destruct (select_ok smp m sf' n W C Hs Hsf') as (l' & E & H); [apply (wf_series_iff m W); auto|]. assert (l = l') by congruence. subst; auto. }
  assert (Hb : forall n l, 1 <= n <= length (Nm (m_idx V T m)) -> dget n d = Ok l -> forall i, In i l -> i < size m n).
  { intros n l Hi Hg. destruct (Hd n Hi) as (l' & E & H). assert (l = l') by congruence. subst. auto. }
  pose proof (wf_series_set m W) as Hss.
  assert (Hd' : forall n, In n (n_mu (m_idx V T m)) -> exists l, dget n d = Ok l).
  { intros n Hi. apply (wf_series_iff m W) in Hi. destruct (Hd n Hi) as (l & H & _). eauto. }
  destruct (sampled_idx_ok (m_idx V T m) d Hd') as (ix' & Eix); [rewrite Hss, seq_length; auto|].
  unfold apply_sampling. rewrite Eix. cbn [bind].
  destruct (sampled_idx_spec _ _ _ Eix) as (S1 & S2 & S3 & S4 & S5 & S6 & S7 & S8 & S9 & S10); [rewrite Hss, seq_length; auto|].
  (* values *)
  assert (HB : forall b u, nth_error (m_unc V T m) b = Some u -> exists n N l, nth_error (n_mu (m_idx V T m)) b = Some n /\
     nth_error (N_var (m_idx V T m)) b = Some N /\ dget n d = Ok l /\ forall i, In i l -> i < N).
  { intros b u Hu.
    assert (Hlt : b < length (n_mu (m_idx V T m))) by (rewrite (wf_blocks _ W), <- (wf_unc _ W); apply nth_error_Some; congruence).
    destruct (nth_error (n_mu (m_idx V T m)) b) as [n|] eqn:En; [|apply nth_error_None in En; lia].
    destruct (wf_series _ W b n En) as (Hn1 & N & HN & HNv).
    assert (Hn' : 1 <= n <= length (Nm (m_idx V T m))).
    { apply (wf_series_iff m W). eapply nth_error_In; eauto. }
    destruct (Hd n Hn') as (l & Hl & Hi). exists n, N, l. rewrite (size_nth m n N HN) in Hi. auto. }
  set (F := fun p : nat * unc V => do n <- get (n_mu (m_idx V T m)) (fst p);; do s_idx <- dget n d;;
                         pick (m_values V T m) (idxs (m_idx V T m)) (fst p) s_idx).
  assert (Hv : exists vals, fill zeroV (idxs ix') F (m_unc V T m) = Ok vals).
  { destruct (mapM_ok_ex F (enumerate (m_unc V T m))) as (vs & Evs).
    { intros [b u] Hi. apply in_enumerate in Hi. destruct (HB b u Hi) as (n & N & l & H1 & H2 & H3 & H4).
      unfold F. cbn [fst]. rewrite (proj2 (get_ok _ _ _) H1). cbn [bind]. rewrite H3. cbn [bind].
      rewrite (wf_idxs _ W). eapply pick_ok; eauto. apply (wf_values _ W). }
    exists (concat vs). rewrite S4. apply fill_ok; [exact Evs|]. rewrite S1.
    apply nth_error_ext. intros b. rewrite !nth_error_map'.
    destruct (nth_error (m_unc V T m) b) as [u|] eqn:Eu.
    - assert (He : nth_error (enumerate (m_unc V T m)) b = Some (b, u)) by (rewrite enumerate_nth, Eu; reflexivity).
      destruct (mapM_nth _ _ _ _ _ Evs He) as (v & HF & Hv). rewrite Hv.
      destruct (HB b u Eu) as (n & N & l & H1 & H2 & H3 & H4). rewrite H1. cbn. unfold sel_of. rewrite H3. f_equal.
      unfold F in HF. cbn [fst] in HF. rewrite (proj2 (get_ok _ _ _) H1) in HF. cbn [bind] in HF. rewrite H3 in HF. cbn [bind] in HF.
      unfold pick in HF. destruct (get (idxs (m_idx V T m)) b); cbn [bind] in HF; [|discriminate].
      destruct (get (idxs (m_idx V T m)) (b + 1)); cbn [bind] in HF; [|discriminate].
      apply take_picks in HF. apply HF.
    - apply nth_error_None in Eu. rewrite (proj2 (nth_error_None vs b)) by (rewrite (mapM_length _ _ _ Evs), enumerate_length; auto).
      rewrite (proj2 (nth_error_None (n_mu _) b)); [auto|]. rewrite (wf_blocks _ W), <- (wf_unc _ W). auto. }
  destruct Hv as (vals & ->). cbn [bind].
  (* uncertainties *)
  destruct (mapM_ok_ex (sampled_unc V T rms m d) (enumerate (m_unc V T m))) as (uncs & ->).
  { intros [b u] Hi. apply in_enumerate in Hi. destruct (HB b u Hi) as (n & N & l & H1 & H2 & H3 & H4).
    unfold sampled_unc. cbn [fst snd]. rewrite (proj2 (get_ok _ _ _) H1). cbn [bind]. rewrite H3. cbn [bind].
    pose proof (cm_unc _ C b u N Hi H2) as Hc.
    assert (OW : forall wi ui, (exists w uv, nth_error (m_ws V T m) wi = Some w /\ good_w w N /\ nth_error (m_us V T m) ui = Some uv) ->
       exists u', (do w <- get (m_ws V T m) wi;; do u0 <- get (m_us V T m) ui;;
              do uR <- mapM (w_uncertainty V rms w u0) l;; Ok (mkUnc V (UK1 V uR) None)) = Ok u').
    { intros wi ui (w & uv & G1 & G2 & G3). rewrite (proj2 (get_ok _ _ _) G1), (proj2 (get_ok _ _ _) G3). cbn [bind].
      destruct (mapM_ok_ex (w_uncertainty V rms w uv) l) as (r & ->).
      - intros i Hi'. apply (w_uncertainty_ok w uv i N); auto.
      - cbn. eauto. }
    destruct (u_kind V u) as [r|r s'|wi ui|wi ui s'].
    - destruct (take_ok r l) as (v & ->); [rewrite Hc; auto|]. cbn; eauto.
    - destruct (take_ok r l) as (v & ->); [rewrite Hc; auto|]. cbn; eauto.
    - apply OW; auto.
    - apply OW; auto. }
  cbn [bind].
  destruct (sample_series_ok zeroV m ix' d (m_ks V T m) W Eix (wf_ks _ W) Hb) as (ks & ->). cbn [bind].
  destruct (mapM_ok_ex (fun p : nat * list V => do s_idx <- dget (fst p + 1) d;; take (snd p) s_idx)
                  (enumerate (m_unck V T m))) as (uk & ->).
  { intros [i u] Hi. apply in_enumerate in Hi. cbn [fst snd].
    pose proof (cm_unck _ C i u Hi) as HN.
    assert (Hi' : i < length (Nm (m_idx V T m))) by (apply nth_error_Some; congruence).
    destruct (Hd (i + 1)) as (l & -> & Hl); [lia|]. cbn [bind]. apply take_ok. intros j Hj. specialize (Hl j Hj).
    rewrite (size_nth m (i + 1) (length u)) in Hl; [auto|]. replace (i + 1 - 1) with i by lia. auto. }
  cbn [bind].
  assert (HO : forall o, In o [m_across1 V T m; m_across2 V T m; m_along1 V T m; m_along2 V T m] ->
    exists r, sample_series_opt V T zeroV m ix' d o = Ok r).
  { intros o Hin. unfold sample_series_opt. destruct o as [arr|] eqn:Eo; [|eauto].
    destruct (sample_series_ok zeroV m ix' d arr W Eix) as (r & ->); [eapply (cm_opt _ C); eauto|auto|cbn; eauto]. }
  destruct (HO (m_across1 V T m)) as (r1 & ->); [cbn; auto|]. cbn [bind].
  destruct (HO (m_across2 V T m)) as (r2 & ->); [cbn; auto|]. cbn [bind].
  destruct (HO (m_along1 V T m)) as (r3 & ->); [cbn; auto|]. cbn [bind].
  destruct (HO (m_along2 V T m)) as (r4 & ->); [cbn; auto|]. cbn [bind].
  destruct (cm_time1 _ C) as (t1 & -> & Ht1). cbn [not_none bind].
  destruct (sample_series_ok zeroT m ix' d t1 W Eix Ht1 Hb) as (r5 & ->). cbn [bind].
  destruct (cm_time2 _ C) as (t2 & -> & Ht2). cbn [not_none bind].
  destruct (sample_series_ok zeroT m ix' d t2 W Eix Ht2 Hb) as (r6 & ->). cbn [bind]. eauto.
Qed.

(** *** uncertainty of types 3 and 4 *)
Theorem sampled_w_uncertainty (m m' : mobj) sf nmax : wf_mobj m -> complete_mobj m -> is_sample smp ->
  sample2ind m sf nmax = Ok m' ->
  exists sel, holds_selection m m' sel /\
   forall b u n wi ui, nth_error (m_unc V T m) b = Some u -> nth_error (n_mu (m_idx V T m)) b = Some n ->
     w_of (u_kind V u) = Some wi -> u_of (u_kind V u) = Some ui ->
     exists uR w uv, nth_error (m_unc V T m') b = Some (mkUnc V (UK1 V uR) None) /\
       nth_error (m_ws V T m) wi = Some w /\ nth_error (m_us V T m) ui = Some uv /\
       forall j i, nth_error (sel n) j = Some i ->
         exists lo hi, first_column w i lo /\ last_column w i hi /\
           nth_error uR j = Some (rms (slice lo (hi + 1) uv) (Z.of_nat hi + 1 - Z.of_nat lo)).
Proof.
  intros W C Hs E. destruct (sample2ind_inv _ _ _ _ _ _ _ _ W E) as (sf' & d & _ & Ea & Hd).
  destruct (apply_sampling_spec _ _ _ _ _ _ W Ea) as (H1 & _ & H3 & H4).
  exists (sel_of d). split; [auto|].
  intros b u n wi ui Hu Hn Hw Hui. destruct (H3 b u n Hu Hn) as (uR & A & B & D).
  assert (D' : exists w uv, nth_error (m_ws V T m) wi = Some w /\ nth_error (m_us V T m) ui = Some uv /\
            forall j i, nth_error (sel_of d n) j = Some i -> exists x, w_uncertainty V rms w uv i = Ok x /\ nth_error uR j = Some x).
  { destruct (u_kind V u); cbn in Hw, Hui; try discriminate; injection Hw as <-; injection Hui as <-; exact D. }
  destruct (wf_series _ W b n Hn) as (Hn1 & N & HN & HNv).
  pose proof (cm_unc _ C b u N Hu HNv) as Hc.
  destruct D' as (w & uv & Hw' & Hu' & Hj). exists uR, w, uv. split; [auto|]. split; [auto|]. split; [auto|].
  assert (Hg : good_w w N).
  { destruct (u_kind V u); cbn in Hw; try discriminate; injection Hw as <-; destruct Hc as (w0 & uv0 & G1 & G2 & _); congruence. }
  intros j i Hji. destruct (Hj j i Hji) as (x & Hx & Hxr). unfold w_uncertainty in Hx.
  destruct (get (c_indptr V w) i) as [p|] eqn:Ep; cbn [bind] in Hx; [|discriminate].
  destruct (get (c_indptr V w) (i + 1)) as [q|] eqn:Eq; cbn [bind] in Hx; [|discriminate].
  destruct (get (c_indices V w) p) as [lo|] eqn:Elo; cbn [bind] in Hx; [|discriminate].
  apply get_ok in Ep, Eq, Elo. destruct Hg as (_ & Hp & _). destruct (Hp i p q Ep Eq) as (Hpq & _).
  unfold pyget in Hx. rewrite (proj2 (Z.leb_le 0 (Z.of_nat q - 1))) in Hx by lia.
  replace (Z.to_nat (Z.of_nat q - 1)) with (q - 1) in Hx by lia.
  destruct (get (c_indices V w) (q - 1)) as [hi|] eqn:Ehi; cbn [bind] in Hx; [|discriminate]. apply get_ok in Ehi.
  injection Hx as <-. exists lo, hi. split; [exists p; auto|]. split; [exists q; split; [auto|]; split; [lia|auto]|].
  rewrite Hxr. repeat f_equal. lia.
Qed.
End M.
