From Coq Require Import Permutation Sorted QArith Qround Lqa.
From Verif Require Import Base BaseLemmas ReaderModel UncModel UncProofs UncProofs2 MuModel MuProofs SampleModel SampleSpec SampleProofs SampleProofs2.
Open Scope nat_scope.

Lemma qint_floor q : (0 <= q)%Q -> qint q = Qfloor q.
Proof.
  destruct q as [a b]. unfold Qle, qint, Qfloor. cbn. intros H. apply Z.quot_div_nonneg; lia.
Qed.
Lemma qint_le q : (0 <= q)%Q -> (inject_Z (qint q) <= q)%Q.
Proof. intros H. rewrite qint_floor by auto. apply Qfloor_le. Qed.
Lemma qint_nonneg q : (0 <= q)%Q -> (0 <= qint q)%Z.
Proof. intros H. rewrite qint_floor by auto. rewrite <- (Qfloor_Z 0). apply Qfloor_resp_le. auto. Qed.
Lemma inject_Z_nonneg n : (0 <= inject_Z (Z.of_nat n))%Q.
Proof. unfold Qle; cbn. lia. Qed.
Lemma Qmult_nonneg a b : (0 <= a -> 0 <= b -> 0 <= a * b)%Q.
Proof. intros. apply Qmult_le_0_compat; auto. Qed.

Lemma eff_spec total sf n_max sf' : (0 <= sf)%Q -> (0 <= n_max)%Z -> effective_sf total sf n_max = Ok sf' ->
  (0 <= sf')%Q /\ (sf' <= sf)%Q /\ (inject_Z (Z.of_nat total) * sf' <= inject_Z n_max)%Q.
Proof.
  intros Hsf Hn. unfold effective_sf. destruct (Qle_bool _ _) eqn:E.
  - intros H; injection H as <-. apply Qle_bool_iff in E. split; [auto|]. split; [apply Qle_refl|auto].
  - destruct (total =? 0) eqn:Et; [discriminate|]. intros H; injection H as <-. apply Nat.eqb_neq in Et.
    assert (E' : ~ (inject_Z (Z.of_nat total) * sf <= inject_Z n_max)%Q).
    { intros H. apply Qle_bool_iff in H. congruence. }
    apply Qnot_le_lt in E'.
    assert (Ht : (0 < inject_Z (Z.of_nat total))%Q) by (unfold Qlt; cbn; lia).
    assert (Hm : (0 <= inject_Z n_max)%Q) by (unfold Qle; cbn; lia).
    split; [|split].
    + apply Qle_shift_div_l; auto.
    + apply Qle_shift_div_r; auto. rewrite Qmult_comm. apply Qlt_le_weak; auto.
    + rewrite Qmult_comm, Qmult_comm. rewrite Qmult_div_r; [apply Qle_refl|]. intros H. rewrite H in Ht. discriminate.
Qed.
Lemma eff_total total sf n_max : (0 <= sf)%Q -> (0 <= n_max)%Z -> exists sf', effective_sf total sf n_max = Ok sf'.
Proof.
  intros Hsf Hn. unfold effective_sf. destruct (Qle_bool _ _) eqn:E; [eauto|].
  destruct (total =? 0) eqn:Et; [|eauto]. apply Nat.eqb_eq in Et. subst total. exfalso.
  assert (H : (inject_Z (Z.of_nat 0) * sf <= inject_Z n_max)%Q).
  { rewrite Qmult_0_l. unfold Qle; cbn; lia. }
  apply Qle_bool_iff in H. congruence.
Qed.

Section M.
Context {V T : Type} (zeroV : V) (zeroT : T) (rms : list V -> Z -> V)
        (smp : nat -> list nat -> nat -> list nat).
Notation mobj := (mobj V T).
Notation sample2ind := (sample2ind V T zeroV zeroT rms smp).

Lemma sample2ind_inv (m m' : mobj) sf nmax : wf_mobj m -> sample2ind m sf nmax = Ok m' ->
  exists sf' d, effective_sf (list_sum (Nm (m_idx V T m))) sf nmax = Ok sf' /\
    apply_sampling V T zeroV zeroT rms m d = Ok m' /\
    forall n, In n (n_mu (m_idx V T m)) -> select_series V T smp m sf' n = Ok (sel_of d n).
Proof.
  intros W. unfold SampleModel.sample2ind. rewrite (wf_cnm _ W), pylast_cumul. cbn [bind plus].
  destruct (effective_sf _ _ _) as [sf'|] eqn:Ef; cbn [bind]; [|discriminate].
  destruct (sampling_idxs V T smp m sf') as [d|] eqn:Ed; cbn [bind]; [|discriminate].
  intros E. exists sf', d. split; [auto|]. split; [auto|].
  intros n Hn. unfold sampling_idxs in Ed. rewrite (wf_series_set m W) in Ed.
  destruct (dict_spec _ _ _ Ed n) as (l & Hl & Hd).
  - apply (wf_series_iff m W) in Hn. apply in_seq. lia.
  - unfold sel_of. rewrite Hd. auto.
Qed.

Lemma share_meets (m : mobj) n ws : (forall w, In w ws <-> series_w m n w) ->
  forall i j, share_column m n i j <-> meets ws i j.
Proof.
  intros H i j. unfold share_column, meets. split; intros (w & c & Hw & R); exists w, c; (split; [apply H; auto|auto]).
Qed.

Theorem sampled_independent (m m' : mobj) sf nmax : wf_mobj m -> is_sample smp -> sample2ind m sf nmax = Ok m' ->
  exists sel, holds_selection m m' sel /\
    forall n i j, 1 <= n <= length (Nm (m_idx V T m)) -> In i (sel n) -> In j (sel n) -> i <> j ->
      ~ share_column m n i j.
Proof.
  intros W Hs E. destruct (sample2ind_inv _ _ _ _ W E) as (sf' & d & _ & Ea & Hd).
  exists (sel_of d). split; [eapply apply_sampling_spec; eauto|].
  intros n i j Hn Hi Hj Hne. apply (wf_series_iff m W) in Hn.
  destruct (select_spec smp m sf' n _ W Hs Hn (Hd n Hn)) as (ws & Hws & _ & _ & Hdis & _).
  rewrite (share_meets m n ws Hws). intros (w & c & Hw & Hc). apply (Hdis i j Hi Hj Hne w Hw c Hc).
Qed.

Theorem sampled_aligned (m m' : mobj) sf nmax : wf_mobj m -> is_sample smp -> sample2ind m sf nmax = Ok m' ->
  exists sel, holds_selection m m' sel /\
    forall n, 1 <= n <= length (Nm (m_idx V T m)) -> NoDup (sel n).
Proof.
  intros W Hs E. destruct (sample2ind_inv _ _ _ _ W E) as (sf' & d & _ & Ea & Hd).
  exists (sel_of d). split; [eapply apply_sampling_spec; eauto|].
  intros n Hn. apply (wf_series_iff m W) in Hn.
  destruct (select_spec smp m sf' n _ W Hs Hn (Hd n Hn)) as (ws & Hws & H & _). auto.
Qed.

Lemma size_nth (m : mobj) n N : nth_error (Nm (m_idx V T m)) (n - 1) = Some N -> size m n = N.
Proof. intros H. unfold size. apply nth_nth_error; auto. Qed.

Lemma sum_bound (f : nat -> nat) (g : nat -> nat) sf ns :
  (forall n, In n ns -> (inject_Z (Z.of_nat (f n)) <= inject_Z (Z.of_nat (g n)) * sf)%Q) ->
  (inject_Z (Z.of_nat (list_sum (map f ns))) <= inject_Z (Z.of_nat (list_sum (map g ns))) * sf)%Q.
Proof.
  induction ns as [|n ns IH]; intros H.
  - cbn. rewrite Qmult_0_l. apply Qle_refl.
  - cbn [map list_sum fold_right]. change (fold_right Nat.add 0 (map f ns)) with (list_sum (map f ns)).
    change (fold_right Nat.add 0 (map g ns)) with (list_sum (map g ns)).
    rewrite !Nat2Z.inj_add, !inject_Z_plus, Qmult_plus_distr_l. apply Qplus_le_compat; [apply H; left; auto|].
    apply IH. intros; apply H; right; auto.
Qed.

Theorem sampled_sizes (m m' : mobj) sf nmax : wf_mobj m -> is_sample smp -> (0 <= sf)%Q -> (0 <= nmax)%Z ->
  sample2ind m sf nmax = Ok m' ->
  length (Nm (m_idx V T m')) = length (Nm (m_idx V T m)) /\
  (forall n N N', nth_error (Nm (m_idx V T m)) n = Some N -> nth_error (Nm (m_idx V T m')) n = Some N' ->
     (inject_Z (Z.of_nat N') <= inject_Z (Z.of_nat N) * sf)%Q) /\
  (Z.of_nat (list_sum (Nm (m_idx V T m'))) <= nmax)%Z.
Proof.
  intros W Hs Hsf Hnm E. destruct (sample2ind_inv _ _ _ _ W E) as (sf' & d & Ef & Ea & Hd).
  destruct (eff_spec _ _ _ _ Hsf Hnm Ef) as (F1 & F2 & F3).
  destruct (apply_sampling_spec _ _ _ _ _ _ W Ea) as ((_ & _ & _ & _ & _ & _ & HNm & HlN & _) & _).
  assert (Hb : forall n, 1 <= n <= length (Nm (m_idx V T m)) ->
     (inject_Z (Z.of_nat (length (sel_of d n))) <= inject_Z (Z.of_nat (size m n)) * sf')%Q).
  { intros n Hn. apply (wf_series_iff m W) in Hn.
    destruct (select_spec smp m sf' n _ W Hs Hn (Hd n Hn)) as (ws & _ & _ & H & _).
    eapply Qle_trans; [rewrite <- Zle_Qle; exact H|]. apply qint_le. apply Qmult_nonneg; [apply inject_Z_nonneg|auto]. }
  split; [auto|]. split.
  - intros n N N' HN HN'. assert (Hn : n < length (Nm (m_idx V T m))) by (apply nth_error_Some; congruence).
    specialize (HNm (S n)). cbn in HNm. rewrite Nat.sub_0_r in HNm. rewrite HNm in HN' by lia. injection HN' as <-.
    eapply Qle_trans; [apply Hb; lia|]. rewrite (size_nth m (S n) N) by (cbn; rewrite Nat.sub_0_r; auto).
    apply Qmult_le_compat_nonneg; split; auto using Qle_refl, inject_Z_nonneg.
  - assert (E1 : Nm (m_idx V T m') = map (fun n => length (sel_of d n)) (seq 1 (length (Nm (m_idx V T m))))).
    { apply nth_error_ext. intros i. rewrite nth_error_map'.
      destruct (Nat.lt_ge_cases i (length (Nm (m_idx V T m)))) as [Hi|Hi].
      - specialize (HNm (S i)). cbn in HNm. rewrite Nat.sub_0_r in HNm. rewrite HNm by lia.
        rewrite nth_error_nth' with (d := 0) (l := seq _ _) by (rewrite seq_length; auto). rewrite seq_nth by auto. reflexivity.
      - rewrite (proj2 (nth_error_None (Nm (m_idx V T m')) i)) by lia.
        rewrite (proj2 (nth_error_None (seq _ _) i)) by (rewrite seq_length; lia). reflexivity. }
    assert (E2 : Nm (m_idx V T m) = map (size m) (seq 1 (length (Nm (m_idx V T m))))).
    { apply nth_error_ext. intros i. rewrite nth_error_map'.
      destruct (nth_error (Nm (m_idx V T m)) i) as [N|] eqn:EN.
      - assert (Hi : i < length (Nm (m_idx V T m))) by (apply nth_error_Some; congruence).
        rewrite nth_error_nth' with (d := 0) (l := seq _ _) by (rewrite seq_length; auto). rewrite seq_nth by auto.
        cbn. f_equal. symmetry. apply size_nth. cbn. rewrite Nat.sub_0_r. auto.
      - apply nth_error_None in EN.
        rewrite (proj2 (nth_error_None (seq _ _) i)) by (rewrite seq_length; lia). reflexivity. }
    rewrite Zle_Qle. eapply Qle_trans; [|exact F3]. rewrite E1.
    rewrite (f_equal list_sum E2). apply sum_bound. intros n Hn. apply in_seq in Hn. apply Hb. lia.
Qed.

Theorem sampled_type1 (m m' : mobj) sf nmax : wf_mobj m -> is_sample smp -> sample2ind m sf nmax = Ok m' ->
  exists sel, holds_selection m m' sel /\ length (m_unc V T m') = length (m_unc V T m) /\
   forall b u n, nth_error (m_unc V T m) b = Some u -> nth_error (n_mu (m_idx V T m)) b = Some n ->
     exists uR, nth_error (m_unc V T m') b = Some (mkUnc V (UK1 V uR) None) /\ length uR = length (sel n) /\
       match u_kind V u with
       | UK1 _ r => picks r (sel n) uR
       | UK2 _ r _ => picks r (sel n) uR
       | _ => True
       end.
Proof.
  intros W Hs E. destruct (sample2ind_inv _ _ _ _ W E) as (sf' & d & _ & Ea & Hd).
  destruct (apply_sampling_spec _ _ _ _ _ _ W Ea) as (H1 & _ & H3 & H4).
  exists (sel_of d). split; [auto|]. split; [auto|].
  intros b u n Hu Hn. destruct (H3 b u n Hu Hn) as (uR & A & B & C). exists uR. split; [auto|]. split; [auto|].
  destruct (u_kind V u); auto.
Qed.

(** *** maximality *)
Lemma nrows_good (ws : list (csr V)) N : ws <> [] -> (forall w, In w ws -> good_w w N) -> nrows_common V ws = N.
Proof.
  intros Hne Hw. unfold nrows_common. destruct ws as [|w0 ws0]; [congruence|]. cbn [map].
  assert (H0 : length (c_indptr V w0) - 1 = N).
  { destruct (Hw w0) as (H & _); [left; auto|]. lia. }
  rewrite H0.
  assert (Hall : forall w, In w ws0 -> length (c_indptr V w) - 1 = N).
  { intros w Hi. destruct (Hw w) as (H & _); [right; auto|]. lia. }
  clear - Hall. induction ws0 as [|w ws IH]; cbn; auto. rewrite (Hall w) by (left; auto).
  rewrite Nat.min_id. apply IH. intros; apply Hall; right; auto.
Qed.

Lemma series_w_good (m : mobj) n w : wf_mobj m -> complete_mobj m -> series_w m n w -> good_w w (size m n).
Proof.
  intros W C (b & u & wi & Hb & Hu & Hw & Hws).
  destruct (wf_series _ W b n Hb) as (_ & N & HN & HNv). rewrite (size_nth m n N HN).
  pose proof (cm_unc _ C b u N Hu HNv) as H.
  destruct (u_kind V u); cbn in Hw; try discriminate; destruct H as (w' & uv & Hw' & Hg & _); congruence.
Qed.

Lemma SS_bounded_length l a b : StronglySorted lt l -> (forall i, In i l -> a <= i < b) -> length l <= b - a.
Proof.
  revert a. induction l as [|x l IH]; cbn; intros a Hs Hb; [lia|]. inversion Hs; subst.
  rewrite Forall_forall in H2. pose proof (Hb x (or_introl eq_refl)).
  specialize (IH (S x) H1). assert (length l <= b - S x); [|lia]. apply IH.
  intros i Hi. specialize (H2 i Hi). specialize (Hb i (or_intror Hi)). lia.
Qed.

Theorem sampled_maximal (m m' : mobj) nmax : wf_mobj m -> complete_mobj m -> is_sample smp ->
  (Z.of_nat (list_sum (Nm (m_idx V T m))) <= nmax)%Z ->
  sample2ind m 1 nmax = Ok m' ->
  exists sel, holds_selection m m' sel /\
    forall n N, nth_error (Nm (m_idx V T m)) (n - 1) = Some N -> (exists w, series_w m n w) ->
      StronglySorted lt (sel n) /\
      (0 < N -> nth_error (sel n) 0 = Some 0) /\
      (forall r, r < N -> ~ In r (sel n) -> exists i, In i (sel n) /\ i < r /\ share_column m n i r).
Proof.
  intros W C Hs Hmax E. destruct (sample2ind_inv _ _ _ _ W E) as (sf' & d & Ef & Ea & Hd).
  assert (Esf : sf' = 1%Q).
  { unfold effective_sf in Ef. destruct (Qle_bool _ _) eqn:Eq; [congruence|]. exfalso.
    assert (H : (inject_Z (Z.of_nat (list_sum (Nm (m_idx V T m)))) * 1 <= inject_Z nmax)%Q).
    { rewrite Qmult_1_r. rewrite <- Zle_Qle. auto. }
    apply Qle_bool_iff in H. congruence. }
  subst sf'. exists (sel_of d). split; [eapply apply_sampling_spec; eauto|].
  intros n N HN (w0 & Hw0).
  assert (Hin : In n (n_mu (m_idx V T m))).
  { destruct Hw0 as (b & _ & _ & Hb & _). eapply nth_error_In; eauto. }
  destruct (select_spec smp m 1 n _ W Hs Hin (Hd n Hin)) as (ws & Hws & Hnd & Hlen & Hdis & _ & Hg).
  assert (Hne : ws <> []) by (intros ->; apply (proj2 (Hws w0)); auto).
  destruct (Hg Hne) as (g & Eg & _ & Heq).
  assert (Hgood : forall w, In w ws -> good_w w N).
  { intros w Hw. rewrite <- (size_nth m n N HN). apply series_w_good; auto. apply Hws; auto. }
  destruct (greedy_inv ws g Hne Eg) as (G1 & G2 & G3 & G4). rewrite (nrows_good ws N Hne Hgood) in *.
  assert (Hsz : qint (inject_Z (Z.of_nat (size m n)) * 1) = Z.of_nat N).
  { rewrite (size_nth m n N HN). unfold qint. cbn. rewrite Z.mul_1_r. apply Z.quot_1_r. }
  rewrite Hsz in *. rewrite Heq.
  2:{ pose proof (SS_bounded_length g 0 N G1) as H. assert (length g <= N - 0); [|lia].
      apply H. intros i Hi. specialize (G2 i Hi). lia. }
  split; [auto|]. split.
  - intros HN0. destruct (in_dec Nat.eq_dec 0 g) as [Hi|Hi].
    + destruct g as [|x g]; [destruct Hi|]. cbn. destruct Hi as [->|Hi]; [auto|].
      inversion G1; subst. rewrite Forall_forall in H2. specialize (H2 0 Hi). lia.
    + destruct (G4 0 HN0 Hi) as (i & _ & Hlt & _). lia.
  - intros r Hr Hn. destruct (G4 r Hr Hn) as (i & Hi & Hlt & Hm). exists i. split; [auto|]. split; [auto|].
    apply (share_meets m n ws Hws); auto.
Qed.

(** *** order *)
Theorem sampled_order (m m' : mobj) sf nmax : wf_mobj m -> is_sample smp -> sample2ind m sf nmax = Ok m' ->
  exists sel, holds_selection m m' sel /\
    forall n, 1 <= n <= length (Nm (m_idx V T m)) -> (forall w, ~ series_w m n w) -> StronglySorted lt (sel n).
Proof.
  intros W Hs E. destruct (sample2ind_inv _ _ _ _ W E) as (sf' & d & _ & Ea & Hd).
  exists (sel_of d). split; [eapply apply_sampling_spec; eauto|].
  intros n Hn Hno. apply (wf_series_iff m W) in Hn.
  destruct (select_spec smp m sf' n _ W Hs Hn (Hd n Hn)) as (ws & Hws & _ & _ & _ & H & _).
  apply H. destruct ws as [|w ws]; [auto|]. exfalso. apply (Hno w). apply Hws. left; auto.
Qed.

(** *** success *)
Lemma select_ok (m : mobj) sf n : wf_mobj m -> complete_mobj m -> is_sample smp -> (0 <= sf <= 1)%Q ->
  In n (n_mu (m_idx V T m)) ->
  exists l, select_series V T smp m sf n = Ok l /\ forall i, In i l -> i < size m n.
Proof.
  intros W C Hs (Hs0 & Hs1) Hin.
  assert (Hk0 : (0 <= qint (inject_Z (Z.of_nat (size m n)) * sf))%Z).
  { apply qint_nonneg. apply Qmult_nonneg; auto using inject_Z_nonneg. }
  assert (Hk1 : (qint (inject_Z (Z.of_nat (size m n)) * sf) <= Z.of_nat (size m n))%Z).
  { rewrite Zle_Qle. eapply Qle_trans; [apply qint_le; apply Qmult_nonneg; auto using inject_Z_nonneg|].
    rewrite <- (Qmult_1_r (inject_Z (Z.of_nat (size m n)))) at 2.
    apply Qmult_le_compat_nonneg; split; auto using Qle_refl, inject_Z_nonneg. }
  assert (Hsel : exists l, select_series V T smp m sf n = Ok l).
  { unfold select_series.
    set (bs := series_blocks (n_mu (m_idx V T m)) n).
    assert (Hbs : forall b, In b bs -> nth_error (n_mu (m_idx V T m)) b = Some n) by (intros b; apply in_series_blocks).
    assert (Hz : mapM (get (N_var (m_idx V T m))) bs = Ok (map (fun _ => size m n) bs)).
    { apply mapM_Ok_map. intros b Hb. apply Hbs in Hb. destruct (wf_series _ W b n Hb) as (_ & N & HN & HNv).
      rewrite (size_nth m n N HN). apply get_ok; auto. }
    rewrite Hz. cbn [bind].
    assert (Hne : bs <> []).
    { apply In_nth_error in Hin as (b & Hb). apply in_series_blocks in Hb. unfold bs. intros E. rewrite E in Hb. destruct Hb. }
    destruct bs as [|b0 bs'] eqn:Ebs; [congruence|]. rewrite <- Ebs in *.
    replace (get (map (fun _ => size m n) bs) 0) with (Ok (size m n)) by (rewrite Ebs; reflexivity). cbn [bind].
    destruct (mapM_ok_ex (get (m_unc V T m)) bs) as (us & Eu).
    { intros b Hb. apply Hbs in Hb. destruct (wf_series _ W b n Hb) as (_ & N & _ & HNv).
      assert (b < length (m_unc V T m)) by (rewrite (wf_unc _ W); apply nth_error_Some; congruence).
      destruct (nth_error (m_unc V T m) b) as [u|] eqn:E; [exists u; apply get_ok; auto|apply nth_error_None in E; lia]. }
    rewrite Eu. cbn [bind].
    assert (Hus : forall u, In u us -> exists b, nth_error (n_mu (m_idx V T m)) b = Some n /\ nth_error (m_unc V T m) b = Some u).
    { intros u Hu. apply In_nth_error in Hu as (j & Hj). pose proof (mapM_length _ _ _ Eu) as Hl.
      destruct (nth_error bs j) as [b|] eqn:Eb.
      - destruct (mapM_nth _ _ _ _ _ Eu Eb) as (u' & Hg & Hn'). rewrite Hj in Hn'. injection Hn' as <-.
        exists b. split; [apply Hbs; eapply nth_error_In; eauto|apply get_ok; auto].
      - apply nth_error_None in Eb. assert (j < length us) by (apply nth_error_Some; congruence). lia. }
    set (wi := flat_map (fun u => w_index V (u_kind V u)) us).
    destruct (length wi =? 0).
    - unfold sample. rewrite seq_length. rewrite (proj2 (Z.leb_le _ _) Hk0), (proj2 (Z.leb_le _ _) Hk1). cbn. eauto.
    - unfold get_sample_idxs.
      assert (Hwi : forall i, In i wi -> exists w, get (m_ws V T m) i = Ok w /\ good_w w (size m n)).
      { intros i Hi. unfold wi in Hi. apply in_flat_map in Hi as (u & Hu & Hi).
        destruct (Hus u Hu) as (b & Hb & Hub). destruct (wf_series _ W b n Hb) as (_ & N & HN & HNv).
        rewrite (size_nth m n N HN). pose proof (cm_unc _ C b u N Hub HNv) as Hc.
        destruct (u_kind V u); cbn in Hi; try contradiction; destruct Hi as [<-|[]]; destruct Hc as (w & uv & H1 & H2 & _);
          exists w; (split; [apply get_ok; auto|auto]). }
      destruct (mapM_ok_ex (get (m_ws V T m)) wi) as (ws & Ew).
      { intros i Hi. destruct (Hwi i Hi) as (w & H & _). eauto. }
      rewrite Ew. cbn [bind].
      destruct (greedy_ok ws (size m n)) as (g & ->).
      { intros w Hw. apply In_nth_error in Hw as (j & Hj). pose proof (mapM_length _ _ _ Ew) as Hl.
        destruct (nth_error wi j) as [i|] eqn:Ei.
        - destruct (mapM_nth _ _ _ _ _ Ew Ei) as (w' & Hg & Hn'). rewrite Hj in Hn'. injection Hn' as <-.
          destruct (Hwi i) as (w2 & H1 & H2); [eapply nth_error_In; eauto|]. congruence.
        - apply nth_error_None in Ei. assert (j < length ws) by (apply nth_error_Some; congruence). lia. }
      cbn [bind]. set (k := qint _) in *.
      destruct (k <? Z.of_nat (length g))%Z eqn:Elt.
      + apply Z.ltb_lt in Elt. destruct (sample smp n g k) as [s|] eqn:Esm.
        * destruct (sample_spec _ _ _ _ _ Hs Esm) as (S1 & _). cbn [bind].
          rewrite (proj2 (Z.ltb_ge k (Z.of_nat (length s)))) by lia. eauto.
        * unfold sample in Esm. rewrite (proj2 (Z.leb_le _ _) Hk0) in Esm.
          rewrite (proj2 (Z.leb_le k (Z.of_nat (length g)))) in Esm by lia. discriminate.
      + cbn [bind]. rewrite Elt. eauto. }
  destruct Hsel as (l & El). exists l. split; [auto|].
  destruct (select_spec smp m sf n _ W Hs Hin El) as (ws & Hws & _ & _ & _ & H1 & H2).
  destruct ws as [|w ws]; [apply H1; auto|].
  assert (Hne : w :: ws <> []) by discriminate. destruct (H2 Hne) as (g & Eg & Hsub & _).
  intros i Hi. apply Hsub in Hi.
  destruct (greedy_inv _ g Hne Eg) as (_ & G2 & _).
  rewrite (nrows_good _ (size m n)) in G2; [auto|exact Hne|].
  intros w' Hw'. apply series_w_good; auto. apply Hws; auto.
Qed.
End M.
