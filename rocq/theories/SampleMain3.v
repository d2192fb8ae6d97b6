From Coq Require Import Permutation Sorted QArith Qround Lqa.
From Verif Require Import Base BaseLemmas ReaderModel UncModel UncProofs UncProofs2 MuModel MuProofs SampleModel SampleSpec SampleProofs SampleProofs2 SampleMain SampleMain2.
Open Scope nat_scope.

(** SampleMatchUp.run fails for every non-empty object. *)
Section M.
Context {V T : Type} (zeroV : V) (smp : nat -> list nat -> nat -> list nat).
Notation mobj := (mobj V T).

Lemma sm_select_ok (m : mobj) sf n : wf_mobj m -> is_sample smp -> (1 <= sf)%Z -> In n (n_mu (m_idx V T m)) ->
  exists l, sm_select V T smp m sf n = Ok (n, l) /\ forall i, In i l -> i < size m n.
Proof.
  intros W Hs Hsf Hin. unfold sm_select.
  set (bs := series_blocks (n_mu (m_idx V T m)) n).
  assert (Hbs : forall b, In b bs -> nth_error (n_mu (m_idx V T m)) b = Some n) by (intros b; apply in_series_blocks).
  assert (Hz : mapM (get (N_var (m_idx V T m))) bs = Ok (map (fun _ => size m n) bs)).
  { apply mapM_Ok_map. intros b Hb. apply Hbs in Hb. destruct (wf_series _ W b n Hb) as (_ & N & HN & HNv).
    rewrite (size_nth m n N HN). apply get_ok; auto. }
  rewrite Hz. cbn [bind].
  assert (Hne : bs <> []).
  { apply In_nth_error in Hin as (b & Hb). apply in_series_blocks in Hb. unfold bs. intros E. rewrite E in Hb. destruct Hb. }
  destruct bs as [|b0 bs'] eqn:Ebs; [congruence|]. rewrite <- Ebs in *.
  replace (get (map (fun _ => size m n) bs) 0) with (Ok (size m n)) by (rewrite Ebs; reflexivity). cbn [bind].
  destruct (Z.eqb_spec sf 0); [lia|]. cbn [bind].
  assert (0 <= Z.of_nat (size m n) / sf <= Z.of_nat (size m n))%Z.
  { split; [apply Z.div_pos; lia|]. apply Z.div_le_upper_bound; nia. }
  destruct (sample smp n (seq 0 (size m n)) (Z.of_nat (size m n) / sf)) as [l|] eqn:El.
  - cbn [bind]. exists (sorted l). split; [auto|]. destruct (sample_spec _ _ _ _ _ Hs El) as (_ & _ & H1).
    intros i Hi. assert (Hi' : In i l) by (eapply Permutation_in; [apply sorted_perm|auto]).
    apply H1 in Hi'. apply in_seq in Hi'. lia.
  - unfold sample in El. rewrite seq_length in El.
    rewrite (proj2 (Z.leb_le 0 _)), (proj2 (Z.leb_le _ (Z.of_nat (size m n)))) in El by lia. discriminate.
Qed.

Theorem sample_matchup_fails (m : mobj) sf : wf_mobj m -> is_sample smp -> (1 <= sf)%Z -> n_mu (m_idx V T m) <> [] ->
  sample_matchup V T zeroV smp m sf = Raise AttributeError.
Proof.
  intros W Hs Hsf Hne. unfold sample_matchup. pose proof (wf_series_set m W) as Hss. rewrite Hss.
  destruct (mapM_ok_ex (sm_select V T smp m sf) (seq 1 (length (Nm (m_idx V T m))))) as (d & Ed).
  { intros n Hn. apply in_seq in Hn. destruct (sm_select_ok m sf n W Hs Hsf) as (l & -> & _); [apply (wf_series_iff m W); lia|eauto]. }
  rewrite Ed. cbn [bind].
  assert (Hd : forall n, 1 <= n <= length (Nm (m_idx V T m)) -> exists l, dget n d = Ok l /\ forall i, In i l -> i < size m n).
  { assert (G : forall ns d, (forall n, In n ns -> 1 <= n <= length (Nm (m_idx V T m))) -> mapM (sm_select V T smp m sf) ns = Ok d ->
       forall n, In n ns -> exists l, dget n d = Ok l /\ forall i, In i l -> i < size m n).
    { clear - W Hs Hsf. induction ns as [|a ns IH]; cbn; intros d Hr E n; [intros []|].
      destruct (sm_select_ok m sf a W Hs Hsf) as (l & El & Hl); [apply (wf_series_iff m W); auto|].
      rewrite El in E. destruct (mapM _ ns) as [d'|] eqn:Em; [|discriminate]. injection E as <-. cbn.
      destruct (Nat.eqb_spec a n) as [->|Hn]; [eauto|]. intros [->|Hi]; [congruence|]. apply (IH d'); auto. }
    intros n Hn. apply (G (seq 1 (length (Nm (m_idx V T m)))) d); auto; [|apply in_seq; lia]. intros k Hk; apply in_seq in Hk; lia. }
  destruct (sampled_idx_ok (m_idx V T m) d) as (ix' & Eix).
  { intros n Hi. apply (wf_series_iff m W) in Hi. destruct (Hd n Hi) as (l & H & _). eauto. }
  { rewrite Hss, seq_length; auto. }
  rewrite Eix. cbn [bind].
  destruct (sampled_idx_spec _ _ _ Eix) as (S1 & S2 & S3 & S4 & S5 & S6 & S7 & S8 & S9 & S10); [rewrite Hss, seq_length; auto|].
  destruct (n_mu (m_idx V T m)) as [|n0 nm] eqn:Enm; [congruence|].
  destruct (m_unc V T m) as [|u us] eqn:Eu.
  { exfalso. pose proof (wf_unc _ W) as H1. pose proof (wf_blocks _ W) as H2. rewrite Eu in H1. rewrite Enm in H2. cbn in *. lia. }
  unfold fill. rewrite S4, S1, pylast_cumul. cbn [bind]. unfold enumerate. cbn [length seq combine foldM fst].
  cbn [map].
  assert (G0 : forall a l, get (cumul 0 (a :: l)) 0 = Ok 0) by reflexivity.
  assert (G1 : forall a l, get (cumul 0 (a :: l)) (0 + 1) = Ok a) by (intros a [|? ?]; reflexivity).
  rewrite G0, G1. cbn [bind].
  change (get (n0 :: nm) 0) with (Ok n0). cbn [bind].
  assert (Hb0 : nth_error (n_mu (m_idx V T m)) 0 = Some n0) by (rewrite Enm; reflexivity).
  destruct (wf_series _ W 0 n0 Hb0) as (Hn1 & N & HN & HNv).
  assert (Hn0 : 1 <= n0 <= length (Nm (m_idx V T m))).
  { apply (wf_series_iff m W). rewrite Enm. left; auto. }
  destruct (Hd n0 Hn0) as (l & -> & Hl). cbn [bind].
  destruct (pick_ok (m_values V T m) (N_var (m_idx V T m)) 0 l N) as (v & Ev).
  - apply (wf_values _ W).
  - auto.
  - intros j Hj. specialize (Hl j Hj). rewrite (size_nth m n0 N HN) in Hl. auto.
  - rewrite (wf_idxs _ W), Ev. reflexivity.
Qed.
End M.
