(** Proofs for C119: the sampled object has everything the preconditioner needs. *)
From Coq Require Import Reals Lra Permutation QArith.
From Verif Require Import Base BaseLemmas ReaderModel ReaderSpec UncModel UncProofs UncProofs2 SensorModel SensorSpec MuModel MuProofs SampleModel SampleSpec SampleProofs SampleProofs2 SampleMain SampleMain2
  TransformModel TransformSpec TransformProofs TransformMain EvalModel EvalSpec GNModel PCModel PCAlgebra PCLoop PCSpec LsmrModel EivModel EivSpec EivProofs3 FullModel FullSpec FullProofs6 GNSpec.
Open Scope nat_scope.

Lemma assign_len {A} s e (v l l' : list A) : assign s e v l = Ok l' -> length l' = length l.
Proof.
  unfold assign. assert (L : length (slice s e l) <= length l - s) by (unfold slice; rewrite firstn_length, skipn_length; lia).
  assert (Q : forall w, length w = length (slice s e l) -> length (firstn s l ++ w ++ skipn (s + length (slice s e l)) l) = length l).
  { intros w Hw. rewrite !app_length, firstn_length, skipn_length, Hw. lia. }
  destruct (length v =? length (slice s e l)) eqn:E; [apply Nat.eqb_eq in E; intros [= <-]; apply Q; exact E|].
  destruct v as [|x [|y v]]; try discriminate. intros [= <-]. apply Q. apply repeat_length.
Qed.
Lemma fill_len {A X} (z : A) (F : nat * X -> res (list A)) ns xs r : fill z (cumul 0 ns) F xs = Ok r -> length r = list_sum ns.
Proof.
  unfold fill. rewrite pylast_cumul. cbn [bind plus]. intros E.
  assert (K : forall l s s', foldM (fun arr p => do s <- get (cumul 0 ns) (fst p);; do e <- get (cumul 0 ns) (fst p + 1);; do v <- F p;; assign s e v arr) l s = Ok s' -> length s' = length s).
  { induction l as [|p l IH]; intros a a' H; cbn [foldM] in H; [injection H as <-; reflexivity|].
    destruct (get (cumul 0 ns) (fst p)) as [g1|]; cbn [bind] in H; [|discriminate]. destruct (get (cumul 0 ns) (fst p + 1)) as [g2|]; cbn [bind] in H; [|discriminate]. destruct (F p) as [fv|]; cbn [bind] in H; [|discriminate].
    destruct (assign g1 g2 fv a) eqn:Ea; cbn [bind] in H; [|discriminate]. rewrite (IH _ _ H). eapply assign_len. exact Ea. }
  rewrite (K _ _ _ E). apply repeat_length.
Qed.

Lemma sampled_ms ix d ix' : sampled_idx ix d = Ok ix' -> sensor_ms ix' = sensor_ms ix.
Proof. unfold sampled_idx. intros E. repeat (match type of E with bind ?x _ = _ => destruct x as [?|] eqn:?; cbn [bind] in E; [|discriminate] end). injection E as <-. reflexivity. Qed.

Section S.
Context {T : Type} (zeroT : T) (rms : list R -> Z -> R) (smp : nat -> list nat -> nat -> list nat).
Record sampled (m s : mobj R T) (sel : nat -> list nat) : Prop := {
  sa_Nm : Nm (m_idx R T s) = map (fun n => length (sel n)) (seq 1 (length (Nm (m_idx R T m))));
  sa_nv : N_var (m_idx R T s) = map (fun n => length (sel n)) (n_mu (m_idx R T m));
  sa_cNm : cNm (m_idx R T s) = cumul 0 (Nm (m_idx R T s));
  sa_idxs : idxs (m_idx R T s) = cumul 0 (N_var (m_idx R T s));
  sa_same : Im (m_idx R T s) = Im (m_idx R T m) /\ sensors (m_idx R T s) = sensors (m_idx R T m) /\ sensor_ms (m_idx R T s) = sensor_ms (m_idx R T m) /\
            n_sensor (m_idx R T s) = n_sensor (m_idx R T m) /\ n_mu (m_idx R T s) = n_mu (m_idx R T m) /\ n_cov (m_idx R T s) = n_cov (m_idx R T m);
  sa_ps : m_ps R T s = m_ps R T m;
  sa_values : length (m_values R T s) = list_sum (N_var (m_idx R T s));
  sa_ks : length (m_ks R T s) = list_sum (Nm (m_idx R T s));
  sa_opts : forall l, In (Some l) [m_across1 R T s; m_across2 R T s; m_along1 R T s; m_along2 R T s] -> length l = list_sum (Nm (m_idx R T s));
  sa_times : forall l, In (Some l) [m_time1 R T s; m_time2 R T s] -> length l = list_sum (Nm (m_idx R T s));
  sa_klen : length (m_unck R T s) = length (m_unck R T m);
  sa_k : forall n u, nth_error (m_unck R T m) n = Some u -> exists u', nth_error (m_unck R T s) n = Some u' /\ picks u (sel (n + 1)) u';
  sa_ulen : length (m_unc R T s) = length (m_unc R T m);
  sa_u : forall b u n, nth_error (m_unc R T m) b = Some u -> nth_error (n_mu (m_idx R T m)) b = Some n ->
     exists uR, nth_error (m_unc R T s) b = Some (mkUnc R (UK1 R uR) None) /\ length uR = length (sel n) /\
       match u_kind R u with
       | UK1 _ r => picks r (sel n) uR
       | UK2 _ r _ => picks r (sel n) uR
       | UK3 _ wi ui | UK4 _ wi ui _ => exists w uv, nth_error (m_ws R T m) wi = Some w /\ nth_error (m_us R T m) ui = Some uv /\
            forall j i, nth_error (sel n) j = Some i -> exists x, w_uncertainty R rms w uv i = Ok x /\ nth_error uR j = Some x
       end
}.
Lemma opt_len {A} z (m : mobj R T) ix' d (src : option (list A)) r l : cNm ix' = cumul 0 (Nm ix') -> sample_series_opt R T z m ix' d src = Ok r -> r = Some l -> length l = list_sum (Nm ix').
Proof.
  intros C E ->. unfold sample_series_opt in E. destruct src as [a|]; [|discriminate]. destruct (sample_series R T z m ix' d a) as [x|] eqn:Ex; cbn [bind] in E; [|discriminate]. injection E as ->.
  unfold sample_series in Ex. rewrite C in Ex. exact (fill_len _ _ _ _ _ Ex).
Qed.
Lemma sampled_facts (m s : mobj R T) sf nmax : wf_mobj m -> sample2ind R T 0%R zeroT rms smp m sf nmax = Ok s -> exists sel, sampled m s sel.
Proof.
  intros W E. destruct (sample2ind_inv 0%R zeroT rms smp m s sf nmax W E) as (sf' & d & _ & Ea & _). exists (sel_of d).
  destruct (apply_sampling_spec 0%R zeroT rms m s d W Ea) as (HS & HD & HU & HL). pose proof (wf_series_set m W) as Hss.
  unfold apply_sampling in Ea.
  destruct (sampled_idx _ _) as [ix'|] eqn:Eix; cbn [bind] in Ea; [|discriminate].
  destruct (fill _ _ _ _) as [vals|] eqn:Ev; cbn [bind] in Ea; [|discriminate].
  destruct (mapM (sampled_unc R T rms m d) _) as [uncs|] eqn:Eu; cbn [bind] in Ea; [|discriminate].
  destruct (sample_series R T 0%R m ix' d (m_ks R T m)) as [ks|] eqn:Ek; cbn [bind] in Ea; [|discriminate].
  destruct (mapM _ (enumerate (m_unck R T m))) as [unck|] eqn:Euk; cbn [bind] in Ea; [|discriminate].
  destruct (sample_series_opt _ _ _ _ _ _ (m_across1 R T m)) as [ac1|] eqn:E1; cbn [bind] in Ea; [|discriminate].
  destruct (sample_series_opt _ _ _ _ _ _ (m_across2 R T m)) as [ac2|] eqn:E2; cbn [bind] in Ea; [|discriminate].
  destruct (sample_series_opt _ _ _ _ _ _ (m_along1 R T m)) as [al1|] eqn:E3; cbn [bind] in Ea; [|discriminate].
  destruct (sample_series_opt _ _ _ _ _ _ (m_along2 R T m)) as [al2|] eqn:E4; cbn [bind] in Ea; [|discriminate].
  destruct (m_time1 R T m) as [s1|] eqn:Et1; cbn [not_none bind] in Ea; [|discriminate].
  destruct (sample_series R T zeroT m ix' d s1) as [t1|] eqn:E5; cbn [bind] in Ea; [|discriminate].
  destruct (m_time2 R T m) as [s2|] eqn:Et2; cbn [not_none bind] in Ea; [|discriminate].
  destruct (sample_series R T zeroT m ix' d s2) as [t2|] eqn:E6; cbn [bind] in Ea; [|discriminate].
  destruct (sampled_idx_spec _ _ _ Eix) as (S1 & S2 & S3 & S4 & S5 & S6 & S7 & S8 & S9 & S10); [rewrite Hss, seq_length; auto|]. pose proof (sampled_ms _ _ _ Eix) as SM.
  injection Ea as <-. cbn [m_unc] in HL, HU. constructor; cbn [m_idx m_ps m_values m_ks m_unck m_unc m_time1 m_time2 m_across1 m_across2 m_along1 m_along2]; auto.
  - rewrite S2, Hss. reflexivity.
  - auto 10.
  - rewrite S4 in Ev. exact (fill_len _ _ _ _ _ Ev).
  - unfold sample_series in Ek. rewrite S3 in Ek. exact (fill_len _ _ _ _ _ Ek).
  - intros l [H|[H|[H|[H|[]]]]]; [exact (opt_len _ _ _ _ _ _ _ S3 E1 H)|exact (opt_len _ _ _ _ _ _ _ S3 E2 H)|exact (opt_len _ _ _ _ _ _ _ S3 E3 H)|exact (opt_len _ _ _ _ _ _ _ S3 E4 H)].
  - unfold sample_series in E5, E6. rewrite S3 in E5, E6. intros l [H|[H|[]]]; injection H as <-; [exact (fill_len _ _ _ _ _ E5)|exact (fill_len _ _ _ _ _ E6)].
  - rewrite (mapM_length _ _ _ Euk). apply enumerate_length.
  - intros n u Hu. assert (He : nth_error (enumerate (m_unck R T m)) n = Some (n, u)) by (rewrite enumerate_nth, Hu; reflexivity).
    destruct (mapM_nth _ _ _ _ _ Euk He) as (v' & HF & Hv'). cbn [fst snd] in HF. destruct (dget (n + 1) d) as [sl|] eqn:Ed; cbn [bind] in HF; [|discriminate].
    exists v'. split; [exact Hv'|]. unfold sel_of. rewrite Ed. apply take_picks. exact HF.
Qed.
End S.

Section PC.
Context {T : Type} (zeroT : T) (smp : nat -> list nat -> nat -> list nat).
Variables (m s : mobj R T) (sd : sdat T) (sel : nat -> list nat).
Hypothesis (RD : ready m sd) (WR : w_rows m) (SA : sampled rms_u m s sel).

Lemma s_series b n : nth_error (n_mu (m_idx R T s)) b = Some n -> 1 <= n /\ exists N, nth_error (Nm (m_idx R T s)) (n - 1) = Some N /\ nth_error (N_var (m_idx R T s)) b = Some N.
Proof.
  destruct (sa_same _ _ _ _ SA) as (_ & _ & _ & _ & -> & _). intros H. destruct (wf_series _ (rd_wf _ _ RD) b n H) as (H1 & N & H2 & _). split; [exact H1|]. exists (length (sel n)).
  rewrite (sa_Nm _ _ _ _ SA), (sa_nv _ _ _ _ SA), !nth_error_map', H. split; [|reflexivity].
  assert (n - 1 < length (Nm (m_idx R T m))) by (apply nth_error_Some; congruence). rewrite nth_error_nth' with (d := 0) by (rewrite seq_length; lia). rewrite seq_nth by lia. cbn. repeat f_equal. lia.
Qed.
Lemma s_nmlen : length (Nm (m_idx R T s)) = length (Nm (m_idx R T m)).
Proof. rewrite (sa_Nm _ _ _ _ SA), map_length, seq_length. reflexivity. Qed.
Lemma s_wf : wf_mobj s.
Proof.
  destruct (sa_same _ _ _ _ SA) as (Q1 & Q2 & Q3 & Q4 & Q5 & Q6). pose proof (rd_wf _ _ RD) as W. constructor.
  - apply (sa_cNm _ _ _ _ SA).
  - apply (sa_idxs _ _ _ _ SA).
  - rewrite (sa_nv _ _ _ _ SA), map_length, Q5. reflexivity.
  - rewrite (sa_nv _ _ _ _ SA), map_length, (sa_ulen _ _ _ _ SA), (wf_unc _ W). symmetry. apply (wf_blocks _ W).
  - rewrite s_nmlen, (sa_klen _ _ _ _ SA). apply (wf_unck _ W).
  - apply s_series.
  - rewrite s_nmlen, Q5. apply (wf_all_series _ W).
  - apply (sa_values _ _ _ _ SA).
  - apply (sa_ks _ _ _ _ SA).
Qed.
Lemma s_unc b u' : nth_error (m_unc R T s) b = Some u' -> exists u n uR, nth_error (m_unc R T m) b = Some u /\ nth_error (n_mu (m_idx R T m)) b = Some n /\ u' = mkUnc R (UK1 R uR) None /\ length uR = length (sel n) /\
  match u_kind R u with
       | UK1 _ r => picks r (sel n) uR
       | UK2 _ r _ => picks r (sel n) uR
       | UK3 _ wi ui | UK4 _ wi ui _ => exists w uv, nth_error (m_ws R T m) wi = Some w /\ nth_error (m_us R T m) ui = Some uv /\
            forall j i, nth_error (sel n) j = Some i -> exists x, w_uncertainty R rms_u w uv i = Ok x /\ nth_error uR j = Some x
       end.
Proof.
  intros H. assert (LT : b < length (m_unc R T m)) by (rewrite <- (sa_ulen _ _ _ _ SA); apply nth_error_Some; congruence). pose proof (rd_wf _ _ RD) as W.
  destruct (nth_error (m_unc R T m) b) as [u|] eqn:Eu; [|apply nth_error_None in Eu; lia]. destruct (nth_error (n_mu (m_idx R T m)) b) as [n|] eqn:En; [|apply nth_error_None in En; pose proof (wf_unc _ W); pose proof (wf_blocks _ W); lia].
  destruct (sa_u _ _ _ _ SA b u n Eu En) as (uR & Q1 & Q2 & Q3). rewrite H in Q1. injection Q1 as ->. exists u, n, uR. auto.
Qed.
Lemma s_k n u' : nth_error (m_unck R T s) n = Some u' -> exists u, nth_error (m_unck R T m) n = Some u /\ picks u (sel (n + 1)) u'.
Proof.
  intros H. assert (LT : n < length (m_unck R T m)) by (rewrite <- (sa_klen _ _ _ _ SA); apply nth_error_Some; congruence).
  destruct (nth_error (m_unck R T m) n) as [u|] eqn:Eu; [|apply nth_error_None in Eu; lia]. destruct (sa_k _ _ _ _ SA n u Eu) as (v & Q1 & Q2). rewrite H in Q1. injection Q1 as <-. eauto.
Qed.
Lemma s_shapes : shapes_ok s.
Proof.
  destruct (sa_same _ _ _ _ SA) as (Q1 & Q2 & Q3 & Q4 & Q5 & Q6). split; [|split].
  - rewrite s_nmlen, Q1. apply (rd_shapes _ _ RD).
  - intros n u H. destruct (s_k n u H) as (u0 & H0 & (P & _)). rewrite (sa_Nm _ _ _ _ SA), nth_error_map', P. pose proof (wf_unck _ (rd_wf _ _ RD)) as L.
    assert (n < length (m_unck R T m)) by (apply nth_error_Some; congruence). rewrite nth_error_nth' with (d := 0) by (rewrite seq_length; lia). rewrite seq_nth by lia. cbn [option_map]. replace (n + 1) with (1 + n) by lia. reflexivity.
  - intros b u' N Hu HN. destruct (s_unc b u' Hu) as (u & n & uR & E1 & E2 & -> & L & _). cbn [u_kind]. rewrite (sa_nv _ _ _ _ SA), nth_error_map', E2 in HN. injection HN as <-. exact L.
Qed.
Lemma picks_in {A} (l : list A) sl v x : picks l sl v -> In x v -> In x l.
Proof.
  intros (P1 & P2) H. apply In_nth_error in H. destruct H as (j & Hj). assert (j < length sl) by (rewrite <- P1; apply nth_error_Some; congruence).
  destruct (nth_error sl j) as [i|] eqn:Ei; [|apply nth_error_None in Ei; lia]. destruct (P2 j i Ei) as (y & Y1 & Y2). rewrite Hj in Y2. injection Y2 as <-. eapply nth_error_In. exact Y1.
Qed.
Lemma rms_pos l n : (forall x, In x l -> (0 < x)%R) -> l <> [] -> (0 < n)%Z -> (0 < rms_u l n)%R.
Proof.
  intros H Hl Hn. unfold rms_u. apply Rdiv_lt_0_compat; apply sqrt_lt_R0; [|apply IZR_lt; exact Hn].
  destruct l as [|x l]; [congruence|]. cbn [map]. rewrite rsum_cons.
  assert (0 < x * x)%R by (apply Rmult_lt_0_compat; apply H; left; reflexivity).
  assert (Q : (0 <= rsum (map (fun x => x * x)%R l))%R). { clear. induction l as [|y l IH]; cbn [map]; [unfold rsum; cbn; lra|]. rewrite rsum_cons. pose proof (Rle_0_sqr y) as Y. unfold Rsqr in Y. lra. }
  lra.
Qed.
Lemma w_pos b u wi ui w uv i x : nth_error (m_unc R T m) b = Some u -> w_of (u_kind R u) = Some wi -> nth_error (m_ws R T m) wi = Some w -> nth_error (m_us R T m) ui = Some uv ->
  (forall N, nth_error (N_var (m_idx R T m)) b = Some N -> csr_shape w N (length uv)) -> w_uncertainty R rms_u w uv i = Ok x -> (0 < x)%R.
Proof.
  intros Hu Hk Hw Hv SH E. unfold w_uncertainty in E.
  destruct (get (c_indptr R w) i) as [p|] eqn:Ep; cbn [bind] in E; [|discriminate]. destruct (get (c_indptr R w) (i + 1)) as [q|] eqn:Eq; cbn [bind] in E; [|discriminate].
  destruct (get (c_indices R w) p) as [lo|] eqn:Elo; cbn [bind] in E; [|discriminate]. apply get_ok in Ep, Eq, Elo.
  assert (LB : b < length (N_var (m_idx R T m))) by (rewrite <- (wf_unc _ (rd_wf _ _ RD)); apply nth_error_Some; congruence).
  destruct (nth_error (N_var (m_idx R T m)) b) as [N|] eqn:EN; [|apply nth_error_None in EN; lia]. destruct (SH N eq_refl) as (S1 & S2 & S3 & S4 & S5 & S6).
  assert (i + 1 < length (c_indptr R w)) by (apply nth_error_Some; congruence).
  destruct (WR b u wi w i Hu Hk Hw) as (p' & q' & lo' & hi & P1 & P2 & P3 & P4 & P5 & P6); [lia|]. rewrite Ep in P1. injection P1 as <-. rewrite Eq in P2. injection P2 as <-. rewrite Elo in P4. injection P4 as <-.
  unfold pyget in E. rewrite (proj2 (Z.leb_le 0 (Z.of_nat q - 1))) in E by lia. replace (Z.to_nat (Z.of_nat q - 1)) with (q - 1) in E by lia. rewrite (proj2 (get_ok _ _ _) P5) in E. cbn [bind] in E. injection E as <-.
  apply rms_pos; [|intros Z|lia].
  - intros y Hy. apply (proj1 (proj2 (rd_pos _ _ RD)) uv y (nth_error_In _ _ Hv)). apply in_slice in Hy. destruct Hy as (k & _ & Hy). eapply nth_error_In. exact Hy.
  - assert (hi < length uv) by (apply S6; eapply nth_error_In; exact P5). assert (L : length (slice lo (hi + 1) uv) = 0) by (rewrite Z; reflexivity). unfold slice in L. rewrite firstn_length, skipn_length in L. lia.
Qed.
Lemma s_norm : normalisable s.
Proof.
  destruct (rd_pos _ _ RD) as (PK & PU & PR). split.
  - intros u Hu x Hx. apply In_nth_error in Hu. destruct Hu as (n & Hn). destruct (s_k n u Hn) as (u0 & H0 & P). pose proof (PK u0 x (nth_error_In _ _ H0) (picks_in _ _ _ _ P Hx)). lra.
  - intros b u' N Hu HN. destruct (s_unc b u' Hu) as (u & n & uR & E1 & E2 & -> & L & D). cbn [u_kind]. intros x Hx.
    pose proof (proj2 (proj2 (rd_shapes _ _ RD)) b u) as SH. pose proof (PR u) as PRu.
    assert (WP : forall wi ui, w_of (u_kind R u) = Some wi ->
       (forall N, nth_error (N_var (m_idx R T m)) b = Some N -> exists w uv, nth_error (m_ws R T m) wi = Some w /\ nth_error (m_us R T m) ui = Some uv /\ csr_shape w N (length uv)) ->
       (exists w uv, nth_error (m_ws R T m) wi = Some w /\ nth_error (m_us R T m) ui = Some uv /\
            forall j i, nth_error (sel n) j = Some i -> exists x, w_uncertainty R rms_u w uv i = Ok x /\ nth_error uR j = Some x) -> (0 < x)%R).
    { intros wi ui Ew SW (w & uv & D1 & D2 & D3). apply In_nth_error in Hx. destruct Hx as (j & Hj). assert (j < length (sel n)) by (rewrite <- L; apply nth_error_Some; congruence).
      destruct (nth_error (sel n) j) as [i|] eqn:Ei; [|apply nth_error_None in Ei; lia]. destruct (D3 j i Ei) as (y & Y1 & Y2). rewrite Hj in Y2. injection Y2 as <-.
      apply (w_pos b u wi ui w uv i x E1 Ew D1 D2); [|exact Y1]. intros N' HN'. destruct (SW N' HN') as (w' & uv' & Z1 & Z2 & Z3). rewrite D1 in Z1. injection Z1 as <-. rewrite D2 in Z2. injection Z2 as <-. exact Z3. }
    assert (0 < x)%R; [|lra].
    destruct (u_kind R u) as [r|r sy|wi ui|wi ui sy]; cbn [w_of] in WP.
    + exact (PRu r x (nth_error_In _ _ E1) (or_introl eq_refl) (picks_in _ _ _ _ D Hx)).
    + refine (PRu r x (nth_error_In _ _ E1) (or_intror _) (picks_in _ _ _ _ D Hx)). eexists. reflexivity.
    + apply (WP wi ui eq_refl); [intros N' HN'; exact (SH N' E1 HN')|exact D].
    + apply (WP wi ui eq_refl); [intros N' HN'; exact (proj1 (SH N' E1 HN'))|exact D].
Qed.
Lemma s_blocks_of k n : blocks_of (m_idx R T s) k n = blocks_of (m_idx R T m) k n.
Proof. destruct (sa_same _ _ _ _ SA) as (Q1 & Q2 & Q3 & Q4 & Q5 & Q6). unfold blocks_of. rewrite Q4, Q5. reflexivity. Qed.
Lemma s_ev : evaluable s sd.
Proof.
  destruct (sa_same _ _ _ _ SA) as (Q1 & Q2 & Q3 & Q4 & Q5 & Q6). destruct (rd_ev _ _ RD) as [A1 A2 A3 A4 A5 A6 A7 A8 A9 A10 A11 A12]. destruct s_wf as [W1 W2 W3 W4 W5 W6 W7 W8 W9]. constructor; auto.
  - split; [exact W3|]. rewrite Q4, <- W3, Q5. destruct A3 as (A3 & A3'). congruence.
  - rewrite s_nmlen, Q1. exact A7.
  - rewrite Q2. exact A8.
  - rewrite Q1, Q2. intros n p Hp. destruct (A9 n p Hp) as (B1 & B2). split; [exact B1|]. intros k Hk. rewrite s_blocks_of. exact (B2 k Hk).
  - rewrite (sa_ps _ _ _ _ SA). exact A10.
  - apply (sa_opts _ _ _ _ SA).
  - apply (sa_times _ _ _ _ SA).
Qed.
Lemma s_functions st : same_functions sd (g_sd T st) -> functions_ok s st.
Proof.
  destruct (sa_same _ _ _ _ SA) as (Q1 & Q2 & Q3 & Q4 & Q5 & Q6).
  intros (E1 & E2 & E3 & E4). split; [rewrite E4; intros k b r H; destruct (rd_adj _ _ RD k b r H) as (r' & B & Z1 & Z2 & _); eauto|].
  intros n p k name ps ms N f b X a c xt al t Hp Hs Hn Hps Hms HN Hf Hb HX HXl Ha Hc Hxt Hal Ht. rewrite E3 in Hf. rewrite E4 in Hb. rewrite E1, E2 in Hc. subst c. rewrite Q1 in Hp. rewrite Q2 in Hn. rewrite Q3 in Hms. rewrite (sa_ps _ _ _ _ SA) in Hps.
  destruct (rd_model _ _ RD n p k name ps ms N f X a xt al t Hp Hs Hn Hps Hms Hf HX HXl Ha Hxt Hal Ht) as (r & J & R1 & R2 & R3).
  destruct (rd_adj _ _ RD k b r Hb) as (r' & B & B1 & B2 & B3). exists r, J, r', B. do 3 (split; [assumption|]). split; [congruence|]. split; [congruence|].
  destruct J as [cols|].
  - unfold solver_ncov in *. rewrite Q6. exact R3.
  - destruct R3 as (b0 & u & Z1 & Z2 & _). rewrite s_blocks_of. exists b0.
    assert (LT : b0 < length (m_unc R T s)) by (rewrite (sa_ulen _ _ _ _ SA); apply nth_error_Some; congruence). destruct (nth_error (m_unc R T s) b0) as [u'|] eqn:Eu; [|apply nth_error_None in Eu; lia].
    destruct (s_unc b0 u' Eu) as (_ & _ & uR & _ & _ & -> & _). eexists. split; [exact Z1|]. split; [reflexivity|exact Logic.I].
Qed.
Lemma s_covs n p k : nth_error (Im (m_idx R T s)) n = Some p -> k = fst p \/ k = snd p ->
      exists ms, nth_error (sensor_ms (m_idx R T s)) k = Some ms /\ 1 <= ms /\
        map (fun b => nth b (n_cov (m_idx R T s)) 0) (blocks_of (m_idx R T s) k (n + 1)) = seq 1 ms.
Proof. destruct (sa_same _ _ _ _ SA) as (Q1 & Q2 & Q3 & Q4 & Q5 & Q6). rewrite s_blocks_of, Q1, Q3, Q6. apply (rd_covs _ _ RD). Qed.
Lemma s_pc d : tn_run T s = Ok d -> pc_for s (gn_init T d sd (sd_cs T sd)) (sd_a T sd).
Proof.
  intros Ed. destruct (sa_same _ _ _ _ SA) as (Q1 & Q2 & Q3 & Q4 & Q5 & Q6). constructor; cbn [gn_init g_sd g_m g_xyza].
  - apply s_wf.
  - apply s_shapes.
  - apply s_norm.
  - intros u Hu. apply In_nth_error in Hu. destruct Hu as (b & Hb). destruct (s_unc b u Hb) as (_ & _ & uR & _ & _ & -> & _). exact Logic.I.
  - exact Ed.
  - apply s_ev.
  - rewrite Q1. apply (rd_some _ _ RD).
  - unfold get_block_idxs. rewrite Q4, Q5, Q6. apply (rd_blocks _ _ RD).
  - apply s_covs.
  - destruct (rd_ps _ _ RD) as (ps & P1 & _ & P3). exists ps. rewrite (sa_ps _ _ _ _ SA). auto.
  - reflexivity.
  - reflexivity.
Qed.
Lemma s_effects st : one_effect_per_sensor s st.
Proof.
  assert (NS : forall b u, nth_error (m_unc R T s) b = Some u -> ~ has_systematic u). { intros b u H. destruct (s_unc b u H) as (_ & _ & uR & _ & _ & -> & _). unfold has_systematic. cbn. auto. }
  constructor.
  - intros n p k f X a c xt al t r b u _ _ _ _ _ H. destruct (s_unc b u H) as (_ & _ & uR & _ & _ & -> & _). eexists. reflexivity.
  - intros b k u _ H1 H2. destruct (NS _ _ H1 H2).
  - intros b b' k k' u u' j j' _ _ H1 _ H2. destruct (NS _ _ H1 H2).
  - intros b b' k n u u' _ _ _ _ H1 _ H2. destruct (NS _ _ H1 H2).
Qed.
End PC.
