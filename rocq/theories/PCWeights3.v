(** * C57: the covariance of K the solver uses is the propagated uncertainty.  Proofs only. *)
From Coq Require Import Reals Lra.
From Verif Require Import Base BaseLemmas ReaderModel UncModel MuModel MuProofs SensorSpec SampleSpec SampleProofs TransformModel TransformSpec TransformProofs TransformProofs2 TransformMain TransformMain2 TransformMain3 EvalModel EvalSpec EvalProofs GNModel GNSpec GNAlgebra GNTerms GNAdjoint GNMain GNLoop GNTotal GNForward GNForward2 GNResidual GNOutput PCModel PCSpec PCAlgebra PCMatrix PCSide PCWeights PCWeights2.
Open Scope nat_scope.

Lemma firstn_sum_mono ns n n' : n <= n' -> list_sum (firstn n ns) <= list_sum (firstn n' ns).
Proof. intros H. rewrite <- (firstn_skipn n (firstn n' ns)), list_sum_app, firstn_firstn, Nat.min_l by auto. lia. Qed.
Lemma pos_unique ns n n' N N' i i' : nth_error ns n = Some N -> nth_error ns n' = Some N' -> i < N -> i' < N' ->
  list_sum (firstn n ns) + i = list_sum (firstn n' ns) + i' -> n = n' /\ i = i'.
Proof.
  intros H1 H2 Hi Hi' E. assert (n = n'); [|subst; split; lia].
  destruct (Nat.lt_trichotomy n n') as [L|[L|L]]; [|auto|].
  - pose proof (firstn_sum_mono ns (S n) n' ltac:(lia)). rewrite (list_sum_firstn_S _ _ _ H1) in H. lia.
  - pose proof (firstn_sum_mono ns (S n') n ltac:(lia)). rewrite (list_sum_firstn_S _ _ _ H2) in H. lia.
Qed.

Lemma Forall2_fun {A B} (P : A -> B -> Prop) l r r' : (forall a b b', P a b -> P a b' -> b = b') -> Forall2 P l r -> Forall2 P l r' -> r = r'.
Proof. intros H H1. revert r'. induction H1; intros r' H2; inversion H2; subst; [auto|]. f_equal; eauto. Qed.

Section Weights.
Context {T : Type}.

Lemma series_part_fun {A} (m : mobj R T) n (o v v' : option (list A)) : series_part m n o v -> series_part m n o v' -> v = v'.
Proof. unfold series_part. destruct o, v, v'; try tauto; try congruence. intros H1 H2. f_equal. eapply is_block_fun; eauto. Qed.
Lemma side_input_fun (m : mobj R T) sd n side s s' X X' a a' c c' xt xt' al al' t t' :
  side_input m sd n side s X a c xt al t -> side_input m sd n side s' X' a' c' xt' al' t' -> s = s' /\ X = X' /\ a = a' /\ c = c' /\ xt = xt' /\ al = al' /\ t = t'.
Proof.
  intros [A1 (p & A2 & A2') A3 (nm & ps & A4 & A4' & A4'' & A4''') A5 A6 A7] [B1 (p' & B2 & B2') B3 (nm' & ps' & B4 & B4' & B4'' & B4''') B5 B6 B7].
  assert (p = p') by congruence. subst p'. assert (Hss : s' = s) by congruence. clear A2' B2'. subst s'. split; [auto|]. split.
  { eapply Forall2_fun; [|exact A3|exact B3]. intros; eapply is_block_fun; eauto. }
  assert (nm = nm') by congruence. assert (ps = ps') by congruence. subst nm' ps'.
  split; [congruence|]. split; [congruence|]. split; [eapply series_part_fun; eauto|]. split; eapply series_part_fun; eauto.
Qed.
Lemma side_sens_fun (m : mobj R T) sd a n side i l l' : side_sens m sd a n side i l -> side_sens m sd a n side i l' -> l = l'.
Proof.
  intros (s & X & as_ & c & xt & al & f & b & r & J & r' & JB & uK & H1 & H2 & H3 & H4 & H5 & H6 & H7)
    (s1 & X1 & as1 & c1 & xt1 & al1 & f1 & b1 & r1 & J1 & r1' & JB1 & uK1 & K1 & K2 & K3 & K4 & K5 & K6 & K7).
  destruct (side_input_fun _ _ _ _ _ _ _ _ _ _ _ _ _ _ _ _ _ _ H1 K1) as (<- & <- & <- & <- & <- & <- & _).
  assert (f = f1) by congruence. subst f1. rewrite H3 in K3. injection K3 as <- <-. assert (b = b1) by congruence. subst b1. rewrite H5 in K5. injection K5 as <- <-.
  assert (uK = uK1) by congruence. subst uK1. congruence.
Qed.
Lemma parts_fun (m : mobj R T) sd a p l l' : parts m sd a p l -> parts m sd a p l' -> l = l'.
Proof.
  intros (n & i & N & l0 & l1 & H1 & H2 & H3 & H4 & H5 & H6) (n' & i' & N' & l0' & l1' & K1 & K2 & K3 & K4 & K5 & K6).
  destruct (pos_unique _ _ _ _ _ _ _ H1 K1 H2 K2 ltac:(congruence)) as (<- & <-).
  rewrite (side_sens_fun _ _ _ _ _ _ _ _ H4 K4), (side_sens_fun _ _ _ _ _ _ _ _ H5 K5) in H6. congruence.
Qed.

Variables (m : mobj R T) (st : solver T) (a : list R).
Hypothesis PF : pc_for m st a.
Hypothesis FO : functions_ok m st.
Hypothesis OE : one_effect_per_sensor m st.
Notation d := (g_m T st).
Notation sd := (g_sd T st).
Notation sensor_of b := (nth b (n_sensor (m_idx R T m)) 0).
Notation total := (list_sum (Nm (m_idx R T m))).
Notation off n := (list_sum (firstn n (Nm (m_idx R T m)))).
Variables (ncol : nat).
Hypothesis Hncol : exists ps, m_ps R T m = Some ps /\ ncol = length (nodup string_dec ps).

Definition vsum (L : list (@contrib)) (i : nat) : R := rsum (map (fun q => px m i q * px m i q)%R L).
Definition jsum (c : nat) (L : list (@contrib)) (i : nat) : R := rsum (map (py m c i) L).

Definition done_to (k : nat) (VJ : list (list R) * list (list R)) : Prop :=
  exists vd jc, inv total ncol VJ vd jc /\ (forall p, off k <= p -> vd p = 1%R /\ forall c, jc c p = 0%R) /\
    forall n N, n < k -> nth_error (Nm (m_idx R T m)) n = Some N ->
      exists L0 L1, (forall i, side_sens m sd a n 0 i (at_i i L0) /\ side_sens m sd a n 1 i (at_i i L1)) /\
        forall i, i < N -> vd (off n + i) = (1 + vsum (L0 ++ L1) i)%R /\ forall c, jc c (off n + i) = jsum c (L0 ++ L1) i.

Lemma done_step k p N VJ : nth_error (Im (m_idx R T m)) k = Some p -> nth_error (Nm (m_idx R T m)) k = Some N -> done_to k VJ ->
  exists VJ', pc_series T st (solver_ncov m) VJ (k, p) = Ok VJ' /\ done_to (S k) VJ'.
Proof.
  intros Hp HN (vd & jc & I & Hz & Hd).
  destruct (series_step m st a PF FO OE ncol Hncol k p N VJ vd jc Hp HN I) as (VJ' & L0 & L1 & E & I' & SS).
  { intros q c Wq. apply inw_true in Wq. apply Hz. lia. }
  exists VJ'. split; [auto|]. eexists _, _. split; [exact I'|]. split.
  - intros q Hq. rewrite (list_sum_firstn_S _ _ _ HN) in Hq. unfold acc_v, acc_j. replace (inw (off k) N q) with false by (symmetry; apply inw_false; lia).
    destruct (Hz q ltac:(lia)) as (Z1 & Z2). split; [lra|]. intros c. rewrite Z2. lra.
  - intros n N' Hn HN'. destruct (Nat.eq_dec n k) as [->|Hnk].
    + assert (N' = N) by congruence. subst N'. exists L0, L1. split; [auto|]. intros i Hi. unfold acc_v, acc_j.
      replace (inw (off k) N (off k + i)) with true by (symmetry; apply inw_true; lia). replace (off k + i - off k) with i by lia.
      destruct (Hz (off k + i) ltac:(lia)) as (Z1 & Z2). split; [rewrite Z1; reflexivity|]. intros c. rewrite Z2, Rplus_0_l. reflexivity.
    + destruct (Hd n N' ltac:(lia) HN') as (M0 & M1 & A1 & A2). exists M0, M1. split; [auto|]. intros i Hi. destruct (A2 i Hi) as (A3 & A4).
      pose proof (firstn_sum_mono (Nm (m_idx R T m)) (S n) k ltac:(lia)) as Mo. rewrite (list_sum_firstn_S _ _ _ HN') in Mo.
      unfold acc_v, acc_j. replace (inw (off k) N (off n + i)) with false by (symmetry; apply inw_false; lia).
      split; [rewrite A3; lra|]. intros c. rewrite A4. lra.
Qed.

Lemma done_all : exists VJ, foldM (pc_series T st (solver_ncov m)) (enumerate (Im (m_idx R T m))) (eye total, repeat (repeat 0%R total) ncol) = Ok VJ /\
  done_to (length (Nm (m_idx R T m))) VJ.
Proof.
  assert (LI : length (Im (m_idx R T m)) = length (Nm (m_idx R T m))) by apply (proj1 (pf_shapes _ _ _ PF)).
  destruct (foldM_inv (pc_series T st (solver_ncov m)) (fun done VJ => done_to (length done) VJ) (enumerate (Im (m_idx R T m))) (eye total, repeat (repeat 0%R total) ncol)) as (VJ & E & D).
  - exists (fun _ => 1%R), (fun _ _ => 0%R). split; [|split; [auto|intros n N Hn; cbn in Hn; lia]]. constructor; cbn [fst snd].
    + apply eye_square.
    + intros. apply eye_entry; auto.
    + apply repeat_length.
    + intros c Hc. apply repeat_spec in Hc. subst. apply repeat_length.
    + intros c p Hc Hp. rewrite (nth_indep _ [] (repeat 0%R total)) by (rewrite repeat_length; auto). rewrite !nth_repeat. reflexivity.
  - intros done (k, p) rest VJ El D. assert (Hk : nth_error (enumerate (Im (m_idx R T m))) (length done) = Some (k, p)) by (rewrite El, nth_error_app2, Nat.sub_diag by auto; reflexivity).
    rewrite enumerate_nth in Hk. destruct (nth_error (Im (m_idx R T m)) (length done)) as [p'|] eqn:Ep; [|discriminate]. cbn in Hk. injection Hk as <- <-.
    assert (Hlt : length done < length (Im (m_idx R T m))) by (apply nth_error_Some; congruence).
    destruct (nth_error (Nm (m_idx R T m)) (length done)) as [N|] eqn:EN; [|apply nth_error_None in EN; lia].
    destruct (done_step (length done) p' N VJ Ep EN D) as (VJ' & E' & D'). exists VJ'. split; [auto|]. rewrite app_length. cbn. rewrite Nat.add_1_r. auto.
  - exists VJ. split; [auto|]. replace (length (enumerate (Im (m_idx R T m)))) with (length (Nm (m_idx R T m))) in D; [auto|]. unfold enumerate. rewrite <- LI. clear.
    generalize 0. induction (Im (m_idx R T m)); intros; cbn; auto.
Qed.

(** products of the columns are the systematic covariance *)
Lemma sys_sensor b i D k u : snd (part_of m b i D) = Some (k, u) -> exists un s, nth_error (m_unc R T m) b = Some un /\ has_systematic un /\ u_sysi R un = Some k /\
  nth_error (n_sensor (m_idx R T m)) b = Some s.
Proof.
  unfold part_of. destruct (nth_error (m_unc R T m) b) as [un|] eqn:E; [|discriminate]. unfold has_systematic. destruct (u_kind R un) eqn:Ek, (u_sysi R un) as [k'|] eqn:Es; cbn; try discriminate.
  intros H. injection H as -> _. assert (Hb : b < length (n_sensor (m_idx R T m))).
  { assert (b < length (m_unc R T m)) by (apply nth_error_Some; congruence). rewrite (wf_unc _ (pf_wf _ _ _ PF)) in H. destruct (ev_len _ _ (pf_ev _ _ _ PF)). lia. }
  exists un, (sensor_of b). rewrite Ek. do 3 (split; [auto|]). apply nth_error_nth'. auto.
Qed.

Lemma rsum_sm {A} (l : list A) n (f : A -> nat -> R) : rsum (map (fun x => sm n (f x)) l) = sm n (fun t => rsum (map (fun x => f x t) l)).
Proof. induction l as [|x l IH]; cbn [map]; rewrite ?rsum_cons; [cbn; symmetry; apply sm_zero; auto|]. rewrite IH, <- sm_plus. apply sm_ext. intros. rewrite rsum_cons. reflexivity. Qed.

Lemma col_products L L' i i' :
  sm ncol (fun c => jsum c L i * jsum c L' i')%R =
  systematic_cov (map (fun q => part_of m (fst q) i (snd q)) (at_i i L)) (map (fun q => part_of m (fst q) i' (snd q)) (at_i i' L')).
Proof.
  unfold systematic_cov, jsum, at_i. rewrite !map_map. cbn [fst snd].
  transitivity (sm ncol (fun c => rsum (map (fun q => rsum (map (fun q' => (py m c i q * py m c i' q')%R) L')) L))).
  { apply sm_ext. intros c Hc. induction L as [|q L IH]; cbn [map]; rewrite ?rsum_cons; [cbn; lra|]. rewrite <- IH. rewrite rsum_scal_l. lra. }
  transitivity (rsum (map (fun q => rsum (map (fun q' => sm ncol (fun c => (py m c i q * py m c i' q')%R)) L')) L)).
  { rewrite <- rsum_sm. f_equal. apply map_ext. intros q. symmetry. rewrite rsum_sm. reflexivity. }
  f_equal. apply map_ext. intros q. rewrite map_map. f_equal. apply map_ext. intros q'. unfold py. cbn [fst snd].
  destruct (snd (part_of m (fst q) i (snd q i))) as [(k & u)|] eqn:E1; [|apply sm_zero; intros; lra].
  destruct (snd (part_of m (fst q') i' (snd q' i'))) as [(k' & u')|] eqn:E2; [|apply sm_zero; intros; lra].
  destruct (sys_sensor _ _ _ _ _ E1) as (un & s & A1 & A2 & A3 & A4). destruct (sys_sensor _ _ _ _ _ E2) as (un' & s' & B1 & B2 & B3 & B4).
  rewrite (nth_nth_error _ _ 0 _ A4), (nth_nth_error _ _ 0 _ B4).
  pose proof (sys_col m st OE ncol Hncol _ _ _ A4 A1 A2) as Hs. pose proof (oe_num _ _ OE _ _ _ _ _ _ _ _ A4 B4 A1 B1 A2 B2 A3 B3) as Hk.
  destruct (Nat.eqb_spec k k') as [Ek|Ek].
  - assert (s = s') by tauto. subst s'. rewrite <- (sm_delta ncol (s - 1) (fun _ => (u * u')%R)) by lia. apply sm_ext. intros c Hc.
    destruct (Nat.eqb_spec s (S c)), (Nat.eqb_spec c (s - 1)); try lia; lra.
  - apply sm_zero. intros c Hc. destruct (Nat.eqb_spec s (S c)), (Nat.eqb_spec s' (S c)); try lra. exfalso. apply Ek, Hk. lia.
Qed.
End Weights.

Section Main.
Context {T : Type}.
Lemma VK_propagated (m : mobj R T) (st : solver T) a : pc_for m st a -> functions_ok m st -> one_effect_per_sensor m st ->
  exists V, calc_VK T st = Ok V /\ square V (list_sum (Nm (m_idx R T m))) /\
    (forall p, p < list_sum (Nm (m_idx R T m)) -> exists l, parts m (g_sd T st) a p l) /\
    forall p q l l', parts m (g_sd T st) a p l -> parts m (g_sd T st) a q l' -> entry V p q = propagated p q l l'.
Proof.
  intros PF FO OE. destruct (pf_ps _ _ _ PF) as (ps & Eps & Lps).
  set (ncol := length (nodup string_dec ps)). set (total := list_sum (Nm (m_idx R T m))).
  destruct (done_all m st a PF FO OE ncol (ex_intro _ ps (conj Eps eq_refl))) as (VJ & E & vd & jc & I & _ & Hd). fold total in E, I.
  destruct (run_layout m (g_m T st) (pf_wf _ _ _ PF) (pf_shapes _ _ _ PF) (pf_run _ _ _ PF)) as ((S1 & S2 & S3 & S4 & S5 & S6 & S7 & S8 & S9 & S10 & _) & _).
  destruct (solver_facts (pm m) (pst m st) (SF' m st a PF)) as (nv & ns & St & _ & _ & _ & _ & _ & Hmps & _).
  change (m_ps R T (g_m T st) = m_ps R T m) in Hmps.
  pose proof (ncov_ok (pm m) (pst m st) (SF' m st a PF)) as Hnc. change (pylast (n_cov (m_idx R T (g_m T st))) = Ok (solver_ncov m)) in Hnc.
  assert (EV : calc_VK T st = Ok (mat_add (fst VJ) (col_gram total (snd VJ)))).
  { unfold calc_VK. cbv zeta. rewrite S4, (wf_cnm _ (pf_wf _ _ _ PF)), pylast_cumul. cbn [bind]. rewrite Hnc. cbn [bind]. rewrite Hmps, Eps. cbn [bind].
    rewrite S2. cbn [Nat.add]. fold total. fold ncol. rewrite E. reflexivity. }
  eexists. split; [exact EV|]. destruct I as [I1 I2 I3 I4 I5].
  split; [apply mat_add_square; [auto|apply col_gram_square]|].
  assert (POS : forall p, p < total -> exists n N i, nth_error (Nm (m_idx R T m)) n = Some N /\ i < N /\ p = list_sum (firstn n (Nm (m_idx R T m))) + i).
  { unfold total. clear. induction (Nm (m_idx R T m)) as [|N ns IH]; intros p Hp; [cbn in Hp; lia|].
    destruct (Nat.lt_ge_cases p N); [exists 0, N, p; cbn; auto|].
    unfold list_sum in Hp. cbn [fold_right] in Hp. fold (list_sum ns) in Hp. destruct (IH (p - N) ltac:(lia)) as (n & N' & i & H1 & H2 & H3).
    exists (S n), N', i. split; [auto|]. split; [auto|]. unfold list_sum. cbn. fold (list_sum (firstn n ns)). lia. }
  assert (PRT : forall p, p < total -> exists n N i L0 L1, nth_error (Nm (m_idx R T m)) n = Some N /\ i < N /\ p = list_sum (firstn n (Nm (m_idx R T m))) + i /\
     parts m (g_sd T st) a p (map (fun q => part_of m (fst q) i (snd q)) (at_i i (L0 ++ L1))) /\
     vd p = (1 + vsum m (L0 ++ L1) i)%R /\ forall c, jc c p = jsum m c (L0 ++ L1) i).
  { intros p Hp. destruct (POS p Hp) as (n & N & i & H1 & H2 & H3).
    destruct (Hd n N) as (L0 & L1 & SS & HH); [apply nth_error_Some; congruence|auto|]. exists n, N, i, L0, L1. do 3 (split; [auto|]). destruct (HH i H2) as (HV & HJ). rewrite H3. split; [|auto].
    exists n, i, N, (at_i i L0), (at_i i L1). destruct (SS i) as (SA & SB). do 5 (split; [auto|]). unfold at_i. rewrite map_app. reflexivity. }
  split. { intros p Hp. destruct (PRT p Hp) as (n & N & i & L0 & L1 & _ & _ & _ & HP & _). eauto. }
  assert (LT : forall p l, parts m (g_sd T st) a p l -> p < total).
  { intros p l (n & i & N & l0 & l1 & H1 & H2 & H3 & _). subst p. unfold total. pose proof (firstn_sum_mono (Nm (m_idx R T m)) (S n) (length (Nm (m_idx R T m)))) as Mo.
    rewrite (list_sum_firstn_S _ _ _ H1), firstn_all in Mo. assert (n < length (Nm (m_idx R T m))) by (apply nth_error_Some; congruence). lia. }
  intros p q l l' Hl Hl'. pose proof (LT _ _ Hl) as Hp. pose proof (LT _ _ Hl') as Hq.
  destruct (PRT p Hp) as (n & N & i & L0 & L1 & A1 & A2 & A3 & A4 & A5 & A6). destruct (PRT q Hq) as (n' & N' & i' & L0' & L1' & B1 & B2 & B3 & B4 & B5 & B6).
  rewrite (parts_fun _ _ _ _ _ _ Hl A4), (parts_fun _ _ _ _ _ _ Hl' B4).
  rewrite (mat_add_entry _ _ total p q) by (auto; apply col_gram_square). rewrite col_gram_entry by auto. rewrite I2 by auto. rewrite I3.
  unfold propagated. rewrite <- (col_products m st a PF OE ncol (ex_intro _ ps (conj Eps eq_refl))). f_equal.
  - destruct (p =? q); [|reflexivity]. rewrite A5. unfold random_var. f_equal. unfold vsum, at_i. rewrite !map_map. reflexivity.
  - apply sm_ext. intros c Hc. rewrite !I5 by auto. rewrite A6, B6. reflexivity.
Qed.
End Main.
