(** * C57: the covariance of K the solver uses is the propagated uncertainty.  Proofs only. *)
From Coq Require Import Reals Lra.
From Verif Require Import Base BaseLemmas ReaderModel UncModel MuModel MuProofs SensorSpec SampleSpec SampleProofs TransformModel TransformSpec TransformProofs TransformProofs2 TransformMain TransformMain2 TransformMain3 EvalModel EvalSpec EvalProofs GNModel GNSpec GNAlgebra GNTerms GNAdjoint GNMain GNLoop GNTotal GNForward GNForward2 GNResidual GNOutput PCModel PCSpec PCAlgebra PCMatrix PCSide PCWeights.
Open Scope nat_scope.

Section Weights.
Context {T : Type}.
Variables (m : mobj R T) (st : solver T) (a : list R).
Hypothesis PF : pc_for m st a.
Hypothesis FO : functions_ok m st.
Hypothesis OE : one_effect_per_sensor m st.
Notation d := (g_m T st).
Notation sd := (g_sd T st).
Notation sensor_of b := (nth b (n_sensor (m_idx R T m)) 0).
Notation total := (list_sum (Nm (m_idx R T m))).
Definition SLd : same_labels m d := proj1 (run_layout m d (pf_wf _ _ _ PF) (pf_shapes _ _ _ PF) (pf_run _ _ _ PF)).

Definition contrib : Type := nat * (nat -> R).
Definition px (i : nat) (q : contrib) : R := fst (part_of m (fst q) i (snd q i)).
Definition py (c i : nat) (q : contrib) : R :=
  match snd (part_of m (fst q) i (snd q i)) with Some (_, u) => if sensor_of (fst q) =? S c then u else 0%R | None => 0%R end.
Definition acc_v (w k : nat) (vd : nat -> R) (L : list contrib) (p : nat) : R :=
  (vd p + if inw w k p then rsum (map (fun q => px (p - w) q * px (p - w) q) L) else 0)%R.
Definition acc_j (w k : nat) (jc : nat -> nat -> R) (L : list contrib) (c p : nat) : R :=
  (jc c p + if inw w k p then rsum (map (py c (p - w)) L) else 0)%R.

Lemma acc_v_cons w k vd q L p : acc_v w k (acc_v w k vd [q]) L p = acc_v w k vd (q :: L) p.
Proof. unfold acc_v. destruct (inw w k p); [|lra]. cbn [map]. rewrite !rsum_cons. cbn. lra. Qed.
Lemma acc_j_cons w k jc q L c p : acc_j w k (acc_j w k jc [q]) L c p = acc_j w k jc (q :: L) c p.
Proof. unfold acc_j. destruct (inw w k p); [|lra]. cbn [map]. rewrite !rsum_cons. cbn. lra. Qed.
Lemma acc_v_app w k vd L L' p : acc_v w k (acc_v w k vd L) L' p = acc_v w k vd (L ++ L') p.
Proof. unfold acc_v. destruct (inw w k p); [|lra]. rewrite map_app, rsum_app. lra. Qed.
Lemma acc_j_app w k jc L L' c p : acc_j w k (acc_j w k jc L) L' c p = acc_j w k jc (L ++ L') c p.
Proof. unfold acc_j. destruct (inw w k p); [|lra]. rewrite map_app, rsum_app. lra. Qed.

(** What the code needs of one contribution of a block [b] with uncertainty [u]. *)
Lemma unc_of n p s b N : nth_error (Im (m_idx R T m)) n = Some p -> s = fst p \/ s = snd p -> nth_error (Nm (m_idx R T m)) n = Some N ->
  In b (blocks_of (m_idx R T m) s (n + 1)) ->
  exists u, nth_error (m_unc R T m) b = Some u /\ nth_error (n_sensor (m_idx R T m)) b = Some s /\
    match u_kind R u with
    | UK1 _ r => length r = N
    | UK2 _ r c => length r = N /\ length c = N /\ exists k, u_sysi R u = Some k
    | _ => False end.
Proof.
  intros Hp Hs HN Hb. destruct (in_blocks_of m sd s (n + 1) b (pf_ev _ _ _ PF) Hb) as (H1 & H2).
  destruct (wf_series _ (pf_wf _ _ _ PF) b (n + 1) H1) as (_ & N' & E1 & E2). replace (n + 1 - 1) with n in E1 by lia. assert (N' = N) by congruence. subst N'.
  destruct (nth_error (m_unc R T m) b) as [u|] eqn:Eu.
  2:{ apply nth_error_None in Eu. assert (b < length (N_var (m_idx R T m))) by (apply nth_error_Some; congruence). rewrite (wf_unc _ (pf_wf _ _ _ PF)) in Eu. lia. }
  exists u. split; [auto|]. split; [auto|]. pose proof (proj2 (proj2 (pf_shapes _ _ _ PF)) b u N Eu E2) as Sh.
  pose proof (pf_ind _ _ _ PF u (nth_error_In _ _ Eu)) as I. destruct (u_kind R u); auto; try contradiction.
  destruct Sh as (A1 & A2 & kk & A3 & _). eauto.
Qed.

Definition sens_fun (side : nat) (JB col uK : list R) : nat -> R :=
  fun i => ((if side =? 1 then 1 else -1) * nth i JB 0 * nth i col 0 / nth i uK 0)%R.

Variables (ncol : nat).
Hypothesis Hncol : exists ps, m_ps R T m = Some ps /\ ncol = length (nodup string_dec ps).

Lemma sys_col b s u : nth_error (n_sensor (m_idx R T m)) b = Some s -> nth_error (m_unc R T m) b = Some u -> has_systematic u -> 1 <= s <= ncol.
Proof. intros H1 H2 H3. destruct (oe_cols _ _ OE b s u H1 H2 H3) as (ps & E & H). destruct Hncol as (ps' & E' & ->). congruence. Qed.

Lemma part1 b i D u r : nth_error (m_unc R T m) b = Some u -> u_kind R u = UK1 R r -> part_of m b i D = ((D * nth i r 0)%R, None).
Proof. intros H1 H2. unfold part_of. rewrite H1, H2. reflexivity. Qed.
Lemma part2 b i D u r c k : nth_error (m_unc R T m) b = Some u -> u_kind R u = UK2 R r c -> u_sysi R u = Some k ->
  part_of m b i D = ((D * nth i r 0)%R, Some (k, (D * nth i c 0)%R)).
Proof. intros H1 H2 H3. unfold part_of. rewrite H1, H2, H3. reflexivity. Qed.

Definition window_free (w k s : nat) (jc : nat -> nat -> R) : Prop := forall p, inw w k p = true -> 1 <= s -> jc (s - 1) p = 0%R.

Lemma cov_step n p s side N b j VJ vd jc w JB uK J col : nth_error (Im (m_idx R T m)) n = Some p -> s = fst p \/ s = snd p -> nth_error (Nm (m_idx R T m)) n = Some N ->
  nth_error (blocks_of (m_idx R T m) s (n + 1)) j = Some b -> nth_error J j = Some col -> length JB = N -> length uK = N -> length col = N ->
  w + N <= total -> inv total ncol VJ vd jc ->
  (forall u, nth_error (m_unc R T m) b = Some u -> has_systematic u -> window_free w N s jc) ->
  exists VJ', pc_cov T st (if side =? 1 then 1 else -1)%R s (n + 1) JB uK J w (w + N) VJ (S j) = Ok VJ' /\
    inv total ncol VJ' (acc_v w N vd [(b, sens_fun side JB col uK)]) (acc_j w N jc [(b, sens_fun side JB col uK)]).
Proof.
  intros Hp Hs HN Hj HJ L1 L2 L3 Hw I Hfree.
  destruct (unc_of n p s b N Hp Hs HN (nth_error_In _ _ Hj)) as (u & Eu & Es & Hu).
  destruct SLd as (S1 & S2 & S3 & S4 & S5 & S6 & S7 & S8 & S9 & S10 & _).
  assert (Ei : index eqb3 (s, n + 1, S j) (get_block_idxs (m_idx R T d)) = Ok b).
  { unfold get_block_idxs. rewrite S6, S7, S8. apply (bl_index (pm m) (pst m st) (SF' m st a PF) n p s j b Hp Hs Hj). }
  unfold pc_cov. cbv zeta. rewrite Ei. cbn [bind]. rewrite S9, (proj2 (get_ok _ _ _) Eu). cbn [bind]. cbn [Nat.sub]. rewrite Nat.sub_0_r, (proj2 (get_ok _ _ _) HJ). cbn [bind].
  rewrite bop_eq by lia. cbn [bind]. destruct VJ as (V, JT). cbn [fst snd].
  set (sg := (if side =? 1 then 1 else -1)%R) in *.
  destruct (u_kind R u) as [r|r c| |] eqn:Ek; try contradiction.
  - destruct (rand_step total ncol V JT vd jc w N sg (zip2 Rmult JB col) r uK I Hw ltac:(rewrite zip2_len; lia) Hu L2) as (JK & V' & E1 & E2 & I').
    rewrite E1. cbn [bind]. rewrite E2. cbn [bind]. eexists. split; [reflexivity|]. eapply inv_ext; [exact I'| |].
    + intros q Hq. unfold acc_v. cbn [map]. rewrite rsum_cons. cbn [rsum fold_right fst snd]. destruct (inw w N q) eqn:Wq; [|lra]. apply inw_true in Wq.
      unfold px. cbn [fst snd]. rewrite (part1 b (q - w) _ u r Eu Ek). cbn [fst]. rewrite zip2_nth by lia. unfold sens_fun. fold sg. unfold Rdiv. ring.
    + intros c' q Hc' Hq. unfold acc_j. cbn [map]. rewrite rsum_cons. cbn [rsum fold_right]. unfold py. cbn [fst snd]. rewrite (part1 b (q - w) _ u r Eu Ek). cbn [snd]. destruct (inw w N q); lra.
  - destruct Hu as (R1 & R2 & kk & Ekk).
    assert (Hsys : has_systematic u) by (unfold has_systematic; rewrite Ek; exact Logic.I).
    pose proof (sys_col b s u Es Eu Hsys) as Hsc.
    destruct (rand_step total ncol V JT vd jc w N sg (zip2 Rmult JB col) r uK I Hw ltac:(rewrite zip2_len; lia) R1 L2) as (JK & V' & E1 & E2 & I').
    rewrite E1. cbn [bind]. rewrite bop_eq by (rewrite scal_len; lia). cbn [bind]. rewrite bop_eq by (rewrite zip2_len, scal_len; lia). cbn [bind]. rewrite bop_eq by (rewrite !zip2_len, scal_len; lia). cbn [bind].
    replace (Z.of_nat s - 1)%Z with (Z.of_nat (s - 1)) by lia.
    set (v := zip2 Rdiv (zip2 Rmult (zip2 Rmult (scal sg JB) col) c) uK).
    assert (Lv : length v = N) by (unfold v; rewrite !zip2_len, scal_len; lia).
    destruct (col_step total ncol V' JT _ jc w N (s - 1) v I' Hw Lv ltac:(lia)) as (JT' & E3 & I3).
    rewrite E3. cbn [bind]. rewrite E2. cbn [bind]. eexists. split; [reflexivity|]. eapply inv_ext; [exact I3| |].
    + intros q Hq. unfold acc_v. cbn [map]. rewrite rsum_cons. cbn [rsum fold_right fst snd]. destruct (inw w N q) eqn:Wq; [|lra]. apply inw_true in Wq.
      unfold px. cbn [fst snd]. rewrite (part2 b (q - w) _ u r c kk Eu Ek Ekk). cbn [fst]. rewrite zip2_nth by lia. unfold sens_fun. fold sg. unfold Rdiv. ring.
    + intros c' q Hc' Hq. unfold acc_j. cbn [map]. rewrite rsum_cons. cbn [rsum fold_right]. unfold py. cbn [fst snd]. rewrite (part2 b (q - w) _ u r c kk Eu Ek Ekk). cbn [snd].
      rewrite (nth_nth_error _ _ 0 _ Es).
      destruct (Nat.eqb_spec c' (s - 1)) as [->|Hn]; cbn [andb].
      * replace (s =? S (s - 1)) with true by (symmetry; apply Nat.eqb_eq; lia). destruct (inw w N q) eqn:Wq; [|lra].
        rewrite (Hfree u Eu Hsys q Wq ltac:(lia)). apply inw_true in Wq. unfold v. rewrite zip2_nth by (rewrite ?zip2_len, ?scal_len; lia). rewrite zip2_nth by (rewrite ?zip2_len, ?scal_len; lia). rewrite zip2_nth by (rewrite ?zip2_len, ?scal_len; lia).
        rewrite scal_nth. unfold sens_fun. fold sg. unfold Rdiv. ring.
      * replace (s =? S c') with false by (symmetry; apply Nat.eqb_neq; lia). destruct (inw w N q); lra.
Qed.

Lemma covs_step n p s side N VJ vd jc w JB uK J : nth_error (Im (m_idx R T m)) n = Some p -> s = fst p \/ s = snd p -> nth_error (Nm (m_idx R T m)) n = Some N ->
  length JB = N -> length uK = N -> (forall col, In col J -> length col = N) -> length (blocks_of (m_idx R T m) s (n + 1)) <= length J -> w + N <= total ->
  inv total ncol VJ vd jc -> window_free w N s jc ->
  exists VJ', foldM (pc_cov T st (if side =? 1 then 1 else -1)%R s (n + 1) JB uK J w (w + N)) (seq 1 (length (blocks_of (m_idx R T m) s (n + 1)))) VJ = Ok VJ' /\
    let L := map (fun q => (fst q, sens_fun side JB (snd q) uK)) (combine (blocks_of (m_idx R T m) s (n + 1)) J) in
    inv total ncol VJ' (acc_v w N vd L) (acc_j w N jc L).
Proof.
  intros Hp Hs HN L1 L2 L3 L4 Hw I Hf. cbv zeta.
  assert (ND : NoDup (blocks_of (m_idx R T m) s (n + 1))) by (apply NoDup_filter, seq_NoDup).
  assert (G : forall bs cols j VJ vd jc, (forall i, nth_error bs i = nth_error (blocks_of (m_idx R T m) s (n + 1)) (j + i)) -> NoDup bs ->
     (forall i, nth_error cols i = nth_error J (j + i)) -> length bs <= length cols -> inv total ncol VJ vd jc ->
     ((exists b u, In b bs /\ nth_error (m_unc R T m) b = Some u /\ has_systematic u) -> window_free w N s jc) ->
     exists VJ', foldM (pc_cov T st (if side =? 1 then 1 else -1)%R s (n + 1) JB uK J w (w + N)) (seq (S j) (length bs)) VJ = Ok VJ' /\
       let L := map (fun q => (fst q, sens_fun side JB (snd q) uK)) (combine bs cols) in
       inv total ncol VJ' (acc_v w N vd L) (acc_j w N jc L)).
  { clear I Hf VJ vd jc L4. induction bs as [|b bs IH]; intros cols j VJ vd jc Hbs ND' Hcols Hlen I Hf; cbv zeta.
    - exists VJ. split; [reflexivity|]. cbn [combine map]. eapply inv_ext; [exact I| |]; intros; unfold acc_v, acc_j; cbn; destruct (inw _ _ _); lra.
    - destruct cols as [|col cols]; [cbn in Hlen; lia|]. cbn [length seq foldM combine map fst snd].
      pose proof (Hbs 0) as Hb0. pose proof (Hcols 0) as Hc0. rewrite Nat.add_0_r in Hb0, Hc0. cbn in Hb0, Hc0. symmetry in Hb0, Hc0.
      destruct (cov_step n p s side N b j VJ vd jc w JB uK J col Hp Hs HN Hb0 Hc0 L1 L2 (L3 col (nth_error_In _ _ Hc0)) Hw I) as (VJ1 & E1 & I1).
      { intros u Eu Hsys. apply Hf. exists b, u. split; [left; auto|auto]. }
      rewrite E1. cbn [bind].
      destruct (IH cols (S j) VJ1 (acc_v w N vd [(b, sens_fun side JB col uK)]) (acc_j w N jc [(b, sens_fun side JB col uK)])) as (VJ2 & E2 & I2); [| | | |exact I1| |].
      + intros i. replace (S j + i) with (j + S i) by lia. rewrite <- Hbs. reflexivity.
      + inversion ND'; auto.
      + intros i. replace (S j + i) with (j + S i) by lia. rewrite <- Hcols. reflexivity.
      + cbn in Hlen. lia.
      + intros (b' & u' & Hin & Eu' & Hsys') q Wq Hs1.
        assert (Hf' : window_free w N s jc) by (apply Hf; exists b', u'; split; [right; auto|auto]).
        unfold acc_j. rewrite (Hf' q Wq Hs1), Wq. cbn [map]. rewrite rsum_cons. cbn [rsum fold_right].
        assert (Hb : In b (blocks_of (m_idx R T m) s (n + 1))) by (eapply nth_error_In; eauto).
        assert (Hb' : In b' (blocks_of (m_idx R T m) s (n + 1))).
        { apply In_nth_error in Hin as (i & Hi). apply nth_error_In with (j + S i). rewrite <- Hbs. exact Hi. }
        destruct (unc_of n p s b N Hp Hs HN Hb) as (u & Eu & Es & Hu). destruct (unc_of n p s b' N Hp Hs HN Hb') as (u'' & Eu'' & Es' & Hu').
        assert (u'' = u') by congruence. subst u''.
        destruct (in_blocks_of m sd s (n + 1) b (pf_ev _ _ _ PF) Hb) as (M1 & _). destruct (in_blocks_of m sd s (n + 1) b' (pf_ev _ _ _ PF) Hb') as (M2 & _).
        assert (Hns : ~ has_systematic u). { intros Hsys. assert (b = b') by (eapply (oe_one _ _ OE); eauto). subst. inversion ND'. contradiction. }
        unfold has_systematic in Hns. destruct (u_kind R u) as [r|r c| |] eqn:Ek; try contradiction; try (exfalso; apply Hns; exact Logic.I).
        unfold py. cbn [fst snd]. rewrite (part1 b (q - w) _ u r Eu Ek). cbn [snd]. lra.
      + exists VJ2. split; [exact E2|]. eapply inv_ext; [exact I2| |]; intros; [apply acc_v_cons|apply acc_j_cons]. }
  apply (G (blocks_of (m_idx R T m) s (n + 1)) J 0); auto.
Qed.


Definition at_i (i : nat) (L : list contrib) : list (nat * R) := map (fun q => (fst q, snd q i)) L.

Lemma side_step n p side s name N ps ms f b X as_ c xt al r J r' JB uK VJ vd jc w :
  nth_error (Im (m_idx R T m)) n = Some p -> side < 2 -> s = fst p \/ s = snd p -> nth_error (Nm (m_idx R T m)) n = Some N ->
  pc_data m st a n side s name N ps ms f b X as_ c xt al r J r' JB ->
  nth_error (m_unck R T m) n = Some uK -> length uK = N -> w + N <= total -> inv total ncol VJ vd jc -> window_free w N s jc ->
  exists VJ' L, match J with
    | None => pc_ref T st (if side =? 1 then 1 else -1)%R s (n + 1) JB uK w (w + N) VJ
    | Some J => foldM (pc_cov T st (if side =? 1 then 1 else -1)%R s (n + 1) JB uK J w (w + N)) (seq 1 (solver_ncov m)) VJ
    end = Ok VJ' /\ inv total ncol VJ' (acc_v w N vd L) (acc_j w N jc L) /\
    (forall q, In q L -> nth_error (n_sensor (m_idx R T m)) (fst q) = Some s) /\
    forall i, side_sens m sd a n side i (at_i i L).
Proof.
  intros Hp Hside Hs HN PD EuK LuK Hw I Hf. destruct PD as [Q1 Q2 Q3 Q4 Q5 Q6 (Q7 & Q8 & Q9) (Q10 & Q11) Q12 Q13 Q14 Q15].
  destruct J as [cols|].
  - destruct Q15 as (A1 & A2 & A3 & A4).
    assert (Lb : length (blocks_of (m_idx R T m) s (n + 1)) = ms) by (apply (bl_len (pm m) (pst m st) (SF' m st a PF) n p s ms Hp Hs Q14)).
    destruct (covs_step n p s side N VJ vd jc w JB uK cols Hp Hs HN Q9 LuK A4 ltac:(lia) Hw I Hf) as (VJ' & E & I').
    rewrite Lb, A1 in E. eexists VJ', _. split; [exact E|]. split; [exact I'|]. split.
    + intros q Hq. apply in_map_iff in Hq as (x & <- & Hx). cbn [fst]. destruct x as (bb, cc). apply in_combine_l in Hx. apply (in_blocks_of m sd s (n + 1) bb (pf_ev _ _ _ PF) Hx).
    + intros i. unfold at_i. rewrite map_map. exists s, X, as_, c, xt, al, f, b, r, (Some cols), r', JB, uK. do 6 (split; [auto|]). cbv zeta. reflexivity.
  - destruct Q15 as (b0 & u & Hb0 & Eu & Hk).
    assert (Hin : In b0 (blocks_of (m_idx R T m) s (n + 1))) by (destruct (blocks_of (m_idx R T m) s (n + 1)); [discriminate|injection Hb0 as <-; left; auto]).
    destruct (oe_ref _ _ OE n p s f X as_ c xt al None r b0 u Hp Hs Q2 Q3 Hin Eu) as (ur & Ek).
    destruct (unc_of n p s b0 N Hp Hs HN Hin) as (u' & Eu' & Es & Hu). assert (u' = u) by congruence. subst u'. rewrite Ek in Hu.
    destruct SLd as (S1 & S2 & S3 & S4 & S5 & S6 & S7 & S8 & S9 & S10 & _).
    unfold pc_ref. cbv zeta. rewrite S6, S7.
    destruct (ev_len _ _ (pf_ev _ _ _ PF)) as (LL1 & LL2).
    rewrite (hd_filter_index (m_idx R T m) s (n + 1) b0 ltac:(lia) Hb0). cbn [bind]. rewrite S9, (proj2 (get_ok _ _ _) Eu). cbn [bind]. rewrite Ek. cbn [bind].
    destruct VJ as (V, JT). cbn [fst snd].
    set (sg := (if side =? 1 then 1 else -1)%R).
    destruct (rand_step total ncol V JT vd jc w N sg JB ur uK I Hw Q9 Hu LuK) as (JK & V' & E1 & E2 & I').
    rewrite E1. cbn [bind]. rewrite E2. cbn [bind]. exists (V', JT), [(b0, fun i => (sg * nth i JB 0 * 1 / nth i uK 0)%R)]. split; [reflexivity|]. split; [|split].
    + eapply inv_ext; [exact I'| |].
      * intros q Hq. unfold acc_v. cbn [map]. rewrite rsum_cons. cbn [rsum fold_right]. destruct (inw w N q); [|lra]. unfold px. cbn [fst snd]. rewrite (part1 b0 (q - w) _ u ur Eu Ek). cbn [fst]. unfold Rdiv. ring.
      * intros c' q Hc' Hq. unfold acc_j. cbn [map]. rewrite rsum_cons. cbn [rsum fold_right]. unfold py. cbn [fst snd]. rewrite (part1 b0 (q - w) _ u ur Eu Ek). cbn [snd]. destruct (inw w N q); lra.
    + intros q [<-|[]]. exact Es.
    + intros i. exists s, X, as_, c, xt, al, f, b, r, None, r', JB, uK. do 6 (split; [auto|]). cbv zeta. unfold at_i. cbn [map fst snd].
      destruct (blocks_of (m_idx R T m) s (n + 1)); [discriminate|]. injection Hb0 as <-. reflexivity.
Qed.

Lemma series_step n p N VJ vd jc : nth_error (Im (m_idx R T m)) n = Some p -> nth_error (Nm (m_idx R T m)) n = Some N ->
  inv total ncol VJ vd jc -> (forall q c, inw (list_sum (firstn n (Nm (m_idx R T m)))) N q = true -> jc c q = 0%R) ->
  exists VJ' L0 L1, pc_series T st (solver_ncov m) VJ (n, p) = Ok VJ' /\
    inv total ncol VJ' (acc_v (list_sum (firstn n (Nm (m_idx R T m)))) N vd (L0 ++ L1)) (acc_j (list_sum (firstn n (Nm (m_idx R T m)))) N jc (L0 ++ L1)) /\
    forall i, side_sens m sd a n 0 i (at_i i L0) /\ side_sens m sd a n 1 i (at_i i L1).
Proof.
  intros Hp HN I Hz. set (w := list_sum (firstn n (Nm (m_idx R T m)))) in *.
  assert (Hn : n < length (Nm (m_idx R T m))) by (apply nth_error_Some; congruence).
  assert (Hw : w + N <= total).
  { rewrite <- (firstn_skipn (S n) (Nm (m_idx R T m))). rewrite list_sum_app, (list_sum_firstn_S _ _ _ HN). unfold w. lia. }
  destruct (nth_error (m_unck R T m) n) as [uK|] eqn:EuK.
  2:{ apply nth_error_None in EuK. rewrite (wf_unck _ (pf_wf _ _ _ PF)) in EuK. lia. }
  assert (LuK : length uK = N). { pose proof (proj1 (proj2 (pf_shapes _ _ _ PF)) n uK EuK). congruence. }
  destruct SLd as (S1 & S2 & S3 & S4 & S5 & S6 & S7 & S8 & S9 & S10 & _).
  destruct (ev_pair _ _ (pf_ev _ _ _ PF) n p Hp) as (Hne & Hin).
  assert (Hname : forall s, s = fst p \/ s = snd p -> exists name, nth_error (sensors (m_idx R T m)) s = Some name).
  { intros s Hs. destruct (Hin s Hs) as (Hlt & _). destruct (nth_error (sensors (m_idx R T m)) s) eqn:E; [eauto|]. apply nth_error_None in E. lia. }
  unfold pc_series. cbv zeta. cbn [fst snd]. rewrite S10, (proj2 (get_ok _ _ _) EuK). cbn [bind]. rewrite S4, (wf_cnm _ (pf_wf _ _ _ PF)).
  assert (C0 : nth_error (cumul 0 (Nm (m_idx R T m))) n = Some w) by (rewrite cumul_nth by lia; reflexivity).
  assert (C1 : nth_error (cumul 0 (Nm (m_idx R T m))) (n + 1) = Some (w + N)). { rewrite cumul_nth by lia. f_equal. unfold w. replace (n + 1) with (S n) by lia. rewrite (list_sum_firstn_S _ _ _ HN). lia. }
  rewrite (proj2 (get_ok _ _ _) C0). cbn [bind]. rewrite (proj2 (get_ok _ _ _) C1). cbn [bind foldM fst snd].
  destruct (Hname (fst p) (or_introl eq_refl)) as (name0 & Hn0). destruct (Hname (snd p) (or_intror eq_refl)) as (name1 & Hn1).
  destruct (pc_side_ok m st a PF FO n p 0 (fst p) name0 N Hp ltac:(lia) eq_refl Hn0 HN) as (ps0 & ms0 & f0 & b0 & X0 & as0 & c0 & xt0 & al0 & r0 & J0 & r0' & JB0 & PD0).
  destruct (pc_side_ok m st a PF FO n p 1 (snd p) name1 N Hp ltac:(lia) eq_refl Hn1 HN) as (ps1 & ms1 & f1 & b1 & X1 & as1 & c1 & xt1 & al1 & r1 & J1 & r1' & JB1 & PD1).
  rewrite (pd_side _ _ _ _ _ _ _ _ _ _ _ _ _ _ _ _ _ _ _ _ _ PD0). cbn [bind fst snd].
  destruct (side_step n p 0 (fst p) name0 N ps0 ms0 f0 b0 X0 as0 c0 xt0 al0 r0 J0 r0' JB0 uK VJ vd jc w Hp ltac:(lia) (or_introl eq_refl) HN PD0 EuK LuK Hw I) as (VJ0 & L0 & E0 & I0 & B0 & SS0).
  { intros q Wq _. apply Hz. auto. }
  cbn [Nat.eqb] in E0 |- *. rewrite E0. cbn [bind].
  rewrite (pd_side _ _ _ _ _ _ _ _ _ _ _ _ _ _ _ _ _ _ _ _ _ PD1). cbn [bind fst snd].
  destruct (side_step n p 1 (snd p) name1 N ps1 ms1 f1 b1 X1 as1 c1 xt1 al1 r1 J1 r1' JB1 uK VJ0 _ _ w Hp ltac:(lia) (or_intror eq_refl) HN PD1 EuK LuK Hw I0) as (VJ1 & L1 & E1 & I1 & B1 & SS1).
  { intros q Wq Hs1. unfold acc_j. rewrite Hz, Wq by auto. rewrite Rplus_0_l.
    enough (forall q', In q' L0 -> py (snd p - 1) (q - w) q' = 0%R) as Hq.
    { clear - Hq. induction L0 as [|x l IH]; [reflexivity|]. cbn [map]. rewrite rsum_cons, Hq, IH; [lra| |left; auto]. intros; apply Hq; right; auto. }
    intros q' Hq'. unfold py. rewrite (nth_nth_error _ _ 0 _ (B0 q' Hq')). replace (fst p =? S (snd p - 1)) with false by (symmetry; apply Nat.eqb_neq; lia). destruct (snd (part_of _ _ _ _)) as [(? & ?)|]; reflexivity. }
  cbn [Nat.eqb] in E1. rewrite E1. exists VJ1, L0, L1. split; [reflexivity|]. split.
  - eapply inv_ext; [exact I1| |]; intros; [apply acc_v_app|apply acc_j_app].
  - intros i. auto.
Qed.
End Weights.
