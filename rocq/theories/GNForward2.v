(** * C26, part 2: the forward product of a whole series.  Proofs only. *)
From Coq Require Import Reals Lra Sorted.
From Verif Require Import Base BaseLemmas ReaderModel UncModel MuModel MuProofs SensorSpec SampleSpec SampleProofs TransformModel TransformSpec TransformProofs TransformProofs2 TransformMain TransformMain2 TransformMain3 EvalModel EvalSpec EvalProofs EvalMain GNModel GNSpec GNAlgebra GNTerms GNAdjoint GNMain GNResidual GNForward.
Open Scope nat_scope.

Lemma nth_firstn_R n (x : list R) i : i < n -> nth i (firstn n x) 0%R = nth i x 0%R.
Proof. revert n i. induction x as [|a x IH]; intros [|n] [|i] H; cbn; try lia; auto. apply IH. lia. Qed.

Lemma slice_firstn lo hi n (x : list R) : hi <= n -> n <= length x -> slice lo hi (firstn n x) = slice lo hi x.
Proof.
  intros H H'. destruct (Nat.le_gt_cases lo hi) as [C|C].
  - apply (nth_ext _ _ 0%R 0%R); [rewrite !slice_length'; rewrite ?firstn_length_le; lia|].
    intros i Hi. rewrite slice_length' in Hi by (rewrite firstn_length_le; lia). rewrite !nth_slice_R by lia. apply nth_firstn_R. lia.
  - unfold slice. replace (hi - lo) with 0 by lia. reflexivity.
Qed.

Lemma labelled_pos name NV (x : list R) ps : forall k, length (skipn (NV + k) x) = length ps ->
  map (fun i => nth i x 0%R) (map (fun p => NV + fst p) (filter (fun p => String.eqb (snd p) name) (combine (seq k (length ps)) ps))) =
  labelled name ps (skipn (NV + k) x).
Proof.
  unfold labelled. induction ps as [|a ps IH]; intros k H; [reflexivity|].
  assert (Hk : NV + k < length x) by (rewrite skipn_length in H; cbn in H; lia).
  assert (E : skipn (NV + k) x = nth (NV + k) x 0%R :: skipn (NV + S k) x).
  { replace (NV + S k) with (S (NV + k)) by lia. clear - Hk. revert Hk. generalize (NV + k). intros n. revert n. induction x as [|b x IH]; intros [|n] Hn; cbn in *; try lia; auto. apply IH. lia. }
  rewrite E in *. cbn [length seq combine filter snd fst]. cbn [length] in H. injection H as H. specialize (IH (S k) H).
  destruct (String.eqb a name); cbn [map fst snd]; rewrite IH; reflexivity.
Qed.

Lemma nth_lin_comb n cols xs i : (forall c, In c cols -> length c = n) -> i < n ->
  nth i (lin_comb n cols xs) 0%R = inner (map (fun col => nth i col 0%R) cols) xs.
Proof.
  intros H Hi. unfold lin_comb. revert xs. induction cols as [|c cols IH]; intros [|x xs]; cbn [combine fold_right map inner];
    try (rewrite nth_repeat_lt by auto; reflexivity).
  assert (Lc : length c = n) by (apply H; left; auto).
  pose proof (lin_comb_len n cols xs ltac:(intros; apply H; right; auto)) as Ll. unfold lin_comb in Ll.
  rewrite <- IH by (intros; apply H; right; auto). cbn [fst snd].
  set (l := fold_right _ _ _) in *. nths. ring.
Qed.

Lemma inner_app a b c e : length a = length c -> inner (a ++ b) (c ++ e) = (inner a c + inner b e)%R.
Proof.
  revert c. induction a as [|x a IH]; intros [|y c] H; try discriminate; cbn [app inner]; [lra|]. rewrite IH by (cbn in H; lia). lra.
Qed.

Section Fwd2.
Context {T : Type}.
Variables (m : mobj R T) (st : solver T).
Hypothesis SF : solver_for m st.
Hypothesis FO : functions_ok m st.
Notation d := (g_m T st).
Notation sd := (g_sd T st).
Notation n1 := (n_vars st + n_pars st).
Notation n2 := (n_vars st + n_ks st).
Variables (nv : list nat) (ns : nat).
Hypothesis St : state_of m d nv ns.
Notation bl s n := (blocks_of (m_idx R T m) s (n + 1)).
Notation cvb := (cv m nv).

Definition cvs (s n : nat) (x : list R) : list (list R) := map (fun b => cvb b x) (bl s n).
Definition pas (s : nat) (x : list R) : list R :=
  match nth_error (sensors (m_idx R T m)) s, m_ps R T m with
  | Some name, Some ps => labelled name ps (skipn (n_vars st) x)
  | _, _ => []
  end.

Lemma in_bl b s n : In b (bl s n) -> nth_error (n_mu (m_idx R T m)) b = Some (n + 1) /\ nth_error (n_sensor (m_idx R T m)) b = Some s.
Proof.
  intros Hb. unfold blocks_of in Hb. apply filter_In in Hb as (Hb1 & Hb2). apply in_seq in Hb1. apply andb_true_iff in Hb2 as (A1 & A2). apply Nat.eqb_eq in A1, A2.
  destruct (ev_len _ _ (sf_ev _ _ SF)) as (L1 & L2).
  split; rewrite (nth_error_nth' _ 0) by lia; congruence.
Qed.

Lemma bl_nth n p s j b : nth_error (Im (m_idx R T m)) n = Some p -> s = fst p \/ s = snd p -> nth_error (bl s n) j = Some b ->
  nth_error (get_block_idxs (m_idx R T m)) b = Some (s, n + 1, S j).
Proof.
  intros Hp Hs Hj. destruct (sf_covs _ _ SF n p s Hp Hs) as (ms & Hms & H1 & Hm).
  destruct (in_bl b s n (nth_error_In _ _ Hj)) as (A1 & A2).
  assert (Hlt : j < ms) by (rewrite <- (seq_length ms 1), <- Hm, map_length; apply nth_error_Some; congruence).
  assert (E : nth b (n_cov (m_idx R T m)) 0 = S j).
  { assert (E : nth_error (map (fun b => nth b (n_cov (m_idx R T m)) 0) (bl s n)) j = Some (nth b (n_cov (m_idx R T m)) 0)) by (rewrite nth_error_map', Hj; reflexivity).
    rewrite Hm, (nth_error_nth' _ 0), seq_nth in E by (rewrite ?seq_length; auto). injection E as <-. reflexivity. }
  unfold get_block_idxs. apply zip3_nth_intro; auto.
  destruct (Nat.lt_ge_cases b (length (n_cov (m_idx R T m)))) as [G|G]; [|rewrite nth_overflow in E by auto; lia].
  rewrite (nth_error_nth' _ 0) by auto. congruence.
Qed.

Lemma bl_len n p s ms : nth_error (Im (m_idx R T m)) n = Some p -> s = fst p \/ s = snd p -> nth_error (sensor_ms (m_idx R T m)) s = Some ms -> length (bl s n) = ms.
Proof.
  intros Hp Hs Hms. destruct (sf_covs _ _ SF n p s Hp Hs) as (ms' & Hms' & H1 & Hm). assert (ms' = ms) by congruence. subst.
  rewrite <- (seq_length ms 1), <- Hm, map_length. reflexivity.
Qed.

Lemma bl_index n p s j b : nth_error (Im (m_idx R T m)) n = Some p -> s = fst p \/ s = snd p -> nth_error (bl s n) j = Some b ->
  index eqb3 (s, n + 1, S j) (get_block_idxs (m_idx R T m)) = Ok b.
Proof.
  intros Hp Hs Hj. pose proof (bl_nth n p s j b Hp Hs Hj) as Hb.
  destruct (index_some eqb3 eqb3_spec (s, n + 1, S j) (get_block_idxs (m_idx R T m)) (nth_error_In _ _ Hb)) as (im & Eim & Him).
  rewrite Eim. f_equal. apply (proj1 (NoDup_nth_error _) (sf_blocks _ _ SF)); [apply nth_error_Some; congruence|congruence].
Qed.

Lemma rev_val_firstn x ib n' u N : n_vars st <= length x -> ib + n' <= list_sum nv ->
  (forall k, u_sysi R u = Some k -> match u_kind R u with UK2 _ _ _ | UK4 _ _ _ _ => 1 <= k <= ns | _ => True end) ->
  rev_val m (list_sum nv) (firstn (n_vars st) x) (slice ib (ib + n') (firstn (n_vars st) x)) u N = rev_val m (list_sum nv) x (slice ib (ib + n') x) u N.
Proof.
  intros Hx Hle Hk. pose proof (nvars_eq m st nv ns St) as NV. rewrite slice_firstn by lia. unfold rev_val.
  destruct (u_sysi R u) as [k|]; [|reflexivity]. specialize (Hk k eq_refl).
  destruct (u_kind R u); try reflexivity; rewrite nth_firstn_R by lia; reflexivity.
Qed.

Lemma rev_block x r b N n : length x = n1 -> tn_reverse T (with_values d (firstn (n_vars st) x)) = Ok r ->
  nth_error (n_mu (m_idx R T m)) b = Some (n + 1) -> nth_error (Nm (m_idx R T m)) n = Some N ->
  is_block (idxs (m_idx R T m)) (m_values R T r) b (cvb b x).
Proof.
  intros Hx Er Hmu HN. pose proof (nvars_eq m st nv ns St) as NV.
  assert (Lf : length (firstn (n_vars st) x) = n_vars st) by (apply firstn_length_le; lia).
  pose proof (state_with _ _ _ _ (firstn (n_vars st) x) St Lf) as St2.
  destruct (reverse_spec m _ nv ns (sf_wf _ _ SF) (sf_shapes _ _ SF) St2) as (vs & E & L & P); [apply (ks_len m st SF)|].
  rewrite E in Er. injection Er as <-. cbn [m_values].
  destruct (cv_facts m st SF nv ns St b N n Hmu HN) as (u & ib & n' & Hu & HNv & Hn' & Eib & _ & _ & _ & Hle & Hcv & Hk).
  destruct (nth_error vs b) as [v|] eqn:Ev; [|rewrite <- L, nth_error_map', Ev in HNv; discriminate].
  pose proof (P b u v N n' ib Hu Ev HNv Hn' Eib) as Pv. cbn [with_values m_values] in Pv. rewrite rev_val_firstn in Pv; [|lia|auto|].
  - rewrite Hcv, <- Pv. rewrite (wf_idxs _ (sf_wf _ _ SF)), <- L. apply is_block_concat. auto.
  - intros k Ek. destruct (u_kind R u); auto.
    + destruct Hk as (_ & _ & _ & k' & Ek' & Hk'). congruence.
    + destruct Hk as (w & uv & k' & _ & _ & _ & _ & Ek' & Hk'). congruence.
Qed.

Lemma est_covs x e n p s N : length x = n1 -> estimate_of m st x e -> nth_error (Im (m_idx R T m)) n = Some p -> s = fst p \/ s = snd p ->
  nth_error (Nm (m_idx R T m)) n = Some N -> covariates e s (n + 1) (cvs s n x).
Proof.
  intros Hx EO Hp Hs HN. unfold covariates, cvs. destruct EO as [E1 E2 (r0 & E3 & E4) _]. rewrite E1, E4.
  assert (G : forall l, (forall b, In b l -> In b (bl s n)) -> Forall2 (is_block (idxs (m_idx R T m)) (m_values R T r0)) l (map (fun b => cvb b x) l)).
  { induction l as [|b l IH]; intros H; cbn [map]; constructor; [|apply IH; intros; apply H; right; auto].
    destruct (in_bl b s n (H b (or_introl eq_refl))) as (A1 & _). apply (rev_block x r0 b N n); auto. }
  apply G. auto.
Qed.

Lemma unc_covs x n p s N X : length x = n1 -> nth_error (Im (m_idx R T m)) n = Some p -> s = fst p \/ s = snd p ->
  nth_error (Nm (m_idx R T m)) n = Some N -> unconvert_Xs T d x s (n + 1) = Ok X -> X = cvs s n x.
Proof.
  intros Hx Hp Hs HN EX. destruct (sf_covs' m st SF n p s Hp Hs) as (ms & Hms & Hms1 & _ & Hall).
  destruct (unconvert_reverse m d (firstn (n_vars st) x) (skipn (n_vars st) x) (sf_wf _ _ SF) (sf_shapes _ _ SF) (sf_oidx _ _ SF) (sf_run _ _ SF)) as (r & Er & Hu).
  { rewrite firstn_length_le by lia. reflexivity. }
  destruct (Hu s (n + 1) ms Hms Hms1 Hall (sf_blocks _ _ SF)) as (cols & E & _ & L & P). rewrite firstn_skipn in E.
  assert (cols = X) by (change (unconvert_Xs T d x s (n + 1) = Ok cols) in E; congruence). subst cols.
  pose proof (bl_len n p s ms Hp Hs Hms) as Lb.
  apply nth_error_ext. intros j. unfold cvs. rewrite nth_error_map'. destruct (nth_error (bl s n) j) as [b|] eqn:Eb.
  - pose proof (bl_nth n p s j b Hp Hs Eb) as Hb. assert (Hj : j < ms) by (rewrite <- Lb; apply nth_error_Some; congruence).
    destruct (nth_error X j) as [col|] eqn:Ec; [|apply nth_error_None in Ec; lia]. cbn [option_map]. f_equal.
    specialize (P (S j) b col Hb ltac:(lia)). replace (S j - 1) with j in P by lia. specialize (P Ec).
    assert (Lf : length (firstn (n_vars st) x) = n_vars st) by (rewrite firstn_length_le; lia). destruct (reverse_vals m st SF _ _ Lf Er) as (Ei & _).
    rewrite Ei in P. destruct (in_bl b s n (nth_error_In _ _ Eb)) as (A1 & _).
    eapply is_block_fun; [exact P|]. apply (rev_block x r b N n); auto.
  - apply nth_error_None in Eb. apply nth_error_None. lia.
Qed.

(** parameters *)
Lemma param_adds N Ncov s name ps JB uK J istart x : length JB = N -> length uK = N -> m_ps R T d = Some ps -> n1 = n_vars st + length ps ->
  1 <= n_params ps name -> length J = Ncov + n_params ps name -> (forall c, In c J -> length c = N) -> istart + N <= n2 -> length x = n1 ->
  adds n2 (fun A => param_term T false st (n_vars st) Ncov s name JB x uK J istart (istart + N) A)
    (win istart N (fun i => s * nth i JB 0 * inner (map (fun col => nth i col 0%R) (skipn Ncov J)) (labelled name ps (skipn (n_vars st) x)) / nth i uK 0)%R).
Proof.
  intros LJB LuK Eps Hn1 Hnp LJ LJc Hle Lx.
  destruct (param_cols_ok n1 n2 N (n_vars st) Ncov name ps JB uK J istart (istart + N) LJB LuK eq_refl Hle Hn1 Hnp LJ LJc) as (cols & Ec & Ecols & Lc & Hcols).
  pose proof (param_pos_length (n_vars st) name ps) as Lp. pose proof (param_pos_in n1 n2 N (n_vars st) Ncov name ps JB uK J istart (istart + N) LJB LuK eq_refl Hle Hn1 Hnp LJ) as Hin.
  assert (Exs : map (fun i => nth i x 0%R) (param_pos ps name (n_vars st)) = labelled name ps (skipn (n_vars st) x)).
  { unfold param_pos, enumerate. rewrite (labelled_pos name (n_vars st) x ps 0); rewrite Nat.add_0_r; [reflexivity|]. rewrite skipn_length. lia. }
  set (pos := param_pos ps name (n_vars st)) in *.
  assert (Hne : (length pos =? 0) = false) by (apply Nat.eqb_neq; lia).
  assert (LJ' : length (zip2 Rdiv JB uK) = N) by lens.
  assert (LM : forall c, In c (map (zip2 Rmult (zip2 Rdiv JB uK)) cols) -> length c = N).
  { intros c Hc. apply in_map_iff in Hc as (c' & <- & Hc'). specialize (Hcols c' Hc'). lens. }
  set (M := map (zip2 Rmult (zip2 Rdiv JB uK)) cols) in *. set (xs := labelled name ps (skipn (n_vars st) x)) in *.
  eapply adds_eq.
  - eapply adds_ext; [apply (adds_slice n2 istart N (scal s (lin_comb N M xs))); [rewrite scal_len, lin_comb_len; auto|auto]|].
    intros A HA. unfold param_term. rewrite Eps. cbn [bind]. fold pos. rewrite Ec, Hne. cbn [bind].
    rewrite bop_eq by lia. cbn [bind].
    rewrite (mapM_Ok_map _ (zip2 Rmult (zip2 Rdiv JB uK))) by (intros c Hc; apply bop_eq; rewrite zip2_len, (Hcols c Hc); lia). cbn [bind].
    rewrite (mapM_Ok_map _ (fun i => nth i x 0%R)) by (intros i Hi; apply get_nth; specialize (Hin i Hi); lia). cbn [bind].
    rewrite LJ', Exs. reflexivity.
  - intros j Hj. apply win_ext. intros i Hi. rewrite nth_scal by (rewrite lin_comb_len; auto). rewrite nth_lin_comb by auto.
    unfold M. rewrite <- Ecols. clearbody xs. clear - Hcols LJB LuK Hi LJ'. revert xs. induction cols as [|c cols IH]; intros [|y xs]; cbn [map inner]; try (unfold Rdiv; ring).
    assert (Lc : length c = N) by (apply Hcols; left; auto). rewrite Rmult_plus_distr_l.
    rewrite IH by (intros; apply Hcols; right; auto). nths. unfold Rdiv. ring.
Qed.

Definition sideD (s n : nat) (x : list R) (i : nat) : R :=
  match side_jac T st s (n + 1) with
  | Ok (B, J) => (nth i B 0 * jac_row J (cvs s n x) (pas s x) i)%R
  | Raise _ => 0%R
  end.

Lemma side_adds n p s name N uK sg istart x : nth_error (Im (m_idx R T m)) n = Some p -> s = fst p \/ s = snd p ->
  nth_error (sensors (m_idx R T m)) s = Some name -> nth_error (Nm (m_idx R T m)) n = Some N -> length uK = N -> istart + N <= n2 -> length x = n1 ->
  reference_random m st -> ignores_indices m st ->
  exists jb, side_jac T st s (n + 1) = Ok jb /\
  adds n2 (fun acc =>
        match snd jb with
        | None => ref_term T false st sg s (n + 1) (fst jb) x uK istart (istart + N) acc
        | Some J => sensor_term T false st (n_vars st) (solver_ncov m) ns sg name s (n + 1) (fst jb) x uK J istart (istart + N) acc
        end)
    (win istart N (fun i => sg * sideD s n x i / nth i uK 0)%R).
Proof.
  intros Hp Hs Ename EN LuK Hle Lx RR II.
  destruct (solver_facts m st SF) as (nv' & ns' & _ & SL & Hv' & _ & Hnus & _ & Hmps & _).
  destruct SL as (S1 & S2 & S3 & S4 & S5 & S6 & S7 & S8 & S9 & S10 & _). pose proof (sf_ev _ _ SF) as Ev.
  destruct (side_ok m st SF FO n p s name N Hp Hs Ename EN) as (ps & ms & f & b & X & a & c & xt & al & t & r & J & r' & B & SD & Eps & Lps & Hms & _ & _ & _ & Hall & HJ).
  exists (B, J). split; [apply (sd_jac _ _ _ _ _ _ _ _ _ _ _ _ _ _ _ _ _ SD)|]. cbn [fst snd].
  assert (ED : forall i, sideD s n x i = (nth i B 0 * jac_row J (cvs s n x) (pas s x) i)%R) by (intros i; unfold sideD; rewrite (sd_jac _ _ _ _ _ _ _ _ _ _ _ _ _ _ _ _ _ SD); reflexivity).
  destruct (sd_len _ _ _ _ _ _ _ _ _ _ _ _ _ _ _ _ _ SD) as (_ & _ & LB).
  pose proof (bl_len n p s ms Hp Hs Hms) as Lb.
  destruct J as [J|].
  - destruct HJ as (Hms' & Hnp & LJ & LJc). unfold sensor_term.
    assert (Epa : pas s x = labelled name ps (skipn (n_vars st) x)) by (unfold pas; rewrite Ename, Eps; reflexivity).
    eapply adds_eq.
    + apply adds_comp.
      * apply (adds_fold n2 (fun acc c =>
          do im <- index eqb3 (s, n + 1, c) (get_block_idxs (m_idx R T d));; do ib <- get (idxs (m_idx R T d)) im;; do nv0 <- get (N_var (m_idx R T d)) im;;
          do u <- get (m_unc R T d) im;; do JRc <- get J (c - 1);;
          cov_term T false st ns (n_vars st) sg B JRc x uK istart (istart + N) ib (ib + nv0) u acc)
          (fun k => win istart N (fun i => sg * nth i B 0 * (nth i (nth (k - 1)%nat J []) 0 * nth i (cvb (nth (k - 1)%nat (bl s n) 0%nat) x) 0) / nth i uK 0)%R)).
        intros k Hk. apply in_seq in Hk. rewrite <- Hms' in Hk.
        assert (Gb : get_block_idxs (m_idx R T d) = get_block_idxs (m_idx R T m)) by (unfold get_block_idxs; rewrite S6, S7, S8; reflexivity).
        assert (Eb : nth_error (bl s n) (k - 1) = Some (nth (k - 1)%nat (bl s n) 0%nat)) by (apply nth_error_nth'; lia).
        set (im := nth (k - 1)%nat (bl s n) 0%nat) in *. pose proof (bl_index n p s (k - 1) im Hp Hs Eb) as Eim. replace (S (k - 1)) with k in Eim by lia.
        destruct (in_bl im s n (nth_error_In _ _ Eb)) as (Hmu & _).
        destruct (cv_facts m st SF nv ns St im N n Hmu EN) as (u & ib & n' & Hu & _ & _ & _ & G1 & G2 & G3 & Hle' & _).
        assert (EJ : nth_error J (k - 1) = Some (nth (k - 1)%nat J [])) by (apply nth_error_nth'; lia).
        eapply adds_ext; [apply (cov_adds m st SF nv ns St im N n sg B (nth (k - 1)%nat J []) uK istart ib n' u x); auto|].
        -- apply LJc. eapply nth_error_In; eauto.
        -- intros A HA. cbv beta. rewrite Gb, Eim. cbn [bind]. rewrite G1, G2, G3. cbn [bind]. rewrite (proj2 (get_ok _ _ _) EJ). reflexivity.
      * apply (param_adds N (solver_ncov m) sg name ps B uK J istart x); auto; try lia; congruence.
    + intros j Hj. cbv beta. rewrite win_sum, win_plus. apply win_ext. intros i Hi. cbv beta. rewrite ED. cbn [jac_row]. rewrite Epa.
      rewrite <- Hms'. 
      assert (Esum : rsum (map (fun k => sg * nth i B 0 * (nth i (nth (k - 1)%nat J []) 0 * nth i (cvb (nth (k - 1)%nat (bl s n) 0%nat) x) 0) / nth i uK 0)%R (seq 1 ms)) =
        (sg * nth i B 0 * inner (map (fun col => nth i col 0%R) (firstn ms J)) (map (fun col => nth i col 0%R) (cvs s n x)) / nth i uK 0)%R).
      { assert (Lf : length (firstn ms J) = ms) by (apply firstn_length_le; lia).
        assert (Lcv : length (cvs s n x) = ms) by (unfold cvs; rewrite map_length; auto).
        rewrite inner_dotp by (rewrite !map_length; lia). rewrite (dotp_sum _ _ ms) by (rewrite map_length; auto). rewrite <- seq_shift, map_map.
        replace (sg * nth i B 0 * rsum (map (fun i0 => nth i0 (map (fun col => nth i col 0%R) (firstn ms J)) 0 * nth i0 (map (fun col => nth i col 0%R) (cvs s n x)) 0)%R (seq 0 ms)) / nth i uK 0)%R
          with ((sg * nth i B 0 / nth i uK 0) * rsum (map (fun i0 => nth i0 (map (fun col => nth i col 0%R) (firstn ms J)) 0 * nth i0 (map (fun col => nth i col 0%R) (cvs s n x)) 0)%R (seq 0 ms)))%R by (unfold Rdiv; ring).
        rewrite <- rsum_scal_l. apply rsum_ext. intros k Hk. apply in_seq in Hk. replace (S k - 1) with k by lia.
        assert (E1 : nth k (map (fun col => nth i col 0%R) (firstn ms J)) 0%R = nth i (nth k J []) 0%R).
        { apply nth_error_nth. rewrite nth_error_map'. assert (nth_error (firstn ms J) k = Some (nth k J [])) as ->; [|reflexivity].
          rewrite nth_error_firstn. destruct (Nat.ltb_spec k ms); [|lia]. apply nth_error_nth'. lia. }
        assert (E2 : nth k (map (fun col => nth i col 0%R) (cvs s n x)) 0%R = nth i (cvb (nth k (bl s n) 0%nat) x) 0%R).
        { apply nth_error_nth. rewrite nth_error_map'. unfold cvs. rewrite nth_error_map'. rewrite (nth_error_nth' _ 0) by lia. reflexivity. }
        rewrite E1, E2. unfold Rdiv. ring. }
      rewrite Esum. rewrite <- (firstn_skipn ms J) at 3. rewrite map_app, inner_app by (unfold cvs; rewrite !map_length, firstn_length_le; lia). unfold Rdiv. ring.
  - destruct HJ as (b0 & u & Hhd & Hu & _). unfold ref_term. rewrite S6, S7.
    assert (Lmu : length (n_sensor (m_idx R T m)) = length (n_mu (m_idx R T m))) by (destruct (ev_len _ _ Ev); congruence).
    assert (Hb0 : In b0 (bl s n)) by (destruct (bl s n); [discriminate|cbn in Hhd; injection Hhd as ->; left; auto]).
    destruct (in_bl b0 s n Hb0) as (Hmu & _).
    destruct (cv_facts m st SF nv ns St b0 N n Hmu EN) as (u' & ib & n' & Hu' & _ & _ & _ & G1 & G2 & G3 & Hle' & Hcv & Hk').
    assert (u' = u) by congruence. subst u'.
    assert (HU : exists ur, u_kind R u = UK1 R ur).
    { eapply (RR n p s f X a c r b0 u Hp Hs); eauto; [apply (sd_f _ _ _ _ _ _ _ _ _ _ _ _ _ _ _ _ _ SD)|].
      rewrite <- (II n p s f X a c xt al t Hp Hs); [|apply (sd_f _ _ _ _ _ _ _ _ _ _ _ _ _ _ _ _ _ SD)].
      apply (sd_ev _ _ _ _ _ _ _ _ _ _ _ _ _ _ _ _ _ SD). }
    destruct HU as (ur & EU). rewrite EU in Hk'. destruct Hk' as (L0 & ->). pose proof (nvars_eq m st nv ns St) as NV.
    assert (Lsl : length (slice ib (ib + N) x) = N) by (rewrite slice_length'; lia).
    eapply adds_eq.
    + eapply adds_ext; [apply (adds_slice n2 istart N (zip2 Rdiv (zip2 Rmult (zip2 Rmult (scal sg B) (slice ib (ib + N) x)) ur) uK)); [lens|auto]|].
      intros A HA. cbv beta. rewrite (hd_filter_index _ _ _ _ Lmu Hhd). cbn [bind]. rewrite G1, G2, G3. cbn [bind]. rewrite EU. cbn [bind].
      rewrite bop_eq by lens. cbn [bind]. rewrite bop_eq by lens. cbn [bind]. rewrite bop_eq by lens. reflexivity.
    + intros j Hj. apply win_ext. intros i Hi. rewrite ED. cbn [jac_row].
      assert (Eh : hd [] (cvs s n x) = cvb b0 x) by (unfold cvs; destruct (bl s n); [discriminate|cbn in Hhd; injection Hhd as ->; reflexivity]).
      rewrite Eh, Hcv. unfold rev_val. rewrite EU. nths. unfold Rdiv. ring.
Qed.

Definition start (n : nat) : nat := list_sum (firstn n (Nm (m_idx R T m))).

Lemma series_adds n p N uK x : nth_error (Im (m_idx R T m)) n = Some p -> nth_error (Nm (m_idx R T m)) n = Some N -> nth_error (m_unck R T m) n = Some uK ->
  length x = n1 -> reference_random m st -> ignores_indices m st ->
  adds n2 (fun A => series_term T false st (n_vars st) (solver_ncov m) ns x A (n, p))
    (win (n_vars st + start n) N (fun i => (sideD (snd p) n x i - sideD (fst p) n x i) / nth i uK 0)%R).
Proof.
  intros Hp EN EK Lx RR II. destruct (solver_facts m st SF) as (nv' & ns' & _ & SL & Hv' & _ & Hnus & _ & Hmps & _).
  destruct SL as (S1 & S2 & S3 & S4 & S5 & S6 & S7 & S8 & S9 & S10 & _). pose proof (sf_ev _ _ SF) as Ev.
  pose proof (sf_wf _ _ SF) as W. pose proof (sf_shapes _ _ SF) as Sh.
  assert (Hn : n < length (Nm (m_idx R T m))) by (apply nth_error_Some; congruence).
  assert (LuK : length uK = N) by (pose proof (proj1 (proj2 Sh) n uK EK); congruence).
  assert (Hc0 : get (cNm (m_idx R T d)) n = Ok (start n)) by (rewrite S4, (wf_cnm _ W); apply get_ok, cumul_nth; lia).
  assert (Hc1 : get (cNm (m_idx R T d)) (n + 1) = Ok (start n + N)).
  { rewrite S4, (wf_cnm _ W). rewrite (proj2 (get_ok _ _ _) (cumul_nth 0 (Nm (m_idx R T m)) (n + 1) ltac:(lia))). cbn [plus].
    rewrite Nat.add_1_r, (list_sum_firstn_S _ _ _ EN). reflexivity. }
  assert (Hcle : start n + N <= n_ks st).
  { unfold n_ks. rewrite S3. unfold start. rewrite <- (list_sum_firstn_S _ _ _ EN). rewrite <- (firstn_skipn (S n) (Nm (m_idx R T m))) at 2.
    rewrite list_sum_app. lia. }
  destruct (ev_pair _ _ Ev n p Hp) as (_ & Hin).
  assert (Ename : forall s, s = fst p \/ s = snd p -> exists name, nth_error (sensors (m_idx R T m)) s = Some name).
  { intros s Hs. destruct (Hin s Hs) as (H1 & _). destruct (nth_error (sensors (m_idx R T m)) s) as [name|] eqn:E; [eauto|apply nth_error_None in E; lia]. }
  destruct (Ename (fst p) (or_introl eq_refl)) as (name1 & E1). destruct (Ename (snd p) (or_intror eq_refl)) as (name2 & E2).
  destruct (side_adds n p (fst p) name1 N uK (-1)%R (n_vars st + start n) x) as (jb1 & J1 & A1); auto; [lia|].
  destruct (side_adds n p (snd p) name2 N uK 1%R (n_vars st + start n) x) as (jb2 & J2 & A2); auto; [lia|].
  eapply adds_eq.
  - eapply adds_ext; [apply adds_comp; [exact A1|exact A2]|]. intros A HA. unfold series_term. cbn [fst snd]. rewrite Hc0, Hc1. cbn [bind].
    rewrite S10, (proj2 (get_ok _ _ _) EK). cbn [bind foldM fst snd Nat.eqb]. rewrite S1, (proj2 (get_ok _ _ _) E1), (proj2 (get_ok _ _ _) E2). cbn [bind].
    rewrite J1, J2. cbn [bind]. rewrite <- Nat.add_assoc.
    destruct (match snd jb1 with Some _ => _ | None => _ end) as [A0|]; [|reflexivity]. cbn [bind].
    destruct (match snd jb2 with Some _ => _ | None => _ end) as [A0'|]; reflexivity.
  - intros j Hj. cbv beta. rewrite win_plus. apply win_ext. intros i Hi. unfold Rdiv. ring.
Qed.

Lemma start_disjoint n n' N N' i : nth_error (Nm (m_idx R T m)) n = Some N -> nth_error (Nm (m_idx R T m)) n' = Some N' -> n <> n' -> i < N ->
  start n + i < start n' \/ start n' + N' <= start n + i.
Proof.
  intros H H' Hne Hi. assert (G : forall a b M, nth_error (Nm (m_idx R T m)) a = Some M -> a < b -> start a + M <= start b).
  { intros a b M Ha Hab. unfold start. rewrite <- (list_sum_firstn_S _ _ _ Ha).
    assert (E : firstn (S a) (Nm (m_idx R T m)) = firstn (S a) (firstn b (Nm (m_idx R T m)))) by (rewrite firstn_firstn; f_equal; lia).
    rewrite E. rewrite <- (firstn_skipn (S a) (firstn b (Nm (m_idx R T m)))) at 2. rewrite list_sum_app. lia. }
  destruct (Nat.lt_ge_cases n n') as [C|C].
  - left. specialize (G n n' N H C). lia.
  - right. specialize (G n' n N' H' ltac:(lia)). lia.
Qed.

Lemma forward_ok x : length x = n1 -> reference_random m st -> ignores_indices m st ->
  exists Px Jx, calc_Px T st x false = Ok Px /\ length Px = n1 /\ calc_prod_JPx T st x false = Ok Jx /\ length Jx = n2 /\
  (forall i, i < n_vars st -> nth i Jx 0%R = nth i Px 0%R) /\
  forall n p N uK i, nth_error (Im (m_idx R T m)) n = Some p -> nth_error (Nm (m_idx R T m)) n = Some N -> nth_error (m_unck R T m) n = Some uK -> i < N ->
    nth (n_vars st + (start n + i)) Jx 0%R = ((sideD (snd p) n Px i - sideD (fst p) n Px i) / nth i uK 0)%R.
Proof.
  intros Hx RR II. destruct (solver_facts m st SF) as (nv' & ns' & St' & SL & Hv & Hlast & Hnus & Hcn & _).
  assert (S2 : Im (m_idx R T d) = Im (m_idx R T m)) by apply SL.
  assert (ns' = ns) by (pose proof (st_nus _ _ _ _ St') as A; pose proof (st_nus _ _ _ _ St) as B; congruence). subst ns'. clear St'.
  destruct (calc_Px_ok m st SF x Hx) as (Px & _ & E1 & _ & L1 & _).
  set (tt := fun (q : nat * (nat * nat)) => match nth_error (Nm (m_idx R T m)) (fst q), nth_error (m_unck R T m) (fst q) with
     | Some N, Some uK => win (n_vars st + start (fst q)) N (fun i => (sideD (snd (snd q)) (fst q) Px i - sideD (fst (snd q)) (fst q) Px i) / nth i uK 0)%R
     | _, _ => fun _ => 0%R end).
  assert (Hall : forall q, In q (enumerate (Im (m_idx R T m))) -> nth_error (Im (m_idx R T m)) (fst q) = Some (snd q) /\
     exists N uK, nth_error (Nm (m_idx R T m)) (fst q) = Some N /\ nth_error (m_unck R T m) (fst q) = Some uK).
  { intros (n & p) Hin. apply in_enumerate in Hin. cbn [fst snd]. split; [auto|].
    assert (Hn : n < length (Nm (m_idx R T m))) by (rewrite <- (ev_im _ _ (sf_ev _ _ SF)); apply nth_error_Some; congruence).
    destruct (nth_error (Nm (m_idx R T m)) n) as [N|] eqn:EN; [|apply nth_error_None in EN; lia].
    destruct (nth_error (m_unck R T m) n) as [uK|] eqn:EK; [|apply nth_error_None in EK; rewrite (wf_unck _ (sf_wf _ _ SF)) in EK; lia]. eauto. }
  assert (AF : adds n2 (fun A => foldM (series_term T false st (n_vars st) (solver_ncov m) ns Px) (enumerate (Im (m_idx R T m))) A)
     (fun j => rsum (map (fun q => tt q j) (enumerate (Im (m_idx R T m)))))).
  { apply (adds_fold n2 (fun A q => series_term T false st (n_vars st) (solver_ncov m) ns Px A q)). intros (n & p) Hin.
    destruct (Hall _ Hin) as (Hp & N & uK & EN & EK). cbn [fst snd] in *. unfold tt. cbn [fst snd]. rewrite EN, EK. apply series_adds; auto. }
  unfold calc_prod_JPx. rewrite Hcn, Hlast, (ncov_ok m st SF), Hnus, S2. cbn [bind]. rewrite E1. cbn [bind].
  assert (FS : slice 0 (n_vars st) Px = firstn (n_vars st) Px) by (unfold slice; rewrite Nat.sub_0_r; reflexivity). rewrite FS.
  assert (Lf : length (firstn (n_vars st) Px) = n_vars st) by (apply firstn_length_le; lia).
  rewrite assign_zeros by auto. cbn [bind].
  destruct (AF (firstn (n_vars st) Px ++ repeat 0%R (n_ks st))) as (Jx & EJ & LJ & PJ); [rewrite app_length, repeat_length; lia|].
  exists Px, Jx. split; [auto|]. split; [auto|]. rewrite EJ. cbn [bind]. split; [auto|]. split; [auto|]. split.
  - intros i Hi. rewrite PJ by lia. rewrite app_nth1 by lia. rewrite nth_firstn_R by auto.
    rewrite (rsum_ext _ (fun _ => 0%R)); [rewrite rsum_zero; lra|]. intros q Hq. destruct (Hall q Hq) as (_ & N & uK & EN & EK). unfold tt. rewrite EN, EK. apply win_out. lia.
  - intros n p N uK i Hp EN EK Hi.
    assert (Hcle : start n + N <= n_ks st).
    { unfold n_ks. destruct SL as (_ & _ & S3 & _). rewrite S3. unfold start. rewrite <- (list_sum_firstn_S _ _ _ EN). rewrite <- (firstn_skipn (S n) (Nm (m_idx R T m))) at 2.
      rewrite list_sum_app. lia. }
    rewrite PJ by lia. rewrite app_nth2 by lia. rewrite nth_repeat_lt by lia. rewrite Rplus_0_l.
    rewrite (rsum_single (fun q => tt q (n_vars st + (start n + i))) (enumerate (Im (m_idx R T m))) n (n, p)).
    + unfold tt. cbn [fst snd]. rewrite EN, EK. rewrite Nat.add_assoc. apply win_in. auto.
    + rewrite enumerate_nth, Hp. reflexivity.
    + intros k (k' & q) Hk Hne. pose proof (Hall (k', q) (nth_error_In _ _ Hk)) as (_ & N' & uK' & EN' & EK'). cbn [fst snd] in *.
      rewrite enumerate_nth in Hk. destruct (nth_error (Im (m_idx R T m)) k) as [q'|]; [|discriminate]. cbn in Hk. injection Hk as <- <-.
      unfold tt. cbn [fst snd]. rewrite EN', EK'. apply win_out. destruct (start_disjoint n k N N' i EN EN' ltac:(auto) Hi); lia.
Qed.
End Fwd2.
