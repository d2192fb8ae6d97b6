From Coq Require Import Reals Lra.
From Verif Require Import Base BaseLemmas ReaderModel UncModel UncProofs UncProofs2 MuModel MuProofs SampleSpec SampleProofs SampleProofs2 TransformModel TransformSpec TransformProofs TransformProofs2.
Open Scope nat_scope.

Lemma block_fold_ex {A X} (z : A) (step : list A -> nat * X -> res (list A)) (P : nat -> X -> list A -> Prop)
   (xs : list X) (ns : list nat) (tail : list A) :
  length ns = length xs ->
  (forall i x n pre post, nth_error xs i = Some x -> nth_error ns i = Some n ->
     length pre = list_sum (firstn i ns) ->
     exists v, step (pre ++ repeat z n ++ post) (i, x) = Ok (pre ++ v ++ post) /\ length v = n /\ P i x v) ->
  exists vs, foldM step (enumerate xs) (repeat z (list_sum ns) ++ tail) = Ok (concat vs ++ tail) /\
    map (@length A) vs = ns /\ forall i x v, nth_error xs i = Some x -> nth_error vs i = Some v -> P i x v.
Proof.
  intros Hl Hstep.
  assert (G : forall xs2 ns2 k pre, length ns2 = length xs2 ->
     (forall i, nth_error xs2 i = nth_error xs (k + i)) -> (forall i, nth_error ns2 i = nth_error ns (k + i)) ->
     length pre = list_sum (firstn k ns) ->
     exists vs, foldM step (combine (seq k (length xs2)) xs2) (pre ++ repeat z (list_sum ns2) ++ tail) = Ok (pre ++ concat vs ++ tail) /\
       map (@length A) vs = ns2 /\ forall i x v, nth_error xs2 i = Some x -> nth_error vs i = Some v -> P (k + i) x v).
  { induction xs2 as [|x xs2 IH]; intros [|n ns2] k pre L Hx Hn Hp; cbn in L; try discriminate.
    - exists []. split; [reflexivity|]. split; [reflexivity|]. intros [|i]; discriminate.
    - cbn [length seq combine foldM].
      change (list_sum (n :: ns2)) with (n + list_sum ns2). rewrite repeat_app, <- !app_assoc.
      pose proof (Hx 0) as Hx0. pose proof (Hn 0) as Hn0. rewrite Nat.add_0_r in Hx0, Hn0. cbn in Hx0, Hn0.
      destruct (Hstep k x n pre (repeat z (list_sum ns2) ++ tail) (eq_sym Hx0) (eq_sym Hn0) Hp) as (v & -> & Lv & Pv).
      destruct (IH ns2 (S k) (pre ++ v)) as (vs & E & Lvs & Pvs).
      + lia.
      + intros i. specialize (Hx (S i)). rewrite Nat.add_succ_r in Hx. exact Hx.
      + intros i. specialize (Hn (S i)). rewrite Nat.add_succ_r in Hn. exact Hn.
      + rewrite app_length, Hp, Lv. symmetry. apply list_sum_firstn_S. auto.
      + exists (v :: vs). rewrite <- !app_assoc in E. rewrite E. cbn [concat]. rewrite <- !app_assoc. split; [reflexivity|].
        split; [cbn; congruence|]. intros [|i] y v' Hy Hv'; cbn in Hy, Hv'.
        * injection Hy as <-. injection Hv' as <-. rewrite Nat.add_0_r. auto.
        * rewrite Nat.add_succ_r. apply (Pvs i y v'); auto. }
  destruct (G xs ns 0 []) as (vs & E & L & Q); auto. exists vs. auto.
Qed.

Lemma nth_slice {A} s e (l : list A) r d : r < e - s -> nth r (slice s e l) d = nth (s + r) l d.
Proof.
  intros H. rewrite <- !nth_default_eq. unfold nth_default. rewrite nth_error_slice.
  rewrite (proj2 (Nat.ltb_lt _ _) H). reflexivity.
Qed.

Section M.
Context {T : Type}.
Notation mobj := (mobj R T).

Lemma nvar_of (m : mobj) b u : wf_mobj m -> nth_error (m_unc R T m) b = Some u -> exists N, nth_error (N_var (m_idx R T m)) b = Some N.
Proof.
  intros W H. destruct (nth_error (N_var (m_idx R T m)) b) as [N|] eqn:E; [eauto|]. apply nth_error_None in E.
  assert (b < length (m_unc R T m)) by (apply nth_error_Some; congruence). rewrite (wf_unc _ W) in *. lia.
Qed.

Lemma nvars_ok (m : mobj) : wf_mobj m -> shapes_ok m ->
  exists nv, mapM (new_nvar T m) (enumerate (m_unc R T m)) = Ok nv /\ length nv = length (m_unc R T m) /\
    forall b u N n', nth_error (m_unc R T m) b = Some u -> nth_error (N_var (m_idx R T m)) b = Some N ->
      nth_error nv b = Some n' -> transformed_size m u N n'.
Proof.
  intros W (_ & _ & Hs).
  destruct (mapM_ok_ex (new_nvar T m) (enumerate (m_unc R T m))) as (nv & E).
  { intros [b u] H. apply in_enumerate in H. unfold new_nvar. cbn [fst snd]. destruct (nvar_of m b u W H) as (N & HN).
    specialize (Hs b u N H HN). destruct (u_kind R u).
    - rewrite (proj2 (get_ok _ _ _) HN). eauto.
    - rewrite (proj2 (get_ok _ _ _) HN). eauto.
    - destruct Hs as (w & uv & _ & Hu & _). rewrite (proj2 (get_ok _ _ _) Hu). cbn. eauto.
    - destruct Hs as ((w & uv & _ & Hu & _) & _). rewrite (proj2 (get_ok _ _ _) Hu). cbn. eauto. }
  exists nv. split; [auto|]. split; [rewrite (mapM_length _ _ _ E); apply enumerate_length|].
  intros b u N n' Hu HN Hn'.
  assert (He : nth_error (enumerate (m_unc R T m)) b = Some (b, u)) by (rewrite enumerate_nth, Hu; reflexivity).
  destruct (mapM_nth _ _ _ _ _ E He) as (x & Hx & Hn). rewrite Hn' in Hn. injection Hn as <-.
  unfold new_nvar in Hx. cbn [fst snd] in Hx. unfold transformed_size. destruct (u_kind R u).
  - apply get_ok in Hx. congruence.
  - apply get_ok in Hx. congruence.
  - destruct (get (m_us R T m) u_i) as [uv|] eqn:Eu; [|discriminate]. cbn in Hx. apply get_ok in Eu. exists uv. split; congruence.
  - destruct (get (m_us R T m) u_i) as [uv|] eqn:Eu; [|discriminate]. cbn in Hx. apply get_ok in Eu. exists uv. split; congruence.
Qed.

Lemma n_uS_ok (m : mobj) : wf_mobj m -> shapes_ok m ->
  exists ns, n_uS (m_unc R T m) = Ok ns /\
    (forall u, In u (m_unc R T m) -> has_systematic u -> exists k, u_sysi R u = Some k /\ 1 <= k <= ns) /\
    (ns = 0 \/ exists u, In u (m_unc R T m) /\ has_systematic u /\ u_sysi R u = Some ns).
Proof.
  intros W (_ & _ & Hs). unfold n_uS.
  assert (Hk : forall u, In u (m_unc R T m) -> has_systematic u -> exists k, u_sysi R u = Some k /\ 1 <= k).
  { intros u Hu Hsys. apply In_nth_error in Hu as (b & Hb). destruct (nvar_of m b u W Hb) as (N & HN).
    specialize (Hs b u N Hb HN). unfold has_systematic in Hsys. destruct (u_kind R u); try contradiction; apply Hs. }
  assert (Hsys : forall u, In u (filter is_sys (m_unc R T m)) <-> In u (m_unc R T m) /\ has_systematic u).
  { intros u. rewrite filter_In. unfold is_sys, has_systematic. destruct (u_kind R u); intuition discriminate. }
  destruct (mapM_ok_ex sys_no (filter is_sys (m_unc R T m))) as (l & E).
  { intros u Hu. apply Hsys in Hu as (H1 & H2). destruct (Hk u H1 H2) as (k & Ek & _). unfold sys_no. rewrite Ek. eauto. }
  rewrite E. cbn [bind]. exists (list_max l). split; [auto|]. split.
  - intros u H1 H2. destruct (Hk u H1 H2) as (k & Ek & Hk1). exists k. split; [auto|]. split; [auto|].
    assert (Hin : In u (filter is_sys (m_unc R T m))) by (apply Hsys; auto).
    apply In_nth_error in Hin as (j & Hj). destruct (mapM_nth _ _ _ _ _ E Hj) as (k' & Ek' & Hn). unfold sys_no in Ek'. rewrite Ek in Ek'.
    injection Ek' as <-. assert (F : Forall (fun k => k <= list_max l) l) by (apply list_max_le; lia).
    rewrite Forall_forall in F. apply F. eapply nth_error_In; eauto.
  - destruct l as [|k0 l0] eqn:El; [left; reflexivity|]. right. rewrite <- El in *.
    assert (Hin : In (list_max l) l).
    { assert (Hne : l <> []) by (rewrite El; discriminate). clear - Hne. induction l as [|a l IH]; [congruence|]. cbn.
      change (fold_right Nat.max 0 l) with (list_max l). destruct l as [|b l]; [left; cbn; lia|].
      destruct (Nat.max_spec a (list_max (b :: l))) as [(_ & ->)|(_ & ->)]; [right; apply IH; discriminate|left; auto]. }
    apply In_nth_error in Hin as (j & Hj). pose proof (mapM_length _ _ _ E) as Hlen.
    destruct (nth_error (filter is_sys (m_unc R T m)) j) as [u|] eqn:Eu.
    2:{ apply nth_error_None in Eu. assert (j < length l) by (apply nth_error_Some; congruence). lia. }
    destruct (mapM_nth _ _ _ _ _ E Eu) as (k' & Ek' & Hn). rewrite Hj in Hn. injection Hn as <-.
    pose proof (nth_error_In _ _ Eu) as Hu. apply Hsys in Hu as (H1 & H2). exists u. split; [auto|]. split; [auto|].
    unfold sys_no in Ek'. destruct (u_sysi R u); congruence.
Qed.

(** what [run] leaves in a block *)
Definition normalised (m : mobj) (b : nat) (u : unc R) (xs : list R) : Prop :=
  forall src N, is_block (idxs (m_idx R T m)) (m_values R T m) b src -> nth_error (N_var (m_idx R T m)) b = Some N ->
  match u_kind R u with
  | UK1 _ r => xs = zip2 Rdiv src r
  | UK2 _ r _ => xs = zip2 Rdiv src r
  | UK3 _ wi ui | UK4 _ wi ui _ => forall w uv, nth_error (m_ws R T m) wi = Some w -> nth_error (m_us R T m) ui = Some uv ->
       solvable w N -> nonzero uv -> forall r, r < N -> row_apply w (fun c => (nth c uv 0 * nth c xs 0)%R) r = nth r src 0%R
  end.

Lemma block_slice (m : mobj) b N : wf_mobj m -> nth_error (N_var (m_idx R T m)) b = Some N ->
  exists s, nth_error (idxs (m_idx R T m)) b = Some s /\ s + N <= length (m_values R T m) /\
    s = list_sum (firstn b (N_var (m_idx R T m))) /\
    forall v, is_block (idxs (m_idx R T m)) (m_values R T m) b v <-> v = slice s (s + N) (m_values R T m).
Proof.
  intros W HN. destruct (block_exists (N_var (m_idx R T m)) (m_values R T m) b N (wf_values _ W) HN) as (v0 & Hb & Hl).
  pose proof Hb as (lo & hi & H1 & H2 & H3 & H4). rewrite (wf_idxs _ W).
  assert (Hlt : b < length (N_var (m_idx R T m))) by (apply nth_error_Some; congruence).
  rewrite (cumul_nth 0 _ b) in H1 by lia. rewrite (cumul_nth 0 _ (b + 1)) in H2 by lia. cbn [plus] in *.
  injection H1 as <-. injection H2 as <-. rewrite (Nat.add_1_r b), (list_sum_firstn_S _ _ _ HN) in *.
  exists (list_sum (firstn b (N_var (m_idx R T m)))). split; [apply cumul_nth; lia|]. split; [lia|]. split; [auto|].
  intros v. split.
  - intros Hv. rewrite (is_block_fun _ _ _ _ _ Hv Hb). auto.
  - intros ->. rewrite <- H4. auto.
Qed.

Lemma row_apply_dot w v N nc i : csr_shape w N nc -> length v = nc -> i < N ->
  row_dot w v i = Ok (row_apply w (fun c => nth c v 0%R) i).
Proof.
  intros Sh Hv Hi. destruct (row_bounds w N nc Sh i Hi) as (p & q & H1 & H2 & _).
  destruct (row_cols_entries w N nc Sh i p q Hi H1 H2) as (Ec & Ed). pose proof (entry_col w N nc Sh i) as Hcol.
  unfold row_dot. rewrite (proj2 (get_ok _ _ _) H1), (proj2 (get_ok _ _ _) H2). cbn [bind]. rewrite Ec, Ed.
  rewrite (mapM_Ok_map _ (fun c => nth c v 0%R)).
  - cbn [bind]. f_equal. unfold row_apply. change (fold_right Rplus 0%R) with rsum. f_equal. unfold zip2.
    rewrite map_map. generalize (row_entries w i). induction l as [|e l IH]; cbn; [auto|]. f_equal. exact IH.
  - intros c Hc. apply get_nth. rewrite Hv. apply Hcol; auto.
Qed.
Lemma csr_dot_ok w v N nc : csr_shape w N nc -> length v = nc ->
  csr_dot w v = Ok (map (row_apply w (fun c => nth c v 0%R)) (seq 0 N)).
Proof.
  intros Sh Hv. unfold csr_dot. assert (E : c_ncols R w = nc /\ c_nrows R w = N) by (split; apply Sh). destruct E as (-> & ->).
  rewrite Hv, Nat.eqb_refl. apply mapM_Ok_map. intros i Hi. apply in_seq in Hi. eapply row_apply_dot; eauto; lia.
Qed.

Lemma run_values (m : mobj) ix' nv ns : wf_mobj m -> shapes_ok m ->
  mapM (new_nvar T m) (enumerate (m_unc R T m)) = Ok nv -> length nv = length (m_unc R T m) ->
  N_var ix' = nv -> idxs ix' = add_last ns (cumul 0 nv) ->
  (forall b u N n', nth_error (m_unc R T m) b = Some u -> nth_error (N_var (m_idx R T m)) b = Some N ->
      nth_error nv b = Some n' -> transformed_size m u N n') ->
  exists vs, foldM (run_block T m ix') (enumerate (m_unc R T m)) (repeat 0%R (list_sum nv + ns)) = Ok (concat vs ++ repeat 0%R ns) /\
    map (@length R) vs = nv /\ forall b u xs, nth_error (m_unc R T m) b = Some u -> nth_error vs b = Some xs -> normalised m b u xs.
Proof.
  intros W Hs Env Hlen EN Ei Hts. rewrite repeat_app.
  apply (block_fold_ex 0%R (run_block T m ix') (normalised m)); [auto|].
  intros b u n' pre post Hu Hn' Hp. destruct (nvar_of m b u W Hu) as (N & HN).
  specialize (Hts b u N n' Hu HN Hn').
  destruct (block_slice m b N W HN) as (s & Hsl & Hbound & _ & Hblk).
  destruct Hs as (_ & _ & Hs). specialize (Hs b u N Hu HN).
  assert (Hb : b < length nv) by (apply nth_error_Some; congruence).
  unfold run_block. cbn [fst snd]. rewrite (proj2 (get_ok _ _ _) Hsl). cbn [bind]. rewrite (proj2 (get_ok _ _ _) HN). cbn [bind].
  rewrite EN, Ei. rewrite add_last_get by (rewrite cumul_length; lia).
  rewrite (proj2 (get_ok _ _ _) (cumul_nth 0 nv b ltac:(lia))). cbn [bind plus]. rewrite (proj2 (get_ok _ _ _) Hn'). cbn [bind].
  rewrite <- Hp. unfold normalised.
  assert (SC : forall r, length r = N -> n' = N -> exists v, 
     (do v <- bop Rdiv (slice s (s + N) (m_values R T m)) r;; assign (length pre) (length pre + n') v (pre ++ repeat 0%R n' ++ post)) = Ok (pre ++ v ++ post) /\
     length v = n' /\ v = zip2 Rdiv (slice s (s + N) (m_values R T m)) r).
  { intros r Hr ->. assert (Lr : length (slice s (s + N) (m_values R T m)) = length r) by (rewrite slice_length' by lia; lia).
    rewrite bop_eq by auto. cbn [bind]. exists (zip2 Rdiv (slice s (s + N) (m_values R T m)) r).
    assert (Lv : length (zip2 Rdiv (slice s (s + N) (m_values R T m)) r) = N) by (rewrite zip2_length; lia).
    split; [|auto]. replace (length pre + N) with (length pre + length (repeat 0%R N)) by (rewrite repeat_length; auto).
    apply assign_mid. rewrite repeat_length. auto. }
  assert (ST : forall w uv, csr_shape w N (length uv) -> n' = length uv ->
     exists v, solve_block w uv (length pre) s (s + N) (m_values R T m) (pre ++ repeat 0%R n' ++ post) = Ok (pre ++ v ++ post) /\ length v = n' /\
       (solvable w N -> nonzero uv -> forall r, r < N ->
         row_apply w (fun c => (nth c uv 0 * nth c v 0)%R) r = nth r (slice s (s + N) (m_values R T m)) 0%R)).
  { intros w uv Sh ->. destruct (solve_block_shape w uv N Sh pre post (m_values R T m) s Hbound) as (xs & E & L).
    exists xs. split; [auto|]. split; [auto|]. intros Sol Hnz r Hr.
    destruct (solve_block_ok w uv N pre post (m_values R T m) s Sh Sol Hnz Hbound) as (xs' & E' & L' & P).
    rewrite E in E'. injection E' as E'. apply app_inv_head in E'. 
    assert (xs = xs').
    { apply (f_equal (firstn (length uv))) in E'. rewrite !firstn_app in E'. rewrite <- L in E' at 1. rewrite firstn_all in E'.
      rewrite <- L' in E' at 2. rewrite firstn_all in E'. rewrite L, L', Nat.sub_diag in E'. cbn in E'. rewrite !app_nil_r in E'. auto. }
    subst xs'. rewrite (P r Hr). rewrite nth_slice by lia. reflexivity. }
  destruct (u_kind R u) as [r|r s'|wi ui|wi ui s'] eqn:Ek; unfold transformed_size in Hts; rewrite Ek in Hts.
  - destruct (SC r Hs Hts) as (v & E & L & Ev). exists v. split; [exact E|]. split; [auto|]. intros src N' Hsrc HN'. apply Hblk in Hsrc. subst src. auto.
  - destruct Hs as (Hr & _). destruct (SC r Hr Hts) as (v & E & L & Ev). exists v. split; [exact E|]. split; [auto|]. intros src N' Hsrc HN'. apply Hblk in Hsrc. subst src. auto.
  - destruct Hs as (w & uv & H1 & H2 & Sh). destruct Hts as (uv' & H2' & Hn). rewrite H2 in H2'. injection H2' as <-.
    rewrite (proj2 (get_ok _ _ _) H1), (proj2 (get_ok _ _ _) H2). cbn [bind].
    destruct (ST w uv Sh Hn) as (v & E & L & P). exists v. split; [auto|]. split; [auto|].
    intros src N' Hsrc HN' w' uv' G1 G2. apply Hblk in Hsrc. subst src. rewrite HN in HN'. injection HN' as <-.
    rewrite H1 in G1. injection G1 as <-. rewrite H2 in G2. injection G2 as <-. auto.
  - destruct Hs as ((w & uv & H1 & H2 & Sh) & _). destruct Hts as (uv' & H2' & Hn). rewrite H2 in H2'. injection H2' as <-.
    rewrite (proj2 (get_ok _ _ _) H1), (proj2 (get_ok _ _ _) H2). cbn [bind].
    destruct (ST w uv Sh Hn) as (v & E & L & P). exists v. split; [auto|]. split; [auto|].
    intros src N' Hsrc HN' w' uv' G1 G2. apply Hblk in Hsrc. subst src. rewrite HN in HN'. injection HN' as <-.
    rewrite H1 in G1. injection G1 as <-. rewrite H2 in G2. injection G2 as <-. auto.
Qed.

Lemma run_spec (m : mobj) : wf_mobj m -> shapes_ok m ->
  exists nv ns vs ix',
    mapM (new_nvar T m) (enumerate (m_unc R T m)) = Ok nv /\ n_uS (m_unc R T m) = Ok ns /\ length nv = length (m_unc R T m) /\
    (forall b u N n', nth_error (m_unc R T m) b = Some u -> nth_error (N_var (m_idx R T m)) b = Some N ->
      nth_error nv b = Some n' -> transformed_size m u N n') /\
    map (@length R) vs = nv /\
    (forall b u xs, nth_error (m_unc R T m) b = Some u -> nth_error vs b = Some xs -> normalised m b u xs) /\
    ix' = mkIdx (Nm (m_idx R T m)) (cNm (m_idx R T m)) (Im (m_idx R T m)) (sensors (m_idx R T m)) (sensor_ms (m_idx R T m))
            (n_sensor (m_idx R T m)) (n_mu (m_idx R T m)) (n_cov (m_idx R T m)) nv (add_last ns (cumul 0 nv)) /\
    tn_run T m = Ok (mkMobj R T ix' (m_ps R T m) (m_oidx R T m) (m_ops R T m) (concat vs ++ repeat 0%R ns)
             (zip2 Rdiv (m_ks R T m) (concat (m_unck R T m))) (m_unc R T m) (m_unck R T m)
             (m_ws R T m) (m_us R T m) None None (m_across1 R T m) (m_across2 R T m) (m_along1 R T m) (m_along2 R T m) None).
Proof.
  intros W Hs. destruct (nvars_ok m W Hs) as (nv & E1 & L1 & Hts). destruct (n_uS_ok m W Hs) as (ns & E2 & _).
  set (ix' := mkIdx (Nm (m_idx R T m)) (cNm (m_idx R T m)) (Im (m_idx R T m)) (sensors (m_idx R T m)) (sensor_ms (m_idx R T m))
            (n_sensor (m_idx R T m)) (n_mu (m_idx R T m)) (n_cov (m_idx R T m)) nv (add_last ns (cumul 0 nv))).
  destruct (run_values m ix' nv ns W Hs E1 L1 eq_refl eq_refl Hts) as (vs & Ev & Lv & P).
  exists nv, ns, vs, ix'. split; [auto|]. split; [auto|]. split; [auto|]. split; [auto|]. split; [auto|]. split; [auto|]. split; [auto|].
  unfold tn_run, ind_idx. rewrite E1. cbn [bind]. rewrite E2. cbn [bind]. fold ix'.
  change (idxs ix') with (add_last ns (cumul 0 nv)). rewrite add_last_pylast. cbn [bind plus]. rewrite Ev. cbn [bind].
  rewrite (wf_cnm _ W). destruct Hs as (Him & Huk & _). rewrite scale_ks_ok; [reflexivity|auto|apply (wf_ks _ W)|auto|apply (wf_unck _ W)].
Qed.
End M.
