From Coq Require Import Reals Lra.
From Verif Require Import Base BaseLemmas ReaderModel UncModel UncProofs UncProofs2 MuModel MuProofs SampleSpec SampleProofs SampleProofs2 TransformModel TransformSpec TransformProofs TransformProofs2 TransformMain TransformMain2.
Open Scope nat_scope.

Section M.
Context {T : Type}.
Notation mobj := (mobj R T).

Lemma run_layout (m d : mobj) : wf_mobj m -> shapes_ok m -> tn_run T m = Ok d ->
  same_labels m d /\
  length (N_var (m_idx R T d)) = length (N_var (m_idx R T m)) /\
  (forall b u N n', nth_error (m_unc R T m) b = Some u -> nth_error (N_var (m_idx R T m)) b = Some N ->
     nth_error (N_var (m_idx R T d)) b = Some n' -> transformed_size m u N n') /\
  exists ns body, n_systematic m ns /\
    m_values R T d = body ++ repeat 0%R ns /\ length body = list_sum (N_var (m_idx R T d)) /\
    (forall b, b < length (N_var (m_idx R T d)) ->
       nth_error (idxs (m_idx R T d)) b = Some (list_sum (firstn b (N_var (m_idx R T d))))) /\
    nth_error (idxs (m_idx R T d)) (length (N_var (m_idx R T d))) = Some (length body + ns) /\
    length (idxs (m_idx R T d)) = length (N_var (m_idx R T d)) + 1.
Proof.
  intros W Hs H. destruct (run_spec m W Hs) as (nv & ns & vs & ix' & E1 & E2 & E3 & E4 & E5 & E6 & E7 & E8).
  rewrite E8 in H. injection H as <-. subst ix'. cbn [m_idx m_values m_unc m_unck m_ws m_us m_across1 m_across2 m_along1 m_along2 N_var idxs].
  split; [repeat split|]. split; [rewrite E3; apply (wf_unc _ W)|]. split; [exact E4|].
  exists ns, (concat vs).
  assert (Lb : length (concat vs) = list_sum nv) by (rewrite concat_length, E5; reflexivity).
  split.
  { destruct (n_uS_ok m W Hs) as (ns' & E & A & B). rewrite E2 in E. injection E as <-. split; auto. }
  split; [auto|]. split; [exact Lb|].
  assert (AL : add_last ns (cumul 0 nv) = removelast (cumul 0 nv) ++ [list_sum nv + ns]).
  { destruct nv as [|n nv'] using rev_ind; [reflexivity|]. rewrite cumul_snoc, add_last_snoc, removelast_last. rewrite list_sum_app.
    cbn. repeat f_equal. lia. }
  assert (LR : length (removelast (cumul 0 nv)) = length nv).
  { destruct nv as [|n nv'] using rev_ind; [reflexivity|]. rewrite cumul_snoc, removelast_last, cumul_length, app_length. cbn. lia. }
  split; [|split].
  - intros b Hb. assert (G : get (add_last ns (cumul 0 nv)) b = get (cumul 0 nv) b) by (apply add_last_get; rewrite cumul_length; lia).
    rewrite (proj2 (get_ok _ _ _) (cumul_nth 0 nv b ltac:(lia))) in G. apply get_ok in G. exact G.
  - rewrite AL, nth_error_app2 by lia. rewrite LR, Nat.sub_diag, Lb. reflexivity.
  - rewrite AL, app_length, LR. cbn. lia.
Qed.

Lemma slice_concat (vs : list (list R)) tail b v n' : nth_error vs b = Some v -> length v = n' ->
  slice (list_sum (firstn b (map (@length R) vs))) (list_sum (firstn b (map (@length R) vs)) + n') (concat vs ++ tail) = v.
Proof.
  intros H L. assert (Hb : b < length vs) by (apply nth_error_Some; congruence).
  rewrite <- (firstn_skipn b vs) at 3. rewrite concat_app.
  assert (E : skipn b vs = v :: skipn (S b) vs).
  { clear - H. revert b H. induction vs as [|x vs IH]; intros [|b] H; cbn in *; try discriminate; [congruence|auto]. }
  rewrite E. cbn [concat].
  assert (Lp : length (concat (firstn b vs)) = list_sum (firstn b (map (@length R) vs))).
  { rewrite concat_length. f_equal. symmetry. apply firstn_map. }
  rewrite <- app_assoc, <- app_assoc, <- Lp, <- L. apply slice_mid.
Qed.

(** the transformed values: types 1 and 2 divide by the random uncertainty, W blocks solve W (u * x) = values *)
Lemma run_normalises (m d : mobj) : wf_mobj m -> shapes_ok m -> tn_run T m = Ok d ->
  m_ks R T d = map (fun p => fst p / snd p)%R (combine (m_ks R T m) (concat (m_unck R T m))) /\
  forall b u n' src, nth_error (m_unc R T m) b = Some u -> nth_error (N_var (m_idx R T d)) b = Some n' ->
    is_block (idxs (m_idx R T m)) (m_values R T m) b src ->
    exists xs lo, nth_error (idxs (m_idx R T d)) b = Some lo /\ xs = slice lo (lo + n') (m_values R T d) /\ length xs = n' /\
      match u_kind R u with
      | UK1 _ r | UK2 _ r _ => forall i x s, nth_error src i = Some x -> nth_error r i = Some s -> nth_error xs i = Some (x / s)%R
      | UK3 _ wi ui | UK4 _ wi ui _ =>
          forall w uv, nth_error (m_ws R T m) wi = Some w -> nth_error (m_us R T m) ui = Some uv ->
          solvable w (length src) -> nonzero uv ->
          forall i x, nth_error src i = Some x -> row_apply w (fun c => (nth c uv 0 * nth c xs 0)%R) i = x
      end.
Proof.
  intros W Hs H. destruct (run_spec m W Hs) as (nv & ns & vs & ix' & E1 & E2 & E3 & E4 & E5 & E6 & E7 & E8).
  rewrite E8 in H. injection H as <-. subst ix'. cbn [m_idx m_values m_ks N_var idxs]. split; [reflexivity|].
  intros b u n' src Hu Hn' Hsrc. destruct (nth_error vs b) as [xs|] eqn:Ex.
  2:{ rewrite <- E5, nth_error_map', Ex in Hn'. discriminate. }
  assert (Lx : length xs = n') by (rewrite <- E5, nth_error_map', Ex in Hn'; cbn in Hn'; congruence).
  assert (Hb : b < length nv) by (apply nth_error_Some; congruence).
  exists xs, (list_sum (firstn b nv)). split; [|split; [|split; [exact Lx|]]].
  - assert (G : get (add_last ns (cumul 0 nv)) b = get (cumul 0 nv) b) by (apply add_last_get; rewrite cumul_length; lia).
    rewrite (proj2 (get_ok _ _ _) (cumul_nth 0 nv b ltac:(lia))) in G. apply get_ok in G. exact G.
  - rewrite <- E5. symmetry. apply slice_concat; auto.
  - pose proof (E6 b u xs Hu Ex) as Hn. destruct (nvar_of m b u W Hu) as (N & HN). specialize (Hn src N Hsrc HN).
    assert (LN : length src = N).
    { pose proof Hsrc as Hsrc'. rewrite (wf_idxs _ W) in Hsrc'. pose proof (block_len _ _ _ _ (wf_values _ W) Hsrc') as G. congruence. }
    destruct (u_kind R u) as [r|r s'|wi ui|wi ui s'].
    + intros i x s Hx Hsi. subst xs. apply zip2_nth_error; auto.
    + intros i x s Hx Hsi. subst xs. apply zip2_nth_error; auto.
    + intros w uv H1 H2 Sol Nz i x Hx. rewrite (Hn w uv H1 H2) by (subst N; auto; subst; apply nth_error_Some; congruence).
      apply nth_nth_error. auto.
    + intros w uv H1 H2 Sol Nz i x Hx. rewrite (Hn w uv H1 H2) by (subst N; auto; subst; apply nth_error_Some; congruence).
      apply nth_nth_error. auto.
Qed.

Lemma state_with (m d : mobj) nv ns x : state_of m d nv ns -> length x = length (m_values R T d) -> state_of m (with_values d x) nv ns.
Proof. intros [] H. constructor; cbn [with_values m_unc m_unck m_ws m_us m_oidx m_idx m_values]; auto. congruence. Qed.

Lemma zip3_nth a b c i x y z : nth_error (zip3 a b c) i = Some (x, y, z) -> nth_error b i = Some y.
Proof.
  unfold zip3. revert b c i. induction a as [|a0 a IH]; intros [|b0 b] [|c0 c] i H; cbn in H; try (destruct i; discriminate).
  destruct i as [|i]; cbn in *; [congruence|eauto].
Qed.

Lemma column_ok n v : length v = n -> column_of n v = Ok v.
Proof.
  intros H. unfold column_of. pose proof (assign_mid [] (repeat 0%R n) [] v) as A. rewrite repeat_length in A.
  cbn [length app] in A. rewrite !app_nil_r in A. apply A. auto.
Qed.

(** C19 *)
Theorem unconvert_reverse (m d0 : mobj) (x a : list R) : wf_mobj m -> shapes_ok m -> m_oidx R T m = Some (m_idx R T m) ->
  tn_run T m = Ok d0 -> length x = length (m_values R T d0) ->
  exists r, tn_reverse T (with_values d0 x) = Ok r /\
  forall s n ncov, nth_error (sensor_ms (m_idx R T m)) s = Some ncov -> 1 <= ncov ->
    (forall c, 1 <= c <= ncov -> In (s, n, c) (get_block_idxs (m_idx R T m))) ->
    NoDup (get_block_idxs (m_idx R T m)) ->
    exists cols, unconvert_Xs T (with_values d0 x) (x ++ a) s n = Ok cols /\
                 unconvert_Xs_c T (with_values d0 x) (x ++ a) s n = Ok cols /\
                 length cols = ncov /\
      forall c b col, nth_error (get_block_idxs (m_idx R T m)) b = Some (s, n, c) -> 1 <= c -> nth_error cols (c - 1) = Some col ->
        is_block (idxs (m_idx R T r)) (m_values R T r) b col.
Proof.
  intros W Hs Ho Er Hx.
  destruct (run_state m W Hs Ho) as (d1 & nv & ns & vs & Er' & St0 & Ev & Lv & Ek & _). rewrite Er in Er'. injection Er' as <-.
  pose proof (state_with _ _ _ _ x St0 Hx) as St. set (d := with_values d0 x) in *.
  assert (Hku : length (m_ks R T m) = length (concat (m_unck R T m))).
  { rewrite concat_length, (wf_ks _ W). f_equal. apply nth_error_ext. intros i. rewrite nth_error_map'.
    destruct (nth_error (m_unck R T m) i) as [u|] eqn:E; [apply (proj1 (proj2 Hs)); auto|].
    apply nth_error_None in E. rewrite (wf_unck _ W) in E. apply nth_error_None; auto. }
  destruct (reverse_spec m d nv ns W Hs St) as (vs2 & E2 & L2 & P2).
  { change (m_ks R T d) with (m_ks R T d0). rewrite Ek. rewrite zip2_length by auto. apply (wf_ks _ W). }
  eexists. split; [exact E2|]. cbn [m_idx m_values]. intros s n ncov Hms Hnc Hall Hnd.
  assert (Gb : get_block_idxs (m_idx R T d) = get_block_idxs (m_idx R T m)).
  { unfold get_block_idxs. destruct (st_same _ _ _ _ St) as (-> & -> & -> & _). reflexivity. }
  set (bi := get_block_idxs (m_idx R T m)) in *.
  (* per covariate *)
  assert (PC : forall c, 1 <= c <= ncov -> exists b u N n' v, index eqb3 (s, n, c) bi = Ok b /\ nth_error bi b = Some (s, n, c) /\
     nth_error (m_unc R T m) b = Some u /\ nth_error (N_var (m_idx R T m)) b = Some N /\ nth_error nv b = Some n' /\
     1 <= n /\ nth_error (Nm (m_idx R T m)) (n - 1) = Some N /\ nth_error vs2 b = Some v /\ length v = N /\
     v = rev_val m (list_sum nv) (m_values R T d) (slice (list_sum (firstn b nv)) (list_sum (firstn b nv) + n') (m_values R T d)) u N).
  { intros c Hc. destruct (index_in eqb3 eqb3_spec (s, n, c) bi (Hall c Hc)) as (b & Eb).
    pose proof (index_ok eqb3 eqb3_spec _ _ _ Eb) as (Hb & _).
    pose proof (zip3_nth _ _ _ _ _ _ _ Hb) as Hmu. destruct (wf_series _ W b n Hmu) as (Hn1 & N & HNm & HN).
    assert (Hbl : b < length (m_unc R T m)) by (rewrite (wf_unc _ W); apply nth_error_Some; congruence).
    destruct (nth_error (m_unc R T m) b) as [u|] eqn:Eu; [|apply nth_error_None in Eu; lia].
    destruct (nth_error nv b) as [n'|] eqn:En; [|apply nth_error_None in En; rewrite (st_nvl _ _ _ _ St) in En; lia].
    destruct (nth_error vs2 b) as [v|] eqn:Ev2.
    2:{ rewrite <- L2, nth_error_map', Ev2 in HN. discriminate. }
    exists b, u, N, n', v. do 8 (split; [auto|]). split.
    - rewrite <- L2, nth_error_map', Ev2 in HN. cbn in HN. congruence.
    - eapply P2; eauto. }
  destruct (PC 1 ltac:(lia)) as (b1 & u1 & N & n1 & v1 & Ei1 & _ & _ & HN1 & _ & Hn1 & HNm & _).
  set (cols := map (fun c => match index eqb3 (s, n, c) bi with Ok b => nth b vs2 [] | _ => [] end) (seq 1 ncov)).
  assert (Last : pylast (idxs (m_idx R T d)) = Ok (list_sum nv + ns)).
  { rewrite (st_idxs _ _ _ _ St), add_last_pylast. reflexivity. }
  assert (Step : forall c, 1 <= c <= ncov -> exists b u N' n' s0 v xs, index eqb3 (s, n, c) bi = Ok b /\ nth b vs2 [] = v /\
     get (idxs (m_idx R T d)) b = Ok s0 /\ get (N_var (m_idx R T d)) b = Ok n' /\ get (m_unc R T d) b = Ok u /\
     get (idxs (m_idx R T m)) b = Ok (list_sum (firstn b (N_var (m_idx R T m)))) /\ get (idxs (m_idx R T m)) (b + 1) = Ok (list_sum (firstn (b + 1) (N_var (m_idx R T m)))) /\
     xs = slice s0 (s0 + n') (x ++ a) /\
     unconvert_block T d ns (list_sum nv + ns) (x ++ a) xs u = Ok v /\
     unconvert_block_c T d ns (list_sum nv + ns) (x ++ a) xs u = Ok v /\ length v = N' /\ N' = N).
  { intros c Hc. destruct (PC c Hc) as (b & u & N' & n' & v & Ei & Hb & Hu & HN' & Hn' & _ & HNm' & Hv & Lv' & Ev').
    destruct (state_block m d nv ns St b n' Hn') as (s0 & Hs0 & Hle & Hse & Hsl & Happ).
    destruct (conv_block m d nv ns W Hs St b u N' n' (slice s0 (s0 + n') (m_values R T d)) a Hu HN' Hn' Hsl) as (L & _ & U1 & U2).
    change (m_values R T d) with x in *.
    assert (HbN : b < length (N_var (m_idx R T m))) by (apply nth_error_Some; congruence).
    exists b, u, N', n', s0, v, (slice s0 (s0 + n') (x ++ a)). split; [auto|]. split; [apply nth_nth_error; auto|].
    split; [auto|]. split; [rewrite (st_nv _ _ _ _ St); apply get_ok; auto|]. split; [rewrite (st_unc _ _ _ _ St); apply get_ok; auto|].
    rewrite (wf_idxs _ W). split; [apply get_ok; apply cumul_nth; lia|]. split; [apply get_ok; apply cumul_nth; lia|].
    split; [auto|]. rewrite Happ. subst s0. rewrite Ev'. split; [exact U1|]. split; [exact U2|]. split; [exact L|congruence]. }
  exists cols. split; [|split; [|split]].
  - unfold unconvert_Xs. change (with_values d0 x) with d.
    destruct (st_same _ _ _ _ St) as (_ & _ & _ & EN & EM). rewrite EM, EN, Gb.
    rewrite (proj2 (get_ok _ _ _) Hms). cbn [bind]. rewrite (st_unc _ _ _ _ St), (st_nus _ _ _ _ St). cbn [bind].
    replace (Z.of_nat n - 1)%Z with (Z.of_nat (n - 1)) by lia. rewrite pyget_of_nat, (proj2 (get_ok _ _ _) HNm). cbn [bind].
    unfold cols. apply mapM_Ok_map. intros c Hc. apply in_seq in Hc.
    destruct (Step c ltac:(lia)) as (b & u & N' & n' & s0 & v & xs & Ei & Env & H1 & H2 & H3 & _ & _ & -> & U1 & _ & Lv' & ->).
    rewrite Ei. cbn [bind]. rewrite H1. cbn [bind]. rewrite H2. cbn [bind]. rewrite (st_unc _ _ _ _ St) in H3. rewrite H3. cbn [bind]. rewrite Last. cbn [bind].
    rewrite U1. cbn [bind]. rewrite Env. apply column_ok. auto.
  - unfold unconvert_Xs_c. change (with_values d0 x) with d.
    destruct (st_same _ _ _ _ St) as (_ & _ & _ & EN & EM). rewrite EM, Gb.
    rewrite (st_oidx _ _ _ _ St). cbn [bind].
    rewrite (proj2 (get_ok _ _ _) Hms). cbn [bind]. rewrite (st_unc _ _ _ _ St), (st_nus _ _ _ _ St). cbn [bind].
    destruct (Nat.eqb_spec ncov 0); [lia|]. rewrite Ei1. cbn [bind]. rewrite (wf_idxs _ W).
    assert (HbN : b1 < length (N_var (m_idx R T m))) by (apply nth_error_Some; congruence).
    rewrite (proj2 (get_ok _ _ _) (cumul_nth 0 (N_var (m_idx R T m)) b1 ltac:(lia))). cbn [bind].
    rewrite (proj2 (get_ok _ _ _) (cumul_nth 0 (N_var (m_idx R T m)) (b1 + 1) ltac:(lia))). cbn [bind plus].
    rewrite Nat.add_1_r, (list_sum_firstn_S _ _ _ HN1).
    replace (list_sum (firstn b1 (N_var (m_idx R T m))) + N - list_sum (firstn b1 (N_var (m_idx R T m)))) with N by lia.
    unfold cols. apply mapM_Ok_map. intros c Hc. apply in_seq in Hc.
    destruct (Step c ltac:(lia)) as (b & u & N' & n' & s0 & v & xs & Ei & Env & H1 & H2 & H3 & H4 & H5 & -> & _ & U2 & Lv' & ->).
    rewrite Ei. cbn [bind]. rewrite H1. cbn [bind]. rewrite H2. cbn [bind].
    rewrite (wf_idxs _ W) in H4, H5. rewrite H4. cbn [bind]. rewrite H5. cbn [bind].
    rewrite (st_unc _ _ _ _ St) in H3. rewrite H3. cbn [bind]. rewrite Last. cbn [bind].
    rewrite U2. cbn [bind]. rewrite Env. apply column_ok. auto.
  - unfold cols. rewrite map_length, seq_length. auto.
  - intros c b col Hb Hc Hcol.
    assert (Hlt : c - 1 < ncov) by (rewrite <- (seq_length ncov 1), <- (map_length (fun c => match index eqb3 (s, n, c) bi with Ok b => nth b vs2 [] | _ => [] end)); apply nth_error_Some; unfold cols in Hcol; congruence).
    unfold cols in Hcol. rewrite nth_error_map', (nth_error_nth' _ 0), seq_nth in Hcol by (rewrite ?seq_length; lia). cbn [option_map] in Hcol.
    replace (1 + (c - 1)) with c in Hcol by lia. destruct (PC c ltac:(lia)) as (b' & u & N' & n' & v & Ei & Hb' & _ & _ & _ & _ & _ & Hv & _).
    rewrite Ei in Hcol. assert (b' = b).
    { eapply NoDup_nth_error; [exact Hnd|apply nth_error_Some; congruence|congruence]. }
    subst b'. rewrite (nth_nth_error _ _ _ _ Hv) in Hcol. injection Hcol as <-. rewrite (wf_idxs _ W), <- L2.
    apply is_block_concat. auto.
Qed.
End M.
