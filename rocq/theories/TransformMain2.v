From Coq Require Import Reals Lra.
From Verif Require Import Base BaseLemmas ReaderModel UncModel UncProofs UncProofs2 MuModel MuProofs SampleSpec SampleProofs SampleProofs2 TransformModel TransformSpec TransformProofs TransformProofs2 TransformMain.
Open Scope nat_scope.

Section M.
Context {T : Type}.
Notation mobj := (mobj R T).

(** the value of a block in original form *)
Definition rev_val (m : mobj) (tot : nat) (vals xs : list R) (u : unc R) (N : nat) : list R :=
  let sy := match u_sysi R u with Some k => nth (tot + k - 1) vals 0%R | None => 0%R end in
  let wd wi ui f := match nth_error (m_ws R T m) wi, nth_error (m_us R T m) ui with
                    | Some w, Some uv => map (row_apply w (fun c => nth c (map f (zip2 Rmult uv xs)) 0%R)) (seq 0 N)
                    | _, _ => []
                    end in
  match u_kind R u with
  | UK1 _ r => zip2 Rmult xs r
  | UK2 _ r s => zip2 Rplus (zip2 Rmult xs r) (map (Rmult sy) s)
  | UK3 _ wi ui => wd wi ui (fun x => x)
  | UK4 _ wi ui uS => wd wi ui (fun x => x + sy * uS)%R
  end.

(** [d] is a state of the transformed object of [m] *)
Record state_of (m d : mobj) (nv : list nat) (ns : nat) : Prop := {
  st_unc : m_unc R T d = m_unc R T m;
  st_unck : m_unck R T d = m_unck R T m;
  st_ws : m_ws R T d = m_ws R T m;
  st_us : m_us R T d = m_us R T m;
  st_oidx : m_oidx R T d = Some (m_idx R T m);
  st_nus : n_uS (m_unc R T m) = Ok ns;
  st_nvl : length nv = length (m_unc R T m);
  st_nv : N_var (m_idx R T d) = nv;
  st_idxs : idxs (m_idx R T d) = add_last ns (cumul 0 nv);
  st_ts : forall b u N n', nth_error (m_unc R T m) b = Some u -> nth_error (N_var (m_idx R T m)) b = Some N ->
      nth_error nv b = Some n' -> transformed_size m u N n';
  st_len : length (m_values R T d) = list_sum nv + ns;
  st_same : n_sensor (m_idx R T d) = n_sensor (m_idx R T m) /\ n_mu (m_idx R T d) = n_mu (m_idx R T m) /\ n_cov (m_idx R T d) = n_cov (m_idx R T m)
            /\ Nm (m_idx R T d) = Nm (m_idx R T m) /\ sensor_ms (m_idx R T d) = sensor_ms (m_idx R T m)
}.

Lemma bop_scalar v sy uS : length v = length uS -> bop Rplus v (map (Rmult sy) uS) = Ok (zip2 Rplus v (map (Rmult sy) uS)).
Proof. intros H. apply bop_eq. rewrite map_length. auto. Qed.

Lemma get_sys (vals a : list R) tot ns k : length vals = tot + ns -> 1 <= k <= ns ->
  pyget (vals ++ a) (isys (tot + ns) ns k) = Ok (nth (tot + k - 1) vals 0%R).
Proof.
  intros Hl Hk. unfold isys. replace (Z.of_nat (tot + ns) - Z.of_nat ns - 1 + Z.of_nat k)%Z with (Z.of_nat (tot + k - 1)) by lia.
  rewrite pyget_of_nat. rewrite (get_nth _ _ 0%R) by (rewrite app_length; lia). rewrite app_nth1 by lia. reflexivity.
Qed.

Section State.
Variables (m d : mobj) (nv : list nat) (ns : nat).
Hypothesis W : wf_mobj m.
Hypothesis Hs : shapes_ok m.
Hypothesis St : state_of m d nv ns.
Notation tot := (list_sum nv).

Lemma conv_block b u N n' xs a : nth_error (m_unc R T m) b = Some u -> nth_error (N_var (m_idx R T m)) b = Some N ->
  nth_error nv b = Some n' -> length xs = n' ->
  length (rev_val m tot (m_values R T d) xs u N) = N /\
  reverse_block T d ns (tot + ns) (m_values R T d) xs u = Ok (rev_val m tot (m_values R T d) xs u N) /\
  unconvert_block T d ns (tot + ns) (m_values R T d ++ a) xs u = Ok (rev_val m tot (m_values R T d) xs u N) /\
  unconvert_block_c T d ns (tot + ns) (m_values R T d ++ a) xs u = Ok (rev_val m tot (m_values R T d) xs u N).
Proof.
  intros Hu HN Hn' Hx. pose proof (st_ts _ _ _ _ St b u N n' Hu HN Hn') as Hts.
  pose proof (n_uS_ok m W Hs) as (ns' & E & Hsys & _). rewrite (st_nus _ _ _ _ St) in E. injection E as <-.
  assert (Hsys' : has_systematic u -> exists k, u_sysi R u = Some k /\ 1 <= k <= ns) by (apply Hsys; eapply nth_error_In; eauto).
  pose proof (proj2 (proj2 Hs) b u N Hu HN) as Hsh.
  unfold rev_val, reverse_block, unconvert_block, unconvert_block_c, transformed_size, has_systematic, sys_no in *.
  rewrite (st_ws _ _ _ _ St), (st_us _ _ _ _ St).
  assert (GS0 : forall k, 1 <= k <= ns -> pyget (m_values R T d) (isys (tot + ns) ns k) = Ok (nth (tot + k - 1) (m_values R T d) 0%R)).
  { intros k Hk. rewrite <- (app_nil_r (m_values R T d)) at 1. apply get_sys; auto. apply (st_len _ _ _ _ St). }
  assert (GS : forall k, 1 <= k <= ns -> pyget (m_values R T d ++ a) (isys (tot + ns) ns k) = Ok (nth (tot + k - 1) (m_values R T d) 0%R)).
  { intros k Hk. apply get_sys; auto. apply (st_len _ _ _ _ St). }
  destruct (u_kind R u) as [r|r s'|wi ui|wi ui s'].
  - rewrite bop_eq by lia. rewrite zip2_length by lia. repeat split; auto; lia.
  - destruct Hsh as (Hr & Hs' & _). destruct (Hsys' I) as (k & Ek & Hk). rewrite Ek. cbn [bind].
    rewrite bop_eq by lia. cbn [bind]. rewrite GS0, GS by auto. cbn [bind].
    rewrite bop_scalar by (rewrite zip2_length; lia). rewrite zip2_length; [|rewrite map_length, zip2_length; lia].
    rewrite zip2_length by lia. repeat split; auto; lia.
  - destruct Hsh as (w & uv & H1 & H2 & Sh). destruct Hts as (uv' & H2' & Hl). rewrite H2 in H2'. injection H2' as <-.
    rewrite (proj2 (get_ok _ _ _) H1), (proj2 (get_ok _ _ _) H2), H1, H2. cbn [bind].
    rewrite bop_eq by lia. cbn [bind]. rewrite (csr_dot_ok w _ N (length uv) Sh) by (rewrite zip2_length; lia).
    rewrite map_length, seq_length, map_id. auto.
  - destruct Hsh as ((w & uv & H1 & H2 & Sh) & _). destruct Hts as (uv' & H2' & Hl). rewrite H2 in H2'. injection H2' as <-.
    destruct (Hsys' I) as (k & Ek & Hk). rewrite Ek.
    rewrite (proj2 (get_ok _ _ _) H1), (proj2 (get_ok _ _ _) H2), H1, H2. cbn [bind].
    rewrite !bop_eq by lia. cbn [bind]. rewrite GS0, GS by auto. cbn [bind]. rewrite (zip2_comm xs uv).
    rewrite (csr_dot_ok w _ N (length uv) Sh) by (rewrite map_length, zip2_length; lia).
    rewrite map_length, seq_length. auto.
Qed.

(** block [b] of the state *)
Lemma state_block b n' : nth_error nv b = Some n' ->
  exists s, get (idxs (m_idx R T d)) b = Ok s /\ s + n' <= tot /\ s = list_sum (firstn b nv) /\ length (slice s (s + n') (m_values R T d)) = n' /\
   forall a, slice s (s + n') (m_values R T d ++ a) = slice s (s + n') (m_values R T d).
Proof.
  intros Hn. assert (Hb : b < length nv) by (apply nth_error_Some; congruence).
  rewrite (st_idxs _ _ _ _ St). rewrite add_last_get by (rewrite cumul_length; lia).
  exists (list_sum (firstn b nv)). rewrite (proj2 (get_ok _ _ _) (cumul_nth 0 nv b ltac:(lia))). split; [auto|].
  assert (Hle : list_sum (firstn b nv) + n' <= tot).
  { rewrite <- (list_sum_firstn_S _ _ _ Hn). rewrite <- (firstn_skipn (S b) nv) at 2. rewrite list_sum_app. lia. }
  split; [auto|]. split; [auto|]. pose proof (st_len _ _ _ _ St) as L. split; [rewrite slice_length' by lia; lia|].
  intros a. unfold slice. rewrite skipn_app. rewrite firstn_app, skipn_length.
  replace (list_sum (firstn b nv) + n' - list_sum (firstn b nv) - (length (m_values R T d) - list_sum (firstn b nv))) with 0 by lia.
  cbn. apply app_nil_r.
Qed.

Lemma reverse_spec : length (m_ks R T d) = list_sum (Nm (m_idx R T m)) -> 
  exists vs, tn_reverse T d = Ok (mkMobj R T (m_idx R T m) (m_ops R T d) (Some (m_idx R T m)) (m_ops R T d) (concat vs)
      (zip2 Rmult (m_ks R T d) (concat (m_unck R T m))) (m_unc R T m) (m_unck R T m) (m_ws R T m) (m_us R T m)
      None None (m_across1 R T d) (m_across2 R T d) (m_along1 R T d) (m_along2 R T d) None) /\
    map (@length R) vs = N_var (m_idx R T m) /\
    forall b u v N n' s, nth_error (m_unc R T m) b = Some u -> nth_error vs b = Some v -> nth_error (N_var (m_idx R T m)) b = Some N ->
      nth_error nv b = Some n' -> s = list_sum (firstn b nv) -> v = rev_val m tot (m_values R T d) (slice s (s + n') (m_values R T d)) u N.
Proof.
  intros Hks. unfold tn_reverse. rewrite (st_oidx _ _ _ _ St). cbn [bind]. rewrite (wf_idxs _ W), pylast_cumul. cbn [bind plus].
  rewrite (st_unc _ _ _ _ St), (st_nus _ _ _ _ St). cbn [bind]. rewrite (st_idxs _ _ _ _ St), add_last_pylast. cbn [bind plus].
  rewrite (st_unck _ _ _ _ St), (st_nv _ _ _ _ St), (st_ws _ _ _ _ St), (st_us _ _ _ _ St).
  match goal with |- context [foldM ?f _ _] => set (step := f) end.
  destruct (block_fold_ex 0%R step (fun b u v => forall N n' s, nth_error (N_var (m_idx R T m)) b = Some N ->
      nth_error nv b = Some n' -> s = list_sum (firstn b nv) -> v = rev_val m tot (m_values R T d) (slice s (s + n') (m_values R T d)) u N)
      (m_unc R T m) (N_var (m_idx R T m)) []) as (vs & Ev & Lv & P).
  - symmetry. apply (wf_unc _ W).
  - intros b u N pre post Hu HN Hp.
    assert (Hb : b < length nv) by (rewrite (st_nvl _ _ _ _ St); apply nth_error_Some; congruence).
    destruct (nth_error nv b) as [n'|] eqn:En; [|apply nth_error_None in En; lia].
    destruct (state_block b n' En) as (s & Hsg & Hle & Hse & Hsl & _). rewrite (st_idxs _ _ _ _ St) in Hsg.
    destruct (conv_block b u N n' (slice s (s + n') (m_values R T d)) [] Hu HN En Hsl) as (L & E & _).
    exists (rev_val m tot (m_values R T d) (slice s (s + n') (m_values R T d)) u N). split; [|split; [auto|]].
    + unfold step. cbn [fst snd].
      assert (HbN : b < length (N_var (m_idx R T m))) by (apply nth_error_Some; congruence).
      rewrite (proj2 (get_ok _ _ _) (cumul_nth 0 (N_var (m_idx R T m)) b ltac:(lia))). cbn [bind plus].
      rewrite (proj2 (get_ok _ _ _) HN). cbn [bind]. rewrite Hsg. cbn [bind]. rewrite (proj2 (get_ok _ _ _) En). cbn [bind].
      rewrite E. cbn [bind]. rewrite <- Hp. rewrite <- (repeat_length 0%R N) at 1. apply assign_mid. rewrite repeat_length. auto.
    + intros N0 n0 s0 H1 H2 H3. assert (N0 = N) by congruence. assert (n0 = n') by congruence. subst. reflexivity.
  - rewrite !app_nil_r in Ev. rewrite Ev. cbn [bind]. rewrite (wf_cnm _ W).
    destruct Hs as (Him & Huk & _). rewrite scale_ks_ok; [|auto|auto|auto|apply (wf_unck _ W)]. cbn [bind].
    exists vs. split; [reflexivity|]. split; [auto|]. intros b u v N n' s Hu Hv HN Hn' Hse. eapply P; eauto.
Qed.
End State.

Lemma row_apply_ext w f g N nc i : csr_shape w N nc -> i < N -> (forall c, c < nc -> f c = g c) -> row_apply w f i = row_apply w g i.
Proof.
  intros Sh Hi H. unfold row_apply. change (fold_right Rplus 0%R) with rsum. apply rsum_ext. intros e He. rewrite H; [auto|].
  eapply entry_col; eauto. apply in_map; auto.
Qed.

(** rev_val undoes the normalisation when the systematic variables are 0 *)
Lemma rev_norm (m : mobj) b u N n' src xs tot vals : wf_mobj m -> shapes_ok m -> normalisable m ->
  nth_error (m_unc R T m) b = Some u -> nth_error (N_var (m_idx R T m)) b = Some N ->
  transformed_size m u N n' -> length xs = n' ->
  is_block (idxs (m_idx R T m)) (m_values R T m) b src -> length src = N -> normalised m b u xs ->
  (forall k, u_sysi R u = Some k -> has_systematic u -> nth (tot + k - 1) vals 0%R = 0%R) ->
  rev_val m tot vals xs u N = src.
Proof.
  intros W Hs (_ & Hnz) Hu HN Hts Hx Hsrc Hls Hnorm Hsy.
  pose proof (proj2 (proj2 Hs) b u N Hu HN) as Hsh. specialize (Hnz b u N Hu HN). specialize (Hnorm src N Hsrc HN).
  unfold rev_val, transformed_size, has_systematic in *.
  assert (LST : forall w uv (f : R -> R), csr_shape w N (length uv) -> length xs = length uv -> (forall x, f x = x) ->
     (forall r, r < N -> row_apply w (fun c => (nth c uv 0 * nth c xs 0)%R) r = nth r src 0%R) ->
     map (row_apply w (fun c => nth c (map f (zip2 Rmult uv xs)) 0%R)) (seq 0 N) = src).
  { intros w uv f Sh Hl Hf P. rewrite (map_ext f (fun x => x)) by auto. rewrite map_id.
    apply (nth_ext _ _ 0%R 0%R); [rewrite map_length, seq_length; auto|]. intros r Hr. rewrite map_length, seq_length in Hr.
    rewrite (nth_indep _ 0%R (row_apply w (fun c => nth c (zip2 Rmult uv xs) 0%R) 0)) by (rewrite map_length, seq_length; auto).
    rewrite map_nth, seq_nth by auto. cbn [plus]. rewrite <- (P r Hr). eapply row_apply_ext; eauto.
    intros c Hc. apply zip2_nth; lia. }
  destruct (u_kind R u) as [r|r s'|wi ui|wi ui s'].
  - rewrite Hnorm. apply zip2_inv; [lia|auto].
  - rewrite Hnorm. destruct Hsh as (Hr & Hls' & k & Ek & _). rewrite Ek, (Hsy k Ek I). rewrite zip2_inv by (auto; lia).
    assert (G : forall a s : list R, length a = length s -> zip2 Rplus a (map (Rmult 0) s) = a).
    { clear. induction a as [|x a IH]; intros [|y s] H; cbn in *; try discriminate; [auto|]. f_equal; [lra|apply IH; lia]. }
    apply G. lia.
  - destruct Hsh as (w & uv & H1 & H2 & Sh). destruct Hts as (uv' & H2' & Hl). rewrite H2 in H2'. injection H2' as <-. rewrite H1, H2.
    destruct (Hnz w uv H1 H2) as (Sol & Hz). apply LST; [exact Sh|lia|intros; lra|]. intros r Hr. apply (Hnorm w uv); auto.
  - destruct Hsh as ((w & uv & H1 & H2 & Sh) & k & Ek & _). destruct Hts as (uv' & H2' & Hl). rewrite H2 in H2'. injection H2' as <-. rewrite H1, H2.
    rewrite Ek, (Hsy k Ek I). destruct (Hnz w uv H1 H2) as (Sol & Hz). apply LST; [exact Sh|lia|intros; lra|]. intros r Hr. apply (Hnorm w uv); auto.
Qed.

Lemma run_state (m : mobj) : wf_mobj m -> shapes_ok m -> m_oidx R T m = Some (m_idx R T m) ->
  exists d nv ns vs, tn_run T m = Ok d /\ state_of m d nv ns /\ m_values R T d = concat vs ++ repeat 0%R ns /\ map (@length R) vs = nv /\
    m_ks R T d = zip2 Rdiv (m_ks R T m) (concat (m_unck R T m)) /\
    (forall b u xs, nth_error (m_unc R T m) b = Some u -> nth_error vs b = Some xs -> normalised m b u xs).
Proof.
  intros W Hs Ho. destruct (run_spec m W Hs) as (nv & ns & vs & ix' & E1 & E2 & E3 & E4 & E5 & E6 & E7 & E8).
  eexists. exists nv, ns, vs. split; [exact E8|]. split.
  - constructor; try reflexivity; cbn; auto.
    + rewrite E7. reflexivity.
    + rewrite E7. reflexivity.
    + rewrite app_length, repeat_length, concat_length, E5. reflexivity.
    + rewrite E7. cbn. auto.
  - cbn. auto.
Qed.

Theorem reverse_run (m : mobj) : wf_mobj m -> shapes_ok m -> normalisable m -> m_oidx R T m = Some (m_idx R T m) ->
  exists d m2, tn_run T m = Ok d /\ tn_reverse T d = Ok m2 /\
    m_values R T m2 = m_values R T m /\ m_ks R T m2 = m_ks R T m /\ m_idx R T m2 = m_idx R T m /\
    m_unc R T m2 = m_unc R T m /\ m_unck R T m2 = m_unck R T m.
Proof.
  intros W Hs Hnz Ho. destruct (run_state m W Hs Ho) as (d & nv & ns & vs & Er & St & Ev & Lv & Ek & Hn).
  assert (Hku : length (m_ks R T m) = length (concat (m_unck R T m))).
  { rewrite concat_length, (wf_ks _ W). f_equal. apply nth_error_ext. intros i. rewrite nth_error_map'.
    destruct (nth_error (m_unck R T m) i) as [u|] eqn:E; [apply (proj1 (proj2 Hs)); auto|].
    apply nth_error_None in E. rewrite (wf_unck _ W) in E. apply nth_error_None; auto. }
  destruct (reverse_spec m d nv ns W Hs St) as (vs2 & E2 & L2 & P2).
  { rewrite Ek. rewrite zip2_length by auto. apply (wf_ks _ W). }
  eexists d, _. split; [auto|]. split; [exact E2|]. cbn [m_values m_ks m_idx m_unc m_unck].
  split; [|split; [|auto]].
  - destruct (chop_spec (N_var (m_idx R T m)) (m_values R T m) (wf_values _ W)) as (C1 & C2). rewrite <- C1. f_equal.
    apply nth_error_ext. intros b.
    destruct (nth_error (N_var (m_idx R T m)) b) as [N|] eqn:EN.
    + assert (Hb : b < length (m_unc R T m)) by (rewrite (wf_unc _ W); apply nth_error_Some; congruence).
      destruct (nth_error (m_unc R T m) b) as [u|] eqn:Eu; [|apply nth_error_None in Eu; lia].
      destruct (nth_error vs2 b) as [v|] eqn:Ev2.
      2:{ apply nth_error_None in Ev2. rewrite <- L2 in EN. rewrite nth_error_map' in EN.
          rewrite (proj2 (nth_error_None vs2 b) Ev2) in EN. discriminate. }
      destruct (nth_error nv b) as [n'|] eqn:En; [|apply nth_error_None in En; rewrite (st_nvl _ _ _ _ St) in En; lia].
      destruct (nth_error (chop (N_var (m_idx R T m)) (m_values R T m)) b) as [src|] eqn:Es.
      2:{ rewrite <- C2, nth_error_map', Es in EN. discriminate. }
      f_equal. rewrite (P2 b u v N n' _ Eu Ev2 EN En eq_refl).
      destruct (nth_error vs b) as [xs|] eqn:Ex.
      2:{ rewrite <- Lv, nth_error_map', Ex in En. discriminate. }
      assert (Hxs : slice (list_sum (firstn b nv)) (list_sum (firstn b nv) + n') (m_values R T d) = xs).
      { pose proof (is_block_concat _ _ _ Ex) as (lo & hi & L1' & L2' & L4' & L3'). rewrite Lv in *.
        assert (b < length nv) by (apply nth_error_Some; congruence).
        rewrite (cumul_nth 0 nv b) in L1' by lia. rewrite (cumul_nth 0 nv (b + 1)) in L2' by lia. cbn [plus] in *.
        injection L1' as <-. injection L2' as <-. rewrite (Nat.add_1_r b), (list_sum_firstn_S _ _ _ En) in *.
        rewrite L3', Ev. unfold slice. rewrite skipn_app, firstn_app, skipn_length.
        replace (list_sum (firstn b nv) + n' - list_sum (firstn b nv) - (length (concat vs) - list_sum (firstn b nv))) with 0 by lia.
        cbn. apply app_nil_r. }
      rewrite Hxs. apply (rev_norm m b u N n'); auto.
      * apply (st_ts _ _ _ _ St b u N n' Eu EN En).
      * rewrite <- Lv, nth_error_map', Ex in En. cbn in En. congruence.
      * pose proof (is_block_concat _ _ _ Es) as H. rewrite C1, C2 in H. rewrite (wf_idxs _ W). exact H.
      * rewrite <- C2, nth_error_map', Es in EN. cbn in EN. congruence.
      * intros k Hk Hsys. pose proof (n_uS_ok m W Hs) as (ns' & E & Hsy & _). rewrite (st_nus _ _ _ _ St) in E. injection E as <-.
        destruct (Hsy u (nth_error_In _ _ Eu) Hsys) as (k' & Ek' & Hk'). assert (k' = k) by congruence. subst k'.
        rewrite Ev. rewrite app_nth2; rewrite concat_length, Lv; [|lia]. apply nth_repeat.
    + assert (E1 : nth_error vs2 b = None).
      { rewrite <- L2, nth_error_map' in EN. destruct (nth_error vs2 b); [discriminate|reflexivity]. }
      rewrite E1. symmetry. apply nth_error_None. apply nth_error_None in EN. rewrite <- C2, map_length in EN. exact EN.
  - rewrite Ek. apply zip2_inv; [auto|]. intros x Hx. apply in_concat in Hx as (u & H1 & H2). apply (proj1 Hnz u H1 x H2).
Qed.
End M.
