From Verif Require Import Base BaseLemmas ReaderModel ReaderSpec ReaderProofs ReaderMain UncModel UncSpec.

(** ** pack *)
Lemma assign_app {A} (a b c v : list A) :
  length v = length b ->
  assign (length a) (length a + length b) v (a ++ b ++ c) = Ok (a ++ v ++ c).
Proof.
  intros H. unfold assign.
  assert (E : slice (length a) (length a + length b) (a ++ b ++ c) = b).
  { unfold slice. rewrite skipn_app, skipn_all2 by lia. rewrite Nat.sub_diag. cbn.
    replace (length a + length b - length a) with (length b + 0) by lia.
    rewrite firstn_app_2. cbn. apply app_nil_r. }
  rewrite E, H, Nat.eqb_refl. f_equal.
  rewrite firstn_app, firstn_all, Nat.sub_diag. cbn. rewrite app_nil_r. f_equal. f_equal.
  rewrite skipn_app, skipn_all2 by lia. cbn.
  replace (length a + length b - length a) with (length b) by lia.
  rewrite skipn_app, skipn_all2 by lia. rewrite Nat.sub_diag. reflexivity.
Qed.

Lemma pack_from {A} (z : A) chunks pre :
  foldM pack_step (combine chunks (map (@length A) chunks))
        (length pre, pre ++ repeat z (list_sum (map (@length A) chunks)))
  = Ok (length pre + list_sum (map (@length A) chunks), pre ++ concat chunks).
Proof.
  revert pre. induction chunks as [|c cs IH]; intros pre.
  - cbn. rewrite app_nil_r. f_equal. f_equal. lia.
  - cbn [map combine foldM pack_step concat list_sum fold_right].
    change (fold_right Nat.add 0 (map (@length A) cs)) with (list_sum (map (@length A) cs)).
    rewrite repeat_app.
    pose proof (assign_app pre (repeat z (length c)) (repeat z (list_sum (map (@length A) cs))) c
                 ltac:(rewrite repeat_length; reflexivity)) as E.
    rewrite repeat_length in E. rewrite E. cbn [bind].
    specialize (IH (pre ++ c)). rewrite app_length, <- !app_assoc in IH. rewrite IH.
    f_equal. f_equal. lia.
Qed.
Lemma pack_ok {A} (z : A) chunks :
  pack z chunks (map (@length A) chunks) = Ok (concat chunks).
Proof. unfold pack. pose proof (pack_from z chunks []) as E. cbn in E. rewrite E. reflexivity. Qed.

Lemma mapM_ok_inv {A B} (f : A -> res B) l r : mapM f l = Ok r -> Forall2 (fun a b => f a = Ok b) l r.
Proof.
  revert r; induction l as [|a l IH]; cbn; intros r H; [injection H as <-; constructor|].
  destruct (f a) eqn:E; [|discriminate]. destruct (mapM f l); [|discriminate].
  injection H as <-. constructor; auto.
Qed.

Lemma slice_cumul {A} (bs : list (list A)) i x :
  nth_error bs i = Some x ->
  exists lo hi, get (cumul 0 (map (@length A) bs)) i = Ok lo /\
    get (cumul 0 (map (@length A) bs)) (S i) = Ok hi /\ slice lo hi (concat bs) = x.
Proof.
  intros H. assert (Hl : i < length bs) by (apply nth_error_Some; congruence).
  exists (list_sum (firstn i (map (@length A) bs))), (list_sum (firstn (S i) (map (@length A) bs))).
  split; [|split].
  - apply get_ok. rewrite cumul_nth by (rewrite map_length; lia). reflexivity.
  - apply get_ok. rewrite cumul_nth by (rewrite map_length; lia). reflexivity.
  - apply slice_concat; auto.
Qed.

Section Codec.
Context {V : Type} (zeroV : V).

Lemma nnz_wf w : wf_csr w -> nnz V w = length (c_data V w).
Proof. intros (_ & _ & _ & H). exact H. Qed.

Lemma open_w_general ws uvs wu1 wu2 uu1 uu2 r :
  ws <> [] -> (forall w, In w ws -> wf_csr w /\ c_nrows V w = r /\ c_data V w <> []) ->
  exists mv, return_w_matrix_variables V zeroV wu1 wu2 uu1 uu2 ws uvs = Ok mv /\
    wuse1 V mv = wu1 /\ wuse2 V mv = wu2 /\ uuse1 V mv = uu1 /\ uuse2 V mv = uu2 /\
    (forall i w, nth_error ws i = Some w ->
       open_w_matrix V mv (i + 1) =
       Ok (mkCsr V (c_data V w) (c_indices V w) (c_indptr V w) (c_nrows V w)
                 (list_max (c_indices V w) + 1))) /\
    (forall i u, nth_error uvs i = Some u -> open_u_matrix V mv (i + 1) = Ok u).
Proof.
  intros Hne Hw. unfold return_w_matrix_variables. cbv zeta.
  assert (E1 : map (nnz V) ws = map (@length V) (map (c_data V) ws)).
  { rewrite map_map. apply map_ext_in. intros w Hi. apply nnz_wf. apply Hw; auto. }
  assert (E2 : map (nnz V) ws = map (@length nat) (map (c_indices V) ws)).
  { rewrite E1, !map_map. apply map_ext_in. intros w Hi. symmetry. apply (proj1 (Hw w Hi)). }
  
  replace (pack zeroV (map (c_data V) ws) (map (nnz V) ws)) with (Ok (concat (map (c_data V) ws)) : res (list V))
    by (rewrite E1, pack_ok; reflexivity).
  replace (pack 0 (map (c_indices V) ws) (map (nnz V) ws)) with (Ok (concat (map (c_indices V) ws)) : res (list nat))
    by (rewrite E2, pack_ok; reflexivity). cbn [bind].
  destruct ws as [|w0 ws'] eqn:Ews; [congruence|]. rewrite <- Ews in *.
  replace (get ws 0) with (Ok w0 : res (csr V)) by (rewrite Ews; reflexivity). cbn [bind].
  assert (Hw0 : length (c_indptr V w0) = r + 1).
  { destruct (Hw w0) as ((H1 & _) & <- & _); [rewrite Ews; left; auto|exact H1]. }
  rewrite (mapM_Ok_map _ (c_indptr V)).
  2:{ intros w Hi. unfold row_assign. destruct (Hw w Hi) as ((H1 & _) & H2 & _).
      pose proof (assign_app [] (repeat 0 (length (c_indptr V w0))) [] (c_indptr V w)) as E.
      rewrite repeat_length in E. cbn [length plus app] in E. rewrite !app_nil_r in E.
      apply E. lia. }
  cbn [bind]. rewrite pack_ok. cbn [bind]. eexists. split; [reflexivity|]. cbn [wuse1 wuse2 uuse1 uuse2].
  do 4 (split; [reflexivity|]).
  split.
  - intros i w Hi. unfold open_w_matrix. cbn [w_nnz w_val w_col w_row].
    replace (i + 1 - 1) with i by lia. replace (i + 1) with (S i) by lia.
    destruct (slice_cumul (map (c_data V) ws) i (c_data V w)) as (lo & hi & G1 & G2 & G3);
      [rewrite nth_error_map', Hi; reflexivity|].
    rewrite E1, G1, G2. cbn [bind]. rewrite G3.
    assert (G4 : slice lo hi (concat (map (c_indices V) ws)) = c_indices V w).
    { destruct (slice_cumul (map (c_indices V) ws) i (c_indices V w)) as (lo' & hi' & F1 & F2 & F3);
        [rewrite nth_error_map', Hi; reflexivity|].
      rewrite <- E2, E1, G1 in F1. injection F1 as <-. rewrite <- E2, E1, G2 in F2. injection F2 as <-. auto. }
    rewrite G4.
    rewrite (proj2 (get_ok _ i (c_indptr V w))) by (rewrite nth_error_map', Hi; reflexivity). cbn [bind].
    destruct (Hw w (nth_error_In _ _ Hi)) as ((H1 & H2 & H3 & H4) & H5 & H6).
    assert (Hni : c_indices V w <> []).
    { intros E. rewrite E in H3. cbn in H3. destruct (c_data V w); [congruence|discriminate]. }
    unfold pymax. destruct (c_indices V w) as [|x xs] eqn:Ei; [congruence|]. rewrite <- Ei in *. cbn [bind].
    unfold csr_new. rewrite H1. replace (c_nrows V w + 1 - 1) with (c_nrows V w) by lia.
    rewrite Nat.eqb_refl. destruct (c_indptr V w) as [|[|p] ptr] eqn:Ep; cbn in H2; try discriminate.
    rewrite H3, Nat.eqb_refl, H4, Nat.leb_refl. reflexivity.
  - intros i u Hi. unfold open_u_matrix. cbn [u_row_count u_val].
    replace (i + 1 - 1) with i by lia. replace (i + 1) with (S i) by lia.
    destruct (slice_cumul uvs i u Hi) as (lo & hi & G1 & G2 & G3).
    rewrite G1, G2. cbn [bind]. rewrite G3. reflexivity.
Qed.

Lemma csr_eta (w : csr V) : w = mkCsr V (c_data V w) (c_indices V w) (c_indptr V w) (c_nrows V w) (c_ncols V w).
Proof. destruct w; reflexivity. Qed.

Lemma last_column_max w : last_column_used w -> list_max (c_indices V w) + 1 = c_ncols V w.
Proof.
  intros (H1 & H2).
  assert (L1 : list_max (c_indices V w) <= c_ncols V w - 1).
  { apply list_max_le. apply Forall_forall. intros j Hj. specialize (H2 j Hj). lia. }
  assert (L2 : c_ncols V w - 1 <= list_max (c_indices V w)).
  { assert (F : Forall (fun k => k <= list_max (c_indices V w)) (c_indices V w)) by (apply list_max_le; lia).
    rewrite Forall_forall in F. apply F; auto. }
  specialize (H2 _ H1). lia.
Qed.

Theorem codec_roundtrip ws uvs wu1 wu2 uu1 uu2 r :
  ws <> [] -> (forall w, In w ws -> wf_csr w /\ c_nrows V w = r /\ last_column_used w) ->
  exists mv, return_w_matrix_variables V zeroV wu1 wu2 uu1 uu2 ws uvs = Ok mv /\
    wuse1 V mv = wu1 /\ wuse2 V mv = wu2 /\ uuse1 V mv = uu1 /\ uuse2 V mv = uu2 /\
    (forall i w, nth_error ws i = Some w -> open_w_matrix V mv (i + 1) = Ok w) /\
    (forall i u, nth_error uvs i = Some u -> open_u_matrix V mv (i + 1) = Ok u).
Proof.
  intros Hne Hw.
  destruct (open_w_general ws uvs wu1 wu2 uu1 uu2 r Hne) as (mv & E & U1 & U2 & U3 & U4 & G1 & G2).
  { intros w Hi. destruct (Hw w Hi) as (W1 & W2 & (W3 & _)). repeat split; try apply W1; auto.
    intros Ed. destruct W1 as (_ & _ & Hl & _). rewrite Ed in Hl.
    destruct (c_indices V w); [destruct W3|discriminate]. }
  exists mv. repeat split; auto.
  intros i w Hi. rewrite (G1 i w Hi). f_equal.
  rewrite last_column_max by (apply Hw; eapply nth_error_In; eauto).
  symmetry. apply csr_eta.
Qed.
End Codec.

(** ** C05 *)
Section Number.
Context {V : Type}.
Notation unc := (unc V).

Definition has_sys (u : unc) : bool := (typeID V (u_kind V u) =? 2) || (typeID V (u_kind V u) =? 4).

Lemma number_sys_spec keys (us : list (option unc)) :
  length us = length keys ->
  (forall i o, nth_error us i = Some o -> exists u, o = Some u /\ u_sysi V u = None) ->
  exists sys us', number_sys V keys us = Ok us' /\ length us' = length us /\ NoDup sys /\
    (forall i key u, nth_error keys i = Some key -> nth_error us i = Some (Some u) ->
       exists u', nth_error us' i = Some (Some u') /\ u_kind V u' = u_kind V u /\
         if has_sys u then exists k, u_sysi V u' = Some (k + 1) /\ nth_error sys k = Some key
         else u_sysi V u' = None) /\
    (forall k key, nth_error sys k = Some key ->
       exists i u, nth_error keys i = Some key /\ nth_error us i = Some (Some u) /\ has_sys u = true).
Proof.
  intros Hlen Hsome. unfold number_sys.
  destruct (foldM_inv (number_step V)
    (fun done st => length (snd st) = length us /\ NoDup (fst st) /\
       (forall i key u, nth_error keys i = Some key -> nth_error us i = Some (Some u) ->
          (length done <= i -> nth_error (snd st) i = Some (Some u)) /\
          (i < length done ->
             exists u', nth_error (snd st) i = Some (Some u') /\ u_kind V u' = u_kind V u /\
             if has_sys u then exists k, u_sysi V u' = Some (k + 1) /\ nth_error (fst st) k = Some key
             else u_sysi V u' = None)) /\
       (forall k key, nth_error (fst st) k = Some key ->
          exists i u, nth_error keys i = Some key /\ nth_error us i = Some (Some u) /\ has_sys u = true))
    (enumerate keys) ([], us)) as ((sys & us') & E & H1 & H2 & H3 & H4).
  - cbn. split; [reflexivity|]. split; [constructor|]. split.
    + intros i key u Hk Hu. split; [auto|lia].
    + intros k key Hk; destruct k; discriminate.
  - intros done [i key] rest [sys us1] Hs (H1 & H2 & H3 & H4). cbn [fst snd] in *.
    assert (Hi : nth_error keys i = Some key).
    { apply in_enumerate. rewrite Hs. apply in_or_app; right; left; reflexivity. }
    assert (Hid : i = length done).
    { assert (Hn : nth_error (enumerate keys) (length done) = Some (i, key)).
      { rewrite Hs, nth_error_app2, Nat.sub_diag by lia. reflexivity. }
      rewrite enumerate_nth in Hn. destruct (nth_error keys (length done)); [|discriminate].
      injection Hn as -> _. reflexivity. }
    assert (Hil : i < length us) by (rewrite Hlen; apply nth_error_Some; congruence).
    destruct (nth_error us i) as [o|] eqn:Eo; [|apply nth_error_None in Eo; lia].
    destruct (Hsome _ _ Eo) as (u & -> & Hnone).
    pose proof (proj1 (H3 i key u Hi Eo) ltac:(lia)) as Hu1.
    unfold number_step. rewrite (proj2 (get_ok _ _ _) Hu1). cbn [bind].
    fold (has_sys u). destruct (has_sys u) eqn:Ehs.
    + destruct (mem eqb2 key sys) eqn:Em.
      * apply mem_in in Em; [|apply eqb2_spec].
        destruct (index_in eqb2 eqb2_spec _ _ Em) as (j & Ej). rewrite Ej. cbn [bind].
        pose proof (proj1 (index_ok eqb2 eqb2_spec _ _ _ Ej)) as Hj.
        eexists. split; [reflexivity|]. cbn [fst snd].
        split; [rewrite upd_length; auto|]. split; [auto|]. split; [|auto].
        intros i' key' u0 Hk Hu. rewrite app_length. cbn [length]. split; intros Hi'.
        -- rewrite upd_nth_other by lia. apply (H3 i' key' u0); auto. lia.
        -- destruct (Nat.eq_dec i i') as [<-|Hne].
           ++ rewrite upd_nth_same by lia. rewrite Eo in Hu. injection Hu as <-.
              rewrite Hi in Hk. injection Hk as <-. eexists. split; [reflexivity|]. split; [reflexivity|].
              rewrite Ehs. cbn. exists j. auto.
           ++ rewrite upd_nth_other by auto. apply (H3 i' key' u0); auto. lia.
      * apply mem_notin in Em; [|apply eqb2_spec].
        eexists. split; [reflexivity|]. cbn [fst snd].
        split; [rewrite upd_length; auto|]. split; [apply NoDup_snoc; auto|]. split.
        -- intros i' key' u0 Hk Hu. rewrite app_length. cbn [length]. split; intros Hi'.
           ++ rewrite upd_nth_other by lia. apply (H3 i' key' u0); auto. lia.
           ++ destruct (Nat.eq_dec i i') as [<-|Hne].
              ** rewrite upd_nth_same by lia. rewrite Eo in Hu. injection Hu as <-.
                 rewrite Hi in Hk. injection Hk as <-. eexists. split; [reflexivity|]. split; [reflexivity|].
                 rewrite Ehs. cbn. exists (length sys). rewrite app_length. split; [reflexivity|].
                 rewrite nth_error_app2, Nat.sub_diag by lia. reflexivity.
              ** rewrite upd_nth_other by auto.
                 destruct (proj2 (H3 i' key' u0 Hk Hu) ltac:(lia)) as (u' & Ha & Hb & Hc).
                 exists u'. split; [auto|]. split; [auto|]. destruct (has_sys u0); [|auto].
                 destruct Hc as (k & Hk1 & Hk2). exists k. split; auto.
                 rewrite nth_error_app1; auto. apply nth_error_Some; congruence.
        -- intros k key' Hk. destruct (Nat.lt_ge_cases k (length sys)) as [Hlt|Hge].
           ++ rewrite nth_error_app1 in Hk by auto. eauto.
           ++ rewrite nth_error_app2 in Hk by auto. destruct (k - length sys) as [|q]; [|destruct q; discriminate].
              cbn in Hk. injection Hk as <-. eauto.
    + eexists. split; [reflexivity|]. cbn [fst snd].
      split; [auto|]. split; [auto|]. split; [|auto].
      intros i' key' u0 Hk Hu. rewrite app_length. cbn [length]. split; intros Hi'.
      * apply (H3 i' key' u0); auto. lia.
      * destruct (Nat.eq_dec i i') as [<-|Hne].
        -- rewrite Eo in Hu. injection Hu as <-. exists u. split; [auto|]. split; [auto|].
           rewrite Ehs. auto.
        -- apply (H3 i' key' u0); auto. lia.
  - cbn [fst snd] in *. rewrite E. cbn [bind snd]. exists sys, us'. repeat split; auto.
    intros i key u Hk Hu. apply (H3 i key u Hk Hu). rewrite enumerate_length.
    apply nth_error_Some; congruence.
Qed.

Theorem numbering keys (us us' : list (option unc)) :
  length us = length keys ->
  (forall i o, nth_error us i = Some o -> exists u, o = Some u /\ u_sysi V u = None) ->
  number_sys V keys us = Ok us' ->
  length us' = length us /\
  exists n,
   (* kinds are untouched; an instance number in 1..n exactly for blocks with a systematic part *)
   (forall i u, nth_error us i = Some (Some u) ->
      exists u', nth_error us' i = Some (Some u') /\ u_kind V u' = u_kind V u /\
        (has_sys u = true -> exists k, u_sysi V u' = Some k /\ 1 <= k <= n) /\
        (has_sys u = false -> u_sysi V u' = None)) /\
   (* same number iff same (sensor, covariate) *)
   (forall i j ui uj ki kj keyi keyj,
      nth_error us' i = Some (Some ui) -> nth_error us' j = Some (Some uj) ->
      u_sysi V ui = Some ki -> u_sysi V uj = Some kj ->
      nth_error keys i = Some keyi -> nth_error keys j = Some keyj ->
      (ki = kj <-> keyi = keyj)) /\
   (* every number is used *)
   (forall k, 1 <= k <= n -> exists i u', nth_error us' i = Some (Some u') /\ u_sysi V u' = Some k).
Proof.
  intros Hlen Hsome E.
  destruct (number_sys_spec keys us Hlen Hsome) as (sys & us2 & E2 & Hl2 & Hnd & H1 & H2).
  rewrite E in E2. injection E2 as <-. split; [auto|].
  assert (Key : forall i, i < length us -> exists key, nth_error keys i = Some key).
  { intros i Hi. destruct (nth_error keys i) eqn:Ek; [eauto|]. apply nth_error_None in Ek. lia. }
  assert (Usn : forall i u', nth_error us' i = Some (Some u') -> exists u, nth_error us i = Some (Some u)).
  { intros i u' Hu'. assert (i < length us') by (apply nth_error_Some; congruence).
    destruct (nth_error us i) as [o|] eqn:Eo; [|apply nth_error_None in Eo; lia].
    destruct (Hsome _ _ Eo) as (u & -> & _). eauto. }
  exists (length sys). split; [|split].
  - intros i u Hu. assert (Hi : i < length us) by (apply nth_error_Some; congruence).
    destruct (Key i Hi) as (key & Hk). destruct (H1 i key u Hk Hu) as (u' & Ha & Hb & Hc).
    exists u'. split; [auto|]. split; [auto|]. split; intros Hs; rewrite Hs in Hc; [|auto].
    destruct Hc as (k & Hk1 & Hk2). exists (k + 1). split; [auto|].
    assert (k < length sys) by (apply nth_error_Some; congruence). lia.
  - intros i j ui uj ki kj keyi keyj Hi Hj Hki Hkj Hkeyi Hkeyj.
    destruct (Usn _ _ Hi) as (u0i & Hui). destruct (Usn _ _ Hj) as (u0j & Huj).
    destruct (H1 i keyi u0i Hkeyi Hui) as (ui' & Ea & _ & Ec). rewrite Hi in Ea. injection Ea as <-.
    destruct (H1 j keyj u0j Hkeyj Huj) as (uj' & Fa & _ & Fc). rewrite Hj in Fa. injection Fa as <-.
    destruct (has_sys u0i); [|congruence]. destruct (has_sys u0j); [|congruence].
    destruct Ec as (k1 & Ek1 & Ek2). destruct Fc as (k2 & Fk1 & Fk2).
    rewrite Hki in Ek1. injection Ek1 as ->. rewrite Hkj in Fk1. injection Fk1 as ->. split.
    + intros Heq. assert (k1 = k2) by lia. subst k2. congruence.
    + intros ->. f_equal. apply (proj1 (NoDup_nth_error sys) Hnd).
      * apply nth_error_Some; congruence.
      * congruence.
  - intros k Hk. destruct (nth_error sys (k - 1)) as [key|] eqn:Es; [|apply nth_error_None in Es; lia].
    destruct (H2 _ _ Es) as (i & u & Hki & Hu & Hs).
    destruct (H1 i key u Hki Hu) as (u' & Ha & _ & Hc). rewrite Hs in Hc.
    destruct Hc as (k' & Hk1 & Hk2). exists i, u'. split; [auto|]. rewrite Hk1. f_equal.
    assert (k' = k - 1).
    { apply (proj1 (NoDup_nth_error sys) Hnd); [apply nth_error_Some; congruence|congruence]. }
    lia.
Qed.
End Number.
