(** Proofs for C117: every uncertainty, W matrix and u vector of an opened object is filled. *)
From Coq Require Import Reals Permutation.
From Verif Require Import Base BaseLemmas ReaderModel ReaderSpec ReaderProofs ReaderMain UncModel UncSpec UncProofs UncProofs2 UncProofs3 FullModel FullProofs.
Open Scope nat_scope.

Lemma all_some {A} (l : list (option A)) : (forall i o, nth_error l i = Some o -> exists a, o = Some a) -> exists l', l = map Some l'.
Proof.
  induction l as [|o l IH]; intros H; [exists []; reflexivity|]. destruct (H 0 o eq_refl) as (a & ->).
  destruct IH as (l' & ->); [intros i x Hx; apply (H (S i)); exact Hx|]. exists (a :: l'). reflexivity.
Qed.
Lemma entries_some {A} (l : list A) : entries (map Some l) = Ok l.
Proof. unfold entries. induction l as [|a l IH]; [reflexivity|]. cbn [map mapM]. cbn [bind]. rewrite IH. reflexivity. Qed.
Lemma nth_some {A} (l : list A) i a : nth_error (map Some l) i = Some (Some a) <-> nth_error l i = Some a.
Proof. rewrite nth_error_map'. destruct (nth_error l i); cbn; split; intros H; inversion H; reflexivity. Qed.

Section Keys.
Context {V : Type} (ordn : list nat -> list nat) (PM : forall l, Permutation (ordn l) l).
Definition keys (g1 g2 : matvars V -> list nat) (fs : list (ufile V)) : list (nat * nat) :=
  flat_map (fun imf : nat * ufile V =>
      match umat V (uf_u V (snd imf)) with
      | None => []
      | Some mv => map (fun w => (fst imf + 1, w)) (ordn (nodup Nat.eq_dec (filter (fun w => negb (w =? 0)) (g1 mv ++ g2 mv))))
      end) (enumerate fs).
Lemma keys_in g1 g2 fs k w : In (k, w) (keys g1 g2 fs) <-> exists i f mv, nth_error fs i = Some f /\ k = i + 1 /\ umat V (uf_u V f) = Some mv /\ In w (g1 mv ++ g2 mv) /\ w <> 0.
Proof.
  unfold keys. rewrite in_flat_map. split.
  - intros ((i & f) & Hi & H). apply in_enumerate in Hi. cbn [fst snd] in H. destruct (umat V (uf_u V f)) as [mv|] eqn:E; [|destruct H].
    apply in_map_iff in H. destruct H as (w' & Q & H). injection Q as <- <-. apply (Permutation_in _ (PM _)) in H. rewrite nodup_In in H. apply filter_In in H. destruct H as (H & Hn).
    exists i, f, mv. split; [exact Hi|]. split; [reflexivity|]. split; [exact E|]. split; [exact H|]. destruct (w' =? 0) eqn:Z; [discriminate|]. apply Nat.eqb_neq. exact Z.
  - intros (i & f & mv & Hi & -> & E & H & Hn). exists (i, f). split; [apply in_enumerate; exact Hi|]. cbn [fst snd]. rewrite E. apply in_map_iff. exists w. split; [reflexivity|].
    apply (Permutation_in _ (Permutation_sym (PM _))). rewrite nodup_In. apply filter_In. split; [exact H|]. rewrite (proj2 (Nat.eqb_neq w 0) Hn). reflexivity.
Qed.
Lemma keys_nodup g1 g2 fs : NoDup (keys g1 g2 fs).
Proof.
  unfold keys. apply NoDup_flat_map.
  - apply enumerate_NoDup.
  - intros (i & f) _. cbn [fst snd]. destruct (umat V (uf_u V f)) as [mv|]; [|constructor]. apply NoDup_map_inj; [intros x y _ _ E; injection E; auto|].
    apply (Permutation_NoDup (Permutation_sym (PM _))). apply NoDup_nodup.
  - intros (i & f) (i' & f') b Hi Hi' Hb Hb'. cbn [fst snd] in *. apply in_enumerate in Hi, Hi'.
    destruct (umat V (uf_u V f)) as [mv|]; [|destruct Hb]. destruct (umat V (uf_u V f')) as [mv'|]; [|destruct Hb'].
    apply in_map_iff in Hb. destruct Hb as (w & <- & _). apply in_map_iff in Hb'. destruct Hb' as (w' & E & _). injection E as E _. assert (i' = i) by lia. subst i'. congruence.
Qed.
End Keys.

(** The matrix numbers fit the types. *)
Definition typed {V} (f : ufile V) : Prop :=
  forall mv sd c ty w u, umat V (uf_u V f) = Some mv -> nth_error (stypes (uf_u V f) sd) c = Some ty -> nth_error (swuse mv sd) c = Some w -> nth_error (suuse mv sd) c = Some u ->
    (w = 0 <-> u = 0) /\ (w <> 0 -> ty = 3 \/ ty = 4).

Section Open.
Context {V : Type} (zeroV : V) (ordn : list nat -> list nat) (PM : forall l, Permutation (ordn l) l) (fs : list (ufile V)) (ix : idx_t).
Hypothesis (GF : good_files (map (uf_d V) fs)) (VF : forall f, In f fs -> valid_file f) (TY : forall f, In f fs -> typed f) (GI : get_idx V (map (uf_d V) fs) = Ok ix).

Lemma use_side (mv : matvars V) w : In w (wuse1 V mv ++ wuse2 V mv) -> exists sd c, nth_error (swuse mv sd) c = Some w.
Proof. intros H. apply in_app_or in H. destruct H as [H|H]; apply In_nth_error in H; destruct H as (c & H); [exists Side1, c|exists Side2, c]; exact H. Qed.
Lemma use_side_u (mv : matvars V) w : In w (uuse1 V mv ++ uuse2 V mv) -> exists sd c, nth_error (suuse mv sd) c = Some w.
Proof. intros H. apply in_app_or in H. destruct H as [H|H]; apply In_nth_error in H; destruct H as (c & H); [exists Side1, c|exists Side2, c]; exact H. Qed.

Theorem open_unc_filled : exists uncs ws us, open_unc V zeroV ordn fs ix = Ok (map Some uncs, map Some ws, map Some us) /\
  length uncs = length (n_sensor ix) /\
  (forall i U, nth_error us i = Some U -> exists f mv u, In f fs /\ umat V (uf_u V f) = Some mv /\ open_u_matrix V mv u = Ok U) /\
  forall b s n c, nth_error (get_block_idxs ix) b = Some (s, n, c) ->
      exists name f sd ty u,
        nth_error (sensors ix) s = Some name /\ 1 <= n /\ nth_error fs (n - 1) = Some f /\
        sname (uf_d V f) sd = name /\ 1 <= c <= sm (uf_d V f) sd /\
        nth_error (stypes (uf_u V f) sd) (c - 1) = Some ty /\
        nth_error uncs b = Some u /\ as_declared f sd c ty (u_kind V u) (map Some ws) (map Some us).
Proof.
  destruct (unc_attached_all zeroV ordn) with (fs := fs) (ix := ix) as (uncs & ws & us & E & Lu & (Lw & LU & Hm) & H); auto.
  { intros l x. split; apply Permutation_in; [apply PM|apply Permutation_sym, PM]. }
  destruct (numbering_opened zeroV ordn fs ix uncs ws us GF GI E) as (_ & Hs & _).
  destruct (readable_good _ GF) as (Hne & Hr & Hen).
  destruct (get_idx_ok _ Hne) as (ix' & E' & IO). rewrite GI in E'. injection E' as <-.
  destruct (all_some uncs Hs) as (uncs' & ->).
  assert (Row : forall i f mv sd c ty w u, nth_error fs i = Some f -> umat V (uf_u V f) = Some mv -> nth_error (stypes (uf_u V f) sd) c = Some ty -> nth_error (swuse mv sd) c = Some w -> nth_error (suuse mv sd) c = Some u -> w <> 0 ->
    exists W U, open_w_matrix V mv w = Ok W /\ open_u_matrix V mv u = Ok U /\ nth_error ws (posn (i + 1, w) (keys ordn (wuse1 V) (wuse2 V) fs)) = Some (Some W) /\ nth_error us (posn (i + 1, u) (keys ordn (uuse1 V) (uuse2 V) fs)) = Some (Some U) /\
      nth_error (keys ordn (wuse1 V) (wuse2 V) fs) (posn (i + 1, w) (keys ordn (wuse1 V) (wuse2 V) fs)) = Some (i + 1, w) /\ nth_error (keys ordn (uuse1 V) (uuse2 V) fs) (posn (i + 1, u) (keys ordn (uuse1 V) (uuse2 V) fs)) = Some (i + 1, u)).
  { intros i f mv sd c ty w u Hf Em Ht Hw Hu Hn. pose proof (nth_error_In _ _ Hf) as Hi.
    destruct (VF f Hi sd) as (V1 & V2 & _).
    assert (Hrow : nth_error (unc_rows V (uf_u V f) (snum sd)) c = Some (ty, w, u)).
    { apply (unc_rows_nth _ sd c _ _ V1 V2). exists ty, w, u. rewrite Em. auto. }
    assert (Hd : nth_error (map (uf_d V) fs) i = Some (uf_d V f)) by (rewrite nth_error_map', Hf; reflexivity).
    destruct (io_Im_sd _ _ _ _ IO Hd) as (p & Ep & _).
    assert (I : In (i, f, sd, sidx p sd, (c, (ty, w, u))) (uwrites fs ix)) by (apply in_uwrites; [exact IO|]; eauto).
    specialize (Hm _ I). cbn in Hm. destruct (TY f Hi mv sd c ty w u Em Ht Hw Hu) as (_ & T2). destruct (Hm (T2 Hn)) as (mv' & W & U & Em' & H1 & H2 & H3 & H4 & H5 & H6).
    rewrite Em in Em'. injection Em' as <-. exists W, U. auto 10. }
  assert (Sides : forall f mv sd c, In f fs -> umat V (uf_u V f) = Some mv -> c < sm (uf_d V f) sd -> exists ty w u, nth_error (stypes (uf_u V f) sd) c = Some ty /\ nth_error (swuse mv sd) c = Some w /\ nth_error (suuse mv sd) c = Some u).
  { intros f mv sd c Hi Em Hc. destruct (VF f Hi sd) as (V1 & V2 & _). destruct (V2 mv Em) as (V3 & V4).
    destruct (nth_error (stypes (uf_u V f) sd) c) as [ty|] eqn:E1; [|apply nth_error_None in E1; lia].
    destruct (nth_error (swuse mv sd) c) as [w|] eqn:E2; [|apply nth_error_None in E2; lia].
    destruct (nth_error (suuse mv sd) c) as [u|] eqn:E3; [|apply nth_error_None in E3; lia]. eauto 10. }
  destruct (all_some ws) as (ws' & Ews).
  { intros j o Hj. assert (L : j < length (keys ordn (wuse1 V) (wuse2 V) fs)) by (change (j < length (fst (open_matrix_idxs V ordn fs))); rewrite <- Lw; apply nth_error_Some; congruence).
    destruct (nth_error (keys ordn (wuse1 V) (wuse2 V) fs) j) as [(k & w)|] eqn:Ek; [|apply nth_error_None in Ek; lia].
    pose proof (nth_error_In _ _ Ek) as Ik. apply (keys_in ordn PM) in Ik. destruct Ik as (i & f & mv & Hf & -> & Em & Hw & Hn). destruct (use_side mv w Hw) as (sd & c & Hc).
    pose proof (nth_error_In _ _ Hf) as Hi. destruct (VF f Hi sd) as (_ & V2 & _). destruct (V2 mv Em) as (V3 & _).
    destruct (Sides f mv sd c Hi Em) as (ty & w' & u & S1 & S2 & S3); [rewrite <- V3; apply nth_error_Some; congruence|]. rewrite Hc in S2. injection S2 as <-.
    destruct (Row i f mv sd c ty w u Hf Em S1 Hc S3 Hn) as (W & U & _ & _ & R1 & _ & R3 & _).
    assert (EQ : posn (i + 1, w) (keys ordn (wuse1 V) (wuse2 V) fs) = j).
    { apply (proj1 (NoDup_nth_error _) (keys_nodup ordn PM (wuse1 V) (wuse2 V) fs)); [apply nth_error_Some; congruence|congruence]. }
    rewrite EQ in R1. rewrite Hj in R1. injection R1 as ->. eauto. }
  assert (HU : forall j o, nth_error us j = Some o -> exists U f mv u, o = Some U /\ In f fs /\ umat V (uf_u V f) = Some mv /\ open_u_matrix V mv u = Ok U).
  { intros j o Hj. assert (L : j < length (keys ordn (uuse1 V) (uuse2 V) fs)) by (change (j < length (snd (open_matrix_idxs V ordn fs))); rewrite <- LU; apply nth_error_Some; congruence).
    destruct (nth_error (keys ordn (uuse1 V) (uuse2 V) fs) j) as [(k & u)|] eqn:Ek; [|apply nth_error_None in Ek; lia].
    pose proof (nth_error_In _ _ Ek) as Ik. apply (keys_in ordn PM) in Ik. destruct Ik as (i & f & mv & Hf & -> & Em & Hw & Hn). destruct (use_side_u mv u Hw) as (sd & c & Hc).
    pose proof (nth_error_In _ _ Hf) as Hi. destruct (VF f Hi sd) as (_ & V2 & _). destruct (V2 mv Em) as (_ & V3).
    destruct (Sides f mv sd c Hi Em) as (ty & w & u' & S1 & S2 & S3); [rewrite <- V3; apply nth_error_Some; congruence|]. rewrite Hc in S3. injection S3 as <-.
    destruct (TY f Hi mv sd c ty w u Em S1 S2 Hc) as (T1 & _).
    destruct (Row i f mv sd c ty w u Hf Em S1 S2 Hc) as (W & U & _ & R0 & _ & R1 & _ & R3); [tauto|].
    assert (EQ : posn (i + 1, u) (keys ordn (uuse1 V) (uuse2 V) fs) = j).
    { apply (proj1 (NoDup_nth_error _) (keys_nodup ordn PM (uuse1 V) (uuse2 V) fs)); [apply nth_error_Some; congruence|congruence]. }
    rewrite EQ in R1. rewrite Hj in R1. injection R1 as ->. exists U, f, mv, u. auto. }
  destruct (all_some us) as (us' & Eus).
  { intros j o Hj. destruct (HU j o Hj) as (U & _ & _ & _ & -> & _). eauto. }
  subst ws us. exists uncs', ws', us'. split; [exact E|]. split; [rewrite <- Lu, map_length; reflexivity|]. split.
  - intros j U Hj. destruct (HU j (Some U)) as (U' & f & mv & u & Q & R1 & R2 & R3); [apply nth_some; exact Hj|]. injection Q as <-. exists f, mv, u. auto.
  - intros b s n c Hb. destruct (H b s n c Hb) as (name & f & sd & ty & u & A1 & A2 & A3 & A4 & A5 & A6 & A7 & A8). exists name, f, sd, ty, u. rewrite nth_some in A7. auto 10.
Qed.
End Open.
