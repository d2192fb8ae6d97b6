From Coq Require Import Reals Lra Sorted.
From Verif Require Import Base BaseLemmas ReaderModel UncModel UncProofs UncProofs2 MuModel MuProofs SensorSpec SampleSpec SampleProofs SampleProofs2 TransformModel TransformSpec TransformProofs TransformProofs2 TransformMain TransformMain2 TransformMain3 EvalModel EvalSpec.
Open Scope nat_scope.

(** ** selection of series *)
Lemma sel_sizes_from (l : list nat) (Nm : list nat) k : StronglySorted lt l -> (forall n, In n l -> k + 1 <= n <= k + length Nm) ->
  map snd (filter (fun p => mem Nat.eqb (fst p + 1) l) (combine (seq k (length Nm)) Nm)) = map (fun n => nth (n - 1 - k) Nm 0) l.
Proof.
  revert l k. induction Nm as [|N Nm IH]; intros l k Hs Hr.
  - destruct l as [|n l]; [reflexivity|]. specialize (Hr n (or_introl eq_refl)). cbn in Hr. lia.
  - cbn [length seq combine filter fst].
    assert (M : forall x, mem Nat.eqb x l = true <-> In x l) by (intros x; apply mem_in; intros; apply Nat.eqb_eq).
    destruct l as [|n l].
    + change (mem Nat.eqb (k + 1) []) with false. cbn iota. rewrite (IH [] (S k)); [reflexivity|constructor|intros n []].
    + inversion Hs as [|? ? Hs' Hall]; subst. destruct (Nat.eq_dec n (k + 1)) as [->|Hne].
      * assert (E : mem Nat.eqb (k + 1) (k + 1 :: l) = true) by (apply M; left; auto). rewrite E. cbn [map snd].
        replace (k + 1 - 1 - k) with 0 by lia. cbn [nth]. f_equal.
        rewrite Forall_forall in Hall.
        rewrite (filter_ext_in (fun p => mem Nat.eqb (fst p + 1) (k + 1 :: l)) (fun p => mem Nat.eqb (fst p + 1) l)).
        -- rewrite IH; auto.
           ++ apply map_ext_in. intros a Ha. specialize (Hall a Ha). replace (a - 1 - k) with (S (a - 1 - S k)) by lia. reflexivity.
           ++ intros a Ha. pose proof (Hall a Ha). specialize (Hr a (or_intror Ha)). cbn in Hr. lia.
        -- intros [i x] Hin. cbn [fst]. apply in_combine_l in Hin. apply in_seq in Hin. cbn [mem existsb].
           destruct (Nat.eqb_spec (k + 1) (i + 1)); [lia|]. reflexivity.
      * assert (E : mem Nat.eqb (k + 1) (n :: l) = false).
        { apply mem_notin; [intros; apply Nat.eqb_eq|]. rewrite Forall_forall in Hall. intros [->|Hin]; [congruence|].
          specialize (Hall _ Hin). pose proof (Hr n (or_introl eq_refl)). lia. }
        rewrite E. rewrite (IH (n :: l) (S k)); auto.
        -- apply map_ext_in. intros a Ha.
           assert (a > k + 1).
           { rewrite Forall_forall in Hall. pose proof (Hr n (or_introl eq_refl)). destruct Ha as [<-|Ha]; [lia|]. specialize (Hall a Ha). lia. }
           replace (a - 1 - k) with (S (a - 1 - S k)) by lia. reflexivity.
        -- intros a Ha. pose proof (Hr a Ha) as Hr1. pose proof (Hr n (or_introl eq_refl)) as Hr2. cbn in Hr1. rewrite Forall_forall in Hall.
           destruct Ha as [<-|Ha]; [lia|]. specialize (Hall a Ha). lia.
Qed.

Section M.
Context {T : Type}.
Notation mobj := (mobj R T).

Lemma sel_sizes (m : mobj) l : selection m l ->
  sel_cNm (m_idx R T m) l = cumul 0 (map (fun n => nth (n - 1) (Nm (m_idx R T m)) 0) l).
Proof.
  intros (Hs & Hr). unfold sel_cNm. f_equal. unfold enumerate. rewrite (sel_sizes_from l _ 0); auto.
  apply map_ext. intros n. f_equal. lia.
Qed.

(** ** filling two columns, series by series *)
Lemma upd_len_map {A} k (v old : list A) bs : nth_error bs k = Some old -> length v = length old ->
  map (@length A) (upd k v bs) = map (@length A) bs.
Proof. intros H L. rewrite upd_map. apply upd_same. rewrite nth_error_map', H. cbn. congruence. Qed.

Lemma pair_fold (step : list R * list R -> nat * nat -> res (list R * list R)) (Q : nat -> list R -> list R -> list R -> list R -> Prop)
  ns : forall l k bs0 bs1, map (@length R) bs0 = ns -> map (@length R) bs1 = ns -> k + length l = length ns ->
  (forall i n, nth_error l i = Some n -> forall cs0 cs1 o0 o1, map (@length R) cs0 = ns -> map (@length R) cs1 = ns ->
     nth_error cs0 (k + i) = Some o0 -> nth_error cs1 (k + i) = Some o1 ->
     exists v0 v1, step (concat cs0, concat cs1) (k + i, n) = Ok (concat (upd (k + i) v0 cs0), concat (upd (k + i) v1 cs1)) /\
       length v0 = length o0 /\ length v1 = length o1 /\ Q n o0 o1 v0 v1) ->
  exists bs0' bs1', foldM step (combine (seq k (length l)) l) (concat bs0, concat bs1) = Ok (concat bs0', concat bs1') /\
    map (@length R) bs0' = ns /\ map (@length R) bs1' = ns /\
    (forall j, j < k -> nth_error bs0' j = nth_error bs0 j /\ nth_error bs1' j = nth_error bs1 j) /\
    forall i n, nth_error l i = Some n -> exists o0 o1 v0 v1, nth_error bs0 (k + i) = Some o0 /\ nth_error bs1 (k + i) = Some o1 /\
      nth_error bs0' (k + i) = Some v0 /\ nth_error bs1' (k + i) = Some v1 /\ Q n o0 o1 v0 v1.
Proof.
  induction l as [|n l IH]; intros k bs0 bs1 L0 L1 Hk Hstep.
  - exists bs0, bs1. cbn. repeat split; auto. intros i n H. destruct i; discriminate.
  - cbn [length] in Hk. cbn [length seq combine foldM].
    assert (Hb0 : k < length bs0) by (rewrite <- (map_length (@length R)), L0; lia).
    assert (Hb1 : k < length bs1) by (rewrite <- (map_length (@length R)), L1; lia).
    destruct (nth_error bs0 k) as [o0|] eqn:E0; [|apply nth_error_None in E0; lia].
    destruct (nth_error bs1 k) as [o1|] eqn:E1; [|apply nth_error_None in E1; lia].
    destruct (Hstep 0 n eq_refl bs0 bs1 o0 o1 L0 L1) as (v0 & v1 & Es & Lv0 & Lv1 & HQ); rewrite ?Nat.add_0_r; auto.
    rewrite Nat.add_0_r in Es. rewrite Es.
    assert (M0 : map (@length R) (upd k v0 bs0) = ns) by (rewrite (upd_len_map _ _ _ _ E0 Lv0); auto).
    assert (M1 : map (@length R) (upd k v1 bs1) = ns) by (rewrite (upd_len_map _ _ _ _ E1 Lv1); auto).
    destruct (IH (S k) _ _ M0 M1) as (bs0' & bs1' & Ef & L0' & L1' & Hlow & Hres); [lia| |].
    + intros i n' Hn' cs0 cs1 p0 p1 C0 C1 D0 D1. replace (S k + i) with (k + S i) in * by lia. apply (Hstep (S i) n' Hn' cs0 cs1 p0 p1); auto.
    + exists bs0', bs1'. split; [exact Ef|]. split; [auto|]. split; [auto|]. split.
      * intros j Hj. destruct (Hlow j ltac:(lia)) as (-> & ->). rewrite !upd_nth_other by lia. auto.
      * intros [|i] n' Hn'.
        -- cbn in Hn'. injection Hn' as <-. rewrite Nat.add_0_r. exists o0, o1, v0, v1.
           destruct (Hlow k ltac:(lia)) as (-> & ->). rewrite !upd_nth_same by auto. auto.
        -- cbn in Hn'. destruct (Hres i n' Hn') as (p0 & p1 & w0 & w1 & A0 & A1 & A2 & A3 & A4).
           rewrite upd_nth_other in A0, A1 by lia. replace (S k + i) with (k + S i) in * by lia. exists p0, p1, w0, w1. auto.
Qed.

(** ** one side of one series *)
Lemma getX_side {B} (x1 x2 : option (list B)) (m : mobj) (sd : sdat T) n p side s name : evaluable m sd ->
  1 <= n -> nth_error (Im (m_idx R T m)) (n - 1) = Some p -> side < 2 -> s = (if side =? 0 then fst p else snd p) ->
  nth_error (sensors (m_idx R T m)) s = Some name ->
  (forall l, In (Some l) [x1; x2] -> length l = list_sum (Nm (m_idx R T m))) ->
  exists v, getSensorX x1 x2 (m_idx R T m) (Z.of_nat n) name = Ok v /\ series_part m n (if side =? 0 then x1 else x2) v.
Proof.
  intros Ev Hn Hp Hside Hs Hname Hlen.
  assert (HnN : n - 1 < length (Nm (m_idx R T m))) by (rewrite <- (ev_im _ _ Ev); apply nth_error_Some; congruence).
  destruct (nth_error (Nm (m_idx R T m)) (n - 1)) as [N|] eqn:EN; [|apply nth_error_None in EN; lia].
  destruct (ev_pair _ _ Ev _ _ Hp) as (Hne & Hin).
  destruct (Hin (fst p) (or_introl eq_refl)) as (Hfs & _). destruct (Hin (snd p) (or_intror eq_refl)) as (Hss & _).
  destruct (nth_error (sensors (m_idx R T m)) (fst p)) as [nA|] eqn:EA; [|apply nth_error_None in EA; lia].
  destruct (nth_error (sensors (m_idx R T m)) (snd p)) as [nB|] eqn:EB; [|apply nth_error_None in EB; lia].
  assert (HAB : nA <> nB).
  { intros ->. apply Hne. eapply NoDup_nth_error; [apply (ev_names _ _ Ev)|auto|congruence]. }
  unfold getSensorX. replace (Z.of_nat n - 1)%Z with (Z.of_nat (n - 1)) by lia. rewrite !pyget_of_nat.
  rewrite (ev_cnm _ _ Ev). rewrite (proj2 (get_ok _ _ _) (cumul_nth 0 (Nm (m_idx R T m)) (n - 1) ltac:(lia))), (proj2 (get_ok _ _ _) (cumul_nth 0 (Nm (m_idx R T m)) n ltac:(lia))).
  rewrite (proj2 (get_ok _ _ _) Hp). cbn [bind plus]. rewrite (proj2 (get_ok _ _ _) EA). cbn [bind].
  assert (SP : forall (o : option (list B)), (forall l, o = Some l -> length l = list_sum (Nm (m_idx R T m))) ->
     series_part m n o (match o with Some l => Some (slice (list_sum (firstn (n - 1) (Nm (m_idx R T m)))) (list_sum (firstn n (Nm (m_idx R T m)))) l) | None => None end)).
  { intros [l|] Hl; cbn; [|auto]. rewrite (ev_cnm _ _ Ev). exists (list_sum (firstn (n - 1) (Nm (m_idx R T m)))), (list_sum (firstn n (Nm (m_idx R T m)))).
    split; [apply cumul_nth; lia|]. split; [replace (n - 1 + 1) with n by lia; apply cumul_nth; lia|]. split; [|auto].
    rewrite (Hl l eq_refl). replace n with (S (n - 1)) at 2 3 by lia. rewrite (list_sum_firstn_S _ _ _ EN). split; [lia|].
    rewrite <- (list_sum_firstn_S _ _ _ EN). rewrite <- (firstn_skipn (S (n - 1)) (Nm (m_idx R T m))) at 2. rewrite list_sum_app. lia. }
  destruct side as [|[|side]]; [| |lia]; cbn [Nat.eqb] in *; subst s.
  - assert (name = nA) by congruence. subst name. rewrite String.eqb_refl. eexists. split; [reflexivity|].
    apply SP. intros l ->. apply Hlen. left; auto.
  - assert (name = nB) by congruence. subst name. destruct (String.eqb_spec nB nA); [congruence|].
    rewrite (proj2 (get_ok _ _ _) EB). cbn [bind]. rewrite String.eqb_refl. eexists. split; [reflexivity|].
    apply SP. intros l ->. apply Hlen. right; left; auto.
Qed.

Lemma filter_enum_map {A} (p : A -> bool) (l : list A) k d :
  map fst (filter (fun q => p (snd q)) (combine (seq k (length l)) l)) = filter (fun b => p (nth (b - k) l d)) (seq k (length l)).
Proof.
  revert k. induction l as [|a l IH]; intros k; [reflexivity|]. cbn [length seq combine].
  transitivity (if p a then k :: filter (fun b => p (nth (b - S k) l d)) (seq (S k) (length l)) else filter (fun b => p (nth (b - S k) l d)) (seq (S k) (length l))).
  - rewrite <- IH. cbn [filter snd]. destruct (p a); reflexivity.
  - assert (E : filter (fun b => p (nth (b - k) (a :: l) d)) (seq (S k) (length l)) = filter (fun b => p (nth (b - S k) l d)) (seq (S k) (length l))).
    { apply filter_ext_in. intros b Hb. apply in_seq in Hb. replace (b - k) with (S (b - S k)) by lia. reflexivity. }
    rewrite <- E. cbn [filter]. replace (k - k) with 0 by lia. reflexivity.
Qed.

Lemma cov_blocks (m : mobj) (sd : sdat T) s n : evaluable m sd ->
  map fst (filter (fun p => eqb2 (snd p) (s, n)) (enumerate (combine (n_sensor (m_idx R T m)) (n_mu (m_idx R T m))))) = blocks_of (m_idx R T m) s n.
Proof.
  intros Ev. destruct (ev_len _ _ Ev) as (L1 & L2). unfold enumerate. rewrite (filter_enum_map (fun x => eqb2 x (s, n)) _ 0 (0, 0)).
  unfold blocks_of. rewrite combine_length, L1, L2, Nat.min_id. apply filter_ext_in. intros b Hb. apply in_seq in Hb.
  rewrite Nat.sub_0_r. rewrite combine_nth by congruence. unfold eqb2. cbn [fst snd]. reflexivity.
Qed.

Lemma in_blocks_of (m : mobj) (sd : sdat T) s n b : evaluable m sd -> In b (blocks_of (m_idx R T m) s n) ->
  nth_error (n_mu (m_idx R T m)) b = Some n /\ nth_error (n_sensor (m_idx R T m)) b = Some s.
Proof.
  intros Ev H. apply filter_In in H as (H1 & H2). apply in_seq in H1. apply andb_prop in H2 as (H2 & H3).
  apply Nat.eqb_eq in H2, H3. destruct (ev_len _ _ Ev) as (L1 & L2). subst.
  split; apply nth_error_nth'; lia.
Qed.

Lemma select_labelled name ls vs : select ls vs name = labelled name ls vs.
Proof. reflexivity. Qed.

Lemma covariates_ex (m : mobj) (sd : sdat T) s n : evaluable m sd -> exists X, covariates m s n X /\
  (forall x N, In x X -> nth_error (Nm (m_idx R T m)) (n - 1) = Some N -> length x = N).
Proof.
  intros Ev. unfold covariates.
  assert (H : forall bs, (forall b, In b bs -> nth_error (n_mu (m_idx R T m)) b = Some n) -> exists X, Forall2 (is_block (idxs (m_idx R T m)) (m_values R T m)) bs X /\
    (forall x N, In x X -> nth_error (Nm (m_idx R T m)) (n - 1) = Some N -> length x = N)).
  { induction bs as [|b bs IH]; intros Hb; [exists []; split; [constructor|intros x N []]|].
    destruct IH as (X & F & L); [intros; apply Hb; right; auto|].
    destruct (ev_series _ _ Ev b n (Hb b (or_introl eq_refl))) as (_ & N & H1 & H2).
    destruct (block_exists (N_var (m_idx R T m)) (m_values R T m) b N (ev_values _ _ Ev) H2) as (v & Hv & Lv).
    exists (v :: X). split; [constructor; auto; rewrite (ev_idxs _ _ Ev); auto|].
    intros x N' [<-|Hx] HN'; [congruence|eauto]. }
  apply H. intros b Hb. eapply in_blocks_of; eauto.
Qed.

Lemma side_eval_ok (m : mobj) (sd : sdat T) n side p : evaluable m sd -> 1 <= n -> side < 2 ->
  nth_error (Im (m_idx R T m)) (n - 1) = Some p ->
  exists X a c xt al t f, side_input m sd n side (if side =? 0 then fst p else snd p) X a c xt al t /\
    nth_error (sd_model T sd) (if side =? 0 then fst p else snd p) = Some f /\
    side_eval T m sd n (if side =? 0 then fst p else snd p) = f X a c xt al t.
Proof.
  intros Ev Hn Hside Hp. set (s := if side =? 0 then fst p else snd p).
  assert (HnN : n - 1 < length (Nm (m_idx R T m))) by (rewrite <- (ev_im _ _ Ev); apply nth_error_Some; congruence).
  destruct (nth_error (Nm (m_idx R T m)) (n - 1)) as [N|] eqn:EN; [|apply nth_error_None in EN; lia].
  destruct (ev_pair _ _ Ev _ _ Hp) as (_ & Hin).
  destruct (Hin s) as (H1 & H2 & _ & H4); [unfold s; destruct (side =? 0); auto|]. replace (n - 1 + 1) with n in H4 by lia.
  destruct (nth_error (sensors (m_idx R T m)) s) as [name|] eqn:En; [|apply nth_error_None in En; lia].
  destruct (nth_error (sd_model T sd) s) as [f|] eqn:Ef; [|apply nth_error_None in Ef; lia].
  destruct (ev_ps _ _ Ev) as (ps & Eps).
  destruct (covariates_ex m sd s n Ev) as (X & HX & LX).
  destruct (getX_side (m_across1 R T m) (m_across2 R T m) m sd n p side s name Ev Hn Hp Hside eq_refl En) as (xt & Ext & Sxt).
  { intros l [E|[E|[]]]; apply (ev_opt _ _ Ev); cbn; auto. }
  destruct (getX_side (m_along1 R T m) (m_along2 R T m) m sd n p side s name Ev Hn Hp Hside eq_refl En) as (al & Eal & Sal).
  { intros l [E|[E|[]]]; apply (ev_opt _ _ Ev); cbn; auto. }
  destruct (getX_side (m_time1 R T m) (m_time2 R T m) m sd n p side s name Ev Hn Hp Hside eq_refl En) as (t & Et & St).
  { intros l [E|[E|[]]]; apply (ev_times _ _ Ev); cbn; auto. }
  exists X, (labelled name ps (sd_a T sd)), (labelled name (sd_cs T sd) (sd_c T sd)), xt, al, t, f.
  split; [constructor; eauto|]. { exists name, ps. auto. }
  split; [auto|]. unfold side_eval. rewrite (proj2 (get_ok _ _ _) En). cbn [bind]. rewrite (cov_blocks m sd s n Ev).
  set (bs := blocks_of (m_idx R T m) s n) in *.
  assert (CI : forall bs', (forall b, In b bs' -> In b bs) ->
     mapM (fun b => do lo <- get (idxs (m_idx R T m)) b;; do hi <- get (idxs (m_idx R T m)) (b + 1);; Ok (lo, hi)) bs'
     = Ok (map (fun b => (list_sum (firstn b (N_var (m_idx R T m))), list_sum (firstn (b + 1) (N_var (m_idx R T m))))) bs')).
  { intros bs' Hb. apply mapM_Ok_map. intros b Hin'. apply Hb in Hin'. apply (in_blocks_of m sd s n b Ev) in Hin' as (Hmu & _).
    destruct (ev_series _ _ Ev b n Hmu) as (_ & N' & _ & HN'). assert (b < length (N_var (m_idx R T m))) by (apply nth_error_Some; congruence).
    rewrite (ev_idxs _ _ Ev). rewrite (proj2 (get_ok _ _ _) (cumul_nth 0 (N_var (m_idx R T m)) b ltac:(lia))), (proj2 (get_ok _ _ _) (cumul_nth 0 (N_var (m_idx R T m)) (b + 1) ltac:(lia))).
    reflexivity. }
  rewrite (CI bs) by auto. cbn [bind]. rewrite Eps. cbn [bind].
  destruct bs as [|b0 bs0] eqn:Ebs; [congruence|]. cbn [map get nth_error bind fst snd].
  assert (Hb0 : nth_error (n_mu (m_idx R T m)) b0 = Some n) by (eapply (in_blocks_of m sd s n); eauto; fold bs; rewrite Ebs; left; auto).
  destruct (ev_series _ _ Ev b0 n Hb0) as (_ & N0 & HN0 & HNb0). assert (N0 = N) by congruence. subst N0.
  replace (list_sum (firstn (b0 + 1) (N_var (m_idx R T m))) - list_sum (firstn b0 (N_var (m_idx R T m)))) with N
    by (rewrite Nat.add_1_r, (list_sum_firstn_S _ _ _ HNb0); lia).
  assert (MX : forall bs' X', Forall2 (is_block (idxs (m_idx R T m)) (m_values R T m)) bs' X' -> (forall x, In x X' -> length x = N) ->
     mapM (fun r : nat * nat => column_of N (slice (fst r) (snd r) (m_values R T m)))
       (map (fun b => (list_sum (firstn b (N_var (m_idx R T m))), list_sum (firstn (b + 1) (N_var (m_idx R T m))))) bs') = Ok X').
  { intros bs' X' F. induction F as [|b x bs' X' Hbx F IH]; intros HL; [reflexivity|]. cbn [map mapM].
    destruct Hbx as (lo & hi & G1 & G2 & G3 & ->). cbn [fst snd].
    assert (Hb : b + 1 < length (idxs (m_idx R T m))) by (apply nth_error_Some; congruence). rewrite (ev_idxs _ _ Ev), cumul_length in Hb.
    rewrite (ev_idxs _ _ Ev) in G1, G2. rewrite cumul_nth in G1 by lia. rewrite cumul_nth in G2 by lia. cbn [plus] in G1, G2.
    injection G1 as <-. injection G2 as <-. rewrite column_ok by (apply HL; left; auto). rewrite IH by (intros; apply HL; right; auto). reflexivity. }
  change ((list_sum (firstn b0 (N_var (m_idx R T m))), list_sum (firstn (b0 + 1) (N_var (m_idx R T m))))
           :: map (fun b => (list_sum (firstn b (N_var (m_idx R T m))), list_sum (firstn (b + 1) (N_var (m_idx R T m))))) bs0)
    with (map (fun b => (list_sum (firstn b (N_var (m_idx R T m))), list_sum (firstn (b + 1) (N_var (m_idx R T m))))) (b0 :: bs0)).
  rewrite (MX (b0 :: bs0) X).
  - cbn [bind]. unfold m_getAcross, m_getAlong, m_getTime. rewrite Ext, Eal, Et. cbn [bind]. rewrite (proj2 (get_ok _ _ _) Ef). reflexivity.
  - rewrite <- Ebs. exact HX.
  - intros x Hx. eapply LX; eauto.
Qed.
End M.
