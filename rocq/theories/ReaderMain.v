From Verif Require Import Base BaseLemmas ReaderModel ReaderSpec ReaderProofs.

Section Main.
Context {V T : Type} (zeroV nanV : V) (zeroT : T) (f32 i32 : V -> V) (todate : V -> T)
        (isfill : V -> bool).
Notation dataset := (dataset V).

Lemma foldM_raise {S A} (f : S -> A -> res S) (P : S -> Prop) (bad : A -> Prop) e l s :
  (forall s a, In a l -> P s -> bad a -> f s a = Raise e) ->
  (forall s a, In a l -> P s -> bad a \/ exists s', f s a = Ok s' /\ P s') ->
  P s -> (exists a, In a l /\ bad a) -> foldM f l s = Raise e.
Proof.
  intros Hb Hg. revert s. induction l as [|a l IH]; intros s HP (x & Hx & Hbx); [destruct Hx|].
  cbn. destruct (Hg s a (or_introl eq_refl) HP) as [Hba|(s' & E & HP')].
  - rewrite (Hb s a); auto. left; auto.
  - rewrite E. destruct Hx as [->|Hx].
    + rewrite (Hb s x (or_introl eq_refl) HP Hbx) in E. discriminate.
    + apply IH; eauto; intros; [apply Hb|apply Hg]; auto; right; auto.
Qed.

Lemma do_write_step ds ix bs i d sd s c :
  idx_ok ds ix -> readable ds -> In (i, d, sd, s, c) (writes ds ix) ->
  map (@length V) bs = N_var ix ->
  (sm d sd <= c -> do_write zeroV f32 ix (concat bs) (i, d, sd, s, c) = Raise IndexError) /\
  (c < sm d sd -> exists bs', do_write zeroV f32 ix (concat bs) (i, d, sd, s, c) = Ok (concat bs')
                              /\ map (@length V) bs' = N_var ix).
Proof.
  intros H Hgood Hin Hl.
  assert (HIne : forall a b, In (a, b) (Im ix) -> a <> b).
  { eapply Im_ne; eauto. intros d' Hd; apply Hgood; auto. }
  pose proof (NoDup_blocks (Im ix) (sensor_ms ix) HIne) as Hnd.
  set (L := blocks (Im ix) (sensor_ms ix)) in *.
  apply in_writes in Hin as (Hi & (p & Ep & ->) & Hc); auto.
  assert (Hd : In d ds) by (eapply nth_error_In; eauto).
  assert (HinL : In (sidx p sd, i + 1, c + 1) L).
  { destruct p as [a b]. apply in_blocks. exists i, a, b. repeat split; auto; try lia.
    destruct sd; cbn; auto. }
  destruct (In_nth_error _ _ HinL) as (b & Hb).
  unfold do_write, write_cov. rewrite (idx_ok_block_idxs _ _ H). fold L.
  rewrite (index_NoDup eqb3 eqb3_spec _ _ _ Hnd Hb). cbn [bind].
  assert (Hbl : b < length L) by (apply nth_error_Some; congruence).
  assert (Hnvl : length (N_var ix) = length L) by (rewrite (io_nv _ _ H), map_length; reflexivity).
  rewrite (io_idx _ _ H).
  rewrite (proj2 (get_ok _ b _) (cumul_nth 0 (N_var ix) b ltac:(lia))). cbn [bind plus].
  rewrite (proj2 (get_ok _ (b + 1) _) (cumul_nth 0 (N_var ix) (b + 1) ltac:(lia))). cbn [bind plus].
  unfold column. replace (fst (Xside V d (snum sd))) with (sm d sd) by (destruct sd; reflexivity).
  replace (snd (Xside V d (snum sd))) with (sX d sd) by (destruct sd; reflexivity).
  destruct (Nat.ltb_spec c (sm d sd)) as [Hlt|Hge]; cbn [bind]; split; intros Hcc; try lia; [|reflexivity].
  assert (Hbsl : length bs = length L) by (rewrite <- Hnvl, <- Hl, map_length; reflexivity).
  destruct (nth_error bs b) as [old|] eqn:Eold; [|apply nth_error_None in Eold; lia].
  assert (HlenN : nth_error (N_var ix) b = Some (d_M V d)).
  { rewrite (io_nv _ _ H), nth_error_map'. fold L. rewrite Hb. cbn. f_equal.
    replace (i + 1 - 1) with i by lia. rewrite (io_Nm _ _ H). apply nth_nth_error.
    rewrite nth_error_map', Hi. reflexivity. }
  assert (Hold : length old = d_M V d).
  { assert (E : nth_error (map (@length V) bs) b = Some (length old)) by (rewrite nth_error_map', Eold; reflexivity).
    rewrite Hl, HlenN in E. injection E as E. auto. }
  assert (Hcl : length (map f32 (map (fun r => nth c r zeroV) (sX d sd))) = length old).
  { rewrite !map_length, Hold. destruct (Hgood d Hd) as ((W1 & _ & W2 & _) & _). destruct sd; auto. }
  rewrite <- Hl. replace (b + 1) with (S b) by lia.
  rewrite (assign_concat bs b old _ Eold Hcl).
  eexists. split; [reflexivity|].
  rewrite upd_map, Hcl, upd_same; [reflexivity|]. rewrite nth_error_map', Eold. reflexivity.
Qed.

Lemma open_values_fails ds ix d sd m :
  idx_ok ds ix -> readable ds -> In d ds -> first_count ds (sname d sd) = Some m -> sm d sd < m ->
  open_values V zeroV f32 ds ix = Raise IndexError.
Proof.
  intros H Hgood Hd Hm Hlt. rewrite open_values_writes by auto.
  apply (foldM_raise _ (fun v => exists bs, v = concat bs /\ map (@length V) bs = N_var ix)
           (fun w => let '(i, d, sd, s, c) := w in sm d sd <= c)).
  - intros s0 [[[[i d0] sd0] s1] c] Hin (bs & -> & Hl) Hbad.
    apply (proj1 (do_write_step _ _ bs _ _ _ _ _ H Hgood Hin Hl)); auto.
  - intros s0 [[[[i d0] sd0] s1] c] Hin (bs & -> & Hl).
    destruct (Nat.le_gt_cases (sm d0 sd0) c) as [Hle|Hgt]; [left; auto|right].
    destruct (proj2 (do_write_step _ _ bs _ _ _ _ _ H Hgood Hin Hl) Hgt) as (bs' & E & Hl').
    eauto.
  - exists (map (fun n => repeat zeroV n) (N_var ix)). rewrite repeat_concat. split; auto.
    rewrite map_map. rewrite <- (map_id (N_var ix)) at 2. apply map_ext. intros; apply repeat_length.
  - destruct (In_nth_error _ _ Hd) as (i & Hi).
    destruct (io_Im_sd _ _ _ _ H Hi) as (p & Ep & Hp).
    exists (i, d, sd, sidx p sd, sm d sd). split; [|auto].
    apply in_writes; auto. repeat split; eauto.
    pose proof (ms_first _ _ _ _ H (Hp sd)) as E. rewrite Hm in E. injection E as E. lia.
Qed.

(** ** per-series arrays *)
Lemma open_ks_ok ds ix : idx_ok ds ix -> readable ds ->
  open_ks V zeroV ds ix = Ok (concat (map (d_K V) ds)).
Proof.
  intros H Hg. apply fill_by_series_spec; [apply (io_cNm _ _ H)|].
  intros d Hd. left. split; auto. apply Hg; auto.
Qed.
Lemma open_time1_ok ds ix : idx_ok ds ix -> readable ds ->
  open_time1 V T zeroT todate ds ix = Ok (concat (map (fun d => map todate (d_time1 V d)) ds)).
Proof.
  intros H Hg. apply fill_by_series_spec; [apply (io_cNm _ _ H)|].
  intros d Hd. left. split; auto. rewrite map_length. apply Hg; auto.
Qed.
Lemma open_time2_ok ds ix : idx_ok ds ix -> readable ds ->
  open_time2 V T zeroT todate ds ix = Ok (concat (map (fun d => map todate (d_time2 V d)) ds)).
Proof.
  intros H Hg. apply fill_by_series_spec; [apply (io_cNm _ _ H)|].
  intros d Hd. left. split; auto. rewrite map_length. apply Hg; auto.
Qed.

Lemma lookup_in {B} n (l : list (string * B)) v : lookup n l = Some v -> In (n, v) l.
Proof.
  induction l as [|[n' v'] l IH]; cbn; [discriminate|].
  destruct (String.eqb_spec n' n) as [->|]; [intros E; injection E as ->; auto|auto].
Qed.

Definition optcol (g : V -> V) (name : string) (d : dataset) : list V :=
  match lookup name (d_vars V d) with Some v => map g v | None => repeat nanV (d_M V d) end.

Lemma fill_opt_ok g name ds ix : idx_ok ds ix -> readable ds ->
  fill_by_series V (fun d => match lookup name (d_vars V d) with
                             | Some v => map g v | None => [nanV] end) zeroV ds ix
  = Ok (concat (map (optcol g name) ds)).
Proof.
  intros H Hg. apply fill_by_series_spec; [apply (io_cNm _ _ H)|].
  intros d Hd. unfold optcol. destruct (lookup name (d_vars V d)) as [v|] eqn:E.
  - left. split; auto. rewrite map_length. apply lookup_in in E.
    destruct (Hg d Hd) as ((_ & _ & _ & _ & _ & _ & _ & W) & _). eapply W; eauto.
  - right. exists nanV. auto.
Qed.

Lemma open_optional_ok name ds ix : idx_ok ds ix -> readable ds ->
  open_optional_index V zeroV nanV i32 name ds ix =
  Ok (if existsb (has_var V name) ds then Some (concat (map (optcol i32 name) ds)) else None).
Proof.
  intros H Hg. unfold open_optional_index. destruct (existsb _ ds); [|reflexivity].
  rewrite fill_opt_ok by auto. reflexivity.
Qed.

Definition fillnan (x : V) : V := if isfill x then nanV else x.

Lemma open_additional_ok ord ds ix : idx_ok ds ix -> readable ds ->
  open_additional V zeroV nanV isfill ord ds ix =
  Ok (additional_names V ord ds,
      map (fun n => concat (map (optcol fillnan n) ds)) (additional_names V ord ds)).
Proof.
  intros H Hg. unfold open_additional.
  rewrite (mapM_Ok_map _ (fun n => concat (map (optcol fillnan n) ds))); [reflexivity|].
  intros n _. unfold open_additional_column. apply (fill_opt_ok fillnan); auto.
Qed.

(** ** openMatchUp *)
Definition omu := openMatchUp V T zeroV nanV zeroT f32 i32 todate isfill.

Record opened (ord : list string -> list string) (ds : list dataset) (mu : matchup V T) : Prop := {
  op_idx : idx_ok ds (mu_idx V T mu);
  op_vals : exists bs, mu_values V T mu = concat bs /\ map (@length V) bs = N_var (mu_idx V T mu) /\
      forall w b, In w (writes ds (mu_idx V T mu)) ->
        nth_error (blocks (Im (mu_idx V T mu)) (sensor_ms (mu_idx V T mu))) b = Some (wtrip w) ->
        nth_error bs b = Some (wcol zeroV f32 w);
  op_ks : mu_ks V T mu = concat (map (d_K V) ds);
  op_t1 : mu_time1 V T mu = concat (map (fun d => map todate (d_time1 V d)) ds);
  op_t2 : mu_time2 V T mu = concat (map (fun d => map todate (d_time2 V d)) ds);
  op_ac1 : mu_across1 V T mu = (if existsb (has_var V "across_track_index1") ds
             then Some (concat (map (optcol i32 "across_track_index1") ds)) else None);
  op_ac2 : mu_across2 V T mu = (if existsb (has_var V "across_track_index2") ds
             then Some (concat (map (optcol i32 "across_track_index2") ds)) else None);
  op_al1 : mu_along1 V T mu = (if existsb (has_var V "along_track_index1") ds
             then Some (concat (map (optcol i32 "along_track_index1") ds)) else None);
  op_al2 : mu_along2 V T mu = (if existsb (has_var V "along_track_index2") ds
             then Some (concat (map (optcol i32 "along_track_index2") ds)) else None);
  op_an : mu_add_names V T mu = additional_names V ord ds;
  op_ad : mu_add V T mu = map (fun n => concat (map (optcol fillnan n) ds)) (additional_names V ord ds)
}.

Lemma omu_ok ord ds : ds <> [] -> readable ds -> enough_covariates ds ->
  exists mu, omu ord ds = Ok mu /\ opened ord ds mu.
Proof.
  intros Hne Hg Hen. destruct (get_idx_ok ds Hne) as (ix & E & H).
  destruct (open_values_spec zeroV f32 ds ix H Hg Hen) as (bs & Ev & Hl & Hw).
  unfold omu, openMatchUp. rewrite E; cbn [bind]. rewrite Ev; cbn [bind].
  rewrite open_ks_ok by auto; cbn [bind]. rewrite open_time1_ok by auto; cbn [bind].
  rewrite open_time2_ok by auto; cbn [bind]. rewrite !open_optional_ok by auto; cbn [bind].
  rewrite open_additional_ok by auto; cbn [bind fst snd].
  eexists; split; [reflexivity|]. constructor; cbn; auto. exists bs; auto.
Qed.

Lemma omu_fails ord ds d sd m : readable ds -> In d ds ->
  first_count ds (sname d sd) = Some m -> sm d sd < m -> omu ord ds = Raise IndexError.
Proof.
  intros Hg Hd Hm Hlt. destruct (get_idx_ok ds) as (ix & E & H); [destruct ds; [destruct Hd|discriminate]|].
  unfold omu, openMatchUp. rewrite E; cbn [bind].
  rewrite (open_values_fails ds ix d sd m); auto.
Qed.

Lemma omu_opened ord ds mu : readable ds -> omu ord ds = Ok mu -> opened ord ds mu /\ enough_covariates ds /\ ds <> [].
Proof.
  intros Hg E.
  assert (Hne : ds <> []) by (intros ->; discriminate).
  assert (Hen : enough_covariates ds).
  { intros d sd m Hd Hm. destruct (Nat.le_gt_cases m (sm d sd)); auto.
    rewrite (omu_fails ord ds d sd m) in E; auto. discriminate. }
  destruct (omu_ok ord ds Hne Hg Hen) as (mu' & E' & Ho). rewrite E in E'. injection E' as ->. auto.
Qed.

(** ** C01 / C04 *)
Lemma colv_is_column d sd c : In c (seq 1 (sm d sd)) -> wf_dataset d ->
  exists col, is_column (sX d sd) c col /\ colv zeroV f32 d sd (c - 1) = map f32 col.
Proof.
  intros Hc W. apply in_seq in Hc. exists (map (fun r => nth (c - 1) r zeroV) (sX d sd)).
  split; [|reflexivity]. split; [apply map_length|].
  intros r row Hr. rewrite nth_error_map', Hr. cbn. symmetry. apply nth_error_nth'.
  destruct W as (_ & W1 & _ & W2 & _). apply nth_error_In in Hr.
  destruct sd; cbn in *; [rewrite (W1 _ Hr)|rewrite (W2 _ Hr)]; lia.
Qed.

Lemma readable_good ds : good_files ds -> ds <> [] /\ readable ds /\ enough_covariates (ds : list dataset).
Proof. intros (H1 & H2 & H3). split; [auto|]. split; [exact H3|apply same_enough; auto]. Qed.

Lemma first_same ds s n d sd : good_files (ds : list dataset) -> nth_error ds n = Some d -> sname d sd = s ->
  first_count ds s = Some (sm d sd).
Proof.
  intros (_ & Hs & _) Hd <-. apply nth_error_In in Hd.
  destruct (first_count_in ds d sd Hd) as (m & Em). rewrite Em. f_equal.
  assert (G : forall l : list dataset, first_count l (sname d sd) = Some m ->
            exists d' sd', In d' l /\ sname d' sd' = sname d sd /\ sm d' sd' = m).
  { clear. induction l as [|x l IH]; cbn; [discriminate|].
    destruct (String.eqb_spec (d_s1 V x) (sname d sd)) as [E|_].
    - intros E'; injection E' as <-. exists x, Side1; auto.
    - destruct (String.eqb_spec (d_s2 V x) (sname d sd)) as [E|_].
      + intros E'; injection E' as <-. exists x, Side2; auto.
      + intros E'. destruct (IH E') as (d' & sd' & ? & ? & ?). exists d', sd'; auto. }
  destruct (G ds Em) as (d' & sd' & Hd' & E & <-). apply Hs; auto.
Qed.

Theorem columns_returned ord ds : good_files ds ->
  exists mu, omu ord ds = Ok mu /\
   (forall sensor n cov d sd, file_has ds sensor n cov d sd ->
      exists col, is_column (sX d sd) cov col /\
        getVariableData V T mu cov sensor (Some n) = Ok (map f32 col)) /\
   (forall sensor n cov, (forall d sd, ~ file_has ds sensor n cov d sd) ->
      getVariableData V T mu cov sensor (Some n) = Raise ValueError).
Proof.
  intros Hgood. destruct (readable_good _ Hgood) as (Hne & Hr & Hen).
  destruct (omu_ok ord ds Hne Hr Hen) as (mu & E & Ho). exists mu. split; [exact E|].
  destruct (op_vals _ _ _ Ho) as (bs & Hv & Hl & Hw).
  destruct (getVariableData_spec zeroV f32 ds _ bs mu (op_idx _ _ _ Ho) Hr eq_refl Hv Hl Hw) as (G1 & G2).
  split.
  - intros s n c d sd (Hn & Hd & Hs & Hc).
    assert (Hdin : In d ds) by (eapply nth_error_In; eauto).
    destruct (colv_is_column d sd c) as (col & Hcol & Ecol);
      [apply in_seq; lia|apply Hr; auto|].
    exists col. split; auto. rewrite <- Ecol. eapply G1; eauto. eapply first_same; eauto.
  - intros s n c Hno. apply G2. intros (d & sd & m & Hn & Hd & Hs & Hm & Hc).
    apply (Hno d sd). pose proof (first_same _ _ _ _ _ Hgood Hd Hs) as E'. rewrite Hm in E'.
    injection E' as ->. repeat split; auto; lia.
Qed.

Theorem nothing_invented ord ds mu sensor n cov x :
  readable ds -> omu ord ds = Ok mu ->
  getVariableData V T mu cov sensor (Some n) = Ok x ->
  exists d sd col, file_has_first ds sensor n cov d sd /\ is_column (sX d sd) cov col /\ x = map f32 col.
Proof.
  intros Hr E Hx. destruct (omu_opened _ _ _ Hr E) as (Ho & Hen & Hne).
  destruct (op_vals _ _ _ Ho) as (bs & Hv & Hl & Hw).
  destruct (getVariableData_spec zeroV f32 ds _ bs mu (op_idx _ _ _ Ho) Hr eq_refl Hv Hl Hw) as (G1 & G2).
  destruct (in_dec (fun a b : string * nat * nat => ltac:(repeat decide equality))
     (sensor, n, cov) (map (named (mu_idx V T mu)) (blocks (Im (mu_idx V T mu)) (sensor_ms (mu_idx V T mu)))))
    as [Hi|Hni].
  - apply (in_named ds) in Hi; [|apply (op_idx _ _ _ Ho)].
    destruct Hi as (d & sd & m & Hn & Hd & Hs & Hm & Hc).
    assert (Hdin : In d ds) by (eapply nth_error_In; eauto).
    assert (m <= sm d sd) by (apply (Hen d sd); auto; congruence).
    destruct (colv_is_column d sd cov) as (col & Hcol & Ecol);
      [apply in_seq; lia|apply Hr; auto|].
    exists d, sd, col. repeat split; auto; try lia.
    + exists m; split; auto; lia.
    + apply Hcol. + apply Hcol.
    + rewrite (G1 _ _ _ _ _ _ Hn Hd Hs Hm Hc) in Hx. injection Hx as <-. exact Ecol.
  - rewrite G2 in Hx; [discriminate|]. rewrite <- (in_named ds (mu_idx V T mu)); [auto|apply (op_idx _ _ _ Ho)].
Qed.

Theorem columns_first ord ds mu sensor n cov d sd :
  readable ds -> omu ord ds = Ok mu -> file_has_first ds sensor n cov d sd ->
  exists col, is_column (sX d sd) cov col /\
    getVariableData V T mu cov sensor (Some n) = Ok (map f32 col).
Proof.
  intros Hr E ((Hn & Hd & Hs & Hc) & m & Hm & Hcm). destruct (omu_opened _ _ _ Hr E) as (Ho & Hen & Hne).
  destruct (op_vals _ _ _ Ho) as (bs & Hv & Hl & Hw).
  destruct (getVariableData_spec zeroV f32 ds _ bs mu (op_idx _ _ _ Ho) Hr eq_refl Hv Hl Hw) as (G1 & G2).
  assert (Hdin : In d ds) by (eapply nth_error_In; eauto).
  destruct (colv_is_column d sd cov) as (col & Hcol & Ecol);
      [apply in_seq; lia|apply Hr; auto|].
  exists col; split; auto. rewrite <- Ecol. eapply G1; eauto; lia.
Qed.

Theorem opens_iff ord ds : ds <> [] -> readable ds ->
  (enough_covariates ds -> exists mu, omu ord ds = Ok mu) /\
  (~ enough_covariates ds -> omu ord ds = Raise IndexError).
Proof.
  intros Hne Hr. split.
  - intros Hen. destruct (omu_ok ord ds Hne Hr Hen) as (mu & E & _). eauto.
  - intros Hno.
    set (viol := fun d : dataset => match first_count ds (d_s1 V d), first_count ds (d_s2 V d) with
                  | Some a, Some b => (d_m1 V d <? a) || (d_m2 V d <? b) | _, _ => false end).
    destruct (existsb viol ds) eqn:Ex.
    + apply existsb_exists in Ex as (d & Hd & Hv). unfold viol in Hv.
      destruct (first_count ds (d_s1 V d)) as [a|] eqn:E1; [|discriminate].
      destruct (first_count ds (d_s2 V d)) as [b|] eqn:E2; [|discriminate].
      apply orb_true_iff in Hv as [Hv|Hv]; apply Nat.ltb_lt in Hv.
      * apply (omu_fails ord ds d Side1 a); auto.
      * apply (omu_fails ord ds d Side2 b); auto.
    + exfalso. apply Hno. intros d sd m Hd Hm.
      assert (Hf : viol d = false).
      { destruct (viol d) eqn:Ev; auto. assert (existsb viol ds = true) by (apply existsb_exists; eauto). congruence. }
      unfold viol in Hf.
      destruct (first_count_in ds d Side1 Hd) as (a & Ea). destruct (first_count_in ds d Side2 Hd) as (b & Eb).
      cbn in Ea, Eb. rewrite Ea, Eb in Hf. apply orb_false_iff in Hf as (F1 & F2).
      apply Nat.ltb_ge in F1, F2. destruct sd; cbn in *; congruence.
Qed.

(** ** C02 *)
Theorem layout ds : good_files ds ->
  exists ix, get_idx V ds = Ok ix /\
    let nb := length (n_sensor ix) in
    length (n_mu ix) = nb /\ length (n_cov ix) = nb /\ length (N_var ix) = nb /\
    length (idxs ix) = nb + 1 /\
    nth_error (idxs ix) 0 = Some 0 /\
    (forall b s n c, nth_error (n_sensor ix) b = Some s -> nth_error (n_mu ix) b = Some n ->
        nth_error (n_cov ix) b = Some c ->
        exists name d sd lo, nth_error (sensors ix) s = Some name /\ file_has ds name n c d sd /\
          nth_error (N_var ix) b = Some (d_M V d) /\
          nth_error (idxs ix) b = Some lo /\ nth_error (idxs ix) (b + 1) = Some (lo + d_M V d)) /\
    (forall name n c d sd, file_has ds name n c d sd ->
        exists! b, exists s, nth_error (n_sensor ix) b = Some s /\ nth_error (sensors ix) s = Some name /\
          nth_error (n_mu ix) b = Some n /\ nth_error (n_cov ix) b = Some c).
Proof.
  intros Hgood. destruct (readable_good _ Hgood) as (Hne & Hr & Hen).
  destruct (get_idx_ok ds Hne) as (ix & E & H). exists ix. split; [exact E|].
  cbn zeta. set (L := blocks (Im ix) (sensor_ms ix)).
  assert (HL1 : length (n_sensor ix) = length L) by (rewrite (io_ns _ _ H); apply map_length).
  assert (HL2 : length (N_var ix) = length L) by (rewrite (io_nv _ _ H); apply map_length).
  rewrite HL1. split; [rewrite (io_nm _ _ H); apply map_length|].
  split; [rewrite (io_nc _ _ H); apply map_length|]. split; [exact HL2|].
  split; [rewrite (io_idx _ _ H), cumul_length; lia|].
  split; [rewrite (io_idx _ _ H); rewrite cumul_nth by lia; reflexivity|].
  split.
  - intros b s n c Hs Hn Hc.
    rewrite (io_ns _ _ H), nth_error_map' in Hs. fold L in Hs.
    rewrite (io_nm _ _ H), nth_error_map' in Hn. fold L in Hn.
    rewrite (io_nc _ _ H), nth_error_map' in Hc. fold L in Hc.
    destruct (nth_error L b) as [[[s' n'] c']|] eqn:Eb; [|discriminate].
    cbn in Hs, Hn, Hc. injection Hs as ->. injection Hn as ->. injection Hc as ->.
    pose proof (nth_error_In _ _ Eb) as HinL.
    pose proof (block_sensor_lt _ _ _ H HinL) as Hlt. cbn in Hlt.
    destruct (nth_error (sensors ix) s) as [name|] eqn:En; [|apply nth_error_None in En; lia].
    assert (Hnamed : In (name, n, c) (map (named ix) L)).
    { apply in_map_iff. exists (s, n, c). split; auto. unfold named; cbn.
      rewrite (nth_nth_error _ _ EmptyString _ En). reflexivity. }
    apply (in_named ds) in Hnamed; auto.
    destruct Hnamed as (d & sd & m & Hn1 & Hd & Hsd & Hm & Hcm).
    pose proof (first_same _ _ _ _ _ Hgood Hd Hsd) as Em. rewrite Hm in Em. injection Em as ->.
    assert (HN : nth_error (N_var ix) b = Some (d_M V d)).
    { rewrite (io_nv _ _ H), nth_error_map'. fold L. rewrite Eb. cbn. f_equal.
      rewrite (io_Nm _ _ H). apply nth_nth_error. rewrite nth_error_map', Hd. reflexivity. }
    exists name, d, sd, (list_sum (firstn b (N_var ix))).
    assert (Hbl : b < length (N_var ix)) by (apply nth_error_Some; congruence).
    repeat split; auto; try lia.
    + rewrite (io_idx _ _ H), cumul_nth by lia. reflexivity.
    + rewrite (io_idx _ _ H), cumul_nth by lia. cbn. f_equal.
      replace (b + 1) with (S b) by lia. apply list_sum_firstn_S; auto.
  - intros name n c d sd (Hn & Hd & Hs & Hc).
    assert (Hb : In (name, n, c) (map (named ix) L)).
    { apply (in_named ds); auto. exists d, sd, (sm d sd). repeat split; auto; try lia.
      eapply first_same; eauto. }
    destruct (In_nth_error _ _ Hb) as (b & Eb).
    pose proof Eb as Eb'. rewrite nth_error_map' in Eb'.
    destruct (nth_error L b) as [[[s' n'] c']|] eqn:ELb; [|discriminate].
    cbn in Eb'. injection Eb' as E1 -> ->.
    exists b. split.
    + exists s'. rewrite (io_ns _ _ H), (io_nm _ _ H), (io_nc _ _ H), !nth_error_map'. fold L. rewrite ELb.
      cbn. repeat split; auto. cbn in E1. rewrite <- E1. apply nth_error_nth'.
      apply (block_sensor_lt _ _ (s', n, c) H). eapply nth_error_In; eauto.
    + intros b' (s & H1 & H2 & H3 & H4).
      rewrite (io_ns _ _ H), nth_error_map' in H1. rewrite (io_nm _ _ H), nth_error_map' in H3.
      rewrite (io_nc _ _ H), nth_error_map' in H4. fold L in H1, H3, H4.
      destruct (nth_error L b') as [[[s2 n2] c2]|] eqn:EL'; [|discriminate].
      cbn in H1, H3, H4. injection H1 as ->. injection H3 as ->. injection H4 as ->.
      assert (Hnd : NoDup (map (named ix) L)) by (apply (NoDup_named ds); auto; intros; apply Hr; auto).
      eapply (proj1 (NoDup_nth_error _)); [exact Hnd| |].
      * apply nth_error_Some. congruence.
      * rewrite Eb, nth_error_map', EL'. cbn. unfold named; cbn.
        rewrite (nth_nth_error _ _ EmptyString _ H2). reflexivity.
Qed.

(** Boundaries cut the array: every position lies in exactly one block. *)
Lemma cumul_cover ns p : forall t,
  t <= p < t + list_sum ns ->
  exists b lo hi, nth_error (cumul t ns) b = Some lo /\ nth_error (cumul t ns) (b + 1) = Some hi /\ lo <= p < hi.
Proof.
  induction ns as [|n ns IH]; cbn; intros t Hp; [lia|].
  change (fold_right Nat.add 0 ns) with (list_sum ns) in Hp.
  destruct (Nat.lt_ge_cases p (t + n)) as [Hlt|Hge].
  - exists 0, t, (t + n). cbn. split; [reflexivity|]. split; [destruct ns; reflexivity|lia].
  - destruct (IH (t + n)) as (b & lo & hi & H1 & H2 & H3); [lia|].
    exists (S b), lo, hi. cbn. replace (b + 1) with (S b) in * by lia. auto.
Qed.
Lemma cumul_mono ns t b b' x y :
  nth_error (cumul t ns) b = Some x -> nth_error (cumul t ns) b' = Some y -> b <= b' -> x <= y.
Proof.
  revert t b b' x y; induction ns as [|n ns IH]; intros t b b' x y H1 H2 Hle.
  - destruct b as [|b]; cbn in H1; [|destruct b; discriminate].
    destruct b' as [|b']; cbn in H2; [|destruct b'; discriminate]. injection H1 as <-. injection H2 as <-. lia.
  - destruct b as [|b], b' as [|b']; cbn in *; try lia.
    + congruence || (injection H1 as <-; injection H2 as <-; lia).
    + injection H1 as <-. 
      assert (t + n <= y) by (eapply (IH (t + n) 0 b' (t + n) y); eauto; [destruct ns; reflexivity|lia]). lia.
    + eapply IH; eauto. lia.
Qed.

Theorem every_position_in_one_block ord ds mu p : good_files ds -> omu ord ds = Ok mu ->
  p < length (mu_values V T mu) ->
  exists! b, exists lo hi, nth_error (idxs (mu_idx V T mu)) b = Some lo /\
     nth_error (idxs (mu_idx V T mu)) (b + 1) = Some hi /\ lo <= p < hi.
Proof.
  intros Hgood E Hp. destruct (readable_good _ Hgood) as (Hne & Hr & Hen).
  destruct (omu_opened _ _ _ Hr E) as (Ho & _).
  destruct (op_vals _ _ _ Ho) as (bs & Hv & Hl & _).
  rewrite Hv, concat_length, Hl in Hp. rewrite (io_idx _ _ (op_idx _ _ _ Ho)).
  destruct (cumul_cover (N_var (mu_idx V T mu)) p 0) as (b & lo & hi & H1 & H2 & H3); [lia|].
  exists b. split; [eauto|]. intros b' (lo' & hi' & H1' & H2' & H3').
  destruct (Nat.lt_trichotomy b b') as [Hlt|[->|Hgt]]; [|auto|].
  - pose proof (cumul_mono _ _ _ _ _ _ H2 H1' ltac:(lia)). lia.
  - pose proof (cumul_mono _ _ _ _ _ _ H2' H1 ltac:(lia)). lia.
Qed.

(** ** C03 *)
Lemma concat_series {B} (g : dataset -> list B) ds n d r :
  (forall d, In d ds -> length (g d) = d_M V d) ->
  1 <= n -> nth_error ds (n - 1) = Some d -> r < d_M V d ->
  nth_error (concat (map g ds)) (before ds n + r) = nth_error (g d) r.
Proof.
  intros Hg Hn. unfold before. generalize (n - 1). clear n Hn. intros i.
  revert ds Hg. induction i as [|i IH]; intros [|x ds] Hg Hd Hr; cbn in *; try discriminate.
  - injection Hd as ->. rewrite nth_error_app1; [reflexivity|]. rewrite Hg by auto. auto.
  - change (fold_right Nat.add 0) with list_sum.
    rewrite nth_error_app2 by (rewrite Hg by auto; lia). rewrite Hg by auto.
    rewrite <- (IH ds); auto. f_equal. lia.
Qed.

Lemma slice_series {B} (g : dataset -> list B) ds n d :
  (forall d, In d ds -> length (g d) = d_M V d) ->
  nth_error ds n = Some d ->
  slice (list_sum (firstn n (map (d_M V) ds))) (list_sum (firstn (S n) (map (d_M V) ds)))
        (concat (map g ds)) = g d.
Proof.
  intros Hg Hd.
  assert (E : map (d_M V) ds = map (@length B) (map g ds)).
  { rewrite map_map. apply map_ext_in. intros; symmetry; apply Hg; auto. }
  rewrite E. apply slice_concat. rewrite nth_error_map', Hd. reflexivity.
Qed.

Lemma optcol_length g name d : wf_dataset d -> length (optcol g name d) = d_M V d.
Proof.
  intros W. unfold optcol. destruct (lookup name (d_vars V d)) eqn:E; [|apply repeat_length].
  rewrite map_length. apply lookup_in in E. destruct W as (_ & _ & _ & _ & _ & _ & _ & W). eauto.
Qed.

Theorem series_aligned ord ds mu n d r : readable ds -> omu ord ds = Ok mu ->
  1 <= n -> nth_error ds (n - 1) = Some d -> r < d_M V d ->
  nth_error (cNm (mu_idx V T mu)) (n - 1) = Some (before ds n) /\
  nth_error (cNm (mu_idx V T mu)) n = Some (before ds n + d_M V d) /\
  nth_error (mu_ks V T mu) (before ds n + r) = nth_error (d_K V d) r /\
  nth_error (mu_time1 V T mu) (before ds n + r) = option_map todate (nth_error (d_time1 V d) r) /\
  nth_error (mu_time2 V T mu) (before ds n + r) = option_map todate (nth_error (d_time2 V d) r).
Proof.
  intros Hr E Hn Hd Hlt. destruct (omu_opened _ _ _ Hr E) as (Ho & _).
  assert (Hl : n - 1 < length ds) by (apply nth_error_Some; congruence).
  assert (W : forall d, In d ds -> wf_dataset d) by (intros; apply Hr; auto).
  rewrite (io_cNm _ _ (op_idx _ _ _ Ho)), (op_ks _ _ _ Ho), (op_t1 _ _ _ Ho), (op_t2 _ _ _ Ho).
  assert (Hb : before ds n = list_sum (firstn (n - 1) (map (d_M V) ds))).
  { unfold before. rewrite firstn_map. reflexivity. }
  rewrite !cumul_nth by (rewrite map_length; lia). cbn [plus].
  repeat split.
  - congruence.
  - f_equal. rewrite Hb. replace n with (S (n - 1)) at 1 by lia.
    apply list_sum_firstn_S. rewrite nth_error_map', Hd. reflexivity.
  - apply concat_series; auto. intros; apply W; auto.
  - rewrite (concat_series (fun d => map todate (d_time1 V d)) ds n d); auto.
    + apply nth_error_map'. + intros; rewrite map_length; apply W; auto.
  - rewrite (concat_series (fun d => map todate (d_time2 V d)) ds n d); auto.
    + apply nth_error_map'. + intros; rewrite map_length; apply W; auto.
Qed.

(** Arrays have no other elements. *)
Theorem series_lengths ord ds mu : readable ds -> omu ord ds = Ok mu ->
  length (mu_ks V T mu) = list_sum (map (d_M V) ds) /\
  length (mu_time1 V T mu) = list_sum (map (d_M V) ds) /\
  length (mu_time2 V T mu) = list_sum (map (d_M V) ds).
Proof.
  intros Hr E. destruct (omu_opened _ _ _ Hr E) as (Ho & _).
  rewrite (op_ks _ _ _ Ho), (op_t1 _ _ _ Ho), (op_t2 _ _ _ Ho), !concat_length, !map_map.
  repeat split; f_equal; apply map_ext_in; intros d Hd; rewrite ?map_length; apply Hr; auto.
Qed.

Lemma optional_ok_opened name ds :
  readable ds ->
  optional_ok nanV i32 name ds (if existsb (has_var V name) ds
     then Some (concat (map (optcol i32 name) ds)) else None).
Proof.
  intros Hr. destruct (existsb (has_var V name) ds) eqn:E; cbn.
  - assert (Hlen : forall d, In d ds -> length (optcol i32 name d) = d_M V d)
      by (intros d Hd; apply optcol_length; apply Hr; auto).
    split; [|split].
    + apply existsb_exists in E as (d & Hd & Hv). exists d. split; auto. unfold has_var in Hv.
      destruct (lookup name (d_vars V d)); [discriminate|discriminate Hv].
    + rewrite concat_length, map_map. f_equal. apply map_ext_in. auto.
    + intros n d r Hn Hd Hlt. rewrite (concat_series (optcol i32 name) ds n d); auto.
      unfold optcol. destruct (lookup name (d_vars V d)); [apply nth_error_map'|].
      rewrite nth_error_repeat by auto. reflexivity.
  - intros d Hd. assert (Hv : has_var V name d = false).
    { destruct (has_var V name d) eqn:Ev; auto.
      assert (existsb (has_var V name) ds = true) by (apply existsb_exists; eauto). congruence. }
    unfold has_var in Hv. destruct (lookup name (d_vars V d)); [discriminate|reflexivity].
Qed.

Theorem optional_indices ord ds mu : readable ds -> omu ord ds = Ok mu ->
  optional_ok nanV i32 "across_track_index1" ds (mu_across1 V T mu) /\
  optional_ok nanV i32 "across_track_index2" ds (mu_across2 V T mu) /\
  optional_ok nanV i32 "along_track_index1" ds (mu_along1 V T mu) /\
  optional_ok nanV i32 "along_track_index2" ds (mu_along2 V T mu).
Proof.
  intros Hr E. destruct (omu_opened _ _ _ Hr E) as (Ho & _).
  rewrite (op_ac1 _ _ _ Ho), (op_ac2 _ _ _ Ho), (op_al1 _ _ _ Ho), (op_al2 _ _ _ Ho).
  repeat split; apply optional_ok_opened; auto.
Qed.

(** ** C10: accessors *)
Lemma getSensorX_spec {B} (g1 g2 : dataset -> list B) x1 x2 ds ix n d s :
  idx_ok ds ix -> readable ds ->
  (x1 = None \/ x1 = Some (concat (map g1 ds))) -> (x2 = None \/ x2 = Some (concat (map g2 ds))) ->
  (forall d, In d ds -> length (g1 d) = d_M V d) -> (forall d, In d ds -> length (g2 d) = d_M V d) ->
  1 <= n -> nth_error ds (n - 1) = Some d ->
  (s = d_s1 V d -> getSensorX x1 x2 ix (Z.of_nat n) s = Ok (match x1 with None => None | Some _ => Some (g1 d) end)) /\
  (s = d_s2 V d -> getSensorX x1 x2 ix (Z.of_nat n) s = Ok (match x2 with None => None | Some _ => Some (g2 d) end)) /\
  (s <> d_s1 V d -> s <> d_s2 V d -> getSensorX x1 x2 ix (Z.of_nat n) s = Raise IndexError).
Proof.
  intros H Hr Hx1 Hx2 Hg1 Hg2 Hn Hd.
  assert (Hdis : d_s1 V d <> d_s2 V d) by (apply (Hr d); eapply nth_error_In; eauto).
  assert (Hl : n - 1 < length ds) by (apply nth_error_Some; congruence).
  destruct (io_Im _ _ H _ _ Hd) as (a & b & EI & Ea & Eb).
  unfold getSensorX. replace (Z.of_nat n - 1)%Z with (Z.of_nat (n - 1)) by lia.
  rewrite !pyget_of_nat, (io_cNm _ _ H).
  rewrite (proj2 (get_ok _ _ _) (cumul_nth 0 (map (d_M V) ds) (n - 1) ltac:(rewrite map_length; lia))). cbn [bind plus].
  rewrite (proj2 (get_ok _ _ _) (cumul_nth 0 (map (d_M V) ds) n ltac:(rewrite map_length; lia))). cbn [bind plus].
  rewrite (proj2 (get_ok _ _ _) EI). cbn [bind fst snd].
  rewrite (proj2 (get_ok _ _ _) Ea). cbn [bind]. rewrite (proj2 (get_ok _ _ _) Eb). cbn [bind].
  assert (HS : forall g : dataset -> list B, (forall d, In d ds -> length (g d) = d_M V d) ->
     slice (list_sum (firstn (n - 1) (map (d_M V) ds))) (list_sum (firstn n (map (d_M V) ds))) (concat (map g ds)) = g d).
  { intros g Hg. replace n with (S (n - 1)) at 2 by lia. apply slice_series; auto. }
  split; [|split].
  - intros ->. rewrite String.eqb_refl. destruct Hx1 as [->| ->]; [reflexivity|]. rewrite HS; auto.
  - intros ->. destruct (String.eqb_spec (d_s2 V d) (d_s1 V d)) as [E|_]; [congruence|].
    rewrite String.eqb_refl. destruct Hx2 as [->| ->]; [reflexivity|]. rewrite HS; auto.
  - intros N1 N2. destruct (String.eqb_spec s (d_s1 V d)); [congruence|].
    destruct (String.eqb_spec s (d_s2 V d)); [congruence|]. reflexivity.
Qed.

Theorem accessor_time ord ds mu n d : readable ds -> omu ord ds = Ok mu ->
  1 <= n -> nth_error ds (n - 1) = Some d ->
  (forall sd, getSensorTime V T mu (Z.of_nat n) (sname d sd) = Ok (Some (map todate (side_time d sd)))) /\
  (forall s, (forall sd, s <> sname d sd) -> getSensorTime V T mu (Z.of_nat n) s = Raise IndexError).
Proof.
  intros Hr E Hn Hd. destruct (omu_opened _ _ _ Hr E) as (Ho & _).
  assert (G : forall s, _) by (intros s;
    exact (getSensorX_spec (fun d => map todate (d_time1 V d)) (fun d => map todate (d_time2 V d))
     (Some (mu_time1 V T mu)) (Some (mu_time2 V T mu)) ds (mu_idx V T mu) n d s (op_idx _ _ _ Ho) Hr
     (or_intror (f_equal Some (op_t1 _ _ _ Ho))) (or_intror (f_equal Some (op_t2 _ _ _ Ho)))
     (fun d Hd => eq_trans (map_length _ _) (proj1 (proj2 (proj2 (proj2 (proj2 (proj2 (proj1 (Hr d Hd))))))))) 
     (fun d Hd => eq_trans (map_length _ _) (proj1 (proj2 (proj2 (proj2 (proj2 (proj2 (proj2 (proj1 (Hr d Hd)))))))))) Hn Hd)).
  split.
  - intros [|]; apply (G _); reflexivity.
  - intros s Hs. apply (G s); [apply (Hs Side1)|apply (Hs Side2)].
Qed.

Lemma accessor_opt (n1 n2 : string) ds ix n d s :
  idx_ok ds ix -> readable ds -> 1 <= n -> nth_error ds (n - 1) = Some d ->
  let x name := if existsb (has_var V name) ds then Some (concat (map (optcol i32 name) ds)) else None in
  (s = d_s1 V d -> getSensorX (x n1) (x n2) ix (Z.of_nat n) s = Ok (optional_slice nanV i32 n1 ds d)) /\
  (s = d_s2 V d -> getSensorX (x n1) (x n2) ix (Z.of_nat n) s = Ok (optional_slice nanV i32 n2 ds d)) /\
  (s <> d_s1 V d -> s <> d_s2 V d -> getSensorX (x n1) (x n2) ix (Z.of_nat n) s = Raise IndexError).
Proof.
  intros H Hr Hn Hd x.
  assert (Hx : forall nm, x nm = None \/ x nm = Some (concat (map (optcol i32 nm) ds)))
    by (intros nm; unfold x; destruct (existsb _ ds); auto).
  assert (Hl : forall nm d, In d ds -> length (optcol i32 nm d) = d_M V d)
    by (intros nm d' Hd'; apply optcol_length; apply Hr; auto).
  destruct (getSensorX_spec (optcol i32 n1) (optcol i32 n2) (x n1) (x n2) ds ix n d s H Hr (Hx n1) (Hx n2)
     (Hl n1) (Hl n2) Hn Hd) as (G1 & G2 & G3).
  split; [|split]; auto; intros Es.
  - rewrite G1 by auto. unfold x, optional_slice. destruct (existsb _ ds); reflexivity.
  - rewrite G2 by auto. unfold x, optional_slice. destruct (existsb (has_var V n2) ds); reflexivity.
Qed.

Theorem accessor_track ord ds mu n d : readable ds -> omu ord ds = Ok mu ->
  1 <= n -> nth_error ds (n - 1) = Some d ->
  (forall sd, getSensorAcrossTrackIndex V T mu (Z.of_nat n) (sname d sd) = Ok (optional_slice nanV i32 (side_across sd) ds d)) /\
  (forall sd, getSensorAlongTrackIndex V T mu (Z.of_nat n) (sname d sd) = Ok (optional_slice nanV i32 (side_along sd) ds d)) /\
  (forall s, (forall sd, s <> sname d sd) ->
     getSensorAcrossTrackIndex V T mu (Z.of_nat n) s = Raise IndexError /\
     getSensorAlongTrackIndex V T mu (Z.of_nat n) s = Raise IndexError).
Proof.
  intros Hr E Hn Hd. destruct (omu_opened _ _ _ Hr E) as (Ho & _).
  unfold getSensorAcrossTrackIndex, getSensorAlongTrackIndex.
  rewrite (op_ac1 _ _ _ Ho), (op_ac2 _ _ _ Ho), (op_al1 _ _ _ Ho), (op_al2 _ _ _ Ho).
  pose proof (fun s => accessor_opt "across_track_index1" "across_track_index2" ds _ n d s (op_idx _ _ _ Ho) Hr Hn Hd) as GA.
  pose proof (fun s => accessor_opt "along_track_index1" "along_track_index2" ds _ n d s (op_idx _ _ _ Ho) Hr Hn Hd) as GL.
  cbn zeta in GA, GL.
  split; [|split].
  - intros [|]; apply GA; reflexivity.
  - intros [|]; apply GL; reflexivity.
  - intros s Hs. split; [apply GA|apply GL]; auto; try apply (Hs Side1); apply (Hs Side2).
Qed.

(** Match-up numbers beyond the last series raise IndexError. *)
Theorem accessor_range {B} (x1 x2 : option (list B)) ord ds mu n s : readable ds -> omu ord ds = Ok mu ->
  length ds < n -> getSensorX x1 x2 (mu_idx V T mu) (Z.of_nat n) s = Raise IndexError.
Proof.
  intros Hr E Hn. destruct (omu_opened _ _ _ Hr E) as (Ho & _).
  unfold getSensorX. replace (Z.of_nat n - 1)%Z with (Z.of_nat (n - 1)) by lia.
  rewrite !pyget_of_nat, (io_cNm _ _ (op_idx _ _ _ Ho)).
  unfold get at 1. destruct (nth_error (cumul 0 (map (d_M V) ds)) (n - 1)) as [a|]; [|reflexivity]. cbn [bind].
  unfold get at 1. rewrite (proj2 (nth_error_None _ _)); [reflexivity|].
  rewrite cumul_length, map_length. lia.
Qed.

(** ** C11 *)
Theorem extremes_default_none agg (mu : matchup V T) cov s :
  getVariableDataAgg V T agg mu cov s None = Ok None.
Proof. unfold getVariableDataAgg, getVariableData. rewrite find_key_none. reflexivity. Qed.

Theorem extremes_with_number ord ds mu agg sensor n cov d sd :
  good_files ds -> omu ord ds = Ok mu -> file_has ds sensor n cov d sd ->
  exists col, is_column (sX d sd) cov col /\
  getVariableDataAgg V T agg mu cov sensor (Some n) =
    match agg (map f32 col) with
    | Ok v => Ok (Some v) | Raise ValueError => Ok None | Raise e => Raise e
    end.
Proof.
  intros Hg E Hf. destruct (columns_returned ord ds Hg) as (mu' & E' & G & _).
  rewrite E in E'. injection E' as <-. destruct (G _ _ _ _ _ Hf) as (col & Hc & Hget).
  exists col. split; auto. unfold getVariableDataAgg. rewrite Hget. cbn. reflexivity.
Qed.

(** ** additional data *)
Theorem additional_data ord ds mu name n d :
  readable ds -> omu ord ds = Ok mu -> (forall l x, In x (ord l) <-> In x l) ->
  1 <= n -> nth_error ds (n - 1) = Some d ->
  (In name (mu_add_names V T mu) ->
   getAdditionalData V T mu name (Some (Z.of_nat n)) =
   Ok (match lookup name (d_vars V d) with
       | Some v => map fillnan v
       | None => repeat nanV (d_M V d)
       end)) /\
  (~ In name (mu_add_names V T mu) -> getAdditionalData V T mu name (Some (Z.of_nat n)) = Raise ValueError) /\
  (In name (mu_add_names V T mu) <->
     ~ In name STANDARD_VARIABLE_NAMES /\ exists d', In d' ds /\ In name (map fst (d_vars V d'))).
Proof.
  intros Hr E Hord Hn Hd. destruct (omu_opened _ _ _ Hr E) as (Ho & _).
  assert (Hl : n - 1 < length ds) by (apply nth_error_Some; congruence).
  unfold getAdditionalData. replace (Z.of_nat n - 1)%Z with (Z.of_nat (n - 1)) by lia.
  rewrite !pyget_of_nat, (io_cNm _ _ (op_idx _ _ _ Ho)).
  rewrite (proj2 (get_ok _ _ _) (cumul_nth 0 (map (d_M V) ds) (n - 1) ltac:(rewrite map_length; lia))). cbn [bind plus].
  rewrite (proj2 (get_ok _ _ _) (cumul_nth 0 (map (d_M V) ds) n ltac:(rewrite map_length; lia))). cbn [bind plus].
  split; [|split].
  - intros Hi. destruct (index_in String.eqb seqb_spec _ _ Hi) as (c & Ec). rewrite Ec. cbn [bind].
    apply index_ok in Ec as (Ec & _); [|apply seqb_spec].
    rewrite (op_ad _ _ _ Ho). rewrite (op_an _ _ _ Ho) in Ec.
    rewrite (proj2 (get_ok _ c (concat (map (optcol fillnan name) ds)))).
    + cbn [bind]. f_equal. replace n with (S (n - 1)) at 2 by lia.
      rewrite (slice_series (optcol fillnan name) ds (n - 1) d); auto.
      intros d' Hd'; apply optcol_length; apply Hr; auto.
    + rewrite nth_error_map', Ec. reflexivity.
  - intros Hni. rewrite (index_notin String.eqb seqb_spec) by auto. reflexivity.
  - rewrite (op_an _ _ _ Ho). unfold additional_names. rewrite Hord, nodup_In, in_flat_map. split.
    + intros (d' & Hd' & Hf). apply filter_In in Hf as (Hf1 & Hf2). split; eauto.
      apply negb_true_iff in Hf2. apply mem_notin in Hf2; [auto|apply seqb_spec].
    + intros (Hstd & d' & Hd' & Hf). exists d'. split; auto. apply filter_In. split; auto.
      apply negb_true_iff. apply mem_notin; [apply seqb_spec|auto].
Qed.
End Main.
