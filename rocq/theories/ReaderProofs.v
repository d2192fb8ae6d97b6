From Verif Require Import Base BaseLemmas ReaderModel ReaderSpec.

Lemma seqb_spec x y : String.eqb x y = true <-> x = y.
Proof. apply String.eqb_eq. Qed.

Lemma NoDup_flat_map {A B} (f : A -> list B) l :
  NoDup l -> (forall a, In a l -> NoDup (f a)) ->
  (forall a a' b, In a l -> In a' l -> In b (f a) -> In b (f a') -> a = a') ->
  NoDup (flat_map f l).
Proof.
  induction l as [|a l IH]; intros Hnd Hf Hd; cbn; [constructor|].
  inversion Hnd as [|? ? Hni Hnd']; subst.
  assert (G : NoDup (flat_map f l)).
  { apply IH; auto; intros; [apply Hf; right; auto|].
    eapply Hd; eauto; right; auto. }
  assert (Hdis : forall b, In b (f a) -> ~ In b (flat_map f l)).
  { intros b Hb Hin. apply in_flat_map in Hin as (a' & Ha' & Hb').
    assert (a = a') by (eapply Hd; eauto; [left; reflexivity|right; auto]). subst; auto. }
  specialize (Hf a (or_introl eq_refl)). clear IH Hd Hnd Hni Hnd'.
  induction (f a) as [|x fa IHf]; cbn; [exact G|].
  inversion Hf; subst. constructor.
  - rewrite in_app_iff. intros [H|H]; [auto|]. eapply Hdis; eauto; left; auto.
  - apply IHf; auto. intros; apply Hdis; right; auto.
Qed.

Lemma add_sensor_fold l ss0 ms0 ss ms :
  fold_left add_sensor l (ss0, ms0) = (ss, ms) ->
  NoDup ss0 -> length ms0 = length ss0 ->
  NoDup ss /\ length ms = length ss /\
  (forall s, In s ss <-> In s ss0 \/ exists m, In (s, m) l) /\
  (forall i s, nth_error ss i = Some s ->
     (nth_error ss0 i = Some s /\ nth_error ms i = nth_error ms0 i) \/
     (exists m, In (s, m) l /\ nth_error ms i = Some m /\ ~ In s ss0 /\ lookup s l = Some m)).
Proof.
  revert ss0 ms0; induction l as [|[s m] l IH]; intros ss0 ms0 H Hnd Hlen.
  - cbn in H. injection H as <- <-. repeat split; auto.
    + intros [H|(m & [])]; auto.
  - cbn [fold_left] in H. unfold add_sensor at 2 in H. cbn [fst snd] in H.
    destruct (mem String.eqb s ss0) eqn:E.
    + apply IH in H as (H1 & H2 & H3 & H4); auto.
      apply mem_in in E; [|apply seqb_spec].
      repeat split; auto.
      * rewrite H3. intros [Hi|(m' & Hi)]; [left; auto|right; exists m'; right; auto].
      * intros [Hi|(m' & [Hi|Hi])]; rewrite H3; [auto|injection Hi as -> ->; auto|right; eauto].
      * intros i s' Hi. destruct (H4 _ _ Hi) as [?|(m' & ? & ? & Hn & Hlk)]; [auto|].
        right; exists m'; split; [right; auto|]; split; [auto|]; split; [auto|].
        cbn. destruct (String.eqb_spec s s') as [->|]; [contradiction|exact Hlk].
    + apply mem_notin in E; [|apply seqb_spec].
      apply IH in H as (H1 & H2 & H3 & H4).
      * repeat split; auto.
        -- rewrite H3, in_app_iff. cbn. intros [[Hi|[->|[]]]|(m' & Hi)]; eauto.
        -- rewrite H3, in_app_iff; cbn. intros [Hi|(m' & [Hi|Hi])]; [auto|injection Hi as -> ->; auto|eauto].
        -- intros i s' Hi. destruct (H4 _ _ Hi) as [(Ha & Hb)|(m' & Ha & Hb & Hn & Hlk)].
           ++ destruct (Nat.lt_ge_cases i (length ss0)) as [Hlt|Hge].
              ** rewrite nth_error_app1 in Ha by lia. rewrite nth_error_app1 in Hb by lia. auto.
              ** rewrite nth_error_app2 in Ha by lia. rewrite nth_error_app2 in Hb by lia.
                 destruct (i - length ss0) as [|k] eqn:Ek; [|destruct k; discriminate].
                 cbn in Ha. injection Ha as ->. right. exists m. split; [left; auto|].
                 rewrite Hb. replace (i - length ms0) with 0 by lia. split; [reflexivity|].
                 split; [auto|]. cbn. rewrite String.eqb_refl. reflexivity.
           ++ rewrite in_app_iff in Hn.
              right; exists m'; split; [right; auto|]; split; [auto|]; split; [tauto|].
              cbn. destruct (String.eqb_spec s s') as [->|]; [cbn in Hn; tauto|exact Hlk].
      * apply NoDup_snoc; auto.
      * rewrite !app_length; cbn; lia.
Qed.


Section Proofs.
Context {V T : Type} (zeroV nanV : V) (zeroT : T) (f32 i32 : V -> V) (todate : V -> T)
        (isfill : V -> bool).

Notation dataset := (dataset V).

(** ** sensors *)
Definition occ (d : dataset) : list (string * nat) := [(d_s1 V d, d_m1 V d); (d_s2 V d, d_m2 V d)].

Lemma get_sensors_flat ds :
  get_sensors V ds = fold_left add_sensor (flat_map occ ds) ([], []).
Proof.
  unfold get_sensors. generalize (([] : list string), ([] : list nat)).
  induction ds as [|d ds IH]; intros st; cbn [fold_left flat_map]; [reflexivity|].
  rewrite IH. unfold occ at 2. rewrite fold_left_app. reflexivity.
Qed.

Lemma get_sensors_spec ds ss ms :
  get_sensors V ds = (ss, ms) ->
  NoDup ss /\ length ms = length ss /\
  (forall s, In s ss <-> exists d sd, In d ds /\ sname d sd = s) /\
  (forall i s, nth_error ss i = Some s ->
     exists d sd, In d ds /\ sname d sd = s /\ nth_error ms i = Some (sm d sd) /\
                  first_count ds s = Some (sm d sd)).
Proof.
  intros H. rewrite get_sensors_flat in H.
  apply add_sensor_fold in H as (H1 & H2 & H3 & H4); [|constructor|reflexivity].
  assert (Hocc : forall s m, In (s, m) (flat_map occ ds) <->
                 exists d sd, In d ds /\ sname d sd = s /\ sm d sd = m).
  { intros s m. rewrite in_flat_map. split.
    - intros (d & Hd & [E|[E|[]]]); injection E as <- <-.
      + exists d, Side1; auto.
      + exists d, Side2; auto.
    - intros (d & [|] & Hd & <- & <-); exists d; split; auto; cbn; auto. }
  repeat split; auto.
  - rewrite H3. intros [[]|(m & Hm)]. apply Hocc in Hm as (d & sd & ? & ? & ?); eauto.
  - intros (d & sd & Hd & Hs). rewrite H3. right. exists (sm d sd). apply Hocc; eauto.
  - intros i s Hi. destruct (H4 _ _ Hi) as [(E & _)|(m & Hm & E & _ & Hlk)]; [destruct i; discriminate|].
    apply Hocc in Hm as (d & sd & ? & ? & <-). exists d, sd. repeat split; auto.
    rewrite <- Hlk. clear. induction ds as [|d0 ds IH]; cbn; [reflexivity|].
    destruct (String.eqb _ s); [reflexivity|]. destruct (String.eqb _ s); [reflexivity|exact IH].
Qed.

(** ** Im *)
Lemma get_Im_spec ds ss ms :
  get_sensors V ds = (ss, ms) ->
  exists Im, get_Im V ds ss = Ok Im /\ length Im = length ds /\
    forall i d, nth_error ds i = Some d ->
      exists a b, nth_error Im i = Some (a, b) /\
        nth_error ss a = Some (d_s1 V d) /\ nth_error ss b = Some (d_s2 V d).
Proof.
  intros H. apply get_sensors_spec in H as (Hnd & Hl & Hin & _).
  unfold get_Im.
  match goal with |- context [mapM ?f ds] => set (F := f) end.
  assert (HF : forall d, In d ds -> exists a b, F d = Ok (a, b) /\
             nth_error ss a = Some (d_s1 V d) /\ nth_error ss b = Some (d_s2 V d)).
  { intros d Hd. unfold F.
    assert (I1 : In (d_s1 V d) ss) by (apply Hin; exists d, Side1; auto).
    assert (I2 : In (d_s2 V d) ss) by (apply Hin; exists d, Side2; auto).
    destruct (index_in String.eqb seqb_spec _ _ I1) as (a & Ea).
    destruct (index_in String.eqb seqb_spec _ _ I2) as (b & Eb).
    exists a, b. rewrite Ea, Eb. cbn.
    apply index_ok in Ea as (Ea & _); [|apply seqb_spec].
    apply index_ok in Eb as (Eb & _); [|apply seqb_spec]. auto. }
  destruct (mapM_ok_ex F ds) as (Im & E).
  { intros d Hd. destruct (HF d Hd) as (a & b & E & _). eauto. }
  exists Im. split; [exact E|]. split; [eapply mapM_length; eauto|].
  intros i d Hd. destruct (mapM_nth _ _ _ _ _ E Hd) as ([a b] & E1 & E2).
  destruct (HF d (nth_error_In _ _ Hd)) as (a' & b' & E3 & E4 & E5).
  rewrite E1 in E3; injection E3 as -> ->. eauto.
Qed.

(** ** the block list *)
Definition blocks_at (Im : list (nat * nat)) (ms : list nat) (m_i : nat) : list (nat * nat * nat) :=
  flat_map (fun ip : nat * (nat * nat) =>
              map (fun s => (s, fst ip + 1, m_i))
                  (filter (fun s => m_i <=? nth s ms 0) [fst (snd ip); snd (snd ip)]))
           (enumerate Im).
Definition blocks (Im : list (nat * nat)) (ms : list nat) : list (nat * nat * nat) :=
  flat_map (blocks_at Im ms) (range1 (list_max ms)).

Lemma map_flat_map {A B C} (g : B -> C) (f : A -> list B) l :
  map g (flat_map f l) = flat_map (fun a => map g (f a)) l.
Proof. induction l as [|a l IH]; cbn; [reflexivity|]. rewrite map_app, IH; reflexivity. Qed.
Lemma flat_map_map {A B C} (g : A -> B) (f : B -> list C) l :
  flat_map f (map g l) = flat_map (fun a => f (g a)) l.
Proof. induction l as [|a l IH]; cbn; [reflexivity|]. rewrite IH; reflexivity. Qed.
Lemma flat_map_ext' {A B} (f g : A -> list B) l :
  (forall a, f a = g a) -> flat_map f l = flat_map g l.
Proof. intros H; induction l as [|a l IH]; cbn; [reflexivity|]. rewrite H, IH; reflexivity. Qed.
Lemma filter_flat_map {A B} (p : B -> bool) (f : A -> list B) l :
  filter p (flat_map f l) = flat_map (fun a => filter p (f a)) l.
Proof.
  induction l as [|a l IH]; cbn; [reflexivity|].
  rewrite <- IH. induction (f a) as [|b fa IHf]; cbn; [reflexivity|].
  destruct (p b); cbn; rewrite IHf; reflexivity.
Qed.

Lemma flat_map_enumerate_snd {A B} (f : A -> list B) l :
  flat_map f l = flat_map (fun ip => f (snd ip)) (enumerate l).
Proof. rewrite <- (flat_map_map snd f), enumerate_map_snd. reflexivity. Qed.

Lemma n_sensor_blocks Im ms : ms <> [] ->
  get_n_sensor Im ms = Ok (map (fun t => fst (fst t)) (blocks Im ms)).
Proof.
  intros H. unfold get_n_sensor, pymax. destruct ms as [|m ms']; [congruence|]. cbn [bind].
  f_equal. unfold blocks. rewrite map_flat_map. apply flat_map_ext'. intros m_i.
  unfold blocks_at. rewrite map_flat_map, filter_flat_map, flat_map_enumerate_snd.
  apply flat_map_ext'. intros ip. rewrite map_map. cbn [fst]. rewrite map_id. reflexivity.
Qed.
Lemma n_mu_blocks Im ms : ms <> [] ->
  get_n_mu Im ms = Ok (map (fun t => snd (fst t)) (blocks Im ms)).
Proof.
  intros H. unfold get_n_mu, pymax. destruct ms as [|m ms']; [congruence|]. cbn [bind].
  f_equal. unfold blocks. rewrite map_flat_map. apply flat_map_ext'. intros m_i.
  unfold blocks_at. rewrite map_flat_map. apply flat_map_ext'. intros ip.
  rewrite map_map. reflexivity.
Qed.
Lemma n_cov_blocks Im ms : ms <> [] ->
  get_n_cov Im ms = Ok (map snd (blocks Im ms)).
Proof.
  intros H. unfold get_n_cov, pymax. destruct ms as [|m ms']; [congruence|]. cbn [bind].
  f_equal. unfold blocks. rewrite map_flat_map. apply flat_map_ext'. intros m_i.
  unfold blocks_at. rewrite map_flat_map, filter_flat_map, map_flat_map.
  rewrite flat_map_enumerate_snd. apply flat_map_ext'. intros ip.
  rewrite map_map. reflexivity.
Qed.

Lemma zip3_map (L : list (nat * nat * nat)) :
  zip3 (map (fun t => fst (fst t)) L) (map (fun t => snd (fst t)) L) (map snd L) = L.
Proof. unfold zip3. induction L as [|[[a b] c] L IH]; cbn; [reflexivity|]. rewrite IH; reflexivity. Qed.

Lemma in_blocks Im ms s mu c :
  In (s, mu, c) (blocks Im ms) <->
  exists i a b, nth_error Im i = Some (a, b) /\ mu = i + 1 /\ (s = a \/ s = b) /\
                1 <= c <= nth s ms 0.
Proof.
  unfold blocks. rewrite in_flat_map. unfold range1. split.
  - intros (m_i & Hm & H). apply in_seq in Hm. unfold blocks_at in H.
    apply in_flat_map in H as ([i [a b]] & Hi & H). apply in_enumerate in Hi.
    apply in_map_iff in H as (s' & E & H). cbn in E. injection E as -> <- ->.
    apply filter_In in H as (H1 & H2). apply Nat.leb_le in H2. cbn in H1.
    exists i, a, b. repeat split; auto; lia.
  - intros (i & a & b & Hi & -> & Hs & Hc). exists c. split.
    + apply in_seq. split; [lia|].
      assert (nth s ms 0 <= list_max ms).
      { destruct (Nat.lt_ge_cases s (length ms)) as [Hlt|Hge].
        - assert (F : Forall (fun k => k <= list_max ms) ms) by (apply list_max_le; lia).
          rewrite Forall_forall in F. apply F. apply nth_In; auto.
        - rewrite nth_overflow by lia. lia. }
      lia.
    + unfold blocks_at. apply in_flat_map. exists (i, (a, b)). split; [apply in_enumerate; auto|].
      apply in_map_iff. exists s. split; [reflexivity|]. apply filter_In. cbn.
      split; [destruct Hs as [->| ->]; auto|]. apply Nat.leb_le; lia.
Qed.

Lemma NoDup_map_inj {A B} (f : A -> B) l :
  (forall x y, In x l -> In y l -> f x = f y -> x = y) -> NoDup l -> NoDup (map f l).
Proof.
  induction l as [|a l IH]; intros Hf Hnd; cbn; [constructor|].
  inversion Hnd; subst. constructor.
  - intros H. apply in_map_iff in H as (y & E & Hy).
    assert (y = a) by (apply Hf; auto; [right|left]; auto). subst; auto.
  - apply IH; auto. intros; apply Hf; auto; right; auto.
Qed.

Lemma enumerate_NoDup {A} (l : list A) : NoDup (enumerate l).
Proof. apply NoDup_map_inv with (f := fst). rewrite enumerate_map_fst. apply seq_NoDup. Qed.

Lemma NoDup_blocks Im ms :
  (forall a b, In (a, b) Im -> a <> b) -> NoDup (blocks Im ms).
Proof.
  intros Hne. unfold blocks. apply NoDup_flat_map.
  - apply seq_NoDup.
  - intros m_i _. unfold blocks_at. apply NoDup_flat_map.
    + apply enumerate_NoDup.
    + intros [i [a b]] Hi. apply in_enumerate in Hi. apply nth_error_In in Hi.
      apply NoDup_map_inj; [intros x y _ _ E; injection E; auto|].
      apply NoDup_filter. cbn. constructor; [|constructor; [intros []|constructor]].
      intros [E|E]; [|destruct E]. apply (Hne a b); auto.
    + intros [i p] [i' p'] b Hi Hi' Hb Hb'.
      apply in_map_iff in Hb as (s & <- & _). apply in_map_iff in Hb' as (s' & E & _).
      cbn in E. injection E as E1 E2. assert (i' = i) by lia. subst i'.
      apply in_enumerate in Hi, Hi'. congruence.
  - intros m1 m2 b _ _ H1 H2. unfold blocks_at in *.
    apply in_flat_map in H1 as (ip & _ & H1). apply in_map_iff in H1 as (s & <- & _).
    apply in_flat_map in H2 as (ip' & _ & H2). apply in_map_iff in H2 as (s' & E & _).
    injection E; auto.
Qed.

(** ** get_idx *)
Record idx_ok (ds : list dataset) (ix : idx_t) : Prop := {
  io_Nm : Nm ix = map (d_M V) ds;
  io_cNm : cNm ix = cumul 0 (map (d_M V) ds);
  io_nodup : NoDup (sensors ix);
  io_mslen : length (sensor_ms ix) = length (sensors ix);
  io_sens : forall s, In s (sensors ix) <-> exists d sd, In d ds /\ sname d sd = s;
  io_ms : forall i s, nth_error (sensors ix) i = Some s ->
     exists d sd, In d ds /\ sname d sd = s /\ nth_error (sensor_ms ix) i = Some (sm d sd) /\
                  first_count ds s = Some (sm d sd);
  io_Imlen : length (Im ix) = length ds;
  io_Im : forall i d, nth_error ds i = Some d ->
      exists a b, nth_error (Im ix) i = Some (a, b) /\
        nth_error (sensors ix) a = Some (d_s1 V d) /\ nth_error (sensors ix) b = Some (d_s2 V d);
  io_ns : n_sensor ix = map (fun t => fst (fst t)) (blocks (Im ix) (sensor_ms ix));
  io_nm : n_mu ix = map (fun t => snd (fst t)) (blocks (Im ix) (sensor_ms ix));
  io_nc : n_cov ix = map snd (blocks (Im ix) (sensor_ms ix));
  io_nv : N_var ix = map (fun t => nth (snd (fst t) - 1) (Nm ix) 0) (blocks (Im ix) (sensor_ms ix));
  io_idx : idxs ix = cumul 0 (N_var ix)
}.

Lemma get_idx_ok ds : ds <> [] -> exists ix, get_idx V ds = Ok ix /\ idx_ok ds ix.
Proof.
  intros Hne. unfold get_idx. destruct (get_sensors V ds) as [ss ms] eqn:E.
  pose proof (get_sensors_spec _ _ _ E) as (H1 & H2 & H3 & H4).
  destruct (get_Im_spec _ _ _ E) as (Im & EI & HIl & HI).
  assert (Hms : ms <> []).
  { destruct ds as [|d ds']; [congruence|].
    assert (In (d_s1 V d) ss) by (apply H3; exists d, Side1; split; [left|]; auto).
    destruct ss; [contradiction|]. destruct ms; [discriminate|]. discriminate. }
  rewrite EI; cbn [bind]. rewrite n_sensor_blocks, n_mu_blocks, n_cov_blocks by auto. cbn [bind].
  unfold get_N_var.
  rewrite (mapM_Ok_map _ (fun n => nth (n - 1) (get_Nm V ds) 0)).
  2:{ intros n Hn. apply in_map_iff in Hn as ([[s mu] c] & E1 & Hb). cbn in E1. subst n.
      apply in_blocks in Hb as (i & a & b & Hi & -> & _).
      assert (Hl : i < length ds) by (rewrite <- HIl; apply nth_error_Some; congruence).
      unfold get_Nm. replace (i + 1 - 1) with i by lia.
      apply get_ok. apply nth_error_nth'. rewrite map_length; auto. }
  cbn [bind]. eexists. split; [reflexivity|].
  constructor; cbn; auto.
  rewrite map_map. reflexivity.
Qed.

Lemma idx_ok_block_idxs ds ix : idx_ok ds ix -> get_block_idxs ix = blocks (Im ix) (sensor_ms ix).
Proof. intros H. unfold get_block_idxs. rewrite (io_ns _ _ H), (io_nm _ _ H), (io_nc _ _ H). apply zip3_map. Qed.

(** [sensor_ms] of a sensor is its covariate count in the first file it appears in. *)
Lemma ms_first ds ix s a :
  idx_ok ds ix -> nth_error (sensors ix) a = Some s ->
  first_count ds s = Some (nth a (sensor_ms ix) 0).
Proof.
  intros H Ha. destruct (io_ms _ _ H _ _ Ha) as (d' & sd' & Hd' & E & E2 & E3).
  rewrite (nth_nth_error _ _ 0 _ E2). exact E3.
Qed.

Lemma same_enough (ds : list dataset) : same_covariates ds -> enough_covariates ds.
Proof.
  intros H d sd m Hd Hm.
  assert (G : forall l : list dataset, first_count l (sname d sd) = Some m ->
            exists d' sd', In d' l /\ sname d' sd' = sname d sd /\ sm d' sd' = m).
  { clear. induction l as [|x l IH]; cbn; [discriminate|].
    destruct (String.eqb_spec (d_s1 V x) (sname d sd)) as [E|_].
    - intros E'; injection E' as <-. exists x, Side1; auto.
    - destruct (String.eqb_spec (d_s2 V x) (sname d sd)) as [E|_].
      + intros E'; injection E' as <-. exists x, Side2; auto.
      + intros E'. destruct (IH E') as (d' & sd' & ? & ? & ?). exists d', sd'; auto. }
  destruct (G ds Hm) as (d' & sd' & Hd' & E & <-).
  rewrite (H d' d sd' sd); auto.
Qed.

Lemma first_count_in (ds : list dataset) d sd : In d ds -> exists m, first_count ds (sname d sd) = Some m.
Proof.
  induction ds as [|x l IH]; intros Hd; [destruct Hd|]. cbn.
  destruct (String.eqb_spec (d_s1 V x) (sname d sd)) as [E|N1]; [eauto|].
  destruct (String.eqb_spec (d_s2 V x) (sname d sd)) as [E|N2]; [eauto|].
  destruct Hd as [->|Hd]; [destruct sd; cbn in *; congruence|auto].
Qed.

Lemma Im_ne ds ix :
  idx_ok ds ix -> (forall d, In d ds -> distinct_sensors d) ->
  forall a b, In (a, b) (Im ix) -> a <> b.
Proof.
  intros H Hd a b Hi. apply In_nth_error in Hi as (i & Hi).
  assert (Hl : i < length ds) by (rewrite <- (io_Imlen _ _ H); apply nth_error_Some; congruence).
  destruct (nth_error ds i) as [d|] eqn:Ed; [|apply nth_error_None in Ed; lia].
  destruct (io_Im _ _ H _ _ Ed) as (a' & b' & E & Ea & Eb).
  rewrite Hi in E; injection E as <- <-.
  intros ->. rewrite Ea in Eb. injection Eb as Eb. apply (Hd d); auto. eapply nth_error_In; eauto.
Qed.

(** Index of a sensor side. *)
Definition sidx (p : nat * nat) (sd : side) : nat := match sd with Side1 => fst p | Side2 => snd p end.
Definition snum (sd : side) : nat := match sd with Side1 => 0 | Side2 => 1 end.

Lemma io_Im_sd ds ix i d :
  idx_ok ds ix -> nth_error ds i = Some d ->
  exists p, nth_error (Im ix) i = Some p /\
    forall sd, nth_error (sensors ix) (sidx p sd) = Some (sname d sd).
Proof.
  intros H Hd. destruct (io_Im _ _ H _ _ Hd) as (a & b & E & Ea & Eb).
  exists (a, b). split; auto. intros [|]; auto.
Qed.

(** ** values *)
Definition colv (d : dataset) (sd : side) (i_cov : nat) : list V :=
  map f32 (map (fun r => nth i_cov r zeroV) (sX d sd)).

Definition write := (nat * dataset * side * nat * nat)%type.  (* i_matchup, d, side, n_sensor, i_cov *)
Definition writes (ds : list dataset) (ix : idx_t) : list write :=
  flat_map (fun imd : nat * dataset =>
    let p := nth (fst imd) (Im ix) (0, 0) in
    flat_map (fun sd =>
      map (fun c => (fst imd, snd imd, sd, sidx p sd, c))
          (seq 0 (nth (sidx p sd) (sensor_ms ix) 0))) [Side1; Side2])
    (enumerate ds).
Definition do_write (ix : idx_t) (values : list V) (w : write) : res (list V) :=
  let '(i, d, sd, s, c) := w in write_cov V zeroV f32 ix i d (snum sd) s values c.

Lemma foldM_write_map ix i d sd s l v :
  foldM (write_cov V zeroV f32 ix i d (snum sd) s) l v =
  foldM (do_write ix) (map (fun c => (i, d, sd, s, c)) l) v.
Proof. rewrite foldM_map. reflexivity. Qed.

Lemma get_nth {A} (l : list A) i d : i < length l -> get l i = Ok (nth i l d).
Proof. intros H. apply get_ok. apply nth_error_nth'; auto. Qed.

Lemma open_values_writes ds ix :
  idx_ok ds ix ->
  open_values V zeroV f32 ds ix =
  foldM (do_write ix) (writes ds ix) (repeat zeroV (list_sum (N_var ix))).
Proof.
  intros H. unfold open_values. rewrite (io_idx _ _ H), cumul_last. cbn [bind plus].
  unfold writes. rewrite <- foldM_flat_map. apply foldM_ext_in.
  intros v [i d] Hi. apply in_enumerate in Hi. cbn [fst snd].
  destruct (io_Im_sd _ _ _ _ H Hi) as (p & Ep & Hp).
  unfold get at 1. rewrite Ep. cbn [bind]. rewrite (nth_nth_error _ _ (0, 0) _ Ep).
  rewrite <- foldM_flat_map.
  assert (Hlen : forall sd, sidx p sd < length (sensor_ms ix)).
  { intros sd. rewrite (io_mslen _ _ H). apply nth_error_Some. rewrite Hp. discriminate. }
  cbn [enumerate length seq combine foldM].
  rewrite (get_nth _ (fst p) 0) by (apply (Hlen Side1)). cbn [bind].
  change 0 with (snum Side1) at 1. rewrite foldM_write_map. cbn [sidx].
  destruct (foldM (do_write ix) _ v) as [v'|]; [|reflexivity].
  rewrite (get_nth _ (snd p) 0) by (apply (Hlen Side2)). cbn [bind].
  change 1 with (snum Side2). rewrite foldM_write_map. reflexivity.
Qed.

Lemma in_writes ds ix i d sd s c :
  idx_ok ds ix ->
  In (i, d, sd, s, c) (writes ds ix) <->
  nth_error ds i = Some d /\ (exists p, nth_error (Im ix) i = Some p /\ s = sidx p sd) /\
  c < nth s (sensor_ms ix) 0.
Proof.
  intros H. unfold writes. rewrite in_flat_map. split.
  - intros ([i' d'] & Hi & Hw). apply in_enumerate in Hi. cbn [fst snd] in Hw.
    destruct (io_Im_sd _ _ _ _ H Hi) as (p & Ep & Hp). rewrite (nth_nth_error _ _ (0, 0) _ Ep) in Hw.
    apply in_flat_map in Hw as (sd' & _ & Hw). apply in_map_iff in Hw as (c' & E & Hc).
    injection E as -> -> -> <- ->. apply in_seq in Hc. repeat split; eauto. lia.
  - intros (Hi & (p & Ep & ->) & Hc). exists (i, d). split; [apply in_enumerate; auto|].
    cbn [fst snd]. rewrite (nth_nth_error _ _ (0, 0) _ Ep). apply in_flat_map. exists sd.
    split; [destruct sd; cbn; auto|]. apply in_map_iff. exists c. split; auto. apply in_seq; lia.
Qed.

Definition wtrip (w : write) : nat * nat * nat := let '(i, d, sd, s, c) := w in (s, i + 1, c + 1).
Definition wcol (w : write) : list V := let '(i, d, sd, s, c) := w in colv d sd c.

Lemma open_values_spec ds ix :
  idx_ok ds ix -> readable ds -> enough_covariates ds ->
  exists bs, open_values V zeroV f32 ds ix = Ok (concat bs) /\
    map (@length V) bs = N_var ix /\
    forall w b, In w (writes ds ix) -> nth_error (blocks (Im ix) (sensor_ms ix)) b = Some (wtrip w) ->
      nth_error bs b = Some (wcol w).
Proof.
  intros H Hgood Hen.
  assert (HIne : forall a b, In (a, b) (Im ix) -> a <> b).
  { eapply Im_ne; eauto. intros d Hd; apply Hgood; auto. }
  pose proof (NoDup_blocks (Im ix) (sensor_ms ix) HIne) as Hnd.
  rewrite open_values_writes by auto.
  set (L := blocks (Im ix) (sensor_ms ix)) in *.
  destruct (foldM_inv (do_write ix)
    (fun done v => exists bs, v = concat bs /\ map (@length V) bs = N_var ix /\
       forall w b, In w done -> nth_error L b = Some (wtrip w) -> nth_error bs b = Some (wcol w))
    (writes ds ix) (repeat zeroV (list_sum (N_var ix)))) as (v' & E & bs & -> & Hl & Hw).
  - exists (map (fun n => repeat zeroV n) (N_var ix)). rewrite repeat_concat.
    split; [reflexivity|]. split.
    + rewrite map_map. rewrite <- (map_id (N_var ix)) at 2. apply map_ext. intros; apply repeat_length.
    + intros w b [].
  - intros done w rest v Hsplit (bs & -> & Hl & Hdone).
    destruct w as [[[[i d] sd] s] c].
    assert (Hin : In (i, d, sd, s, c) (writes ds ix)).
    { rewrite Hsplit. apply in_or_app. right. left; reflexivity. }
    assert (Hw := Hin). apply in_writes in Hw as (Hi & (p & Ep & ->) & Hc); auto.
    destruct (io_Im_sd _ _ _ _ H Hi) as (p' & Ep' & Hp). rewrite Ep in Ep'. injection Ep' as <-.
    assert (Hd : In d ds) by (eapply nth_error_In; eauto).
    assert (Hms : nth (sidx p sd) (sensor_ms ix) 0 <= sm d sd).
    { apply (Hen d sd); auto. apply ms_first; auto. }
    (* block position *)
    assert (HinL : In (sidx p sd, i + 1, c + 1) L).
    { destruct p as [a b]. apply in_blocks. exists i, a, b. repeat split; auto; try lia.
      destruct sd; cbn; auto. }
    destruct (In_nth_error _ _ HinL) as (b & Hb).
    unfold do_write, write_cov. rewrite (idx_ok_block_idxs _ _ H). fold L.
    rewrite (index_NoDup eqb3 eqb3_spec _ _ _ Hnd Hb). cbn [bind].
    assert (Hbl : b < length L) by (apply nth_error_Some; congruence).
    assert (Hnvl : length (N_var ix) = length L) by (rewrite (io_nv _ _ H), map_length; reflexivity).
    rewrite (io_idx _ _ H).
    rewrite (proj2 (get_ok _ b _) (cumul_nth 0 (N_var ix) b ltac:(lia))). cbn [bind plus].
    rewrite (proj2 (get_ok _ (b + 1) _) (cumul_nth 0 (N_var ix) (b + 1) ltac:(lia))). cbn [bind plus].
    assert (Hcol : column V zeroV (fst (Xside V d (snum sd))) (snd (Xside V d (snum sd))) c
                   = Ok (map (fun r => nth c r zeroV) (sX d sd))).
    { unfold column. replace (fst (Xside V d (snum sd))) with (sm d sd) by (destruct sd; reflexivity).
      replace (snd (Xside V d (snum sd))) with (sX d sd) by (destruct sd; reflexivity).
      destruct (Nat.ltb_spec c (sm d sd)); [reflexivity|lia]. }
    rewrite Hcol. cbn [bind].
    assert (Hbsl : length bs = length L) by (rewrite <- Hnvl, <- Hl, map_length; reflexivity).
    destruct (nth_error bs b) as [old|] eqn:Eold; [|apply nth_error_None in Eold; lia].
    assert (HlenN : nth_error (N_var ix) b = Some (d_M V d)).
    { rewrite (io_nv _ _ H), nth_error_map'. fold L. rewrite Hb. cbn. f_equal.
      replace (i + 1 - 1) with i by lia. rewrite (io_Nm _ _ H). apply nth_nth_error.
      rewrite nth_error_map', Hi. reflexivity. }
    assert (Hold : length old = d_M V d).
    { assert (E : nth_error (map (@length V) bs) b = Some (length old)) by (rewrite nth_error_map', Eold; reflexivity).
      rewrite Hl, HlenN in E. injection E as E. auto. }
    assert (Hcl : length (map f32 (map (fun r => nth c r zeroV) (sX d sd))) = length old).
    { rewrite !map_length, Hold. destruct (Hgood d Hd) as ((W1 & _ & W2 & _) & _). destruct sd; auto. }
    rewrite <- Hl. replace (b + 1) with (S b) by lia.
    rewrite (assign_concat bs b old _ Eold Hcl).
    exists (concat (upd b (colv d sd c) bs)). split; [reflexivity|].
    exists (upd b (colv d sd c) bs). split; [reflexivity|]. split.
    + rewrite upd_map. unfold colv. rewrite Hcl.
      rewrite upd_same; [reflexivity|]. rewrite nth_error_map', Eold. reflexivity.
    + intros w' b' Hw' Hb'. apply in_app_iff in Hw'.
      destruct (Nat.eq_dec b b') as [<-|Hneb].
      * rewrite upd_nth_same by lia. f_equal.
        (* both writes hit the same triple, hence are the same column *)
        destruct w' as [[[[i' d'] sd'] s'] c'].
        assert (Hin' : In (i', d', sd', s', c') (writes ds ix)).
        { destruct Hw' as [Hw'|[<-|[]]]; [|exact Hin].
          rewrite Hsplit. apply in_or_app. left; exact Hw'. }
        rewrite Hb in Hb'. cbn in Hb'. injection Hb' as Es Ei Ec.
        assert (i' = i) by lia. assert (c' = c) by lia. subst i' c'.
        apply in_writes in Hin' as (Hi' & (p'' & Ep'' & ->) & _); auto.
        rewrite Hi in Hi'. injection Hi' as <-. rewrite Ep in Ep''. injection Ep'' as <-.
        assert (sd = sd').
        { destruct p as [x y]. pose proof (HIne x y (nth_error_In _ _ Ep)) as Hxy.
          destruct sd, sd'; cbn in Es; auto; congruence. }
        subst sd'. reflexivity.
      * rewrite upd_nth_other by auto.
        destruct Hw' as [Hw'|[<-|[]]]; [apply Hdone; auto|].
        exfalso. apply Hneb. cbn in Hb'.
        eapply (proj1 (NoDup_nth_error L)); eauto. congruence.
  - exists bs. split; [exact E|]. split; auto.
Qed.

(** ** getVariableData *)
Definition named (ix : idx_t) (t : nat * nat * nat) : string * nat * nat :=
  (nth (fst (fst t)) (sensors ix) EmptyString, snd (fst t), snd t).

Lemma find_key_some s mu c l k :
  find_key (s, Some mu, c) l k = index_from (fun a b : string * nat * nat =>
     String.eqb (fst (fst a)) (fst (fst b)) && (snd (fst a) =? snd (fst b)) && (snd a =? snd b)) (s, mu, c) l k.
Proof.
  revert k; induction l as [|[[a b] d] l IH]; intros k; cbn; [reflexivity|].
  destruct (String.eqb a s && (b =? mu) && (d =? c)); [reflexivity|apply IH].
Qed.
Lemma find_key_none s c l k : find_key (s, None, c) l k = Raise ValueError.
Proof.
  revert k; induction l as [|[[a b] d] l IH]; intros k; cbn; [reflexivity|].
  rewrite andb_false_r. cbn. apply IH.
Qed.
Lemma keyeq_spec (a b : string * nat * nat) :
  String.eqb (fst (fst a)) (fst (fst b)) && (snd (fst a) =? snd (fst b)) && (snd a =? snd b) = true
  <-> a = b.
Proof.
  destruct a as [[a1 a2] a3], b as [[b1 b2] b3]; cbn.
  rewrite !andb_true_iff, !Nat.eqb_eq, String.eqb_eq. split.
  - intros [[-> ->] ->]; reflexivity.
  - intros E; injection E as -> -> ->; auto.
Qed.

Lemma named_blocks ds ix :
  idx_ok ds ix ->
  combine (combine (map (fun s => nth s (sensors ix) EmptyString) (n_sensor ix)) (n_mu ix)) (n_cov ix)
  = map (named ix) (blocks (Im ix) (sensor_ms ix)).
Proof.
  intros H. rewrite (io_ns _ _ H), (io_nm _ _ H), (io_nc _ _ H).
  generalize (blocks (Im ix) (sensor_ms ix)). intros L.
  induction L as [|[[a b] c] L IH]; cbn; [reflexivity|]. rewrite <- IH. reflexivity.
Qed.

Lemma block_sensor_lt ds ix t :
  idx_ok ds ix -> In t (blocks (Im ix) (sensor_ms ix)) -> fst (fst t) < length (sensors ix).
Proof.
  intros H Ht. destruct t as [[s mu] c]. apply in_blocks in Ht as (i & a & b & Hi & -> & Hs & Hc).
  assert (Hl : i < length ds) by (rewrite <- (io_Imlen _ _ H); apply nth_error_Some; congruence).
  destruct (nth_error ds i) as [d|] eqn:Ed; [|apply nth_error_None in Ed; lia].
  destruct (io_Im _ _ H _ _ Ed) as (a' & b' & E & Ea & Eb).
  rewrite Hi in E; injection E as <- <-. cbn.
  apply nth_error_Some. destruct Hs as [->| ->]; congruence.
Qed.

Lemma NoDup_named ds ix :
  idx_ok ds ix -> (forall d, In d ds -> distinct_sensors d) ->
  NoDup (map (named ix) (blocks (Im ix) (sensor_ms ix))).
Proof.
  intros H Hd. apply NoDup_map_inj.
  - intros x y Hx Hy E. unfold named in E. injection E as E1 E2 E3.
    pose proof (block_sensor_lt _ _ _ H Hx). pose proof (block_sensor_lt _ _ _ H Hy).
    assert (fst (fst x) = fst (fst y)).
    { eapply (proj1 (NoDup_nth (sensors ix) EmptyString)); eauto. apply (io_nodup _ _ H). }
    destruct x as [[? ?] ?], y as [[? ?] ?]; cbn in *; congruence.
  - apply NoDup_blocks. eapply Im_ne; eauto.
Qed.

(** Which names have blocks: the columns the sensor's first file has. *)
Definition has_block (ds : list dataset) (s : string) (mu c : nat) : Prop :=
  exists d sd m, 1 <= mu /\ nth_error ds (mu - 1) = Some d /\ sname d sd = s /\
                 first_count ds s = Some m /\ 1 <= c <= m.

Lemma in_named ds ix s mu c :
  idx_ok ds ix ->
  In (s, mu, c) (map (named ix) (blocks (Im ix) (sensor_ms ix))) <-> has_block ds s mu c.
Proof.
  intros H. rewrite in_map_iff. split.
  - intros ([[n m] k] & E & Hb). unfold named in E. cbn in E. injection E as Es -> ->.
    apply in_blocks in Hb as (i & a & b & Hi & -> & Hn & Hc).
    assert (Hl : i < length ds) by (rewrite <- (io_Imlen _ _ H); apply nth_error_Some; congruence).
    destruct (nth_error ds i) as [d|] eqn:Ed; [|apply nth_error_None in Ed; lia].
    destruct (io_Im_sd _ _ _ _ H Ed) as (p & E & Hp). rewrite Hi in E; injection E as <-.
    assert (exists sd, n = sidx (a, b) sd) as (sd & ->)
      by (destruct Hn as [->| ->]; [exists Side1|exists Side2]; reflexivity).
    specialize (Hp sd). rewrite (nth_nth_error _ _ EmptyString _ Hp) in Es.
    pose proof (ms_first _ _ _ _ H Hp) as Hms. subst s.
    exists d, sd. eexists. replace (i + 1 - 1) with i by lia.
    split; [lia|]. split; [exact Ed|]. split; [reflexivity|]. split; [exact Hms|exact Hc].
  - intros (d & sd & m & Hmu & Hd & Hs & Hm & Hc).
    destruct (io_Im_sd _ _ _ _ H Hd) as ([a b] & E & Hp). specialize (Hp sd).
    pose proof (ms_first _ _ _ _ H Hp) as Hms. rewrite Hs, Hm in Hms. injection Hms as Hms.
    exists (sidx (a, b) sd, mu, c). split.
    + unfold named. cbn. rewrite (nth_nth_error _ _ EmptyString _ Hp), Hs. reflexivity.
    + apply in_blocks. exists (mu - 1), a, b. rewrite <- Hms.
      repeat split; auto; try lia. destruct sd; cbn; auto.
Qed.

Lemma getVariableData_spec ds ix bs mu :
  idx_ok ds ix -> readable ds -> mu_idx V T mu = ix -> mu_values V T mu = concat bs ->
  map (@length V) bs = N_var ix ->
  (forall w b, In w (writes ds ix) -> nth_error (blocks (Im ix) (sensor_ms ix)) b = Some (wtrip w) ->
      nth_error bs b = Some (wcol w)) ->
  (forall s n c d sd m, 1 <= n -> nth_error ds (n - 1) = Some d -> sname d sd = s ->
     first_count ds s = Some m -> 1 <= c <= m ->
     getVariableData V T mu c s (Some n) = Ok (colv d sd (c - 1))) /\
  (forall s n c, ~ has_block ds s n c ->
     getVariableData V T mu c s (Some n) = Raise ValueError).
Proof.
  intros H Hgood <- Hv Hl Hw. split.
  - intros s n c d sd m Hn Hd Hs Hm Hc.
    unfold getVariableData. rewrite (named_blocks _ _ H), find_key_some.
    set (ix := mu_idx V T mu) in *.
    destruct (io_Im_sd _ _ _ _ H Hd) as ([a b] & E & Hp). specialize (Hp sd).
    pose proof (ms_first _ _ _ _ H Hp) as Hms. rewrite Hs, Hm in Hms. injection Hms as Hms.
    set (t := (sidx (a, b) sd, n, c)).
    assert (Ht : In t (blocks (Im ix) (sensor_ms ix))).
    { apply in_blocks. exists (n - 1), a, b. rewrite <- Hms.
      repeat split; auto; try lia. destruct sd; cbn; auto. }
    destruct (In_nth_error _ _ Ht) as (k & Hk).
    assert (Hkn : nth_error (map (named ix) (blocks (Im ix) (sensor_ms ix))) k = Some (s, n, c)).
    { rewrite nth_error_map', Hk. cbn. unfold named, t. cbn.
      rewrite (nth_nth_error _ _ EmptyString _ Hp), Hs. reflexivity. }
    pose proof (index_NoDup _ keyeq_spec _ _ _
       (NoDup_named _ _ H (fun d Hd => proj2 (Hgood d Hd))) Hkn) as Hidx.
    unfold index in Hidx. rewrite Hidx. cbn [bind].
    assert (Hkl : k < length (N_var ix)).
    { rewrite (io_nv _ _ H), map_length. apply nth_error_Some; congruence. }
    rewrite (io_idx _ _ H).
    rewrite (proj2 (get_ok _ k _) (cumul_nth 0 (N_var ix) k ltac:(lia))). cbn [bind plus].
    rewrite (proj2 (get_ok _ (k + 1) _) (cumul_nth 0 (N_var ix) (k + 1) ltac:(lia))). cbn [bind plus].
    f_equal. rewrite Hv, <- Hl. replace (k + 1) with (S k) by lia. apply slice_concat.
    set (w := (n - 1, d, sd, sidx (a, b) sd, c - 1) : write).
    change (colv d sd (c - 1)) with (wcol w). apply Hw.
    + apply in_writes; auto. rewrite <- Hms. repeat split; eauto. lia.
    + rewrite Hk. unfold t, w, wtrip. f_equal. f_equal; [f_equal|]; lia.
  - intros s n c Hno. unfold getVariableData. rewrite (named_blocks _ _ H), find_key_some.
    assert (Hni : ~ In (s, n, c) (map (named (mu_idx V T mu)) (blocks (Im (mu_idx V T mu)) (sensor_ms (mu_idx V T mu))))).
    { rewrite (in_named ds) by auto. exact Hno. }
    pose proof (index_notin _ keyeq_spec _ _ Hni) as Hx. unfold index in Hx. rewrite Hx. reflexivity.
Qed.

(** ** fill_by_series *)
Lemma fill_by_series_spec {B} (f : dataset -> list B) (z : B) ds ix (g : dataset -> list B) :
  cNm ix = cumul 0 (map (d_M V) ds) ->
  (forall d, In d ds ->
     (length (f d) = d_M V d /\ g d = f d) \/ (exists x, f d = [x] /\ g d = repeat x (d_M V d))) ->
  fill_by_series V f z ds ix = Ok (concat (map g ds)).
Proof.
  intros Hc Hf. unfold fill_by_series. rewrite Hc, cumul_last. cbn [bind plus].
  assert (Hgl : map (@length B) (map g ds) = map (d_M V) ds).
  { rewrite map_map. apply map_ext_in. intros d Hd.
    destruct (Hf d Hd) as [(E1 & ->)|(x & _ & ->)]; [auto|apply repeat_length]. }
  rewrite repeat_concat.
  set (ns := map (d_M V) ds) in *.
  destruct (foldM_inv
    (fun arr (imd : nat * dataset) => let '(i, d) := imd in
       do s <- get (cumul 0 ns) i;; do e <- get (cumul 0 ns) (i + 1);; assign s e (f d) arr)
    (fun done v => exists bs, v = concat bs /\ map (@length B) bs = ns /\
        forall i d, In (i, d) done -> nth_error bs i = Some (g d))
    (enumerate ds) (concat (map (fun n => repeat z n) ns))) as (v' & E & bs & -> & Hl & Hb).
  - eexists; split; [reflexivity|]. split.
    + rewrite map_map. rewrite <- (map_id ns) at 2. apply map_ext. intros; apply repeat_length.
    + intros i d [].
  - intros done [i d] rest v Hs (bs & -> & Hl & Hdone).
    assert (Hi : nth_error ds i = Some d).
    { apply in_enumerate. rewrite Hs. apply in_or_app; right; left; reflexivity. }
    assert (Hil : i < length ds) by (apply nth_error_Some; congruence).
    assert (Hnl : length ns = length ds) by (unfold ns; rewrite map_length; auto).
    rewrite (proj2 (get_ok _ i _) (cumul_nth 0 ns i ltac:(lia))). cbn [bind plus].
    rewrite (proj2 (get_ok _ (i + 1) _) (cumul_nth 0 ns (i + 1) ltac:(lia))). cbn [bind plus].
    replace (i + 1) with (S i) by lia.
    assert (Hbl : length bs = length ds) by (rewrite <- Hnl, <- Hl, map_length; auto).
    destruct (nth_error bs i) as [old|] eqn:Eo; [|apply nth_error_None in Eo; lia].
    assert (Hol : length old = d_M V d).
    { assert (E : nth_error (map (@length B) bs) i = Some (length old)) by (rewrite nth_error_map', Eo; auto).
      rewrite Hl in E. unfold ns in E. rewrite nth_error_map', Hi in E. injection E as <-; auto. }
    exists (concat (upd i (g d) bs)). split.
    + destruct (Hf d (nth_error_In _ _ Hi)) as [(E1 & ->)|(x & -> & ->)]; rewrite <- Hl.
      * apply assign_concat with old; auto. lia.
      * rewrite <- Hol. apply assign_concat_scalar; auto.
    + exists (upd i (g d) bs). split; [reflexivity|]. split.
      * rewrite upd_map, upd_same; [auto|]. rewrite nth_error_map', Eo. cbn.
        f_equal. destruct (Hf d (nth_error_In _ _ Hi)) as [(E1 & ->)|(x & _ & ->)];
          [lia|rewrite repeat_length; lia].
      * intros i' d' Hin. apply in_app_iff in Hin as [Hin|[E|[]]].
        -- destruct (Nat.eq_dec i i') as [<-|Hne]; [|rewrite upd_nth_other by auto; auto].
           assert (nth_error ds i = Some d').
           { apply in_enumerate. rewrite Hs. apply in_or_app; left; auto. }
           rewrite upd_nth_same by lia. congruence.
        -- injection E as <- <-. apply upd_nth_same; lia.
  - match goal with |- foldM ?F _ _ = _ => replace (foldM F (enumerate ds) (concat (map (fun n => repeat z n) ns))) with (Ok (concat bs)) by (symmetry; exact E) end.
    f_equal. f_equal.
    assert (Hbl : length bs = length ds) by (rewrite <- (map_length (@length B)), Hl; unfold ns; apply map_length).
    apply nth_error_ext. intros i. rewrite nth_error_map'.
    destruct (nth_error ds i) as [d|] eqn:Ed; cbn.
    + apply Hb. apply in_enumerate; auto.
    + apply nth_error_None. apply nth_error_None in Ed. lia.
Qed.
End Proofs.
