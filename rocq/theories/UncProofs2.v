From Verif Require Import Base BaseLemmas ReaderModel ReaderSpec ReaderProofs ReaderMain UncModel UncSpec UncProofs.

Lemma nth_error_combine {A B} (a : list A) (b : list B) i :
  nth_error (combine a b) i =
  match nth_error a i, nth_error b i with Some x, Some y => Some (x, y) | _, _ => None end.
Proof.
  revert b i; induction a as [|x a IH]; intros [|y b] [|i]; cbn; auto.
  - destruct (nth_error a i); reflexivity.
Qed.

Section UncProofs2.
Context {V : Type} (zeroV : V) (ord : list nat -> list nat).
Hypothesis ord_in : forall l x, In x (ord l) <-> In x l.

Definition uwrite := (nat * ufile V * side * nat * (nat * (nat * nat * nat)))%type.
Definition uwrites (fs : list (ufile V)) (ix : idx_t) : list uwrite :=
  flat_map (fun imf : nat * ufile V =>
    let p := nth (fst imf) (Im ix) (0, 0) in
    flat_map (fun sd => map (fun c => (fst imf, snd imf, sd, sidx p sd, c))
                            (enumerate (unc_rows V (uf_u V (snd imf)) (snum sd)))) [Side1; Side2])
    (enumerate fs).
Definition do_uwrite ix wix uix (st : ust V) (w : uwrite) : res (ust V) :=
  let '(i, f, sd, s, c) := w in read_unc V zeroV ix wix uix i f (snum sd) s st c.

Definition utrip (w : uwrite) : nat * nat * nat := let '(i, f, sd, s, (c, _)) := w in (s, i + 1, c + 1).

Definition posn (key : nat * nat) (l : list (nat * nat)) : nat :=
  match index eqb2 key l with Ok p => p | Raise _ => 0 end.

Definition colof (o : option (list (list V))) (c : nat) : list V :=
  match o with Some r => map (fun row => nth c row zeroV) r | None => [] end.

Definition ukindof (wix uix : list (nat * nat)) (w : uwrite) : ukind V :=
  let '(i, f, sd, s, (c, (ty, wj, uj))) := w in
  match ty with
  | 1 => UK1 V (colof (sUr (uf_u V f) sd) c)
  | 2 => UK2 V (colof (sUr (uf_u V f) sd) c) (colof (sUs (uf_u V f) sd) c)
  | 3 => UK3 V (posn (i + 1, wj) wix) (posn (i + 1, uj) uix)
  | _ => UK4 V (posn (i + 1, wj) wix) (posn (i + 1, uj) uix) (nth 1 (colof (sUs (uf_u V f) sd) c) zeroV)
  end.

(** the matrices the write must leave behind *)
Definition matok (wix uix : list (nat * nat)) (st : ust V) (w : uwrite) : Prop :=
  let '(i, f, sd, s, (c, (ty, wj, uj))) := w in
  ty = 3 \/ ty = 4 ->
  exists mv W U, umat V (uf_u V f) = Some mv /\ open_w_matrix V mv wj = Ok W /\ open_u_matrix V mv uj = Ok U /\
    nth_error (st_w V st) (posn (i + 1, wj) wix) = Some (Some W) /\
    nth_error (st_u V st) (posn (i + 1, uj) uix) = Some (Some U) /\
    nth_error wix (posn (i + 1, wj) wix) = Some (i + 1, wj) /\
    nth_error uix (posn (i + 1, uj) uix) = Some (i + 1, uj).

Lemma unc_rows_nth (u : uncvars V) sd c x m :
  length (stypes u sd) = m ->
  (forall mv, umat V u = Some mv -> length (swuse mv sd) = m /\ length (suuse mv sd) = m) ->
  nth_error (unc_rows V u (snum sd)) c = Some x <->
  exists ty wj uj, x = (ty, wj, uj) /\ nth_error (stypes u sd) c = Some ty /\
    match umat V u with
    | Some mv => nth_error (swuse mv sd) c = Some wj /\ nth_error (suuse mv sd) c = Some uj
    | None => wj = 0 /\ uj = 0
    end.
Proof.
  intros Hl Hm. unfold unc_rows.
  assert (Et : ut V u (snum sd) = stypes u sd) by (destruct sd; reflexivity).
  destruct (umat V u) as [mv|] eqn:Eu.
  - assert (Ew : wuse V mv (snum sd) = swuse mv sd) by (destruct sd; reflexivity).
    assert (Euu : uuse V mv (snum sd) = suuse mv sd) by (destruct sd; reflexivity).
    rewrite Et, Ew, Euu. unfold zip3'. rewrite !nth_error_combine.
    destruct (nth_error (stypes u sd) c); [|split; [discriminate|intros (?&?&?&?&?&?); discriminate]].
    destruct (nth_error (swuse mv sd) c); [|split; [discriminate|intros (?&?&?&?&?&?&?); discriminate]].
    destruct (nth_error (suuse mv sd) c); [|split; [discriminate|intros (?&?&?&?&?&?&?); discriminate]].
    split.
    + intros E; injection E as <-. repeat eexists.
    + intros (? & ? & ? & -> & E1 & E2 & E3). congruence.
  - rewrite Et. unfold zip3'. rewrite !nth_error_combine.
    destruct (nth_error (stypes u sd) c) as [ty|] eqn:Ety; [|split; [discriminate|intros (?&?&?&?&?&?); discriminate]].
    assert (c < length (stypes u sd)) by (apply nth_error_Some; congruence).
    rewrite nth_error_repeat by lia. split.
    + intros E; injection E as <-. repeat eexists.
    + intros (? & ? & ? & -> & E1 & -> & ->). congruence.
Qed.

Lemma in_uwrites fs ix i f sd s c x :
  idx_ok (map (uf_d V) fs) ix ->
  In (i, f, sd, s, (c, x)) (uwrites fs ix) <->
  nth_error fs i = Some f /\ (exists p, nth_error (Im ix) i = Some p /\ s = sidx p sd) /\
  nth_error (unc_rows V (uf_u V f) (snum sd)) c = Some x.
Proof.
  intros H. unfold uwrites. rewrite in_flat_map. split.
  - intros ([i' f'] & Hi & Hw). apply in_enumerate in Hi. cbn [fst snd] in Hw.
    assert (Hd : nth_error (map (uf_d V) fs) i' = Some (uf_d V f')) by (rewrite nth_error_map', Hi; reflexivity).
    destruct (io_Im_sd _ _ _ _ H Hd) as (p & Ep & Hp). rewrite (nth_nth_error _ _ (0, 0) _ Ep) in Hw.
    apply in_flat_map in Hw as (sd' & _ & Hw). apply in_map_iff in Hw as ([c' x'] & E & Hc).
    injection E as -> -> -> <- -> ->. apply in_enumerate in Hc. repeat split; eauto.
  - intros (Hi & (p & Ep & ->) & Hc). exists (i, f). split; [apply in_enumerate; auto|].
    cbn [fst snd]. rewrite (nth_nth_error _ _ (0, 0) _ Ep). apply in_flat_map. exists sd.
    split; [destruct sd; cbn; auto|]. apply in_map_iff. exists (c, x). split; auto. apply in_enumerate; auto.
Qed.

Lemma open_unc_uwrites fs ix :
  idx_ok (map (uf_d V) fs) ix ->
  open_unc V zeroV ord fs ix =
  (let '(wix, uix) := open_matrix_idxs V ord fs in
   do st <- foldM (do_uwrite ix wix uix) (uwrites fs ix)
      (mkUst V (repeat None (length (N_var ix))) (repeat None (length wix)) (repeat None (length uix)));;
   do us <- number_sys V (combine (n_sensor ix) (n_cov ix)) (st_unc V st);;
   Ok (us, st_w V st, st_u V st)).
Proof.
  intros H. unfold open_unc. destruct (open_matrix_idxs V ord fs) as [wix uix].
  match goal with |- bind (foldM ?F _ ?s0) _ = _ => replace (foldM F (enumerate fs) s0)
     with (foldM (do_uwrite ix wix uix) (uwrites fs ix) s0); [reflexivity|] end.
  symmetry. unfold uwrites. rewrite <- foldM_flat_map. apply foldM_ext_in.
  intros v [i f] Hi. apply in_enumerate in Hi. cbn [fst snd].
  assert (Hd : nth_error (map (uf_d V) fs) i = Some (uf_d V f)) by (rewrite nth_error_map', Hi; reflexivity).
  destruct (io_Im_sd _ _ _ _ H Hd) as (p & Ep & Hp).
  unfold get at 1. rewrite Ep. cbn [bind]. rewrite (nth_nth_error _ _ (0, 0) _ Ep).
  rewrite <- foldM_flat_map.
  cbn [enumerate length seq combine foldM].
  rewrite !foldM_map. cbn [snum sidx do_uwrite].
  destruct (foldM _ _ v) as [v'|]; [|reflexivity].
  rewrite !foldM_map. reflexivity.
Qed.

Lemma in_matrix_idxs fs i f mv w sd :
  nth_error fs i = Some f -> umat V (uf_u V f) = Some mv -> w <> 0 ->
  (In w (swuse mv sd) -> In (i + 1, w) (fst (open_matrix_idxs V ord fs))) /\
  (In w (suuse mv sd) -> In (i + 1, w) (snd (open_matrix_idxs V ord fs))).
Proof.
  intros Hf Hm Hw. unfold open_matrix_idxs. cbn [fst snd].
  split; intros Hin; apply in_flat_map; exists (i, f); (split; [apply in_enumerate; auto|]); cbn [fst snd];
    rewrite Hm; apply in_map_iff; exists w; (split; [reflexivity|]); apply ord_in; apply nodup_In; apply filter_In;
    (split; [apply in_or_app; destruct sd; auto|apply negb_true_iff, Nat.eqb_neq; auto]).
Qed.

Lemma posn_spec key l : In key l -> index eqb2 key l = Ok (posn key l) /\ nth_error l (posn key l) = Some key.
Proof.
  intros H. unfold posn. destruct (index_in eqb2 eqb2_spec _ _ H) as (p & E). rewrite E. split; auto.
  apply (index_ok eqb2 eqb2_spec _ _ _ E).
Qed.

Lemma column_ok m rows c : c < m -> column V zeroV m rows c = Ok (map (fun row => nth c row zeroV) rows).
Proof. intros H. unfold column. destruct (Nat.ltb_spec c m); [reflexivity|lia]. Qed.

Lemma setitem_ok {A} b (v : A) l : b < length l -> setitem b v l = Ok (upd b v l).
Proof. intros H. unfold setitem. destruct (Nat.ltb_spec b (length l)); [reflexivity|lia]. Qed.

(** One write on a valid file. *)
Lemma uwrite_step fs ix st i f sd s c ty wj uj b :
  let wix := fst (open_matrix_idxs V ord fs) in
  let uix := snd (open_matrix_idxs V ord fs) in
  let w := (i, f, sd, s, (c, (ty, wj, uj))) : uwrite in
  idx_ok (map (uf_d V) fs) ix -> NoDup (blocks (Im ix) (sensor_ms ix)) ->
  valid_file f ->
  In w (uwrites fs ix) ->
  nth_error (blocks (Im ix) (sensor_ms ix)) b = Some (s, i + 1, c + 1) ->
  b < length (st_unc V st) -> length (st_w V st) = length wix -> length (st_u V st) = length uix ->
  exists ws us,
    do_uwrite ix wix uix st w = Ok (mkUst V (upd b (Some (mkUnc V (ukindof wix uix w) None)) (st_unc V st)) ws us) /\
    length ws = length wix /\ length us = length uix /\
    matok wix uix (mkUst V (st_unc V st) ws us) w /\
    (forall p k x, nth_error wix p = Some k -> nth_error (st_w V st) p = Some (Some x) ->
        (ty = 3 \/ ty = 4 -> k = (i + 1, wj) -> exists mv, umat V (uf_u V f) = Some mv /\ open_w_matrix V mv wj = Ok x) ->
        nth_error ws p = Some (Some x)) /\
    (forall p k x, nth_error uix p = Some k -> nth_error (st_u V st) p = Some (Some x) ->
        (ty = 3 \/ ty = 4 -> k = (i + 1, uj) -> exists mv, umat V (uf_u V f) = Some mv /\ open_u_matrix V mv uj = Ok x) ->
        nth_error us p = Some (Some x)).
Proof.
  intros wix uix w H Hnd Hval Hin Hb Hbl Hlw Hlu.
  unfold w in Hin. apply in_uwrites in Hin as (Hf & (p & Ep & Es) & Hrow); auto.
  destruct (Hval sd) as (V1 & V2 & V3).
  pose proof (proj1 (unc_rows_nth _ sd c _ _ V1 V2) Hrow) as (ty' & wj' & uj' & E & Hty & Htab).
  injection E as <- <- <-.
  assert (Hcm : c < sm (uf_d V f) sd).
  { assert (c < length (stypes (uf_u V f) sd)) by (apply nth_error_Some; congruence). lia. }
  specialize (V3 (c + 1) ty ltac:(lia)). replace (c + 1 - 1) with c in V3 by lia. specialize (V3 Hty).
  assert (HX : fst (Xside V (uf_d V f) (snum sd)) = sm (uf_d V f) sd) by (destruct sd; reflexivity).
  assert (HUr : ur V (uf_u V f) (snum sd) = sUr (uf_u V f) sd) by (destruct sd; reflexivity).
  assert (HUs : us V (uf_u V f) (snum sd) = sUs (uf_u V f) sd) by (destruct sd; reflexivity).
  unfold do_uwrite, w, read_unc. rewrite (idx_ok_block_idxs _ _ H).
  rewrite (index_NoDup eqb3 eqb3_spec _ _ _ Hnd Hb). cbn [bind].
  rewrite HX, HUr, HUs.
  assert (Mats : valid_decl f sd (c + 1) 3 ->
    exists mv W U, umat V (uf_u V f) = Some mv /\ open_w_matrix V mv wj = Ok W /\ open_u_matrix V mv uj = Ok U /\
      In (i + 1, wj) wix /\ In (i + 1, uj) uix).
  { intros (mv & w' & u' & W & U & Hmv & Hw1 & Hw2 & Hw3 & Hu1 & Hu2 & Hu3).
    replace (c + 1 - 1) with c in * by lia.
    rewrite Hmv in Htab. destruct Htab as (T1 & T2). rewrite T1 in Hw1. injection Hw1 as <-.
    rewrite T2 in Hu1. injection Hu1 as <-. exists mv, W, U. repeat split; auto.
    - apply (in_matrix_idxs fs i f mv wj sd); auto. eapply nth_error_In; eauto.
    - apply (in_matrix_idxs fs i f mv uj sd); auto. eapply nth_error_In; eauto. }
  destruct ty as [|[|[|[|[|ty]]]]]; try (cbn in V3; contradiction).
  - (* 1 *)
    destruct V3 as (r & Er & _). rewrite Er. cbn [var bind].
    rewrite column_ok by auto. cbn [bind]. rewrite setitem_ok by auto. cbn [bind].
    exists (st_w V st), (st_u V st). cbn. rewrite Er. cbn. repeat split; auto.
    intros [?|?]; discriminate.
  - (* 2 *)
    destruct V3 as ((r & Er & _) & (u & Eu & _)). rewrite Er, Eu. cbn [var bind].
    rewrite !column_ok by auto. cbn [bind]. rewrite setitem_ok by auto. cbn [bind].
    exists (st_w V st), (st_u V st). cbn. rewrite Er, Eu. cbn. repeat split; auto.
    intros [?|?]; discriminate.
  - (* 3 *)
    destruct (Mats V3) as (mv & W & U & Hmv & HW & HU & Iw & Iu).
    destruct (posn_spec _ _ Iw) as (Pw1 & Pw2). destruct (posn_spec _ _ Iu) as (Pu1 & Pu2).
    rewrite Pw1, Pu1, Hmv. cbn [bind var]. rewrite HW, HU. cbn [bind].
    assert (posn (i + 1, wj) wix < length (st_w V st)) by (rewrite Hlw; apply nth_error_Some; congruence).
    assert (posn (i + 1, uj) uix < length (st_u V st)) by (rewrite Hlu; apply nth_error_Some; congruence).
    rewrite !setitem_ok by auto. cbn [bind]. rewrite setitem_ok by auto. cbn [bind].
    eexists _, _. split; [reflexivity|]. rewrite !upd_length. repeat split; auto.
    + intros _. exists mv, W, U. cbn [st_w st_u]. repeat split; auto; apply upd_nth_same; auto.
    + intros q k x Hk Hx Hagree. destruct (Nat.eq_dec (posn (i + 1, wj) wix) q) as [<-|Hne].
      * rewrite upd_nth_same by auto. rewrite Pw2 in Hk. injection Hk as <-.
        destruct (Hagree (or_introl eq_refl) eq_refl) as (mv' & Hmv' & HW'). congruence.
      * rewrite upd_nth_other by auto. auto.
    + intros q k x Hk Hx Hagree. destruct (Nat.eq_dec (posn (i + 1, uj) uix) q) as [<-|Hne].
      * rewrite upd_nth_same by auto. rewrite Pu2 in Hk. injection Hk as <-.
        destruct (Hagree (or_introl eq_refl) eq_refl) as (mv' & Hmv' & HU'). congruence.
      * rewrite upd_nth_other by auto. auto.
  - (* 4 *)
    destruct V3 as (V3 & (sU & Es' & (Sh1 & Sh2)) & HM).
    destruct (Mats V3) as (mv & W & U & Hmv & HW & HU & Iw & Iu).
    destruct (posn_spec _ _ Iw) as (Pw1 & Pw2). destruct (posn_spec _ _ Iu) as (Pu1 & Pu2).
    rewrite Pw1, Pu1, Hmv. cbn [bind var]. rewrite HW, HU. cbn [bind].
    assert (posn (i + 1, wj) wix < length (st_w V st)) by (rewrite Hlw; apply nth_error_Some; congruence).
    assert (posn (i + 1, uj) uix < length (st_u V st)) by (rewrite Hlu; apply nth_error_Some; congruence).
    rewrite !setitem_ok by auto. cbn [bind]. rewrite Es'. cbn [var bind].
    rewrite column_ok by auto. cbn [bind].
    rewrite (get_nth _ 1 zeroV) by (rewrite map_length; lia). cbn [bind].
    rewrite setitem_ok by auto. cbn [bind].
    eexists _, _. split; [cbn [ukindof]; rewrite Es'; reflexivity|]. rewrite !upd_length. repeat split; auto.
    + intros _. exists mv, W, U. cbn [st_w st_u]. repeat split; auto; apply upd_nth_same; auto.
    + intros q k x Hk Hx Hagree. destruct (Nat.eq_dec (posn (i + 1, wj) wix) q) as [<-|Hne].
      * rewrite upd_nth_same by auto. rewrite Pw2 in Hk. injection Hk as <-.
        destruct (Hagree (or_intror eq_refl) eq_refl) as (mv' & Hmv' & HW'). congruence.
      * rewrite upd_nth_other by auto. auto.
    + intros q k x Hk Hx Hagree. destruct (Nat.eq_dec (posn (i + 1, uj) uix) q) as [<-|Hne].
      * rewrite upd_nth_same by auto. rewrite Pu2 in Hk. injection Hk as <-.
        destruct (Hagree (or_intror eq_refl) eq_refl) as (mv' & Hmv' & HU'). congruence.
      * rewrite upd_nth_other by auto. auto.
Qed.

Lemma column_is_column rows m c : (forall r, In r rows -> length r = m) -> 1 <= c <= m ->
  is_column rows c (map (fun row => nth (c - 1) row zeroV) rows).
Proof.
  intros Hr Hc. split; [apply map_length|]. intros r row Hrow. rewrite nth_error_map', Hrow. cbn.
  symmetry. apply nth_error_nth'. rewrite (Hr row) by (eapply nth_error_In; eauto). lia.
Qed.

(** ** C06 *)
Theorem unc_attached_all fs ix :
  good_files (map (uf_d V) fs) -> (forall f, In f fs -> valid_file f) ->
  get_idx V (map (uf_d V) fs) = Ok ix ->
  exists uncs ws us, open_unc V zeroV ord fs ix = Ok (uncs, ws, us) /\
    length uncs = length (n_sensor ix) /\
    (length ws = length (fst (open_matrix_idxs V ord fs)) /\ length us = length (snd (open_matrix_idxs V ord fs)) /\
     forall w, In w (uwrites fs ix) -> matok (fst (open_matrix_idxs V ord fs)) (snd (open_matrix_idxs V ord fs)) (mkUst V [] ws us) w) /\
    forall b s n c, nth_error (get_block_idxs ix) b = Some (s, n, c) ->
      exists name f sd ty u,
        nth_error (sensors ix) s = Some name /\ 1 <= n /\ nth_error fs (n - 1) = Some f /\
        sname (uf_d V f) sd = name /\ 1 <= c <= sm (uf_d V f) sd /\
        nth_error (stypes (uf_u V f) sd) (c - 1) = Some ty /\
        nth_error uncs b = Some (Some u) /\ as_declared f sd c ty (u_kind V u) ws us.
Proof.
  intros Hgood Hval Hix.
  destruct (readable_good _ Hgood) as (Hne & Hr & Hen).
  destruct (get_idx_ok _ Hne) as (ix' & E' & H). rewrite Hix in E'. injection E' as <-.
  rewrite open_unc_uwrites by auto.
  destruct (open_matrix_idxs V ord fs) as [wix uix] eqn:Emi.
  assert (Hwix : wix = fst (open_matrix_idxs V ord fs)) by (rewrite Emi; reflexivity).
  assert (Huix : uix = snd (open_matrix_idxs V ord fs)) by (rewrite Emi; reflexivity).
  assert (HIne : forall a b, In (a, b) (Im ix) -> a <> b).
  { eapply Im_ne; eauto. intros d Hd; apply Hr; auto. }
  pose proof (NoDup_blocks (Im ix) (sensor_ms ix) HIne) as Hnd.
  set (L := blocks (Im ix) (sensor_ms ix)) in *.
  assert (HlN : length (N_var ix) = length L) by (rewrite (io_nv _ _ H), map_length; reflexivity).
  (* every write hits a block *)
  assert (Hblk : forall w, In w (uwrites fs ix) -> In (utrip w) L).
  { intros [[[[i f] sd] s] [c [[ty wj] uj]]] Hin. apply in_uwrites in Hin as (Hf & (p & Ep & ->) & Hrow); auto.
    destruct (Hval f (nth_error_In _ _ Hf) sd) as (V1 & V2 & _).
    apply (unc_rows_nth _ sd c _ _ V1 V2) in Hrow as (ty' & wj' & uj' & E & Hty & _). injection E as <- <- <-.
    assert (Hd : nth_error (map (uf_d V) fs) i = Some (uf_d V f)) by (rewrite nth_error_map', Hf; reflexivity).
    destruct (io_Im_sd _ _ _ _ H Hd) as (p' & Ep' & Hp). rewrite Ep in Ep'. injection Ep' as <-.
    destruct p as [a b]. cbn. apply in_blocks. exists i, a, b.
    assert (Hms : nth (sidx (a, b) sd) (sensor_ms ix) 0 = sm (uf_d V f) sd).
    { pose proof (ms_first _ _ _ _ H (Hp sd)) as E.
      rewrite (first_same _ _ _ _ sd Hgood Hd eq_refl) in E. injection E as E; auto. }
    assert (c < length (stypes (uf_u V f) sd)) by (apply nth_error_Some; congruence).
    repeat split; auto; try lia. destruct sd; cbn; auto. }
  destruct (foldM_inv (do_uwrite ix wix uix)
    (fun done st => length (st_unc V st) = length L /\ length (st_w V st) = length wix /\
        length (st_u V st) = length uix /\
        (forall w b, In w done -> nth_error L b = Some (utrip w) ->
            nth_error (st_unc V st) b = Some (Some (mkUnc V (ukindof wix uix w) None))) /\
        (forall w, In w done -> matok wix uix st w))
    (uwrites fs ix)
    (mkUst V (repeat None (length (N_var ix))) (repeat None (length wix)) (repeat None (length uix))))
    as (st & Est & L1 & L2 & L3 & Hu & Hm).
  - cbn. rewrite !repeat_length. repeat split; auto; intros w; [intros b|]; intros [].
  - intros done [[[[i f] sd] s] [c [[ty wj] uj]]] rest st Hsplit (L1 & L2 & L3 & Hu & Hm).
    set (w := (i, f, sd, s, (c, (ty, wj, uj))) : uwrite) in *.
    assert (Hin : In w (uwrites fs ix)).
    { rewrite Hsplit. apply in_or_app; right; left; reflexivity. }
    destruct (In_nth_error _ _ (Hblk w Hin)) as (b & Hb).
    assert (Hbl : b < length L) by (apply nth_error_Some; congruence).
    assert (Hwf := Hin). apply in_uwrites in Hwf as (Hf & (p & Ep & Es) & Hrow); auto.
    destruct (uwrite_step fs ix st i f sd s c ty wj uj b H Hnd (Hval f (nth_error_In _ _ Hf)) Hin Hb
                ltac:(lia) ltac:(rewrite <- Hwix; auto) ltac:(rewrite <- Huix; auto))
      as (ws & us & E1 & E2 & E3 & E4 & E5 & E6).
    rewrite <- Hwix, <- Huix in *. fold w in E1, E4.
    eexists. split; [exact E1|]. cbn [st_unc st_w st_u]. rewrite upd_length.
    split; [auto|]. split; [auto|]. split; [auto|]. split.
    + intros w' b' Hw' Hb'. apply in_app_iff in Hw'.
      destruct (Nat.eq_dec b b') as [<-|Hneb].
      * rewrite upd_nth_same by lia. f_equal. f_equal. f_equal.
        destruct Hw' as [Hw'|[<-|[]]]; [|reflexivity].
        assert (Hin' : In w' (uwrites fs ix)) by (rewrite Hsplit; apply in_or_app; auto).
        destruct w' as [[[[i' f'] sd'] s'] [c' x']].
        rewrite Hb in Hb'. cbn in Hb'. injection Hb' as E1' E2' E3'.
        assert (i' = i) by lia. assert (c' = c) by lia. subst i' c'.
        apply in_uwrites in Hin' as (Hf' & (p' & Ep' & Es') & Hrow'); auto.
        rewrite Hf in Hf'. injection Hf' as <-. rewrite Ep in Ep'. injection Ep' as <-.
        assert (sd' = sd).
        { destruct p as [x y]. pose proof (HIne x y (nth_error_In _ _ Ep)) as Hxy. subst s s'.
          destruct sd, sd'; cbn in *; auto; congruence. }
        subst sd'. rewrite Hrow in Hrow'. injection Hrow' as <-. unfold w. congruence.
      * rewrite upd_nth_other by auto.
        destruct Hw' as [Hw'|[<-|[]]]; [apply Hu; auto|].
        exfalso. apply Hneb. eapply (proj1 (NoDup_nth_error L)); eauto. congruence.
    + intros w' Hw'. apply in_app_iff in Hw'. destruct Hw' as [Hw'|[<-|[]]]; [|exact E4].
      assert (Hin' : In w' (uwrites fs ix)) by (rewrite Hsplit; apply in_or_app; auto).
      specialize (Hm w' Hw').
      destruct w' as [[[[i' f'] sd'] s'] [c' [[ty' wj'] uj']]].
      apply in_uwrites in Hin' as (Hf' & _ & _); auto.
      intros Hty. destruct (Hm Hty) as (mv & W & U & M1 & M2 & M3 & M4 & M5 & M6 & M7).
      exists mv, W, U. cbn [st_w st_u]. repeat split; auto.
      * eapply E5; eauto. intros _ Ek. injection Ek as Ei ->.
        assert (i' = i) by lia. subst i'. rewrite Hf in Hf'. injection Hf' as <-. eauto.
      * eapply E6; eauto. intros _ Ek. injection Ek as Ei ->.
        assert (i' = i) by lia. subst i'. rewrite Hf in Hf'. injection Hf' as <-. eauto.
  - rewrite Est. cbn [bind].
    (* every block is hit by a write *)
    assert (Hcov : forall b t, nth_error L b = Some t -> exists w, In w (uwrites fs ix) /\ utrip w = t).
    { intros b [[s n] c] Hb. pose proof (nth_error_In _ _ Hb) as Hi.
      apply in_blocks in Hi as (i & a & b' & HI & -> & Hs & Hc).
      assert (Hl : i < length fs).
      { rewrite <- (map_length (uf_d V)), <- (io_Imlen _ _ H). apply nth_error_Some; congruence. }
      destruct (nth_error fs i) as [f|] eqn:Ef; [|apply nth_error_None in Ef; lia].
      assert (Hd : nth_error (map (uf_d V) fs) i = Some (uf_d V f)) by (rewrite nth_error_map', Ef; reflexivity).
      destruct (io_Im_sd _ _ _ _ H Hd) as (p & Ep & Hp). rewrite HI in Ep. injection Ep as <-.
      assert (exists sd, s = sidx (a, b') sd) as (sd & ->)
        by (destruct Hs as [->| ->]; [exists Side1|exists Side2]; reflexivity).
      assert (Hms : nth (sidx (a, b') sd) (sensor_ms ix) 0 = sm (uf_d V f) sd).
      { pose proof (ms_first _ _ _ _ H (Hp sd)) as E.
        rewrite (first_same _ _ _ _ sd Hgood Hd eq_refl) in E. injection E as E; auto. }
      rewrite Hms in Hc.
      destruct (Hval f (nth_error_In _ _ Ef) sd) as (V1 & V2 & _).
      destruct (nth_error (stypes (uf_u V f) sd) (c - 1)) as [ty|] eqn:Ety;
        [|apply nth_error_None in Ety; lia].
      assert (exists wj uj, match umat V (uf_u V f) with
        | Some mv => nth_error (swuse mv sd) (c - 1) = Some wj /\ nth_error (suuse mv sd) (c - 1) = Some uj
        | None => wj = 0 /\ uj = 0 end) as (wj & uj & Hwu).
      { destruct (umat V (uf_u V f)) as [mv|] eqn:Em; [|exists 0, 0; auto].
        destruct (V2 mv eq_refl) as (W1 & W2).
        destruct (nth_error (swuse mv sd) (c - 1)) as [wj|] eqn:Ew; [|apply nth_error_None in Ew; lia].
        destruct (nth_error (suuse mv sd) (c - 1)) as [uj|] eqn:Eu; [|apply nth_error_None in Eu; lia].
        eauto. }
      exists (i, f, sd, sidx (a, b') sd, (c - 1, (ty, wj, uj))). split.
      - apply in_uwrites; auto. repeat split; eauto.
        apply (unc_rows_nth _ sd (c - 1) _ _ V1 V2). exists ty, wj, uj. auto.
      - cbn. f_equal. lia. }
    destruct (number_sys_spec (combine (n_sensor ix) (n_cov ix)) (st_unc V st)) as (sys & us' & En & Hl' & _ & Hn & _).
    { rewrite combine_length, (io_ns _ _ H), (io_nc _ _ H), !map_length. fold L. lia. }
    { intros b o Ho. assert (Hbl : b < length L) by (rewrite <- L1; apply nth_error_Some; congruence).
      destruct (nth_error L b) as [t|] eqn:Et; [|apply nth_error_None in Et; lia].
      destruct (Hcov b t Et) as (w & Hw & <-). rewrite (Hu w b Hw Et) in Ho. injection Ho as <-. eauto. }
    rewrite En. cbn [bind]. exists us', (st_w V st), (st_u V st). split; [reflexivity|].
    split; [rewrite Hl', L1, (io_ns _ _ H), map_length; reflexivity|].
    split. { cbn [fst snd]. split; [exact L2|]. split; [exact L3|].
      intros [[[[i f] sd] s] [c [[ty wj] uj]]] Hw. exact (Hm _ Hw). }
    intros b s n c Hb. rewrite (idx_ok_block_idxs _ _ H) in Hb. fold L in Hb.
    destruct (Hcov _ _ Hb) as (w & Hw & Et). pose proof (Hu w b Hw) as Hub. rewrite Et in Hub. specialize (Hub Hb).
    pose proof (Hm w Hw) as Hmw.
    destruct w as [[[[i f] sd] s'] [c' [[ty wj] uj]]]. cbn in Et. injection Et as -> <- <-.
    apply in_uwrites in Hw as (Hf & (p & Ep & ->) & Hrow); auto.
    assert (Hd : nth_error (map (uf_d V) fs) i = Some (uf_d V f)) by (rewrite nth_error_map', Hf; reflexivity).
    destruct (io_Im_sd _ _ _ _ H Hd) as (p' & Ep' & Hp). rewrite Ep in Ep'. injection Ep' as <-.
    destruct (Hval f (nth_error_In _ _ Hf) sd) as (V1 & V2 & V3).
    apply (unc_rows_nth _ sd c' _ _ V1 V2) in Hrow as (ty' & wj' & uj' & E & Hty & Htab). injection E as <- <- <-.
    assert (Hkey : nth_error (combine (n_sensor ix) (n_cov ix)) b = Some (sidx p sd, c' + 1)).
    { rewrite nth_error_combine, (io_ns _ _ H), (io_nc _ _ H), !nth_error_map'. fold L. rewrite Hb. reflexivity. }
    destruct (Hn b _ _ Hkey Hub) as (u' & Hu' & Hk' & _). cbn [u_kind] in Hk'.
    assert (Hc'l : c' < sm (uf_d V f) sd).
    { rewrite <- V1. apply nth_error_Some; congruence. }
    exists (sname (uf_d V f) sd), f, sd, ty, u'. replace (i + 1 - 1) with i by lia.
    replace (c' + 1 - 1) with c' by lia.
    split; [apply Hp|]. split; [lia|]. split; [auto|]. split; [auto|]. split; [lia|]. split; [auto|]. split; [auto|].
    rewrite Hk'. specialize (V3 (c' + 1) ty ltac:(lia)). replace (c' + 1 - 1) with c' in V3 by lia.
    specialize (V3 Hty).
    assert (Mats : ty = 3 \/ ty = 4 -> exists mv w uj0 W U, umat V (uf_u V f) = Some mv /\
        nth_error (swuse mv sd) (c' + 1 - 1) = Some w /\ open_w_matrix V mv w = Ok W /\
        nth_error (st_w V st) (posn (i + 1, wj) wix) = Some (Some W) /\
        nth_error (suuse mv sd) (c' + 1 - 1) = Some uj0 /\ open_u_matrix V mv uj0 = Ok U /\
        nth_error (st_u V st) (posn (i + 1, uj) uix) = Some (Some U)).
    { intros Ht. destruct (Hmw Ht) as (mv & W & U & M1 & M2 & M3 & M4 & M5 & _).
      rewrite M1 in Htab. destruct Htab as (T1 & T2). replace (c' + 1 - 1) with c' by lia.
      exists mv, wj, uj, W, U. repeat split; auto. }
    destruct ty as [|[|[|[|[|ty]]]]]; try (cbn in V3; contradiction); cbn [ukindof as_declared].
    + destruct V3 as (r & Er & Sh). split; [reflexivity|]. exists r. split; [auto|]. rewrite Er.
      pose proof (column_is_column r _ (c' + 1) (proj2 Sh) ltac:(lia)) as G.
      replace (c' + 1 - 1) with c' in G by lia. exact G.
    + destruct V3 as ((r & Er & Sh) & (q & Eq & Shq)). split; [reflexivity|]. rewrite Er, Eq. split.
      * exists r. split; [auto|]. pose proof (column_is_column r _ (c' + 1) (proj2 Sh) ltac:(lia)) as G.
        replace (c' + 1 - 1) with c' in G by lia. exact G.
      * exists q. split; [auto|]. pose proof (column_is_column q _ (c' + 1) (proj2 Shq) ltac:(lia)) as G.
        replace (c' + 1 - 1) with c' in G by lia. exact G.
    + split; [reflexivity|]. apply Mats; auto.
    + destruct V3 as (_ & (q & Eq & Shq) & HM). split; [reflexivity|]. split; [apply Mats; auto|].
      exists q, (map (fun row => nth c' row zeroV) q). split; [auto|].
      pose proof (column_is_column q _ (c' + 1) (proj2 Shq) ltac:(lia)) as G.
      replace (c' + 1 - 1) with c' in G by lia. split; [exact G|]. rewrite Eq. cbn [colof].
      apply nth_error_nth'. rewrite map_length, (proj1 Shq). lia.
Qed.

Corollary unc_attached fs ix :
  good_files (map (uf_d V) fs) -> (forall f, In f fs -> valid_file f) ->
  get_idx V (map (uf_d V) fs) = Ok ix ->
  exists uncs ws us, open_unc V zeroV ord fs ix = Ok (uncs, ws, us) /\
    length uncs = length (n_sensor ix) /\
    forall b s n c, nth_error (get_block_idxs ix) b = Some (s, n, c) ->
      exists name f sd ty u,
        nth_error (sensors ix) s = Some name /\ 1 <= n /\ nth_error fs (n - 1) = Some f /\
        sname (uf_d V f) sd = name /\ 1 <= c <= sm (uf_d V f) sd /\
        nth_error (stypes (uf_u V f) sd) (c - 1) = Some ty /\
        nth_error uncs b = Some (Some u) /\ as_declared f sd c ty (u_kind V u) ws us.
Proof.
  intros H1 H2 H3. destruct (unc_attached_all fs ix H1 H2 H3) as (uncs & ws & us & E & L & _ & H). exists uncs, ws, us. auto.
Qed.
End UncProofs2.
