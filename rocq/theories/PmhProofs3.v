From Coq Require Import Reals Lra.
From Verif Require Import Base BaseLemmas ReaderModel ReaderSpec UncModel UncSpec UncProofs UncProofs3 TransformModel EvalModel GNModel SimModel WModel WSpec WProofs WProofs2 WProofs3 WProofs4 HRModel PmhModel PmhSpec PmhProofs PmhProofs2.
Open Scope nat_scope.

Section Conv.
Variable pyfloat : text -> res R.
Variable pyint : text -> res Z.
Notation open_data_uncs := (open_data_uncs pyfloat pyint).
Notation open_data_pams := (open_data_pams pyfloat pyint).
Notation run_conversion := (run_conversion pyfloat pyint).

Lemma shaped_const r n m g : constant_rows r n m g -> exists l, r = Some l /\ shaped l n m.
Proof. intros (l & E & L & Hl). exists l. split; [auto|]. split; [auto|]. intros x Hx. apply In_nth_error in Hx. destruct Hx as (j & Hj). apply (Hl j x Hj). Qed.

Lemma conv_valid vals w pams uncs dir d at_ im ns at' uref vs k : open_data_pams pams = Ok (im, ns, at') -> open_data_uncs uncs = Ok (uref, vs, k) ->
  (forall r, In r vals -> length r = w) -> run_conversion vals pams uncs dir = Ok (d, at_) -> length im <= length ns ->
  forall names f, In names im -> find_file (file_name names) d = Some f -> valid_file (p_file f) /\ wf_dataset (uf_d R (p_file f)) /\
    exists a b rest, names = a :: b :: rest /\ d_s1 R (uf_d R (p_file f)) = string_of_list_ascii a /\ d_s2 R (uf_d R (p_file f)) = string_of_list_ascii b /\
      d_m1 R (uf_d R (p_file f)) = (if is_ref a then 1 else length vs) /\ d_m2 R (uf_d R (p_file f)) = length vs.
Proof.
  intros E1 E2 Hr HR Hlen names f Hin Hf. apply In_nth_error in Hin. destruct Hin as (i & Hi).
  destruct (conv_rows _ _ _ _ _ _ _ _ _ _ _ _ _ _ _ E1 E2 Hr HR) as (_ & ND & HC).
  assert (Hz : exists z, nth_error ns i = Some z). { destruct (nth_error ns i) eqn:E; [eauto|]. apply nth_error_None in E. assert (i < length im) by (apply nth_error_Some; congruence). lia. }
  destruct Hz as (n & Hz). destruct (HC i names n Hi Hz) as (a & b & rest & f' & G1 & G2 & G3 & G4). rewrite Hf in G3. injection G3 as <-.
  destruct (run_inv _ _ _ _ _ _ _ _ _ _ _ _ _ _ E1 E2 HR) as (_ & Hl & st & mv & F1 & F2 & F3).
  assert (Hc := combine_nth' _ _ _ _ _ Hi Hz).
  assert (Hlen' : 1 < length vals) by (destruct Hl as [Hl|]; [rewrite Hl in Hc; destruct i; discriminate|auto]).
  rewrite (rect_hd vals w Hr) in F1 by lia.
  destruct (write_all_inv vals w uref k vs Hr (uncs_typed _ _ _ _ _ _ E2) (combine im ns) (mkCstate 0 (KrF k) dir None) st eq_refl F1) as (_ & _ & W3 & _).
  destruct W3 as (m & M1 & M2 & _ & p & M3 & M4). { intros E. rewrite E in Hc. destruct i; discriminate. }
  rewrite M2 in F2. destruct (make_w_inv _ _ _ F2) as (v0 & V1 & V2 & _ & W & u & _ & O1 & O2 & O3 & _).
  destruct (append_all_inv _ _ _ _ _ F3) as (_ & _ & _ & A4). destruct (A4 names (nth_error_In _ _ Hi)) as (a' & rest' & f' & B1 & B2 & B3 & B4).
  assert (Ha : a' = a) by congruence. subst a'. rewrite Hf in B4. injection B4 as Ef.
  assert (Emv : umat R (uf_u R (p_file f)) = Some (mkMatvars R (if is_ref a then [0] else uses vs) (uses vs) (if is_ref a then [0] else uses vs) (uses vs) (w_nnz R mv) (w_row R mv) (w_col R mv) (w_val R mv) (u_row_count R mv) (u_val R mv)))
    by (rewrite Ef; reflexivity). clear Ef.
  pose proof (uncs_typed _ _ _ _ _ _ E2) as Hty.
  unfold holds_rows in G4. destruct G4 as (Hv & H1 & H2 & H3 & H4 & H5 & H6 & H7 & H8 & H9 & H10 & H11 & _ & _ & Hj & Hre & Hnr & U1 & U2 & U3).
  assert (Lu : length (uses vs) = length vs) by (unfold uses; apply map_length).
  assert (Hm1 : d_m1 R (uf_d R (p_file f)) = (if is_ref a then 1 else length vs)).
  { destruct (is_ref a) eqn:Er; [apply H5, is_ref_spec, Er|]. apply H6. intros E. apply is_ref_spec in E. congruence. }
  split; [|split].
  - assert (D3 : forall sd mv', umat R (uf_u R (p_file f)) = Some mv' -> forall c v, swuse mv' sd = uses vs -> suuse mv' sd = uses vs -> open_w_matrix R mv' 1 = Ok W -> open_u_matrix R mv' 1 = Ok u -> nth_error vs (c - 1) = Some v -> v_type v = 3 -> valid_decl (p_file f) sd c 3).
    { intros sd mv' P1 c v P2 P2' P3 P4 P5 P6. cbn [valid_decl]. exists mv', 1, 1, W, u. rewrite P2, P2'. pose proof (uses_at _ _ _ P5 P6). auto 10. }
    intros [|]; cbn [stypes swuse suuse sm].
    + destruct (is_ref a) eqn:Er.
      * apply is_ref_spec in Er. destruct (Hre Er) as (R1 & R2 & R3). rewrite R1, Hm1. split; [reflexivity|]. split; [rewrite Emv; intros ? [= <-]; auto|].
        intros [|[|cov]] ty Hc' Hty'; [lia| |destruct cov; discriminate]. cbn in Hty'. injection Hty' as <-. cbn [valid_decl sUr]. destruct (shaped_const _ _ _ _ R2) as (l & L1 & L2). exists l. split; [auto|]. rewrite H1. cbn [sm]. rewrite Hm1. auto.
      * assert (Hna : a <> tx "0") by (intros E; apply is_ref_spec in E; congruence). destruct (Hnr Hna) as (R1 & R2 & R3). rewrite R1, Hm1. split; [apply map_length|]. split; [rewrite Emv; intros ? [= <-]; auto|].
        intros cov ty Hc' Hty'. rewrite nth_error_map'' in Hty'. destruct (nth_error vs (cov - 1)) as [v|] eqn:Ev; [|discriminate]. cbn in Hty'. injection Hty' as <-.
        destruct (shaped_const _ _ _ _ R2) as (l & L1 & L2). destruct (shaped_const _ _ _ _ R3) as (l' & L1' & L2').
        destruct (Hty v (nth_error_In _ _ Ev)) as [Et|[Et|Et]]; rewrite Et.
        -- cbn [valid_decl sUr]. exists l. rewrite H1. cbn [sm]. rewrite Hm1. auto.
        -- cbn [valid_decl sUr sUs]. rewrite H1. cbn [sm]. rewrite Hm1. split; [exists l|exists l']; auto.
        -- eapply (D3 Side1 _ Emv cov v); cbn [swuse suuse]; auto.
    + rewrite U1, H4. split; [apply map_length|]. split; [rewrite Emv; intros ? [= <-]; auto|].
      intros cov ty Hc' Hty'. rewrite nth_error_map'' in Hty'. destruct (nth_error vs (cov - 1)) as [v|] eqn:Ev; [|discriminate]. cbn in Hty'. injection Hty' as <-.
      destruct (shaped_const _ _ _ _ U2) as (l & L1 & L2). destruct (shaped_const _ _ _ _ U3) as (l' & L1' & L2').
      destruct (Hty v (nth_error_In _ _ Ev)) as [Et|[Et|Et]]; rewrite Et.
      -- cbn [valid_decl sUr]. exists l. rewrite H1. cbn [sm]. rewrite H4. auto.
      -- cbn [valid_decl sUr sUs]. rewrite H1. cbn [sm]. rewrite H4. split; [exists l|exists l']; auto.
      -- eapply (D3 Side2 _ Emv cov v); cbn [swuse suuse]; auto.
  - unfold wf_dataset. rewrite H1. do 1 (split; [auto|]). split.
    { intros r Hin. apply In_nth_error in Hin. destruct Hin as (j & Hj'). assert (Hlt : j < Z.to_nat n) by (rewrite <- H7; apply nth_error_Some; congruence). destruct (Hj j Hlt) as (? & x1 & x2 & _ & X1 & X2 & _). congruence. }
    split; [auto|]. split.
    { intros r Hin. apply In_nth_error in Hin. destruct Hin as (j & Hj'). assert (Hlt : j < Z.to_nat n) by (rewrite <- H8; apply nth_error_Some; congruence). destruct (Hj j Hlt) as (? & x1 & x2 & _ & _ & _ & _ & X1 & X2 & _). congruence. }
    split; [auto|]. split; [auto|]. split; [auto|]. intros nm v Hin.
    rewrite Hv in Hin. destruct Hin.
  - exists a, b, rest. auto.
Qed.

Lemma conv_readable vals w pams uncs dir d at_ im ns at' uref vs k fs : open_data_pams pams = Ok (im, ns, at') -> open_data_uncs uncs = Ok (uref, vs, k) ->
  (forall r, In r vals -> length r = w) -> run_conversion vals pams uncs dir = Ok (d, at_) -> length im <= length ns -> im <> [] ->
  (forall a b rest, In (a :: b :: rest) im -> a <> b /\ (b = tx "0" -> length vs = 1)) ->
  Forall2 (fun names f => find_file (file_name names) d = Some f) im fs ->
  good_files (map (fun f => uf_d R (p_file f)) fs) /\ forall f, In f fs -> valid_file (p_file f).
Proof.
  intros E1 E2 Hr HR Hlen Hne Hd HF.
  assert (G : forall f, In f fs -> exists names, In names im /\ find_file (file_name names) d = Some f).
  { clear -HF. induction HF as [|x y l l' Hxy HF IH]; [intros _ []|]. intros f [<-|Hf]; [exists x; split; [left|]; auto|]. destruct (IH f Hf) as (nm & N1 & N2). exists nm. split; [right|]; auto. }
  assert (Inj : forall a b, string_of_list_ascii a = string_of_list_ascii b -> a = b) by (intros a b E; apply (f_equal list_ascii_of_string) in E; rewrite !list_ascii_of_string_of_list_ascii in E; auto).
  split.
  - split; [|split].
    + inversion HF; subst; [congruence|discriminate].
    + intros x y sd sd' Hx Hy. apply in_map_iff in Hx, Hy. destruct Hx as (f & <- & Hf), Hy as (f' & <- & Hf'). destruct (G f Hf) as (nm & N1 & N2), (G f' Hf') as (nm' & N1' & N2').
      destruct (conv_valid _ _ _ _ _ _ _ _ _ _ _ _ _ E1 E2 Hr HR Hlen _ _ N1 N2) as (_ & _ & a & b & rest & -> & S1 & S2 & M1 & M2).
      destruct (conv_valid _ _ _ _ _ _ _ _ _ _ _ _ _ E1 E2 Hr HR Hlen _ _ N1' N2') as (_ & _ & a' & b' & rest' & -> & S1' & S2' & M1' & M2').
      destruct (Hd _ _ _ N1) as (_ & Hb), (Hd _ _ _ N1') as (_ & Hb').
      destruct sd, sd'; cbn [sname sm]; rewrite ?S1, ?S2, ?S1', ?S2', ?M1, ?M2, ?M1', ?M2'; intros Es; try (apply Inj in Es; subst); auto.
      * destruct (is_ref b') eqn:Er; [|auto]. apply is_ref_spec in Er. symmetry. auto.
      * destruct (is_ref a') eqn:Er; [|auto]. apply is_ref_spec in Er. auto.
    + intros x Hx. apply in_map_iff in Hx. destruct Hx as (f & <- & Hf). destruct (G f Hf) as (nm & N1 & N2).
      destruct (conv_valid _ _ _ _ _ _ _ _ _ _ _ _ _ E1 E2 Hr HR Hlen _ _ N1 N2) as (_ & Hw & a & b & rest & -> & S1 & S2 & _). split; [auto|].
      unfold distinct_sensors. rewrite S1, S2. intros Es. apply Inj in Es. apply (Hd _ _ _ N1). auto.
  - intros f Hf. destruct (G f Hf) as (nm & N1 & N2). apply (conv_valid _ _ _ _ _ _ _ _ _ _ _ _ _ E1 E2 Hr HR Hlen _ _ N1 N2).
Qed.

(** ** Success *)
Lemma write_pair_ok H width uref vs st a b rest n : 2 * length vs <= width -> vs <> [] -> (exists krl, full_kr n (k_kr st) = Ok krl) -> 0 < n -> k_end st + n <= length H ->
  exists st', write_pair H width uref vs st (a :: b :: rest, Z.of_nat n) = Ok st'.
Proof.
  intros Hw Hvs (krl & Hkr) Hn HH. unfold write_pair. cbn [get nth_error bind]. destruct (Z.ltb_spec (Z.of_nat n) 0); [lia|]. rewrite Nat2Z.id.
  assert (Lv : 0 < length vs) by (destruct vs; [congruence|cbn; lia]).
  assert (Ls : length (slice (k_end st) (k_end st + n) H) = n) by (rewrite slice_len; lia). rewrite Hkr.
  assert (E1 : Nat.min (2 * length vs) width - length vs = length vs) by lia. assert (E2 : Nat.min (length vs) width = length vs) by lia. rewrite E1, E2, Ls.
  assert (N0 : (n =? 0) = false) by (apply Nat.eqb_neq; lia). assert (V0 : (length vs =? 0) = false) by (apply Nat.eqb_neq; lia).
  destruct (is_ref a); cbn [bind]; rewrite N0, V0, !Nat.eqb_refl; cbn [orb negb andb Nat.eqb]; eexists; reflexivity.
Qed.
Definition kr_fits (q : kr) (zs : list Z) : Prop := match q with KrF _ => True | KrA l => forall z, In z zs -> length l = 1 \/ z = Z.of_nat (length l) end.
Lemma fits_full q n zs : kr_fits q (Z.of_nat n :: zs) -> exists krl, full_kr n q = Ok krl.
Proof.
  destruct q as [x|l]; cbn; [eauto|]. intros Hf. destruct (Nat.eqb_spec (length l) n); [eauto|]. destruct (Hf _ (or_introl eq_refl)) as [E|E]; [|lia]. destruct l as [|x [|y l]]; cbn in E; try lia. eauto.
Qed.
Lemma full_fits q n krl : full_kr n q = Ok krl -> match q with KrF _ => True | KrA l => length l = 1 \/ length l = n end.
Proof. destruct q as [x|l]; cbn; [auto|]. destruct (Nat.eqb_spec (length l) n); [auto|]. destruct l as [|x [|y l]]; try discriminate. auto. Qed.
Lemma sizes_tail z zs : sizes_fit (z :: zs) -> sizes_fit zs.
Proof. intros Hs i j a b Hij Ha Hb. apply (Hs (S i) (S j)); auto. lia. Qed.
Lemma sizes_head z zs : sizes_fit (z :: zs) -> forall y, In y zs -> z = 1%Z \/ z = y.
Proof. intros Hs y Hy. apply In_nth_error in Hy. destruct Hy as (j & Hj). apply (Hs 0 (S j) z y); auto. lia. Qed.
Lemma write_all_ok H width uref vs l : (forall r, In r H -> length r = width) -> typed vs -> forall st k, kr_is k (k_kr st) -> kr_fits (k_kr st) (map snd l) -> 2 * length vs <= width -> vs <> [] ->
  k_end st + list_sum (map (fun p => Z.to_nat (snd p)) l) <= length H -> sizes_fit (map snd l) -> (forall p, In p l -> (0 < snd p)%Z /\ 2 <= length (fst p)) -> exists st', foldM (write_pair H width uref vs) l st = Ok st'.
Proof.
  intros Hr Ht. induction l as [|[names z] l IH]; intros st k Hk Hkr Hw Hvs HH Hsz Hl; cbn [foldM]; [eauto|].
  destruct (Hl (names, z) (or_introl eq_refl)) as (Hz & Hnm). cbn [fst snd] in Hz, Hnm. destruct names as [|a [|b rest]]; cbn in Hnm; try lia.
  remember (Z.to_nat z) as n eqn:En. assert (Ez : z = Z.of_nat n) by lia. cbn [map snd] in HH, Hkr, Hsz. unfold list_sum in HH. cbn [fold_right] in HH. rewrite <- En in HH. rewrite Ez in *.
  destruct (write_pair_ok H width uref vs st a b rest n) as (s & Es); auto; [eapply fits_full; eauto|lia|lia|]. rewrite Es. cbn [bind].
  destruct (write_pair_inv H width uref k vs Hr Ht _ _ _ _ Hk Es) as (a' & b' & rest' & f & m & _ & Em & _ & _ & _ & K1 & K2 & _ & _ & _ & _ & krl & K3 & K4).
  assert (Hmn : m = n) by lia. rewrite Hmn in K2, K4. apply (IH s k); auto.
  - rewrite K3. cbn. intros y Hy. rewrite K4. destruct (sizes_head _ _ Hsz y Hy); [left; lia|right; auto].
  - rewrite K2. unfold list_sum. lia.
  - apply (sizes_tail _ _ Hsz).
  - intros p Hp. apply Hl. right. auto.
Qed.
Lemma write_all_sizes H width uref vs l : (forall r, In r H -> length r = width) -> typed vs -> forall st st' k, kr_is k (k_kr st) -> foldM (write_pair H width uref vs) l st = Ok st' ->
  sizes_fit (map snd l) /\ kr_fits (k_kr st) (map snd l).
Proof.
  intros Hr Ht. induction l as [|[names z] l IH]; intros st st' k Hk; cbn [foldM map snd].
  - intros _. split; [intros [|i] j a b ? E; discriminate|]. destruct (k_kr st); cbn; auto. intros ? [].
  - destruct (write_pair H width uref vs st (names, z)) as [s|] eqn:Es; cbn [bind]; [|discriminate]. intros HF.
    destruct (write_pair_inv H width uref k vs Hr Ht _ _ _ _ Hk Es) as (a' & b' & rest' & f & m & En & Em & Em0 & _ & _ & K1 & K2 & _ & _ & _ & _ & krl & K3 & K4).
    destruct (IH s st' k K1 HF) as (I1 & I2). rewrite K3 in I2. cbn in I2. rewrite K4 in I2. split.
    + intros [|i] [|j] a b Hij; cbn [nth_error]; intros Ha Hb; try lia; [|apply (I1 i j); auto; lia]. injection Ha as <-. apply nth_error_In in Hb. destruct (I2 b Hb); [left; lia|right; lia].
    + assert (Hfk : exists kl, full_kr m (k_kr st) = Ok kl).
      { unfold write_pair in Es. subst names. cbn [get nth_error bind] in Es. destruct (z <? 0)%Z; [discriminate|]. rewrite Em, Nat2Z.id in Es. clear -Es.
        destruct (is_ref a'); destruct (full_kr m (k_kr st)) as [kl|] eqn:E; cbn [bind] in Es; try discriminate; eauto. }
      destruct Hfk as (kl & Hfk). pose proof (full_fits _ _ _ Hfk) as Hfit. destruct (k_kr st) as [x|l0]; cbn in *; [auto|]. intros y [<-|Hy]; [destruct Hfit; [left|right]; lia|].
      destruct Hfit as [Hfit|Hfit]; [left; auto|]. destruct (I2 y Hy) as [Q|Q]; [left; lia|right; lia].
Qed.
Lemma make_w_ok vs t : t <> [] -> (exists v, In v vs /\ v_type v = 3) -> (forall v, In v vs -> v_type v = 3 -> (0 < v_nW v)%Z) ->
  ((forall v v', In v vs -> In v' vs -> v_type v = 3 -> v_type v' = 3 -> v_nW v = v_nW v') \/ (forall v v', In v vs -> In v' vs -> v_type v = 3 -> v_type v' = 3 -> v_uR v = v_uR v')) ->
  exists mv, make_w vs (Some t) = Ok mv.
Proof.
  intros Ht (v & Hv & Hty) Hpos Heq. unfold make_w. set (ws := filter (fun v => v_type v =? 3) vs).
  assert (Hin : forall x, In x ws <-> In x vs /\ v_type x = 3) by (intros x; unfold ws; rewrite filter_In, Nat.eqb_eq; tauto).
  destruct ws as [|v0 ws'] eqn:Ew; [exfalso; apply (proj2 (Hin v)); auto|]. cbn [get nth_error bind].
  assert (Hv0 : In v0 vs /\ v_type v0 = 3) by (apply Hin; left; auto).
  assert (Hc : negb (all_equal Z.eq_dec (map v_nW (v0 :: ws'))) && negb (all_equal Req_EM_T (map v_uR (v0 :: ws'))) = false).
  { destruct Heq as [Heq|Heq]; [replace (all_equal Z.eq_dec (map v_nW (v0 :: ws'))) with true; [reflexivity|]|replace (all_equal Req_EM_T (map v_uR (v0 :: ws'))) with true; [apply andb_false_r|]];
    symmetry; cbn [map all_equal]; apply forallb_forall; intros x Hx; apply in_map_iff in Hx; destruct Hx as (v' & <- & Hv'); assert (Hv'' := proj1 (Hin v') (or_intror Hv')); rewrite (Heq v0 v') by tauto.
    - destruct (Z.eq_dec (v_nW v') (v_nW v')); congruence.
    - destruct (Req_EM_T (v_uR v') (v_uR v')); congruence. }
  rewrite Hc. assert (Hp : (0 < v_nW v0)%Z) by (apply Hpos; tauto). destruct (Z.ltb_spec (v_nW v0) 0); [lia|].
  destruct (gen_exists (map INR t) 1 (KF (v_uR v0)) None (Some (Z.to_nat (v_nW v0))) (eqw (Z.to_nat (v_nW v0)))) as (W & u & EG); [destruct t; [congruence|discriminate]|lra|reflexivity| |exact Logic.I|].
  { unfold eqw. destruct (Z.to_nat (v_nW v0)) eqn:E; [lia|discriminate]. }
  rewrite EG. cbn [bind].
  assert (Hd : (1 / 100 < 1)%R) by lra.
  destruct (gen_rolling (map INR t) 1 (KF (v_uR v0)) None (Some (Z.to_nat (v_nW v0))) (eqw (Z.to_nat (v_nW v0))) W u Hd eq_refl EG) as (line & cols & HL & HR & Hu & Hx). rewrite map_length in HR.
  assert (HR' : rolling (eqw (Z.to_nat (v_nW v0))) line (length (map INR t)) cols W) by (rewrite map_length; exact HR).
  destruct (gen_format _ _ _ _ _ (eqw (Z.to_nat (v_nW v0))) W u line cols EG HR') as (Fa & Fb).
  assert (Hlc : last_column_used W).
  { apply Fb. intros ->. destruct HR as (_ & _ & _ & HC & _). apply (proj2 (HC (line 0%nat))). exists 0. split; [destruct t; [congruence|cbn; lia]|].
    unfold weight. rewrite Z.sub_diag. cbn [Z.leb Z.compare Z.to_nat]. unfold eqw. assert (Hk' : 0 < Z.to_nat (v_nW v0)) by lia. rewrite (nth_error_nth _ _ 0%R (nth_repeat' _ _ 0 Hk')).
    unfold Rdiv. rewrite Rmult_1_l. apply Rinv_neq_0_compat. apply not_0_INR. lia. }
  destruct (codec_roundtrip 0%R [W] [u] [] [] [] [] (length t)) as (mv & M1 & _); [congruence| |eauto].
  intros w [<-|[]]. split; [auto|]. split; [apply HR|auto].
Qed.
Lemma append_all_ok vs mv l : forall d, NoDup (map file_name l) ->
  (forall names, In names l -> exists a b rest f, names = a :: b :: rest /\ find_file (file_name names) d = Some f /\ umat R (uf_u R (p_file f)) = None /\
     d_m1 R (uf_d R (p_file f)) = (if is_ref a then 1 else length vs) /\ d_m2 R (uf_d R (p_file f)) = length vs) ->
  exists d', foldM (append_w vs mv) l d = Ok d'.
Proof.
  induction l as [|names l IH]; intros d ND Hl; cbn [foldM]; [eauto|]. destruct (Hl names (or_introl eq_refl)) as (a & b & rest & f & -> & F1 & F2 & F3 & F4).
  cbn [map] in ND. inversion ND as [|x y ND1 ND2]; subst.
  assert (Lu : length (uses vs) = length vs) by (unfold uses; apply map_length).
  assert (Ec : (length (if is_ref a then [0] else uses vs) =? (if is_ref a then 1 else length vs)) && (length vs =? length vs) = true).
  { rewrite Nat.eqb_refl, andb_true_r. destruct (is_ref a); [reflexivity|rewrite Lu; apply Nat.eqb_refl]. }
  assert (Ea : exists g, append_w vs mv d (a :: b :: rest) = Ok (put_file (file_name (a :: b :: rest)) g d)).
  { unfold append_w. cbn [get nth_error bind]. rewrite F1, F2, F3, F4, Ec. eexists. reflexivity. }
  destruct Ea as (g & Ea). rewrite Ea. cbn [bind]. apply IH; [auto|]. intros nm Hnm. destruct (Hl nm (or_intror Hnm)) as (a' & b' & rest' & f' & E & G1 & G2). exists a', b', rest', f'. split; [auto|]. split; [|auto].
  rewrite find_put_other; [auto|]. intros Eq. apply ND1. rewrite <- Eq. apply in_map, Hnm.
Qed.

Lemma conv_succeeds vals w pams uncs dir im ns at' uref vs k : open_data_pams pams = Ok (im, ns, at') -> open_data_uncs uncs = Ok (uref, vs, k) ->
  (forall r, In r vals -> length r = w) -> 2 * length vs < w -> 1 < length vals ->
  im <> [] -> length im = length ns -> (forall z, In z ns -> (0 < z)%Z) -> rows_before ns (length ns) <= length vals ->
  (forall names, In names im -> 2 <= length names) -> NoDup (map file_name im) ->
  (forall v, In v vs -> v_type v = 3 -> (0 < v_nW v)%Z) -> one_kernel vs ->
  ((exists d, run_conversion vals pams uncs dir = Ok (d, at')) <-> ((exists v, In v vs /\ v_type v = 3) /\ sizes_fit ns)).
Proof.
  intros E1 E2 Hr Hw H1 Hne Hlen Hn HT Hnm ND Hpos Heq.
  assert (Lc : length (combine im ns) = length im) by (rewrite combine_length; lia).
  assert (Esnd : map snd (combine im ns) = ns). { clear -Hlen. revert ns Hlen. induction im as [|x im IH]; intros [|n ns] Hl; cbn in *; try discriminate; [reflexivity|]. rewrite IH by lia. reflexivity. }
  pose proof (uncs_typed _ _ _ _ _ _ E2) as Ht. split.
  - intros (d & HR). destruct (run_inv _ _ _ _ _ _ _ _ _ _ _ _ _ _ E1 E2 HR) as (_ & _ & st & mv & F1 & F2 & F3). rewrite (rect_hd vals w Hr) in F1 by lia. split.
    + unfold make_w in F2. destruct (get (filter (fun v => v_type v =? 3) vs) 0) as [v0|] eqn:E0; cbn [bind] in F2; [|discriminate]. exists v0.
      assert (Hin : In v0 (filter (fun v => v_type v =? 3) vs)) by (unfold get in E0; destruct (filter (fun v => v_type v =? 3) vs); [discriminate|cbn in E0; injection E0 as ->; left; auto]).
      apply filter_In in Hin. rewrite Nat.eqb_eq in Hin. exact Hin.
    + rewrite <- Esnd. exact (proj1 (write_all_sizes vals w uref vs _ Hr Ht (mkCstate 0 (KrF k) dir None) st k eq_refl F1)).
  - intros ((v & Hv & Hty) & Hsz). unfold PmhModel.run_conversion. rewrite E1, E2. cbn [bind].
    rewrite (rect_hd vals w Hr) by lia. assert (Hvs : vs <> []) by (intros ->; destruct Hv). assert (Lv : 0 < length vs) by (destruct vs; [congruence|cbn; lia]).
    destruct (Nat.leb_spec (length vals) 1); [lia|]. destruct (Nat.leb_spec w 1); [lia|]. cbn [orb]. rewrite andb_false_r.
    destruct (write_all_ok vals w uref vs (combine im ns) Hr Ht (mkCstate 0 (KrF k) dir None) k eq_refl) as (st & Est); auto; [exact Logic.I|lia| | | |].
    { cbn [k_end Nat.add]. rewrite <- map_map, Esnd. unfold rows_before in HT. rewrite firstn_all in HT. exact HT. }
    { rewrite Esnd. exact Hsz. }
    { intros [nm z] Hp. cbn [fst snd]. split; [apply Hn; eapply in_combine_r; eauto|apply Hnm; eapply in_combine_l; eauto]. }
    rewrite Est. cbn [bind].
    destruct (write_all_inv vals w uref k vs Hr Ht (combine im ns) (mkCstate 0 (KrF k) dir None) st eq_refl Est) as (_ & _ & W3 & W4).
    destruct W3 as (m & M1 & M2 & _ & p & M3 & M4). { intros E. rewrite E in Lc. cbn in Lc. destruct im; [congruence|discriminate]. }
    rewrite M2. destruct (make_w_ok vs (seq (k_end st - m) m)) as (mv & Emv); [destruct m; [lia|discriminate]|eauto|auto|exact Heq|]. rewrite Emv. cbn [bind].
    destruct (append_all_ok vs mv im (k_dir st) ND) as (d & Ed); [|rewrite Ed; cbn [bind]; eauto].
    intros names Hin. apply In_nth_error in Hin. destruct Hin as (i & Hi). assert (Hz : exists z, nth_error ns i = Some z). { destruct (nth_error ns i) eqn:E; [eauto|]. apply nth_error_None in E. assert (i < length im) by (apply nth_error_Some; congruence). lia. }
    destruct Hz as (z & Hz). destruct (W4 i names z (combine_nth' _ _ _ _ _ Hi Hz) (later_names im ns i names ND Hi)) as (a & b & rest & f & G1 & G2 & G3 & G4 & G5).
    exists a, b, rest, f. split; [auto|]. split; [auto|]. split; [auto|]. unfold holds_rows in G4. destruct G4 as (_ & _ & _ & _ & X1 & X2 & X3 & _). split; [|auto].
    destruct (is_ref a) eqn:Er; [apply X2, is_ref_spec, Er|]. apply X3. intros E. apply is_ref_spec in E. congruence.
Qed.

(** ** What is lost *)
(** Every file gets the W matrix of the last pair, with the uncertainty of the first averaged variable. *)
Lemma conv_w vals w pams uncs dir d at_ im ns at' uref vs k : open_data_pams pams = Ok (im, ns, at') -> open_data_uncs uncs = Ok (uref, vs, k) ->
  (forall r, In r vals -> length r = w) -> run_conversion vals pams uncs dir = Ok (d, at_) -> length im = length ns ->
  forall names f, In names im -> find_file (file_name names) d = Some f -> exists mv W u v0 n, umat R (uf_u R (p_file f)) = Some mv /\ wuse2 R mv = uses vs /\ uuse2 R mv = uses vs /\
    open_w_matrix R mv 1 = Ok W /\ open_u_matrix R mv 1 = Ok u /\ nth_error (filter (fun v => v_type v =? 3) vs) 0 = Some v0 /\ u <> [] /\ (forall x, In x u -> x = v_uR v0) /\
    nth_error ns (length ns - 1) = Some n /\ c_nrows R W = Z.to_nat n.
Proof.
  intros E1 E2 Hr HR Hlen names f Hin Hf. destruct (run_inv _ _ _ _ _ _ _ _ _ _ _ _ _ _ E1 E2 HR) as (_ & Hl & st & mv & F1 & F2 & F3).
  assert (Lc : length (combine im ns) = length ns) by (rewrite combine_length; lia).
  assert (Hne : combine im ns <> []). { intros E. rewrite E in Lc. cbn in Lc. destruct im; [destruct Hin|cbn in Hlen; lia]. }
  assert (Hlen' : 1 < length vals) by (destruct Hl; [contradiction|auto]). rewrite (rect_hd vals w Hr) in F1 by lia.
  destruct (write_all_inv vals w uref k vs Hr (uncs_typed _ _ _ _ _ _ E2) (combine im ns) (mkCstate 0 (KrF k) dir None) st eq_refl F1) as (_ & _ & W3 & _).
  destruct (W3 Hne) as (m & M1 & M2 & _ & p & M3 & M4).
  rewrite M2 in F2. destruct (make_w_inv _ _ _ F2) as (v0 & V1 & V2 & _ & W & u & _ & O1 & O2 & O3 & line & cols & _ & HRo & Hu & Hx). rewrite seq_length in *.
  destruct (append_all_inv _ _ _ _ _ F3) as (_ & _ & _ & A4). destruct (A4 names Hin) as (a & rest & f' & B1 & B2 & B3 & B4). rewrite Hf in B4. injection B4 as ->.
  eexists. exists W, u, v0, (Z.of_nat m). split; [reflexivity|]. split; [reflexivity|]. split; [reflexivity|]. split; [exact O1|]. split; [exact O2|]. split; [exact V1|]. split; [|split; [exact Hx|split]].
  - intros ->. destruct cols; [|discriminate]. destruct HRo as (_ & _ & _ & HC & _). apply (proj2 (HC (line 0%nat))). exists 0. split; [lia|].
    unfold weight. rewrite Z.sub_diag. cbn [Z.leb Z.compare Z.to_nat]. unfold eqw. assert (Hk' : 0 < Z.to_nat (v_nW v0)) by lia. rewrite (nth_error_nth _ _ 0%R (nth_repeat' _ _ 0 Hk')).
    unfold Rdiv. rewrite Rmult_1_l. apply Rinv_neq_0_compat. apply not_0_INR. lia.
  - rewrite Lc in M3. destruct p as [nm z]. cbn in M4. subst z. clear -M3 Hlen. remember (length ns - 1) as i eqn:Ei. clear Ei. revert i ns Hlen M3. induction im as [|x im IH]; intros [|i] [|y ns] Hlen; cbn in *; try discriminate; [congruence|]. intros E. apply (IH i ns); auto.
  - rewrite Nat2Z.id, O3. reflexivity.
Qed.
Lemma conv_wrong_size vals w pams uncs dir d at_ im ns at' uref vs k : open_data_pams pams = Ok (im, ns, at') -> open_data_uncs uncs = Ok (uref, vs, k) ->
  (forall r, In r vals -> length r = w) -> run_conversion vals pams uncs dir = Ok (d, at_) -> length im = length ns ->
  forall i names n n' f a, nth_error im i = Some (a :: names) -> nth_error ns i = Some n -> nth_error ns (length ns - 1) = Some n' -> n <> n' -> find_file (file_name (a :: names)) d = Some f -> ~ represents_averages vs a f.
Proof.
  intros E1 E2 Hr HR Hlen i names n n' f a Hi Hz Hz' Hne Hf (mv & Hmv & Hrep). destruct (conv_w _ _ _ _ _ _ _ _ _ _ _ _ _ E1 E2 Hr HR Hlen _ f (nth_error_In _ _ Hi) Hf) as (mv' & W & u & v0 & m & A1 & A2 & A3 & A4 & A5 & A6 & A7 & A8 & A9 & A10).
  assert (mv' = mv) by congruence. subst mv'. assert (m = n') by congruence. subst m.
  assert (Hv : exists c, nth_error vs c = Some v0 /\ v_type v0 = 3). { apply nth_error_In, filter_In in A6. destruct A6 as (B1 & B2). apply Nat.eqb_eq in B2. apply In_nth_error in B1. destruct B1 as (c & B1). eauto. }
  destruct Hv as (c & C1 & C2). destruct (Hrep c v0 C1 C2) as ((w0 & k0 & W' & uv & line & cols & D1 & D2 & D3 & D4 & _ & D5 & _) & _).
  rewrite A2, (uses_at vs c v0 C1 C2) in D1. injection D1 as <-. rewrite A4 in D3. injection D3 as <-. destruct D5 as (D5 & _).
  destruct (conv_rows _ _ _ _ _ _ _ _ _ _ _ _ _ _ _ E1 E2 Hr HR) as (_ & _ & HC). destruct (HC i _ n Hi Hz) as (a' & b & rest & f' & G1 & G2 & G3 & G4). rewrite Hf in G3. injection G3 as <-.
  destruct (times_of _ _ _ _ _ _ _ _ _ G4) as (_ & T2). rewrite T2, map_length, seq_length in D5.
  destruct (HC (length ns - 1)) with (names := nth (length ns - 1) im []) (n := n') as (? & ? & ? & ? & _ & G2' & _); [apply nth_error_nth'; assert (length ns - 1 < length ns) by (apply nth_error_Some; congruence); lia|exact Hz'|]. lia.
Qed.
Lemma conv_wrong_uncertainty vals w pams uncs dir d at_ im ns at' uref vs k : open_data_pams pams = Ok (im, ns, at') -> open_data_uncs uncs = Ok (uref, vs, k) ->
  (forall r, In r vals -> length r = w) -> run_conversion vals pams uncs dir = Ok (d, at_) -> length im = length ns ->
  forall names f a v v', In v vs -> In v' vs -> v_type v = 3 -> v_type v' = 3 -> v_uR v <> v_uR v' -> In (a :: names) im -> find_file (file_name (a :: names)) d = Some f -> ~ represents_averages vs a f.
Proof.
  intros E1 E2 Hr HR Hlen names f a v v' Hv Hv' T T' Hne Hi Hf (mv & Hmv & Hrep). destruct (conv_w _ _ _ _ _ _ _ _ _ _ _ _ _ E1 E2 Hr HR Hlen _ f Hi Hf) as (mv' & W & u & v0 & m & A1 & A2 & A3 & A4 & A5 & A6 & A7 & A8 & _).
  assert (mv' = mv) by congruence. subst mv'.
  assert (G : forall x, In x vs -> v_type x = 3 -> v_uR x = v_uR v0).
  { intros x Hx Tx. apply In_nth_error in Hx. destruct Hx as (c & Hc). destruct (Hrep c x Hc Tx) as ((w0 & k0 & W' & uv & line & cols & D1 & D2 & D3 & D4 & _ & _ & _ & D5) & _).
    rewrite A3, (uses_at vs c x Hc Tx) in D2. injection D2 as <-. rewrite A5 in D4. injection D4 as <-. destruct u as [|y u]; [congruence|]. rewrite <- (D5 y) by (left; auto). apply A8. left. auto. }
  apply Hne. rewrite (G v), (G v'); auto.
Qed.
(** Rows after the last announced match-up have no effect. *)
Lemma extra_rows H extra width uref k vs l : (forall r, In r H -> length r = width) -> typed vs -> forall st st', kr_is k (k_kr st) -> foldM (write_pair H width uref vs) l st = Ok st' -> foldM (write_pair (H ++ extra) width uref vs) l st = Ok st'.
Proof.
  intros Hr Ht. induction l as [|[names z] l IH]; intros st st' Hk; cbn [foldM]; [auto|]. destruct (write_pair H width uref vs st (names, z)) as [s|] eqn:Es; cbn [bind]; [|discriminate]. intros HF.
  destruct (write_pair_inv H width uref k vs Hr Ht _ _ _ _ Hk Es) as (a & b & rest & f & m & _ & Em & _ & Hle & _ & K1 & _).
  assert (E : write_pair (H ++ extra) width uref vs st (names, z) = Ok s).
  { rewrite <- Es. unfold write_pair. rewrite Em, Nat2Z.id. replace (slice (k_end st) (k_end st + m) (H ++ extra)) with (slice (k_end st) (k_end st + m) H); [reflexivity|].
    unfold slice. rewrite skipn_app, firstn_app, skipn_length. replace (k_end st + m - k_end st - (length H - k_end st)) with 0 by lia. cbn [firstn]. rewrite app_nil_r. reflexivity. }
  rewrite E. cbn [bind]. apply (IH s); auto.
Qed.
Lemma conv_extra vals w pams uncs dir r extra : (forall x, In x vals -> length x = w) -> 1 < length vals -> run_conversion vals pams uncs dir = Ok r -> run_conversion (vals ++ extra) pams uncs dir = Ok r.
Proof.
  intros Hr Hv. unfold PmhModel.run_conversion. destruct (open_data_pams pams) as [[[im ns] at']|] eqn:E1; cbn [bind]; [|discriminate]. destruct (open_data_uncs uncs) as [[[uref vs] k]|] eqn:E2; cbn [bind]; [|discriminate].
  assert (Eh : hd [] (vals ++ extra) = hd [] vals) by (destruct vals; [cbn in Hv; lia|reflexivity]). rewrite Eh, app_length.
  destruct (Nat.leb_spec (length vals) 1); [lia|]. destruct (Nat.leb_spec (length vals + length extra) 1); [lia|]. cbn [orb].
  match goal with |- (if ?b then _ else _) = _ -> _ => destruct b end; [discriminate|]. rewrite (rect_hd vals w Hr) by lia.
  destruct (foldM (write_pair vals w uref vs) (combine im ns) (mkCstate 0 (KrF k) dir None)) as [st|] eqn:E3; cbn [bind]; [|discriminate].
  rewrite (extra_rows vals extra w uref k vs _ Hr (uncs_typed _ _ _ _ _ _ E2) (mkCstate 0 (KrF k) dir None) st eq_refl E3). cbn [bind]. auto.
Qed.
End Conv.
