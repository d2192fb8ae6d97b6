(** * Conversion of AVHRR match-up files: everything up to the first file.  Proofs only. *)
From Coq Require Import Reals Lra Sorted.
From Verif Require Import Base BaseLemmas ReaderModel UncModel UncSpec UncProofs TransformModel TransformSpec GNModel HRModel HRText WModel WSpec WProofs WProofs2 WProofs3 WProofs4 CheckProofs AvModel AvSpec AvProofs AvProofs2.
Open Scope nat_scope.

Definition krows (idx : list nat) (u : list (list fl)) : list (list R) := map nums (at_ [] idx u).
Definition equal_weights (k : nat) : list R := repeat (1 / INR k)%R k.

Lemma at_in {A} (d : A) idx l x : In x (at_ d idx l) -> (forall i, In i idx -> i < length l) -> In x l.
Proof. intros H Hi. apply in_map_iff in H as (i & <- & Hin). apply nth_In. auto. Qed.
Lemma at_length {A} (d : A) idx l : length (at_ d idx l) = length idx.
Proof. apply map_length. Qed.
Lemma krows_sized f k idx u : sized (n_matchups f) k u -> (forall i, In i idx -> i < n_matchups f) -> sized (length idx) k (krows idx u).
Proof.
  intros (L & H) Hi. split; [unfold krows; rewrite map_length; apply at_length|]. intros r Hr. apply in_map_iff in Hr as (x & <- & Hx). unfold nums. rewrite map_length. apply H. apply (at_in [] idx); [auto|]. rewrite L. auto.
Qed.
Lemma krows_kernel N k rows : sized N k rows -> N <> 0 -> kernel (KA rows) None None = Ok (equal_weights k).
Proof.
  intros (L & H) HN. destruct rows as [|r rows]; [cbn in L; congruence|]. cbn [kernel get nth_error bind]. rewrite (H r (or_introl eq_refl)). reflexivity.
Qed.
Lemma weights_nonzero k : k <> 0 -> equal_weights k <> [] /\ nth_error (equal_weights k) 0 = Some (1 / INR k)%R /\ (1 / INR k <> 0)%R.
Proof.
  intros H. destruct k as [|k]; [congruence|]. split; [discriminate|]. split; [reflexivity|]. assert (INR (S k) <> 0%R) by (apply not_0_INR; auto). unfold Rdiv. rewrite Rmult_1_l. apply Rinv_neq_0_compat. auto.
Qed.

Lemma gen_ok times N k rows : length times = N -> N <> 0 -> k <> 0 -> sized N k rows -> exists W u, gen_w times (1 / 2) (KA rows) None None = Ok (W, u).
Proof.
  intros L HN Hk Hs. apply (gen_exists times (1 / 2) (KA rows) None None (equal_weights k)).
  - intros ->. cbn in L. congruence.
  - lra.
  - apply (krows_kernel N); auto.
  - apply weights_nonzero; auto.
  - intros i Hi. destruct (nth_error rows i) as [r|] eqn:E; [|apply nth_error_None in E; destruct Hs; lia]. exists r. split; [reflexivity|]. unfold equal_weights. rewrite repeat_length. apply Hs. eapply nth_error_In; eauto.
Qed.
Lemma gen_facts times N k rows W u : length times = N -> N <> 0 -> k <> 0 -> sized N k rows -> gen_w times (1 / 2) (KA rows) None None = Ok (W, u) ->
  wf_csr W /\ last_column_used W /\ c_nrows R W = N /\ length u = c_ncols R W /\
  exists line cols, lines_of times (1 / 2) line /\ rolling (equal_weights k) line (length times) cols W /\ length u = length cols /\
    forall g, of_lines rows line (length times) k g -> forall n c, nth_error cols n = Some c -> nth_error u n = Some (g c).
Proof.
  intros L HN Hk Hs H. assert (Hd : (1 / 100 < 1 / 2)%R) by lra.
  destruct (gen_rolling times (1 / 2) (KA rows) None None (equal_weights k) W u Hd (krows_kernel N k rows Hs HN) H) as (line & cols & HL & HR & Hu & Hg).
  destruct (gen_format _ _ _ _ _ _ W u line cols H HR) as (F1 & F2). pose proof HR as (R1 & R2 & R3 & R4 & R5). destruct (weights_nonzero k Hk) as (_ & K1 & K2).
  split; [auto|]. split; [|split; [lia|split; [congruence|]]].
  - apply F2. intros ->. apply (proj2 (R4 (line 0%nat))). exists 0. split; [lia|]. unfold weight. rewrite Z.sub_diag. cbn [Z.leb Z.compare Z.to_nat]. rewrite (nth_error_nth _ _ 0%R K1). auto.
  - exists line, cols. do 3 (split; [auto|]). unfold equal_weights in Hg. rewrite repeat_length in Hg. exact Hg.
Qed.

Definition zrow (cols : list nat) (r : list fl) : list fl := map (fun p => if existsb (Nat.eqb (fst p)) cols then Some 0%R else snd p) (enumerate r).
Lemma zero_cols_ok cols rows N : sized N 10 rows -> (forall c, In c cols -> c < 10) -> zero_cols cols rows = Ok (map (zrow cols) rows).
Proof.
  intros (_ & H) Hc. unfold zero_cols. apply (mapM_Ok_map _ (zrow cols)). intros r Hr. cbv beta. assert (Hl : @length (option R) r = 10) by exact (H r Hr). rewrite Hl. replace (forallb (fun c => c <? 10) cols) with true; [reflexivity|]. symmetry. apply forallb_forall. intros c Hi. apply Nat.ltb_lt. auto.
Qed.
Lemma block_at a b idx l : columns a b (at_ [] idx l) = block a b idx l.
Proof. unfold columns, at_, block. rewrite map_map. reflexivity. Qed.

Section Prepare.
Variable torad : option string -> list fl -> res (list fl).
Definition rad_ok (f : avin) (bt : list fl) (ref_bt : option (list fl)) : Prop :=
  forall b, ref_bt = Some b -> (exists r, torad (get_new_name (a_s1 f)) b = Ok r) /\ exists r, torad (get_new_name (a_s2 f)) bt = Ok r.

Record ready (f : avin) (k1 k2 : nat) (band : Z) (bt : list fl) (ref_bt : option (list fl)) (ref : bool) (idx : list nat) (p : prepared) : Prop := {
  r_ref : p_ref p = ref;
  r_X1 : p_X1 p = block 0 (if ref then 1 else 5) idx (a_H f); r_X2 : p_X2 p = block 5 10 idx (a_H f);
  r_Ur1 : p_Ur1 p = columns 0 (if ref then 1 else 5) (map (zrow (if ref then [5; 6] else [0; 1; 5; 6])) (at_ [] idx (a_Ur f)));
  r_Ur2 : p_Ur2 p = columns 5 10 (map (zrow (if ref then [5; 6] else [0; 1; 5; 6])) (at_ [] idx (a_Ur f)));
  r_Us1 : p_Us1 p = columns 0 (if ref then 1 else 5) (map (fun r => if ref then zrow [0] r else r) (at_ [] idx (a_Us f)));
  r_Us2 : p_Us2 p = columns 5 10 (map (fun r => if ref then zrow [0] r else r) (at_ [] idx (a_Us f)));
  r_K : p_K p = at_ None idx (a_K f); r_Kr : p_Kr p = at_ None idx (a_Kr f); r_Ks : p_Ks p = at_ None idx (a_Ks f);
  r_t1 : p_t1 p = at_ 0%R idx (a_t1 f); r_t2 : p_t2 p = at_ 0%R idx (a_t2 f); r_s1 : p_s1 p = get_new_name (a_s1 f); r_s2 : p_s2 p = get_new_name (a_s2 f);
  r_idx : lookup "original_indices"%string (p_adds p) = Some (map (fun i => Some (INR i)) idx);
  r_geo : forall old new, In (old, new) geometry -> lookup new (p_adds p) = option_map (at_ None idx) (lookup old (a_adds f));
  r_nm2 : lookup "nominal_measurand2"%string (p_adds p) = Some (at_ None idx bt);
  r_nm1 : lookup "nominal_measurand1"%string (p_adds p) = option_map (at_ None idx) ref_bt;
  r_To : lookup "To1"%string (p_adds p) = None /\ lookup "To2"%string (p_adds p) = None;
  r_W : exists W2 u2 v2, gen_w (at_ 0%R idx (a_t2 f)) (1 / 2) (KA (krows idx (a_uS2 f))) None None = Ok (W2, u2) /\
    gen_w (at_ 0%R idx (a_t2 f)) (1 / 2) (KA (krows idx (a_uI2 f))) None None = Ok (W2, v2) /\
    if ref then p_ws p = [W2] /\ p_us p = [u2; v2] else exists W1 u1 v1, gen_w (at_ 0%R idx (a_t1 f)) (1 / 2) (KA (krows idx (a_uS1 f))) None None = Ok (W1, u1) /\
      gen_w (at_ 0%R idx (a_t1 f)) (1 / 2) (KA (krows idx (a_uI1 f))) None None = Ok (W1, v1) /\ p_ws p = [W1; W2] /\ p_us p = [u1; v1; u2; v2];
  r_mv : let '(w1, w2, u1, u2) := wuses ref in return_w_matrix_variables R 0%R w1 w2 u1 u2 (p_ws p) (p_us p) = Ok (p_W p);
  r_dirs : p_dirs p = directory_numbers (VInt band)
}.

Lemma prepare_ok f k1 k2 band bt ref_bt : av_file f k1 k2 -> bt_variables f band bt ref_bt -> rad_ok f bt ref_bt -> (exists i, i < n_matchups f /\ usable f i) ->
  exists (ref : bool) idx p, (if ref then is_ref f else not_ref f) /\ kept f idx /\ idx <> [] /\ prepare torad f None = Ok p /\ ready f k1 k2 band bt ref_bt ref idx p.
Proof.
  intros F B RO (i0 & Hi0 & Hu0). destruct (bt_rename f band bt ref_bt B) as (d0 & cc & Er & Hd0 & Lcc & _).
  set (N := n_matchups f) in *.
  assert (Z1 : length (a_uS1 f) = N) by apply (af_uS1 f k1 k2 F). assert (Z2 : length (a_uI1 f) = N) by apply (af_uI1 f k1 k2 F).
  assert (Z3 : length (a_uS2 f) = N) by apply (af_uS2 f k1 k2 F). assert (Z4 : length (a_uI2 f) = N) by apply (af_uI2 f k1 k2 F).
  set (d1 := remove "original_indices" d0 ++ [("original_indices"%string, map (fun i => Some (INR i)) (seq 0 (length (a_K f))))]).
  assert (HD : exists d2 : dict, (if in_dict "ref_BT" d1 then
             do b1 <- item "ref_BT" d1;; do r1 <- torad (get_new_name (a_s1 f)) b1;;
             let d := remove "nominal_measurand1" d1 ++ [("nominal_measurand1"%string, r1)] in
             do b2 <- item "BT" d;; do r2 <- torad (get_new_name (a_s2 f)) b2;;
             Ok (remove "nominal_measurand2" d ++ [("nominal_measurand2"%string, r2)])
           else Ok d1) = Ok d2 /\ forall m, m <> "nominal_measurand1"%string -> m <> "nominal_measurand2"%string -> lookup m d2 = lookup m d1).
  { assert (L1 : lookup "ref_BT" d1 = ref_bt) by (unfold d1; rewrite lookup_put, Hd0; reflexivity).
    assert (L2 : lookup "BT" d1 = Some bt) by (unfold d1; rewrite lookup_put, Hd0; reflexivity).
    destruct (in_dict "ref_BT" d1) eqn:Ein; [|eexists; split; [reflexivity|auto]].
    assert (Hb : exists b, ref_bt = Some b).
    { destruct ref_bt as [b|]; [eauto|]. exfalso. apply CheckProofs.lookup_none in L1. apply L1. unfold in_dict in Ein. apply existsb_exists in Ein as (x & Hx & E). apply String.eqb_eq in E. subst x. auto. }
    destruct Hb as (b & ->). destruct (RO b eq_refl) as ((r1 & E1) & r2 & E2). rewrite (item_ok _ _ _ L1). cbn [bind]. rewrite E1. cbn [bind]. cbv zeta. rewrite (item_ok _ _ bt) by (rewrite lookup_put; exact L2). cbn [bind]. rewrite E2. cbn [bind].
    eexists. split; [reflexivity|]. intros m H1 H2. rewrite !lookup_put. destruct (String.eqb_spec "nominal_measurand2" m); [congruence|]. destruct (String.eqb_spec "nominal_measurand1" m); [congruence|]. reflexivity. }
  destruct HD as (d2 & ED & HL2). unfold prepare. rewrite Er. cbn [bind]. cbv zeta in ED. cbv zeta. fold d1. rewrite ED. cbn [bind].
  destruct (valid_mask (a_uS1 f) (a_uI1 f) (a_uS2 f) (a_uI2 f) None) as [mask|] eqn:Em.
  2:{ exfalso. unfold valid_mask in Em. match type of Em with bind ?e _ = _ => destruct e as [|] eqn:E2 end; [discriminate|]. 
      destruct (mapM_ok_ex (fun p => let '(i, ((r11, r12), (r21, r22))) := p in do cold <- Ok false;; Ok (negb (existsb isnan r11 || existsb isnan r12 || existsb isnan r21 || existsb isnan r22) && negb cold)) (enumerate (combine (combine (a_uS1 f) (a_uI1 f)) (combine (a_uS2 f) (a_uI2 f))))) as (r & Er').
      - intros (i & ((r11 & r12) & (r21 & r22))) _. eexists. reflexivity.
      - cbv zeta in E2. rewrite Er' in E2. discriminate. }
  destruct (mask_spec _ _ _ _ _ _ Em) as (LM & HM); [congruence|congruence|congruence|]. rewrite Z1 in LM. cbn [bind].
  set (idx := idx_of mask). destruct (idx_spec mask) as (IS & II). fold idx in IS, II.
  assert (HK : kept f idx).
  { split; [exact IS|]. intros i. rewrite II, HM. unfold usable. fold N. split; [|tauto]. intros H. split; [|tauto]. destruct H as ((r & Hr & _) & _). rewrite <- Z1. apply nth_error_Some. congruence. }
  assert (HI : forall i, In i idx -> i < N) by (intros i Hi; apply HK in Hi; apply Hi).
  assert (Hne : idx <> []) by (intros E; assert (Hc : In i0 idx) by (apply HK; split; auto); rewrite E in Hc; destruct Hc).
  assert (LI : length idx <> 0) by (destruct idx; [congruence|discriminate]).
  destruct (nth_error (a_H f) 0) as [h0|] eqn:E0; [|apply nth_error_None in E0; destruct (af_H f k1 k2 F) as (LH & _); fold N in LH; lia].
  assert (L0 : length h0 = 10) by (apply (af_H f k1 k2 F); eapply nth_error_In; eauto).
  destruct (nth_error h0 3) as [h03|] eqn:E3; [|apply nth_error_None in E3; lia].
  replace (get (a_H f) 0) with (Ok h0) by (unfold get; rewrite E0; reflexivity). cbn [bind]. replace (get h0 3) with (Ok h03) by (unfold get; rewrite E3; reflexivity). cbn [bind].
  assert (EUr : zero_cols (if isnan h03 then [5; 6] else [0; 1; 5; 6]) (a_Ur f) = Ok (map (zrow (if isnan h03 then [5; 6] else [0; 1; 5; 6])) (a_Ur f))).
  { apply (zero_cols_ok _ _ N); [apply (af_Ur f k1 k2 F)|]. intros c. destruct (isnan h03); cbn; intuition lia. }
  assert (EUs : (if isnan h03 then zero_cols [0] (a_Us f) else Ok (a_Us f)) = Ok (map (fun r => if isnan h03 then zrow [0] r else r) (a_Us f))).
  { destruct (isnan h03); [apply (zero_cols_ok _ _ N); [apply (af_Us f k1 k2 F)|intros c [<-|[]]; lia]|rewrite map_id; reflexivity]. }
  rewrite EUr, EUs. cbn [bind].
  assert (MA : forall {A} (d : A) l, length l = N -> masked mask l = Ok (at_ d idx l)) by (intros A d l Hl; apply masked_ok; split; [congruence|symmetry; apply sel_at; congruence]).
  assert (MB : forall {A} (d : A) (g : A -> A) l, length l = N -> masked mask (map g l) = Ok (map g (at_ d idx l))) by (intros A d g l Hl; apply masked_ok; rewrite map_length; split; [congruence|rewrite sel_map; f_equal; symmetry; apply sel_at; congruence]).
  rewrite (MA (list fl) [] (a_H f)) by apply (af_H f k1 k2 F). cbn [bind]. rewrite (MB (list fl) [] _ (a_Ur f)) by apply (af_Ur f k1 k2 F). cbn [bind]. rewrite (MB (list fl) [] _ (a_Us f)) by apply (af_Us f k1 k2 F). cbn [bind].
  rewrite (MA fl None (a_K f)) by reflexivity. cbn [bind]. rewrite (MA fl None (a_Kr f)) by apply (af_Kr f k1 k2 F). cbn [bind]. rewrite (MA fl None (a_Ks f)) by apply (af_Ks f k1 k2 F). cbn [bind].
  rewrite (MA _ 0%R (a_t1 f)) by apply (af_t1 f k1 k2 F). cbn [bind]. rewrite (MA _ 0%R (a_t2 f)) by apply (af_t2 f k1 k2 F). cbn [bind].
  assert (LK : forall m, In m (map fst renamed) -> lookup m d2 = if String.eqb "original_indices" m then Some (map (fun i => Some (INR i)) (seq 0 N)) else if String.eqb m "BT" then Some bt else if String.eqb m "ref_BT" then ref_bt else lookup m (a_adds f)).
  { intros m Hm. rewrite HL2 by (intros ->; cbn in Hm; intuition discriminate). unfold d1. rewrite lookup_put, Hd0. destruct (String.eqb "original_indices" m); [reflexivity|]. destruct (String.eqb m "BT") eqn:EB; [reflexivity|]. destruct (String.eqb m "ref_BT") eqn:ER; [reflexivity|].
    assert (Hc : (String.eqb m ("BT" ++ cc) = false /\ String.eqb m ("ref_BT" ++ cc) = false)%string); [|destruct Hc as (-> & ->); reflexivity].
    destruct cc as [|c1 [|c2 [|]]]; try discriminate Lcc. cbn in Hm. repeat (destruct Hm as [<-|Hm]; [first [discriminate EB|discriminate ER|split; reflexivity]|]). destruct Hm. }
  assert (LB : length bt = N /\ forall b, ref_bt = Some b -> length b = N).
  { destruct B as [ND (a & b & x & y & _ & _ & _ & HB & HR & _)]. split; [apply CheckProofs.lookup_iff in HB; [|auto]; apply (af_adds f k1 k2 F) in HB; auto|]. intros b0 ->. apply CheckProofs.lookup_iff in HR; [|auto]. apply (af_adds f k1 k2 F) in HR; auto. }
  assert (LV : forall n v, In n (map fst renamed) -> lookup n d2 = Some v -> length mask = length v).
  { intros n v Hn Hv. rewrite (LK n Hn) in Hv. rewrite LM. destruct (String.eqb "original_indices" n); [injection Hv as <-; rewrite map_length, seq_length; reflexivity|]. destruct (String.eqb n "BT"); [injection Hv as <-; symmetry; exact (proj1 LB)|].
    destruct (String.eqb n "ref_BT"); [symmetry; apply (proj2 LB); auto|]. symmetry. apply (af_adds f k1 k2 F n). apply CheckProofs.lookup_iff in Hv; [auto|apply (bv_nodup _ _ _ _ B)]. }
  rewrite (vars_ok d2 mask LV). cbn [bind].
  rewrite (MA (list fl) [] (a_uS1 f) Z1). cbn [bind]. rewrite (MA (list fl) [] (a_uI1 f) Z2). cbn [bind]. rewrite (MA (list fl) [] (a_uS2 f) Z3). cbn [bind]. rewrite (MA (list fl) [] (a_uI2 f) Z4). cbn [bind].
  fold (krows idx (a_uS1 f)) (krows idx (a_uI1 f)) (krows idx (a_uS2 f)) (krows idx (a_uI2 f)).
  pose proof (krows_sized f k1 idx _ (af_uS1 f k1 k2 F) HI) as S1. pose proof (krows_sized f k1 idx _ (af_uI1 f k1 k2 F) HI) as S2.
  pose proof (krows_sized f k2 idx _ (af_uS2 f k1 k2 F) HI) as S3. pose proof (krows_sized f k2 idx _ (af_uI2 f k1 k2 F) HI) as S4.
  assert (T1 : length (at_ 0%R idx (a_t1 f)) = length idx) by apply at_length. assert (T2 : length (at_ 0%R idx (a_t2 f)) = length idx) by apply at_length.
  destruct (gen_ok _ _ _ _ T2 LI (af_k2 f k1 k2 F) S3) as (W2 & u2 & G3). destruct (gen_ok _ _ _ _ T2 LI (af_k2 f k1 k2 F) S4) as (W2' & v2 & G4).
  destruct (gen_ok _ _ _ _ T1 LI (af_k1 f k1 k2 F) S1) as (W1 & u1 & G1). destruct (gen_ok _ _ _ _ T1 LI (af_k1 f k1 k2 F) S2) as (W1' & v1 & G2).
  assert (W2 = W2') by (eapply gen_same; [|exact G3|exact G4]; rewrite (krows_kernel _ _ _ S3 LI), (krows_kernel _ _ _ S4 LI); reflexivity). subst W2'.
  assert (W1 = W1') by (eapply gen_same; [|exact G1|exact G2]; rewrite (krows_kernel _ _ _ S1 LI), (krows_kernel _ _ _ S2 LI); reflexivity). subst W1'.
  destruct (gen_facts _ _ _ _ _ _ T2 LI (af_k2 f k1 k2 F) S3 G3) as (A1 & A2 & A3 & _). destruct (gen_facts _ _ _ _ _ _ T1 LI (af_k1 f k1 k2 F) S1 G1) as (B1 & B2 & B3 & _).
  assert (AD : forall old new, In (old, new) renamed -> lookup new (kept_vars d2 mask renamed) = option_map (sel mask) (lookup old d2)) by (intros; apply kept_lookup; [apply renamed_nodup|auto]).
  assert (SA : forall o, (forall v, o = Some v -> length v = N) -> option_map (sel mask) o = option_map (at_ (None : fl) idx) o) by (intros [v|] Hv; [cbn; f_equal; apply sel_at; rewrite Hv by auto; auto|reflexivity]).
  assert (REST : forall (ref : bool) ws us mv, ref = isnan h03 -> (let '(w1, w2, u1, u2) := wuses ref in return_w_matrix_variables R 0%R w1 w2 u1 u2 ws us = Ok mv) ->
     (if ref then ws = [W2] /\ us = [u2; v2] else ws = [W1; W2] /\ us = [u1; v1; u2; v2]) ->
     ready f k1 k2 band bt ref_bt ref idx (mkPrep ref (columns 0 (if ref then 1 else 5) (at_ [] idx (a_H f))) (columns 5 10 (at_ [] idx (a_H f)))
        (columns 0 (if ref then 1 else 5) (map (zrow (if ref then [5; 6] else [0; 1; 5; 6])) (at_ [] idx (a_Ur f)))) (columns 5 10 (map (zrow (if ref then [5; 6] else [0; 1; 5; 6])) (at_ [] idx (a_Ur f))))
        (columns 0 (if ref then 1 else 5) (map (fun r => if ref then zrow [0] r else r) (at_ [] idx (a_Us f)))) (columns 5 10 (map (fun r => if ref then zrow [0] r else r) (at_ [] idx (a_Us f))))
        (at_ None idx (a_K f)) (at_ None idx (a_Kr f)) (at_ None idx (a_Ks f)) (at_ 0%R idx (a_t1 f)) (at_ 0%R idx (a_t2 f)) (get_new_name (a_s1 f)) (get_new_name (a_s2 f)) (kept_vars d2 mask renamed) ws us mv (directory_numbers (VInt band)))).
  { intros ref ws us mv _ Hmv Hws. constructor; cbn [p_ref p_X1 p_X2 p_Ur1 p_Ur2 p_Us1 p_Us2 p_K p_Kr p_Ks p_t1 p_t2 p_s1 p_s2 p_adds p_ws p_us p_W p_dirs]; try reflexivity; rewrite ?block_at; try reflexivity.
    - rewrite (AD "original_indices" "original_indices")%string by (left; reflexivity). rewrite LK by (left; reflexivity). cbn [String.eqb Ascii.eqb Bool.eqb option_map]. rewrite sel_map. unfold idx, idx_of. rewrite LM. reflexivity.
    - intros old new Hon. assert (Hr : In (old, new) renamed /\ String.eqb "original_indices" old = false /\ String.eqb old "BT" = false /\ String.eqb old "ref_BT" = false).
      { cbn in Hon. repeat (destruct Hon as [E|Hon]; [injection E as <- <-; split; [cbn; tauto|repeat split; reflexivity]|]). destruct Hon. }
      destruct Hr as (Hr & N1 & N2 & N3). rewrite (AD _ _ Hr). rewrite LK by (apply (in_map fst) in Hr; exact Hr). rewrite N1, N2, N3. apply SA. intros v Hv. apply (af_adds f k1 k2 F old). apply CheckProofs.lookup_iff in Hv; [auto|apply (bv_nodup _ _ _ _ B)].
    - rewrite (AD "BT" "nominal_measurand2")%string by (cbn; tauto). rewrite LK by (cbn; tauto). cbn [String.eqb Ascii.eqb Bool.eqb]. rewrite SA; [reflexivity|]. intros v Hv. injection Hv as <-. exact (proj1 LB).
    - rewrite (AD "ref_BT" "nominal_measurand1")%string by (cbn; tauto). rewrite LK by (cbn; tauto). cbn [String.eqb Ascii.eqb Bool.eqb]. apply SA. exact (proj2 LB).
    - split; apply kept_other; cbn; intuition discriminate.
    - exists W2, u2, v2. do 2 (split; [assumption|]). destruct ref; [exact Hws|]. exists W1, u1, v1. do 2 (split; [assumption|]). exact Hws.
    - exact Hmv. }
  exists (isnan h03), idx. unfold return_w_matrices. rewrite G3. cbn [bind]. rewrite G4. cbn [bind].
  destruct h03 as [h|]; cbn [isnan] in *; cbn [Nat.eqb].
  - rewrite G1. cbn [bind]. rewrite G2. cbn [bind fst snd]. change (wuses false) with ([1; 1; 0; 0; 0], [2; 2; 0; 0; 0], [1; 2; 0; 0; 0], [3; 4; 0; 0; 0]). cbn iota.
    destruct (codec_roundtrip 0%R [W1; W2] [u1; v1; u2; v2] [1; 1; 0; 0; 0] [2; 2; 0; 0; 0] [1; 2; 0; 0; 0] [3; 4; 0; 0; 0] (length idx)) as (mv & E & _); [discriminate|intros w [<-|[<-|[]]]; auto|].
    rewrite E. cbn [bind]. eexists. split; [exists h0, h; auto|]. split; [exact HK|]. split; [exact Hne|]. split; [reflexivity|]. apply (REST false); [reflexivity|exact E|split; reflexivity].
  - cbn [bind fst snd]. change (wuses true) with ([0], [1; 1; 0; 0; 0], [0], [1; 2; 0; 0; 0]). cbn iota.
    destruct (codec_roundtrip 0%R [W2] [u2; v2] [0] [1; 1; 0; 0; 0] [0] [1; 2; 0; 0; 0] (length idx)) as (mv & E & _); [discriminate|intros w [<-|[]]; auto|].
    rewrite E. cbn [bind]. eexists. split; [exists h0; auto|]. split; [exact HK|]. split; [exact Hne|]. split; [reflexivity|]. apply (REST true); [reflexivity|exact E|split; reflexivity].
Qed.
End Prepare.
