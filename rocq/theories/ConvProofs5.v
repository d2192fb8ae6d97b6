(** * Proofs for C140: which files of MW_add_W_matrices.py the checker accepts. *)
From Coq Require Import Reals Lra.
From Verif Require Import Base BaseLemmas ReaderModel ReaderSpec ReaderMain UncModel UncSpec UncProofs SimModel GNModel WModel WSpec WProofs WProofs2 WProofs3 WProofs4 CheckModel CheckSpec CheckProofs CheckProofs2 CheckProofs3 CheckProofs4 CheckProofs5 IOModel IOSpec IOProofs IOProofs2 ConvModel ConvSpec ConvProofs ConvProofs2 ConvProofs3 ConvProofs4.
Open Scope nat_scope.

Lemma types_val a c : c < mw_covariates a -> nth_error (mw_types a) c = Some (if c <? averaged a then (if c <? 2 then 3 else 4) else if c =? averaged a then 1 else 2).
Proof. destruct a; cbn [mw_covariates]; intros H; do 11 (destruct c as [|c]; [first [lia|reflexivity]|]); lia. Qed.
Lemma wuse_val k a c : c < mw_covariates a -> nth_error (w_uses k a) c = Some (if c <? averaged a then k else 0).
Proof. destruct a; cbn [mw_covariates]; intros H; do 11 (destruct c as [|c]; [first [lia|reflexivity]|]); lia. Qed.
Lemma clear_col a rows c col m : (forall r, In r rows -> length r = m) -> c < m -> CheckSpec.is_column rows c col ->
  CheckSpec.is_column (clear a rows) c (if c <? averaged a then repeat 0%R (length rows) else col).
Proof.
  intros Hm Hc (L & E). unfold CheckSpec.is_column, clear. rewrite map_length.
  assert (K : match a with Ref => 0 | AMSUB => 9 | MHS => 7 end = averaged a) by reflexivity. rewrite K. set (k := averaged a) in *. split; [destruct (c <? k); [apply repeat_length|exact L]|].
  intros i r Hr. rewrite nth_error_map in Hr. destruct (nth_error rows i) as [r'|] eqn:Er; [|discriminate]. cbn in Hr. injection Hr as <-.
  pose proof (Hm r' (nth_error_In _ _ Er)) as Lr. destruct (Nat.ltb_spec c k) as [H|H].
  - rewrite repeat_nth by (apply nth_error_Some; congruence). rewrite nth_error_app1 by (rewrite repeat_length; lia). symmetry. apply repeat_nth. lia.
  - rewrite (E _ _ Er). rewrite nth_error_app2 by (rewrite repeat_length; lia). rewrite repeat_length, SampleProofs.nth_error_skipn. f_equal. lia.
Qed.
Lemma clear_mat a rows n m : matrix rows n m -> matrix (clear a rows) n m.
Proof.
  intros (L & H). split; [unfold clear; rewrite map_length; exact L|]. intros r Hr. unfold clear in Hr. apply in_map_iff in Hr. destruct Hr as (r' & <- & Hr). rewrite app_length, repeat_length, skipn_length. rewrite <- (H _ Hr). lia.
Qed.
Lemma zeros_not_pos n : n <> 0 -> ~ Forall (Rlt 0) (repeat 0%R n).
Proof. intros Hn H. destruct n; [lia|]. cbn in H. inversion H; subst. lra. Qed.
Lemma pos_zero (l : list R) : l <> [] -> Forall (Rlt 0) l -> Forall (eq 0%R) l -> False.
Proof. intros Hn H1 H2. destruct l; [congruence|]. inversion H1; inversion H2; subst. lra. Qed.
Lemma column_form a k c ur us M : c < mw_covariates a -> k <> 0 -> M <> 0 -> length us = M ->
  (only_form (Z.of_nat (if c <? averaged a then (if c <? 2 then 3 else 4) else if c =? averaged a then 1 else 2)) (if c <? averaged a then repeat 0%R M else ur) us (if c <? averaged a then k else 0)
   <-> mw_column a c ur us).
Proof.
  intros Hc Hk HM Lu. assert (Nu : us <> []) by (intros ->; cbn in Lu; lia). unfold mw_column, only_form, form. pose proof (zeros_not_pos M HM) as HZ. pose proof (pos_zero us Nu) as HP.
  destruct (c <? averaged a); [destruct (c <? 2)|destruct (c =? averaged a)].
  - split; [intros (H & _); intuition lia|]. intros H. split; [right; right; left; repeat split; [lia|exact H]|]. intros t' HF. intuition lia.
  - split; [intros (H & _); intuition lia|]. intros H. split; [right; right; right; repeat split; [lia|exact H]|]. intros t' HF. intuition lia.
  - split; [intros (H & _); intuition lia|]. intros (H1 & H2). split; [left; auto|]. intros t' HF. intuition lia.
  - split; [intros (H & _); intuition lia|]. intros (H1 & H2). split; [right; left; auto|]. intros t' HF. intuition lia.
Qed.

Section M.
Context (f32 : R -> R) (trunc : R -> Z).
Notation mw := (mw_file f32 trunc).

Definition mw_data (p : mdata) (a : side -> instrument) : mdata :=
  with_ur (with_ur (with_types (with_types p Side1 (map Z.of_nat (mw_types (a Side1)))) Side2 (map Z.of_nat (mw_types (a Side2)))) Side2 (clear (a Side2) (p_Ur p Side2))) Side1 (clear (a Side1) (p_Ur p Side1)).

Lemma packed_sized p mv ws us r : packed mv ws us r (p_m p Side1) (p_m p Side2) -> length (w_val R mv) = list_sum (w_nnz R mv) -> sized p mv.
Proof.
  intros Hp HV. destruct (pk_w _ _ _ _ _ _ Hp) as (Hne & Hcsr). pose proof (pk_len _ _ _ _ _ _ Hp) as (L1 & L2 & L3 & L4 & _). unfold sized.
  rewrite (pk_row _ _ _ _ _ _ Hp), (pk_col _ _ _ _ _ _ Hp), (pk_uval _ _ _ _ _ _ Hp), (pk_cnt _ _ _ _ _ _ Hp), HV, (pk_nnz _ _ _ _ _ _ Hp), !map_length, !concat_length, map_map.
  do 8 (split; [auto|]). intros l Hl. apply in_map_iff in Hl. destruct Hl as (w & <- & Hw). destruct ws as [|w0 ws']; [congruence|]. cbn [map hd].
  destruct (Hcsr w Hw) as ((A & _) & B & _). destruct (Hcsr w0 (or_introl eq_refl)) as ((A0 & _) & B0 & _). lia.
Qed.

Lemma mw_instrument b a n : mw_name a n -> (a = Ref -> b = true) -> instrument_of b n = Ok a.
Proof.
  intros H Hb. destruct a; cbn in H.
  - subst n. rewrite (Hb eq_refl). reflexivity.
  - unfold instrument_of. destruct H as [<- |[<- |[<- |[]]]]; reflexivity.
  - unfold instrument_of. destruct H as [<- |[<- |[<- |[]]]]; reflexivity.
Qed.

Lemma mw_result f p a : base_file f p -> mw_name (a Side1) (p_name p Side1) -> mw_name (a Side2) (p_name p Side2) -> a Side2 <> Ref -> p_M p <> 0 -> (forall sd, p_m p sd = mw_covariates (a sd)) ->
  exists g mv ws us, mw f = Ok g /\ has_file g (mw_data p a) mv /\ packed mv ws us (p_M p) (p_m p Side1) (p_m p Side2) /\
    wuse1 R mv = w_uses 1 (a Side1) /\ wuse2 R mv = w_uses (table_w (a Side1)) (a Side2) /\
    ((forall x, In x (u_val R mv) -> (0 < x)%R) <-> mw_first (a Side1) (p_Ur p Side1) /\ mw_first (a Side2) (p_Ur p Side2)) /\
    exists r1 r2, mw_variables (p_time p Side1) (p_time p Side1) (8 / 3) r1 r2 mw_weights (a Side1) (a Side2) = Ok mv.
Proof.
  intros Hb N1 N2 Hr2 HM Hm. pose proof (bf_wf _ _ Hb) as Hw. pose proof (bf_req _ _ Hb) as HR.
  assert (MAT : forall sd, matrix (p_Ur p sd) (p_M p) (p_m p sd)) by (intros sd; destruct (base_mat f p sd) as (A & _); try apply Hb; exact A).
  assert (LT : length (p_time p Side1) = p_M p).
  { destruct HR as (_ & _ & _ & _ & _ & _ & _ & _ & _ & A & _). destruct (decl_f1 f _ _ Hw A) as (l & D & Sz). pose proof (data_unique _ _ _ _ Hw D (bf_time _ _ Hb Side1)) as Q. injection Q as ->. eapply size_fun; [exact Hw|exact Sz|apply Hb]. }
  assert (AT : forall sd, attr f ("sensor_" ++ snum sd ++ "_name") = Ok (p_name p sd)).
  { intros sd. unfold attr. destruct Hw as (_ & _ & NA & _). rewrite (lookup_nodup _ _ _ NA (bf_names _ _ Hb sd)). reflexivity. }
  destruct (MAT Side1) as (LU1 & CU1). destruct (MAT Side2) as (LU2 & CU2).
  destruct (p_Ur p Side1) as [|r1 rows1] eqn:EU1; [cbn in LU1; lia|]. destruct (p_Ur p Side2) as [|r2 rows2] eqn:EU2; [cbn in LU2; lia|].
  destruct (mw_vars (p_time p Side1) r1 r2 (a Side1) (a Side2)) as (mv & ws & us & EMV & Hp & W1 & W2 & HV & HU).
  { intros E. rewrite E in LT. cbn in LT. lia. }
  { rewrite <- Hm. apply CU1. left. reflexivity. }
  { rewrite <- Hm. apply CU2. left. reflexivity. }
  { exact Hr2. }
  rewrite LT in Hp. rewrite <- !Hm in Hp.
  unfold mw_file. rewrite (AT Side1 : attr f "sensor_1_name" = _), (AT Side2 : attr f "sensor_2_name" = _). cbn [bind].
  pose proof (bf_time _ _ Hb Side1) as DT. pose proof (bf_ur _ _ Hb Side1) as DU1. pose proof (bf_ur _ _ Hb Side2) as DU2. cbn [snum append] in DT, DU1, DU2.
  rewrite (proj2 (fl1_data f _ _ Hw) DT). cbn [bind]. rewrite (proj2 (fl2_data f _ _ Hw) DU1), (proj2 (fl2_data f _ _ Hw) DU2). cbn [bind].
  rewrite (mw_instrument false _ _ N2), (mw_instrument true _ _ N1) by (congruence || auto). cbn [bind].
  unfold mw_run, read_matchup_data. cbn [mw_ur1 mw_ur2 mw_time1]. rewrite EU1, EU2. cbn [get nth_error bind]. rewrite EMV. cbn [bind].
  assert (T1 : length (map Z.of_nat (mw_types (a Side1))) = p_m p Side1) by (rewrite map_length, Hm; destruct (a Side1); reflexivity).
  assert (T2 : length (map Z.of_nat (mw_types (a Side2))) = p_m p Side2) by (rewrite map_length, Hm; destruct (a Side2); reflexivity).
  pose proof (set_types_base f p Side1 _ Hb T1) as B1. pose proof (set_types_base _ _ Side2 _ B1 T2) as B2.
  assert (ST : forall h q sd t, base_file h q -> length (mw_types t) = p_m q sd -> set_types h ("uncertainty_type" ++ snum sd) ("m" ++ snum sd) t = Ok (set_var h ("uncertainty_type" ++ snum sd) (IArr1 (map Z.of_nat (mw_types t))))) .
  { intros h q sd t Hh Ht. unfold set_types. destruct (bf_type _ _ Hh sd) as (v & Hv & En & _). pose proof (nvar_ok h v (bf_wf _ _ Hh) Hv) as NV. rewrite En in NV. rewrite NV. cbn [bind].
    rewrite (proj1 (size_ndim h _ _ (bf_wf _ _ Hh)) (bf_m _ _ Hh sd)). cbn [bind]. rewrite Ht, Nat.eqb_refl. reflexivity. }
  rewrite map_length in T1, T2.
  rewrite (ST f p Side1 (a Side1) Hb T1 : set_types f "uncertainty_type1" "m1" (a Side1) = _). cbn [bind].
  rewrite (ST _ _ Side2 (a Side2) B1 T2 : set_types _ "uncertainty_type2" "m2" (a Side2) = _). cbn [bind].
  assert (C2 : matrix (clear (a Side2) (p_Ur p Side2)) (p_M p) (p_m p Side2)) by (apply clear_mat; apply MAT).
  assert (C1 : matrix (clear (a Side1) (p_Ur p Side1)) (p_M p) (p_m p Side1)) by (apply clear_mat; apply MAT).
  pose proof (set_ur_base _ _ Side2 _ B2 C2) as B3. pose proof (set_ur_base _ _ Side1 _ B3 C1) as B4.
  rewrite EU1, EU2 in B4. cbn [snum append] in B4.
  assert (SZ : sized (mw_data p a) mv) by (eapply (packed_sized (mw_data p a)); [exact Hp|exact HV]).
  assert (SZ' := SZ). unfold mw_data in SZ'. rewrite EU1, EU2 in SZ'.
  assert (FM : fmt f32 "f8" "float64" (fun x => x)) by (left; auto).
  pose proof (append_ok f32 trunc _ _ _ _ _ mv FM B4 SZ') as EA.
  match type of EA with append_W _ _ _ ?h _ = Ok ?g => exists g, mv, ws, us; pose proof (appended_has "float64" h _ mv ltac:(cbn; tauto) B4 SZ') as HF end.
  rewrite smv_id in *. split; [exact EA|]. split; [unfold mw_data; rewrite EU1, EU2; exact HF|]. split; [exact Hp|]. split; [exact W1|]. split; [exact W2|].
  split; [|exists r1, r2; exact EMV]. rewrite HU. unfold mw_first, first3. cbn [hd_error]. split.
  - intros (H1 & H2). split; [intros Hne r c x [= <-] Hc Hx; eapply H1; eauto|intros Hne r c x [= <-] Hc Hx; eapply H2; eauto].
  - intros (H1 & H2). split; [intros Hne c x Hc Hx; eapply H1; eauto|intros c x Hc Hx; eapply H2; eauto].
Qed.

Lemma col_fun' (rows : list (list R)) c x y : CheckSpec.is_column rows c x -> CheckSpec.is_column rows c y -> x = y.
Proof. intros A B. apply (col_fun rows (c + 1)); apply col_conv; try lia; replace (c + 1 - 1) with c by lia; assumption. Qed.

Theorem mw_accepted f p a : base_file f p -> mw_name (a Side1) (p_name p Side1) -> mw_name (a Side2) (p_name p Side2) -> a Side2 <> Ref -> p_M p <> 0 -> (forall sd, p_m p sd = mw_covariates (a sd)) ->
  exists g mv, mw f = Ok g /\ has_file g (mw_data p a) mv /\ (check g = Ok [] <-> mw_good p a).
Proof.
  intros Hb N1 N2 Hr2 HM Hm. destruct (mw_result f p a Hb N1 N2 Hr2 HM Hm) as (g & mv & ws & us & E & HF & Hp & W1 & W2 & HU & _). exists g, mv. split; [exact E|]. split; [exact HF|].
  rewrite (has_accepted g (mw_data p a) mv ws us (p_M p) HF Hp). unfold mw_good, good_with. fold (covs_ok (mw_data p a) (wuse mv)). rewrite HU.
  assert (MAT : forall sd, matrix (p_Ur p sd) (p_M p) (p_m p sd) /\ matrix (p_Us p sd) (p_M p) (p_m p sd)) by (intros sd; destruct (base_mat f p sd) as (A & B & _); try apply Hb; auto).
  assert (ET : forall sd, p_type (mw_data p a) sd = map Z.of_nat (mw_types (a sd))) by (intros [|]; reflexivity).
  assert (EUr : forall sd, p_Ur (mw_data p a) sd = clear (a sd) (p_Ur p sd)) by (intros [|]; reflexivity).
  assert (EUs : forall sd, p_Us (mw_data p a) sd = p_Us p sd) by (intros [|]; reflexivity).
  assert (EW : forall sd, exists k, k <> 0 /\ wuse mv sd = w_uses k (a sd)) by (intros [|]; cbn [wuse]; [exists 1|exists (table_w (a Side1)); split; [destruct (a Side1); discriminate|exact W2]]; auto).
  assert (CV : covs_ok (mw_data p a) (wuse mv) <-> forall sd c ur us, c < p_m p sd -> CheckSpec.is_column (p_Ur p sd) c ur -> CheckSpec.is_column (p_Us p sd) c us -> mw_column (a sd) c ur us).
  { unfold covs_ok. split.
    - intros H sd c ur us' Hc E1 E2. destruct (EW sd) as (k & Hk & Ek). pose proof Hc as Hc'. rewrite Hm in Hc'.
      destruct (MAT sd) as ((LR & CR) & (LS & _)).
      apply (column_form (a sd) k c ur us' (p_M p) Hc' Hk HM); [destruct E2 as (L & _); lia|].
      apply (H sd (c + 1)).
      + lia.
      + replace (c + 1 - 1) with c by lia. rewrite ET, nth_error_map, (types_val _ _ Hc'). reflexivity.
      + apply col_conv; [lia|]. replace (c + 1 - 1) with c by lia. rewrite EUr, <- LR. eapply clear_col; eauto.
      + apply col_conv; [lia|]. replace (c + 1 - 1) with c by lia. rewrite EUs. exact E2.
      + replace (c + 1 - 1) with c by lia. rewrite Ek. apply wuse_val. exact Hc'.
    - intros H sd cov ty ur us' w Hc E1 E2 E3 E4. destruct (EW sd) as (k & Hk & Ek). rewrite Ek in E4. rewrite EUr in E2. rewrite EUs in E3. rewrite ET, nth_error_map in E1.
      apply col_conv in E2, E3; [|lia|lia]. set (c := cov - 1) in *.
      destruct (MAT sd) as ((LR & CR) & (LS & CS)).
      assert (Hcm : c < mw_covariates (a sd)). { replace (mw_covariates (a sd)) with (length (mw_types (a sd))) by (destruct (a sd); reflexivity). apply nth_error_Some. destruct (nth_error (mw_types (a sd)) c); [discriminate|discriminate E1]. }
      assert (Hcp : c < p_m p sd) by (rewrite Hm; exact Hcm).
      rewrite (types_val _ _ Hcm) in E1. cbn [option_map] in E1. rewrite (wuse_val _ _ _ Hcm) in E4. injection E1 as <-. injection E4 as <-.
      destruct (columns_exist (p_Ur p sd) (p_m p sd) CR c Hcp) as (ur0 & U0). pose proof (clear_col (a sd) _ c _ _ CR Hcp U0) as UC. pose proof (col_fun' _ _ _ _ E2 UC) as ->. rewrite LR.
      apply (column_form (a sd) k c ur0 us' (p_M p) Hcm Hk HM); [destruct E3 as (L & _); lia|]. apply (H sd); assumption. }
  assert (XN : covs_ok (mw_data p a) (wuse mv) -> x_nonneg (mw_data p a)).
  { rewrite CV. intros H sd r x Hr Hx. rewrite EUr, EUs in Hr. destruct (MAT sd) as ((LR & CR) & (LS & CS)). pose proof (clear_mat (a sd) _ _ _ (conj LR CR)) as (LC & CC).
    apply In_nth_error in Hx. destruct Hx as (c & Hx).
    assert (Hl : length r = p_m p sd) by (destruct Hr as [Hr|Hr]; [apply CC|apply CS]; exact Hr).
    assert (Hcp : c < p_m p sd) by (rewrite <- Hl; apply nth_error_Some; congruence).
    destruct (columns_exist (p_Ur p sd) (p_m p sd) CR c Hcp) as (ur & E1). destruct (columns_exist (p_Us p sd) (p_m p sd) CS c Hcp) as (us' & E2).
    specialize (H sd c ur us' Hcp E1 E2). unfold mw_column in H.
    destruct Hr as [Hr|Hr]; apply In_nth_error in Hr; destruct Hr as (i & Hi).
    - pose proof (clear_col (a sd) _ c _ _ CR Hcp E1) as (_ & UC). specialize (UC i r Hi). rewrite Hx in UC. apply nth_error_In in UC.
      destruct (c <? averaged (a sd)); [apply repeat_spec in UC; subst; lra|]. destruct H as (H & _). rewrite Forall_forall in H. specialize (H x UC). lra.
    - destruct E2 as (_ & E2). specialize (E2 i r Hi). rewrite Hx in E2. apply nth_error_In in E2.
      assert (Q : Forall (eq 0%R) us' \/ Forall (Rlt 0) us') by (destruct (c <? averaged (a sd)); [destruct (c <? 2)|destruct H as (_ & H); destruct (c =? averaged (a sd))]; auto).
      destruct Q as [Q|Q]; rewrite Forall_forall in Q; specialize (Q x E2); lra. }
  change (p_name (mw_data p a)) with (p_name p). change (p_Kr (mw_data p a)) with (p_Kr p). change (p_Ks (mw_data p a)) with (p_Ks p). change (p_M (mw_data p a)) with (p_M p). split.
  - intros (_ & (A & B & C) & _ & D1 & D2). split; [exact A|]. split; [exact B|]. pose proof (proj1 CV C) as C0. intros sd. split; [destruct sd; assumption|]. apply C0.
  - intros (A & B & C). assert (C' : covs_ok (mw_data p a) (wuse mv)) by (apply (proj2 CV); intros sd; apply C). split; [reflexivity|]. split; [auto|]. split; [auto|]. split; [apply (C Side1)|apply (C Side2)].
Qed.
End M.
