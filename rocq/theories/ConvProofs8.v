(** * Proofs for C142: which files of pmh2fiduceo.py the checker accepts (continued). *)
From Coq Require Import Reals Lra.
From Verif Require Import Base BaseLemmas ReaderModel ReaderSpec ReaderMain UncModel UncSpec UncProofs SimModel GNModel WModel WSpec WProofs WProofs2 WProofs3 WProofs4 CheckModel CheckSpec CheckProofs CheckProofs2 CheckProofs3 CheckProofs4 CheckProofs5 HRModel PmhModel PmhSpec PmhProofs PmhProofs2 PmhProofs3 IOModel IOSpec IOProofs IOProofs2 ConvModel ConvSpec ConvProofs ConvProofs2 ConvProofs3 ConvProofs4 ConvProofs5 ConvProofs6 ConvProofs7.
Open Scope nat_scope.

Lemma const_matrix o n m g : constant_rows o n m g -> exists l, o = Some l /\ matrix l n m.
Proof. intros H. destruct (shaped_const _ _ _ _ H) as (l & E & L & Hl). exists l. split; [exact E|]. split; [exact L|exact Hl]. Qed.
Lemma pmh_shape vals uref k vs i0 n a b f : holds_rows vals uref k vs i0 n a b f -> well_shaped (pmh_data f) /\
  (exists r1 r2 s1 s2, ur1 R (uf_u R (p_file f)) = Some r1 /\ ur2 R (uf_u R (p_file f)) = Some r2 /\ us1 R (uf_u R (p_file f)) = Some s1 /\ us2 R (uf_u R (p_file f)) = Some s2) /\
  (forall sd, p_m (pmh_data f) sd = match sd with Side1 => if is_ref a then 1 else length vs | Side2 => length vs end).
Proof.
  unfold holds_rows. intros (Hv & H1 & H2 & H3 & H4 & H5 & H6 & H7 & H8 & H9 & H10 & H11 & H12 & H13 & Hj & Hre & Hnr & U1 & U2 & U3).
  assert (Hm1 : d_m1 R (uf_d R (p_file f)) = (if is_ref a then 1 else length vs)).
  { destruct (is_ref a) eqn:Er; [apply H5, is_ref_spec, Er|]. apply H6. intros E. apply is_ref_spec in E. congruence. }
  assert (S1 : length (ut1 R (uf_u R (p_file f))) = d_m1 R (uf_d R (p_file f)) /\ (exists l, ur1 R (uf_u R (p_file f)) = Some l /\ matrix l n (d_m1 R (uf_d R (p_file f)))) /\ exists l, us1 R (uf_u R (p_file f)) = Some l /\ matrix l n (d_m1 R (uf_d R (p_file f)))).
  { destruct (is_ref a) eqn:Er.
    - destruct (Hre (proj1 (is_ref_spec a) Er)) as (T & A & B). rewrite Hm1, T. split; [reflexivity|]. split; eapply const_matrix; eauto.
    - destruct Hnr as (T & A & B); [intros E; apply is_ref_spec in E; congruence|]. rewrite Hm1, T. split; [apply map_length|]. split; eapply const_matrix; eauto. }
  destruct S1 as (LT1 & (r1 & R1 & MR1) & (s1 & S1 & MS1)). destruct (const_matrix _ _ _ _ U2) as (r2 & R2 & MR2). destruct (const_matrix _ _ _ _ U3) as (s2 & S2 & MS2).
  split; [|split; [exists r1, r2, s1, s2; auto|intros [|]; cbn [pmh_data p_m]; auto]].
  unfold well_shaped, pmh_data; cbn [p_M p_m p_X p_Ur p_Us p_type p_time p_K p_Kr p_Ks p_more]. rewrite H1. split; [|split; [exact H9|split; [exact H12|split; [exact H13|split; [constructor|intros v []]]]]].
  intros [|].
  - rewrite R1, S1. cbn [rows_of]. split; [|split; [exact MR1|split; [exact MS1|split; [rewrite map_length; exact LT1|exact H10]]]]. split; [exact H7|].
    intros r Hin. apply In_nth_error in Hin. destruct Hin as (j & Hj'). assert (Hlt : j < n) by (rewrite <- H7; apply nth_error_Some; congruence). destruct (Hj j Hlt) as (? & x1 & x2 & _ & X1 & X2 & _). congruence.
  - rewrite R2, S2, H4. cbn [rows_of]. split; [|split; [exact MR2|split; [exact MS2|split; [rewrite map_length, U1; apply map_length|exact H11]]]]. split; [exact H8|].
    intros r Hin. apply In_nth_error in Hin. destruct Hin as (j & Hj'). assert (Hlt : j < n) by (rewrite <- H8; apply nth_error_Some; congruence). destruct (Hj j Hlt) as (? & x1 & x2 & _ & _ & _ & _ & X1 & X2 & _). congruence.
Qed.

Section P.
Context (f32 : R -> R) (trunc : R -> Z).
Lemma pmh_write f : well_shaped (pmh_data f) -> (exists r1 r2 s1 s2, ur1 R (uf_u R (p_file f)) = Some r1 /\ ur2 R (uf_u R (p_file f)) = Some r2 /\ us1 R (uf_u R (p_file f)) = Some s1 /\ us2 R (uf_u R (p_file f)) = Some s2) ->
  forall mv, umat R (uf_u R (p_file f)) = Some mv -> sized (pmh_data f) mv -> exists g, pmh_nc f32 trunc f = Ok g /\ has_file g (pmh_data f) (smv f32 mv).
Proof.
  intros Hs (r1 & r2 & s1 & s2 & R1 & R2 & S1 & S2) mv Em Hz.
  assert (EQ : pmh_nc f32 trunc f = do g <- write_as f32 trunc "f8" (args_of (pmh_data f) None);; append_W f32 trunc "f4" g mv).
  { unfold pmh_nc, args_of, pmh_data. cbn [p_M p_m p_name p_X p_Ur p_Us p_type p_time p_K p_Kr p_Ks p_more]. rewrite R1, R2, S1, S2, Em. reflexivity. }
  rewrite EQ. rewrite (written_as f32 trunc "f8" "float64" (fun x => x) (pmh_data f) None (or_introl (conj eq_refl (conj eq_refl eq_refl))) Hs). cbn [bind].
  pose proof (mapped_shaped (fun x => x) _ Hs) as Hs'. assert (FN : float_name "float64") by (cbn; tauto). assert (FN4 : float_name "float32") by (cbn; tauto).
  pose proof (as_base f32 trunc "float64" _ FN Hs') as Hb.
  rewrite (append_ok f32 trunc "f4" "float32" f32 _ _ mv (or_intror (conj eq_refl (conj eq_refl eq_refl))) Hb Hz).
  eexists. split; [reflexivity|]. assert (Hz' : sized (mapped (fun x => x) (pmh_data f)) (smv f32 mv)) by (unfold sized, smv in *; cbn [w_row w_nnz w_col w_val u_val u_row_count wuse1 wuse2 uuse1 uuse2] in *; rewrite !map_length; exact Hz).
  pose proof (appended_has "float32" _ _ _ FN4 Hb Hz') as HF. remember (pmh_data f) as q eqn:Eq. clear Eq Hz Hz' EQ. revert HF. 
  assert (MM : mapped (fun x => x) q = mkData (p_M q) (p_m q) (p_name q) (fun sd => map (map (fun x => x)) (p_X q sd)) (fun sd => map (map (fun x => x)) (p_Ur q sd)) (fun sd => map (map (fun x => x)) (p_Us q sd)) (p_type q) (p_time q) (map (fun x => x) (p_K q)) (map (fun x => x) (p_Kr q)) (map (fun x => x) (p_Ks q)) (p_more q)) by reflexivity.
  intros [A1 A2 A3 A4 A5 A6 A7 A8 A9 A10 A11 A12 A13 A14 B1 B2 B3 B4 B5 B6 B7 B8].
  cbn [mapped p_M p_m p_name p_X p_Ur p_Us p_type p_time p_K p_Kr p_Ks p_more] in *.
  constructor; auto.
  - intros sd. rewrite <- (mmid (p_X q sd)). apply A8.
  - intros sd. rewrite <- (mmid (p_Ur q sd)). apply A10.
  - intros sd. rewrite <- (mmid (p_Us q sd)). apply A11.
  - rewrite map_id in A12. exact A12.
  - rewrite map_id in A13. exact A13.
  - rewrite map_id in A14. exact A14.
Qed.

Lemma uses_len vs : length (uses vs) = length vs.
Proof. apply map_length. Qed.
Lemma uses_in vs x : In x (uses vs) -> x <= 1.
Proof. unfold uses. rewrite in_map_iff. intros (v & <- & _). destruct (v_type v =? 3); lia. Qed.
Lemma pmh_packed vs a v0 W (use1 := if is_ref a then [0] else uses vs)
  (mv := mkMatvars R use1 (uses vs) use1 (uses vs) [length (c_indices R W)] [c_indptr R W] (c_indices R W) (c_data R W) [c_ncols R W] (repeat (v_uR v0) (c_ncols R W))) :
  In v0 vs -> v_type v0 = 3 -> wf_csr W -> last_column_used W -> packed mv [W] [repeat (v_uR v0) (c_ncols R W)] (c_nrows R W) (if is_ref a then 1 else length vs) (length vs).
Proof.
  intros Hv Ht H1 H2.
  assert (I1 : In 1 (uses vs)) by (unfold uses; apply in_map_iff; exists v0; rewrite Ht; auto).
  assert (HL : forall x, In x (use1 ++ uses vs) -> x <= 1). { intros x Hx. apply in_app_or in Hx. destruct Hx as [Hx|Hx]; [|eapply uses_in; eauto]. unfold use1 in Hx. destruct (is_ref a); [destruct Hx as [<- |[]]; lia|eapply uses_in; eauto]. }
  assert (Hn : length vs <> 0) by (destruct vs; [destruct Hv|discriminate]).
  apply (packed_same mv _ _ W); unfold mv; cbn [wuse1 wuse2 uuse1 uuse2 w_nnz w_row w_col w_val u_row_count u_val map concat]; rewrite ?app_nil_r, ?repeat_length; auto.
  - discriminate.
  - intros w [<- |[]]; reflexivity.
  - intros u [<- |[]]. apply repeat_length.
  - unfold use1. destruct (is_ref a); [reflexivity|apply uses_len].
  - apply uses_len.
  - unfold use1. destruct (is_ref a); [reflexivity|apply uses_len].
  - apply uses_len.
  - destruct (is_ref a); [discriminate|exact Hn].
  - intros k Hk. cbn in Hk. assert (k = 1) by lia. subst k. apply in_or_app. auto.
  - intros k Hk. cbn in Hk. assert (k = 1) by lia. subst k. apply in_or_app. auto.
  - intros i w u A B. rewrite A in B. injection B as ->. tauto.
Qed.
End P.
