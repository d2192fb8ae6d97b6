(** * Proofs for C142: which files of pmh2fiduceo.py the checker accepts (main result). *)
From Coq Require Import Reals Lra.
From Verif Require Import Base BaseLemmas ReaderModel ReaderSpec ReaderMain UncModel UncSpec UncProofs SimModel GNModel WModel WSpec WProofs WProofs2 WProofs3 WProofs4 CheckModel CheckSpec CheckProofs CheckProofs2 CheckProofs3 CheckProofs4 CheckProofs5 HRModel PmhModel PmhSpec PmhProofs PmhProofs2 PmhProofs3 IOModel IOSpec IOProofs IOProofs2 ConvModel ConvSpec ConvProofs ConvProofs2 ConvProofs3 ConvProofs4 ConvProofs5 ConvProofs6 ConvProofs7 ConvProofs8.
Open Scope nat_scope.

(** One side of a file with constant uncertainties. *)
Definition side_ok (types : list Z) (ur us : list (list R)) (use : list nat) : Prop :=
  forall cov ty u s w, 1 <= cov -> nth_error types (cov - 1) = Some ty -> ReaderSpec.is_column ur cov u -> ReaderSpec.is_column us cov s -> nth_error use (cov - 1) = Some w -> only_form ty u s w.
Lemma side_vars vs n l l' : n <> 0 -> typed vs -> plain_us vs -> constant_rows (Some l) n (length vs) (fun c => option_map random_part (nth_error vs c)) -> constant_rows (Some l') n (length vs) (fun c => option_map v_uS (nth_error vs c)) ->
  (side_ok (map Z.of_nat (map v_type vs)) l l' (uses vs) <-> forall v, In v vs -> v_ok v).
Proof.
  intros Hn Ht Hp C1 C2. unfold side_ok. split.
  - intros H v Hv. apply In_nth_error in Hv. destruct Hv as (c & Hc). assert (Hl : c < length vs) by (apply nth_error_Some; congruence).
    destruct C1 as (l0 & E0 & L1 & H1). injection E0 as <-. destruct C2 as (l0 & E0 & L2 & H2). injection E0 as <-.
    apply (var_form v n Hn); [apply Ht; eapply nth_error_In; eauto|apply Hp; eapply nth_error_In; eauto|].
    apply (H (c + 1)).
    + lia.
    + replace (c + 1 - 1) with c by lia. rewrite map_map, nth_error_map, Hc. reflexivity.
    + apply col_conv; [lia|]. replace (c + 1 - 1) with c by lia. split; [rewrite repeat_length; auto|]. intros i r Hi. rewrite repeat_nth by (rewrite <- L1; apply nth_error_Some; congruence). destruct (H1 i r Hi) as (_ & Q). rewrite (Q c Hl), Hc. reflexivity.
    + apply col_conv; [lia|]. replace (c + 1 - 1) with c by lia. split; [rewrite repeat_length; auto|]. intros i r Hi. rewrite repeat_nth by (rewrite <- L2; apply nth_error_Some; congruence). destruct (H2 i r Hi) as (_ & Q). rewrite (Q c Hl), Hc. reflexivity.
    + replace (c + 1 - 1) with c by lia. unfold uses. rewrite nth_error_map, Hc. reflexivity.
  - intros H cov ty u s w Hc E1 E2 E3 E4. apply col_conv in E2, E3; [|lia|lia]. set (c := cov - 1) in *. rewrite map_map, nth_error_map in E1. unfold uses in E4. rewrite nth_error_map in E4.
    destruct (nth_error vs c) as [v|] eqn:Ev; [|discriminate]. cbn in E1, E4. injection E1 as <-. injection E4 as <-. assert (Hl : c < length vs) by (apply nth_error_Some; congruence).
    rewrite (const_col _ _ _ _ c (random_part v) _ C1 Hl ltac:(cbv beta; rewrite Ev; reflexivity) E2), (const_col _ _ _ _ c (v_uS v) _ C2 Hl ltac:(cbv beta; rewrite Ev; reflexivity) E3).
    apply var_form; auto; [apply Ht|apply Hp|apply H]; eapply nth_error_In; eauto.
Qed.
Lemma side_ref uref n l l' : n <> 0 -> constant_rows (Some l) n 1 (fun _ => Some uref) -> constant_rows (Some l') n 1 (fun _ => Some 0%R) -> (side_ok [1%Z] l l' [0] <-> (0 < uref)%R).
Proof.
  intros Hn C1 C2. unfold side_ok. split.
  - intros H. destruct C1 as (l0 & E0 & L1 & H1). injection E0 as <-. destruct C2 as (l0 & E0 & L2 & H2). injection E0 as <-.
    apply (ref_form uref n Hn). apply (H 1); [lia|reflexivity| | |reflexivity].
    + apply col_conv; [lia|]. cbn [Nat.sub]. split; [rewrite repeat_length; auto|]. intros i r Hi. rewrite repeat_nth by (rewrite <- L1; apply nth_error_Some; congruence). destruct (H1 i r Hi) as (_ & Q). rewrite (Q 0 ltac:(lia)). reflexivity.
    + apply col_conv; [lia|]. cbn [Nat.sub]. split; [rewrite repeat_length; auto|]. intros i r Hi. rewrite repeat_nth by (rewrite <- L2; apply nth_error_Some; congruence). destruct (H2 i r Hi) as (_ & Q). rewrite (Q 0 ltac:(lia)). reflexivity.
  - intros H cov ty u s w Hc E1 E2 E3 E4. destruct cov as [|[|cov]]; [lia| |destruct cov; discriminate]. cbn in E1, E4. injection E1 as <-. injection E4 as <-. apply col_conv in E2, E3; [|lia|lia]. cbn [Nat.sub] in E2, E3.
    rewrite (const_col _ _ _ _ 0 uref _ C1 ltac:(lia) eq_refl E2), (const_col _ _ _ _ 0 0%R _ C2 ltac:(lia) eq_refl E3). apply ref_form; auto.
Qed.
Lemma const_nonneg l n m g : constant_rows (Some l) n m g -> (forall c x, c < m -> g c = Some x -> (0 <= x)%R) -> forall r x, In r l -> In x r -> (0 <= x)%R.
Proof.
  intros (l0 & E & L & H) Hg r x Hr Hx. injection E as <-. apply In_nth_error in Hr. destruct Hr as (j & Hj). destruct (H j r Hj) as (Lr & Q). apply In_nth_error in Hx. destruct Hx as (c & Hc).
  assert (Hlt : c < m) by (rewrite <- Lr; apply nth_error_Some; congruence). apply (Hg c); [exact Hlt|]. rewrite <- (Q c Hlt). exact Hc.
Qed.

Section P.
Context (pyfloat : text -> res R) (pyint : text -> res Z) (f32 : R -> R) (trunc : R -> Z).
Theorem pmh_accepted vals w pams uncs dir d at_ im ns at' uref vs k : open_data_pams pyfloat pyint pams = Ok (im, ns, at') -> open_data_uncs pyfloat pyint uncs = Ok (uref, vs, k) ->
  (forall r, In r vals -> length r = w) -> run_conversion pyfloat pyint vals pams uncs dir = Ok (d, at_) -> length im = length ns ->
  forall i a b rest n last f, nth_error im i = Some (a :: b :: rest) -> nth_error ns i = Some n -> nth_error ns (length ns - 1) = Some last -> find_file (file_name (a :: b :: rest)) d = Some f ->
  exists g mv, umat R (uf_u R (p_file f)) = Some mv /\ pmh_nc f32 trunc f = Ok g /\ has_file g (pmh_data f) (smv f32 mv) /\ row_pointers g /\ (check g = Ok [] <-> pmh_good f32 uref k vs a b n last).
Proof.
  intros E1 E2 Hr HR Hlen i a b rest n last f Hi Hz Hlast Hf.
  destruct (pmh_parts pyfloat pyint _ _ _ _ _ _ _ _ _ _ _ _ _ E1 E2 Hr HR Hlen i a b rest n last f Hi Hz Hlast Hf) as (N0 & L0 & HH & v0 & W & V1 & V2 & V3 & V4 & V5 & Em).
  pose proof (uncs_typed _ _ _ _ _ _ E2) as Hty. pose proof (uncs_us _ _ _ _ _ _ E2) as Hpl.
  destruct (filter0 _ _ V1) as (c0 & C1 & C2 & C3). assert (Hv0 : In v0 vs) by (eapply nth_error_In; eauto).
  destruct (pmh_shape _ _ _ _ _ _ _ _ _ HH) as (WS & SS & PM).
  pose proof (pmh_packed vs a v0 W Hv0 C2 V2 V3) as Hp. cbv zeta in Hp.
  set (mv := mkMatvars R (if is_ref a then [0] else uses vs) (uses vs) (if is_ref a then [0] else uses vs) (uses vs) [length (c_indices R W)] [c_indptr R W] (c_indices R W) (c_data R W) [c_ncols R W] (repeat (v_uR v0) (c_ncols R W))) in *.
  assert (Hp' : packed mv [W] [repeat (v_uR v0) (c_ncols R W)] (c_nrows R W) (p_m (pmh_data f) Side1) (p_m (pmh_data f) Side2)) by (rewrite !PM; exact Hp).
  assert (SZ : sized (pmh_data f) mv). { apply (packed_sized _ _ _ _ _ Hp'). cbn [mv w_val w_nnz list_sum fold_right]. destruct V2 as (_ & _ & Q & _). cbn. lia. }
  destruct (pmh_write f32 trunc f WS SS mv Em SZ) as (g & EG & HF). exists g, mv. split; [exact Em|]. split; [exact EG|]. split; [exact HF|].
  pose proof (packed_stored f32 _ _ _ _ _ _ Hp') as HP. split; [exact (packed_rows _ _ _ _ _ _ _ _ HF HP)|].
  rewrite (has_accepted g (pmh_data f) (smv f32 mv) _ _ _ HF HP). rewrite V4.
  unfold holds_rows in HH. destruct HH as (Hv & H1 & H2 & H3 & H4 & H5 & H6 & H7 & H8 & H9 & H10 & H11 & H12 & H13 & Hj & Hre & Hnr & U1 & U2 & U3).
  assert (Hn : Z.to_nat n <> 0) by lia.
  change (p_M (pmh_data f)) with (d_M R (uf_d R (p_file f))). rewrite H1.
  assert (Q1 : Z.to_nat last = Z.to_nat n <-> n = last) by lia. rewrite Q1.
  assert (QU : (forall x, In x (u_val R (smv f32 mv)) -> (0 < x)%R) <-> (0 < f32 (v_uR v0))%R).
  { cbn [smv u_val mv]. assert (RM : forall m, map f32 (repeat (v_uR v0) m) = repeat (f32 (v_uR v0)) m) by (induction m; cbn; congruence). rewrite RM. apply repeat_pos. exact V5. }
  rewrite QU.
  assert (QF : (exists c v, nth_error vs c = Some v /\ v_type v = 3 /\ (0 < f32 (v_uR v))%R /\ forall c' v', c' < c -> nth_error vs c' = Some v' -> v_type v' <> 3) <-> (0 < f32 (v_uR v0))%R).
  { split; [|intros H; exists c0, v0; auto]. intros (c & v & A1 & A2 & A3 & A4). assert (c = c0). { destruct (Nat.lt_trichotomy c c0) as [H|[H|H]]; [exfalso; apply (C3 c v H A1 A2)|exact H|exfalso; apply (A4 c0 v0 H C1 C2)]. } subst c. congruence. }
  unfold pmh_good. rewrite QF. unfold good_with.
  assert (QN : p_name (pmh_data f) Side1 <> p_name (pmh_data f) Side2 <-> a <> b) by (cbn [pmh_data p_name]; rewrite H2, H3; symmetry; apply text_name).
  rewrite QN.
  assert (QK : (forall i r s, nth_error (p_Kr (pmh_data f)) i = Some r -> nth_error (p_Ks (pmh_data f)) i = Some s -> (0 <= r /\ 0 <= s /\ (0 < r \/ 0 < s))%R) <-> (0 < k)%R).
  { cbn [pmh_data p_Kr p_Ks]. split.
    - intros H. destruct (Hj 0 ltac:(lia)) as (? & ? & ? & _ & _ & _ & _ & _ & _ & _ & _ & _ & _ & A & B). destruct (H 0 _ _ A B) as (_ & _ & [Q|Q]); lra.
    - intros H j r s A B. assert (Hlt : j < Z.to_nat n) by (rewrite <- H12; apply nth_error_Some; congruence). destruct (Hj j Hlt) as (? & ? & ? & _ & _ & _ & _ & _ & _ & _ & _ & _ & _ & A' & B'). assert (r = k) by congruence. assert (s = 0%R) by congruence. subst. lra. }
  rewrite QK.
  assert (QS : (forall sd cov ty ur us w, 1 <= cov -> nth_error (p_type (pmh_data f) sd) (cov - 1) = Some ty -> ReaderSpec.is_column (p_Ur (pmh_data f) sd) cov ur -> ReaderSpec.is_column (p_Us (pmh_data f) sd) cov us ->
     nth_error (wuse (smv f32 mv) sd) (cov - 1) = Some w -> only_form ty ur us w) <-> (a = tx "0" -> (0 < uref)%R) /\ forall v, In v vs -> v_ok v).
  { assert (SD : (forall sd cov ty ur us w, 1 <= cov -> nth_error (p_type (pmh_data f) sd) (cov - 1) = Some ty -> ReaderSpec.is_column (p_Ur (pmh_data f) sd) cov ur -> ReaderSpec.is_column (p_Us (pmh_data f) sd) cov us ->
       nth_error (wuse (smv f32 mv) sd) (cov - 1) = Some w -> only_form ty ur us w) <->
       side_ok (map Z.of_nat (ut1 R (uf_u R (p_file f)))) (rows_of (ur1 R (uf_u R (p_file f)))) (rows_of (us1 R (uf_u R (p_file f)))) (if is_ref a then [0] else uses vs) /\
       side_ok (map Z.of_nat (ut2 R (uf_u R (p_file f)))) (rows_of (ur2 R (uf_u R (p_file f)))) (rows_of (us2 R (uf_u R (p_file f)))) (uses vs)).
    { unfold side_ok. split; [intros H; split; [exact (H Side1)|exact (H Side2)]|intros (HA & HB) [|]; [exact HA|exact HB]]. }
    rewrite SD. clear SD. destruct U2 as (l2 & L2 & U2). destruct U3 as (l3 & L3 & U3). rewrite L2, L3, U1. cbn [rows_of].
    rewrite (side_vars vs (Z.to_nat n) l2 l3 Hn Hty Hpl (ex_intro _ l2 (conj eq_refl U2)) (ex_intro _ l3 (conj eq_refl U3))).
    destruct (is_ref a) eqn:Er.
    - pose proof (proj1 (is_ref_spec a) Er) as Ea. destruct (Hre Ea) as (T1 & (m1 & M1 & M1') & (m2 & M2 & M2')). rewrite M1, M2, T1. cbn [rows_of map Z.of_nat Pos.of_succ_nat].
      rewrite (side_ref uref (Z.to_nat n) m1 m2 Hn (ex_intro _ m1 (conj eq_refl M1')) (ex_intro _ m2 (conj eq_refl M2'))). tauto.
    - assert (Ea : a <> tx "0") by (intros E; apply is_ref_spec in E; congruence). destruct (Hnr Ea) as (T1 & (m1 & M1 & M1') & (m2 & M2 & M2')). rewrite M1, M2, T1. cbn [rows_of].
      rewrite (side_vars vs (Z.to_nat n) m1 m2 Hn Hty Hpl (ex_intro _ m1 (conj eq_refl M1')) (ex_intro _ m2 (conj eq_refl M2'))). tauto. }
  rewrite QS.
  assert (QX : (a = tx "0" -> (0 < uref)%R) /\ (forall v, In v vs -> v_ok v) -> x_nonneg (pmh_data f)).
  { intros (Ha & Hok).
    assert (PR : forall c x, c < length vs -> option_map random_part (nth_error vs c) = Some x -> (0 <= x)%R).
    { intros c x Hc Hx. destruct (nth_error vs c) as [v|] eqn:Ev; [|discriminate]. cbn in Hx. injection Hx as <-. unfold random_part. destruct (Nat.eqb_spec (v_type v) 3) as [_|E]; [lra|]. destruct (Hok v (nth_error_In _ _ Ev) E) as (Q & _). lra. }
    assert (PS : forall c x, c < length vs -> option_map v_uS (nth_error vs c) = Some x -> (0 <= x)%R).
    { intros c x Hc Hx. destruct (nth_error vs c) as [v|] eqn:Ev; [|discriminate]. cbn in Hx. injection Hx as <-. pose proof (nth_error_In _ _ Ev) as Iv. destruct (Nat.eq_dec (v_type v) 2) as [E|E]; [destruct (Hok v Iv ltac:(lia)) as (_ & Q); specialize (Q E); lra|rewrite (Hpl v Iv E); lra]. }
    intros [|] r x Hin Hx; cbn [pmh_data p_Ur p_Us] in Hin.
    - destruct (is_ref a) eqn:Er.
      + pose proof (proj1 (is_ref_spec a) Er) as Ea. specialize (Ha Ea). destruct (Hre Ea) as (T1 & (m1 & M1 & M1') & (m2 & M2 & M2')). rewrite M1, M2 in Hin. cbn [rows_of] in Hin.
        destruct Hin as [Hin|Hin]; [eapply (const_nonneg m1 _ _ _ (ex_intro _ m1 (conj eq_refl M1')))|eapply (const_nonneg m2 _ _ _ (ex_intro _ m2 (conj eq_refl M2')))]; eauto; intros c y _ [= <-]; lra.
      + assert (Ea : a <> tx "0") by (intros E; apply is_ref_spec in E; congruence). destruct (Hnr Ea) as (T1 & (m1 & M1 & M1') & (m2 & M2 & M2')). rewrite M1, M2 in Hin. cbn [rows_of] in Hin.
        destruct Hin as [Hin|Hin]; [eapply (const_nonneg m1 _ _ _ (ex_intro _ m1 (conj eq_refl M1')))|eapply (const_nonneg m2 _ _ _ (ex_intro _ m2 (conj eq_refl M2')))]; eauto.
    - destruct U2 as (l2 & L2 & U2). destruct U3 as (l3 & L3 & U3). rewrite L2, L3 in Hin. cbn [rows_of] in Hin.
      destruct Hin as [Hin|Hin]; [eapply (const_nonneg l2 _ _ _ (ex_intro _ l2 (conj eq_refl U2)))|eapply (const_nonneg l3 _ _ _ (ex_intro _ l3 (conj eq_refl U3)))]; eauto. }
  unfold v_ok in *. tauto.
Qed.
End P.
