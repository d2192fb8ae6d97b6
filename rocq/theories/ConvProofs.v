(** * Proofs for C140-C146: files with W matrices. *)
From Coq Require Import Reals Lra.
From Verif Require Import Base BaseLemmas ReaderModel ReaderSpec ReaderMain UncModel UncSpec UncProofs SimModel CheckModel CheckSpec CheckProofs CheckProofs2 CheckProofs3 CheckProofs4 CheckProofs5 IOModel IOSpec IOProofs IOProofs2 ConvModel ConvSpec.
Open Scope nat_scope.

Lemma pack_mv wu1 wu2 uu1 uu2 ws us mv r : ws <> [] -> (forall w, In w ws -> wf_csr w /\ c_nrows R w = r /\ last_column_used w) ->
  return_w_matrix_variables R 0%R wu1 wu2 uu1 uu2 ws us = Ok mv ->
  mv = mkMatvars R wu1 wu2 uu1 uu2 (map (fun w => length (c_indices R w)) ws) (map (c_indptr R) ws) (concat (map (c_indices R) ws)) (concat (map (c_data R) ws)) (map (@length R) us) (concat us).
Proof.
  intros Hne Hw. unfold return_w_matrix_variables. cbv zeta.
  assert (E0 : map (nnz R) ws = map (fun w => length (c_indices R w)) ws).
  { apply map_ext_in. intros w Hi. destruct (Hw w Hi) as (W1 & _). rewrite nnz_wf by exact W1. symmetry. apply W1. }
  assert (E1 : map (nnz R) ws = map (@length R) (map (c_data R) ws)) by (rewrite map_map; apply map_ext_in; intros w Hi; apply nnz_wf; apply (Hw w Hi)).
  assert (E2 : map (nnz R) ws = map (@length nat) (map (c_indices R) ws)) by (rewrite E0, map_map; reflexivity).
  replace (pack 0%R (map (c_data R) ws) (map (nnz R) ws)) with (Ok (concat (map (c_data R) ws)) : res (list R)) by (rewrite E1, pack_ok; reflexivity).
  replace (pack 0 (map (c_indices R) ws) (map (nnz R) ws)) with (Ok (concat (map (c_indices R) ws)) : res (list nat)) by (rewrite E2, pack_ok; reflexivity). cbn [bind].
  destruct ws as [|w0 ws']; [congruence|]. remember (w0 :: ws') as ws eqn:Ews.
  assert (G0 : get ws 0 = Ok w0) by (subst; reflexivity). rewrite G0. cbn [bind].
  rewrite (mapM_Ok_map _ (c_indptr R)).
  2:{ intros w Hi. unfold row_assign. destruct (Hw w Hi) as ((L & _) & N & _). destruct (Hw w0 ltac:(subst; left; auto)) as ((L0 & _) & N0 & _).
      pose proof (assign_app [] (repeat 0 (length (c_indptr R w0))) [] (c_indptr R w)) as E.
      rewrite repeat_length in E. cbn [length plus app] in E. rewrite !app_nil_r in E. apply E. lia. }
  cbn [bind]. rewrite pack_ok. cbn [bind]. intros H. injection H as <-. rewrite E0. reflexivity.
Qed.

Lemma file_mat f n d e rows sz k : wf_nc f -> declared f n [d; e] float_types -> data f n (Arr2 rows) -> size f d sz -> size f e k -> matrix rows sz k.
Proof.
  intros Hw HD Hd S1 S2. destruct (decl_f2 f _ _ _ Hw HD) as (l & k' & D & A & B & C). pose proof (data_unique _ _ _ _ Hw Hd D) as Q. injection Q as ->.
  pose proof (size_fun _ _ _ _ Hw A S1) as <-. pose proof (size_fun _ _ _ _ Hw B S2) as <-. split; auto.
Qed.
Lemma file_int f n d l k : wf_nc f -> declared f n [d] int_types -> data f n (IArr1 l) -> size f d k -> length l = k.
Proof.
  intros Hw HD Hd S1. destruct (decl_i1 f _ _ Hw HD) as (l' & D & A). pose proof (data_unique _ _ _ _ Hw Hd D) as Q. injection Q as ->. eapply size_fun; eauto.
Qed.
Lemma base_mat f p sd : wf_nc f -> required f -> (forall sd, size f ("m" ++ snum sd) (p_m p sd)) -> size f "M" (p_M p) -> (forall sd, data f ("uncertainty_type" ++ snum sd) (IArr1 (p_type p sd))) ->
  (forall sd, data f ("Ur" ++ snum sd) (Arr2 (p_Ur p sd))) -> (forall sd, data f ("Us" ++ snum sd) (Arr2 (p_Us p sd))) ->
  matrix (p_Ur p sd) (p_M p) (p_m p sd) /\ matrix (p_Us p sd) (p_M p) (p_m p sd) /\ length (p_type p sd) = p_m p sd.
Proof.
  intros Hw (R1 & R2 & R3 & R4 & R5 & R6 & R7 & R8 & R9 & R10 & R11 & R12 & R13) Sm SM HT HU HS. specialize (Sm sd). specialize (HT sd). specialize (HU sd). specialize (HS sd).
  destruct sd.
  - split; [exact (file_mat f _ _ _ _ _ _ Hw R3 HU SM Sm)|]. split; [exact (file_mat f _ _ _ _ _ _ Hw R5 HS SM Sm)|exact (file_int f _ _ _ _ Hw R12 HT Sm)].
  - split; [exact (file_mat f _ _ _ _ _ _ Hw R4 HU SM Sm)|]. split; [exact (file_mat f _ _ _ _ _ _ Hw R6 HS SM Sm)|exact (file_int f _ _ _ _ Hw R13 HT Sm)].
Qed.
Lemma hf_mat f p mv sd : has_file f p mv -> matrix (p_Ur p sd) (p_M p) (p_m p sd) /\ matrix (p_Us p sd) (p_M p) (p_m p sd) /\ length (p_type p sd) = p_m p sd.
Proof. intros H. apply (base_mat f); apply H. Qed.

Lemma zfold_nat l : fold_right Z.add 0%Z (map Z.of_nat l) = Z.of_nat (list_sum l).
Proof. induction l as [|a l IH]; [reflexivity|]. cbn [map fold_right]. rewrite IH. change (list_sum (a :: l)) with (a + list_sum l). lia. Qed.

Lemma numbered_nat (l : list nat) n : (forall x, In x l -> x <= n) -> (forall k, 1 <= k <= n -> In k l) -> numbered (map Z.of_nat l) n.
Proof.
  intros A B. split.
  - intros x Hx. apply in_map_iff in Hx. destruct Hx as (y & <- & Hy). specialize (A y Hy). lia.
  - intros k Hk. replace k with (Z.of_nat (Z.to_nat k)) by lia. apply in_map. apply B. lia.
Qed.
Lemma nth_of_nat (l : list nat) i z : nth_error (map Z.of_nat l) i = Some z -> exists n, nth_error l i = Some n /\ z = Z.of_nat n.
Proof. rewrite nth_error_map. destruct (nth_error l i) as [n|]; [|discriminate]. cbn. intros [= <-]. eauto. Qed.

Lemma has_consistent f p mv ws us r m1 m2 : has_file f p mv -> packed mv ws us r m1 m2 ->
  (w_consistent f <-> r = p_M p /\ forall x, In x (u_val R mv) -> (0 < x)%R).
Proof.
  intros Hf Hp. pose proof (hf_wf _ _ _ Hf) as Hw. pose proof (hf_w _ _ _ Hf) as HW. destruct HW as (V1 & V2 & V3 & V4 & V5 & V6 & V7 & V8 & V9 & V10).
  destruct (pk_w _ _ _ _ _ _ Hp) as (Hne & Hcsr).
  destruct (decl_i1 f _ _ Hw V1) as (nnz & D1 & S1). destruct (decl_i2 f _ _ _ Hw V2) as (rows & nr & D2 & S2' & S2 & S2'').
  destruct (decl_i1 f _ _ Hw V3) as (col & D3 & S3). destruct (decl_i1 f _ _ Hw V7) as (cnt & D7 & S7). destruct (decl_f1 f _ _ Hw V8) as (uval & D8 & S8).
  pose proof (hf_use _ _ _ Hf Side1) as D5. pose proof (hf_use _ _ _ Hf Side2) as D6. pose proof (hf_uuse _ _ _ Hf Side1) as D9. pose proof (hf_uuse _ _ _ Hf Side2) as D10.
  cbn [snum append wuse uuse] in D5, D6, D9, D10.
  pose proof (data_unique _ _ _ _ Hw D1 (hf_nnz _ _ _ Hf)) as Q1. injection Q1 as ->. pose proof (data_unique _ _ _ _ Hw D2 (hf_row _ _ _ Hf)) as Q2. injection Q2 as ->.
  pose proof (data_unique _ _ _ _ Hw D3 (hf_col _ _ _ Hf)) as Q3. injection Q3 as ->. pose proof (data_unique _ _ _ _ Hw D7 (hf_cnt _ _ _ Hf)) as Q7. injection Q7 as ->.
  pose proof (data_unique _ _ _ _ Hw D8 (hf_uval _ _ _ Hf)) as Q8. injection Q8 as ->.
  pose proof (hf_M _ _ _ Hf) as SM. rewrite map_length in S1, S2', S3, S7.
  assert (Hnr : nr = r + 1).
  { destruct ws as [|w0 ws']; [congruence|]. destruct (Hcsr w0 (or_introl eq_refl)) as ((L & _) & <- & _). rewrite <- L. rewrite (pk_row _ _ _ _ _ _ Hp) in S2''.
    specialize (S2'' (map Z.of_nat (c_indptr R w0)) (or_introl eq_refl)). rewrite map_length in S2''. auto. }
  subst nr. pose proof (pk_len _ _ _ _ _ _ Hp) as (L1 & L2 & L3 & L4 & N1 & N2).
  split.
  - intros (M' & nw & nu & nr' & nn & nru & nnz' & rows' & col' & w1' & w2' & cnt' & uval' & u1' & u2' & (Z1 & Z2 & Z3 & Z4 & Z5 & Z6 & Y1 & Y2 & Y3 & Y4 & Y5 & Y6 & Y7 & Y8 & Y9) & _ & _ & _ & _ & Q3 & _ & _ & _ & _ & _ & _ & _ & Q11 & _).
    pose proof (size_fun _ _ _ _ Hw Z1 SM) as ->. pose proof (size_fun _ _ _ _ Hw Z4 S2) as ->. pose proof (data_unique _ _ _ _ Hw D8 Y7) as I. injection I as <-. split; [lia|exact Q11].
  - intros (-> & Hu). 
    exists (p_M p), (length (w_nnz R mv)), (length (u_row_count R mv)), (p_M p + 1), (length (w_col R mv)), (length (u_val R mv)),
      (map Z.of_nat (w_nnz R mv)), (map (map Z.of_nat) (w_row R mv)), (map Z.of_nat (w_col R mv)), (map Z.of_nat (wuse1 R mv)), (map Z.of_nat (wuse2 R mv)),
      (map Z.of_nat (u_row_count R mv)), (u_val R mv), (map Z.of_nat (uuse1 R mv)), (map Z.of_nat (uuse2 R mv)).
    split; [repeat apply conj; assumption|].
    split; [intros E; apply (f_equal (@length Z)) in E; rewrite map_length in E; cbn in E; lia|].
    split; [intros E; apply (f_equal (@length Z)) in E; rewrite map_length in E; cbn in E; lia|].
    rewrite <- !map_app. destruct (pk_numw _ _ _ _ _ _ Hp) as (A1 & A2). destruct (pk_numu _ _ _ _ _ _ Hp) as (B1 & B2).
    assert (LN : length (w_nnz R mv) = length ws) by (rewrite (pk_nnz _ _ _ _ _ _ Hp), map_length; reflexivity).
    assert (LU : length (u_row_count R mv) = length us) by (rewrite (pk_cnt _ _ _ _ _ _ Hp), map_length; reflexivity).
    split; [rewrite LN; apply numbered_nat; assumption|]. split; [rewrite LU; apply numbered_nat; assumption|]. split; [reflexivity|].
    rewrite !zfold_nat.
    split. { f_equal. rewrite (pk_col _ _ _ _ _ _ Hp), (pk_nnz _ _ _ _ _ _ Hp), concat_length, map_map. reflexivity. }
    split. { f_equal. rewrite (pk_uval _ _ _ _ _ _ Hp), (pk_cnt _ _ _ _ _ _ Hp), concat_length. reflexivity. }
    split. { intros i w u Hi Hj. apply nth_of_nat in Hi, Hj. destruct Hi as (w' & Hi & ->). destruct Hj as (u' & Hj & ->). pose proof (pk_zero _ _ _ _ _ _ Hp i w' u' Hi Hj). lia. }
    assert (NN : forall l x, In x (map Z.of_nat l) -> (0 <= x)%Z) by (intros l x Hx; apply in_map_iff in Hx; destruct Hx as (y & <- & _); lia).
    split; [apply NN|]. split. { intros n Hn. apply in_concat in Hn. destruct Hn as (l & Hl & Hn). apply in_map_iff in Hl. destruct Hl as (l' & <- & Hl). eapply NN; eauto. }
    split; [apply NN|]. split; [apply NN|]. split; [exact Hu|].
    intros k n Hk. apply nth_of_nat in Hk. destruct Hk as (n' & Hk & ->). rewrite (pk_nnz _ _ _ _ _ _ Hp), nth_error_map in Hk. destruct (nth_error ws k) as [W|] eqn:EW; [|discriminate].
    destruct (Hcsr W (nth_error_In _ _ EW)) as (W1 & W2 & (W3 & W4)).
    exists (Z.of_nat (c_ncols R W - 1)).
    assert (ES : slice (Z.to_nat (fold_right Z.add 0 (firstn k (map Z.of_nat (w_nnz R mv))))%Z) (Z.to_nat (fold_right Z.add 0 (firstn (k + 1) (map Z.of_nat (w_nnz R mv))))%Z) (map Z.of_nat (w_col R mv)) = map Z.of_nat (c_indices R W)).
    { rewrite !firstn_map, !zfold_nat, !Nat2Z.id, CheckProofs5.slice_map. f_equal. rewrite (pk_nnz _ _ _ _ _ _ Hp), (pk_col _ _ _ _ _ _ Hp).
      replace (map (fun w => length (c_indices R w)) ws) with (map (@length nat) (map (c_indices R) ws)) by (rewrite map_map; reflexivity).
      rewrite Nat.add_1_r. apply slice_concat. rewrite nth_error_map, EW. reflexivity. }
    rewrite ES. split.
    + split; [apply in_map; exact W3|]. intros x Hx. apply in_map_iff in Hx. destruct Hx as (j & <- & Hj). specialize (W4 j Hj). lia.
    + intros i u Hi Hj. apply nth_of_nat in Hi, Hj. destruct Hi as (w' & Hi & Ew). destruct Hj as (u' & Hj & ->). assert (w' = k + 1) by lia. subst w'.
      destruct (pk_size _ _ _ _ _ _ Hp i k u' W Hi Hj EW) as (U & EU & LU'). specialize (W4 _ W3).
      replace (Z.to_nat (Z.of_nat u' - 1)) with (u' - 1) by lia. rewrite nth_error_map, (pk_cnt _ _ _ _ _ _ Hp), nth_error_map, EU. cbn [option_map]. f_equal. lia.
Qed.

Lemma has_two f p mv : has_file f p mv -> (two_sensors f <-> p_name p Side1 <> p_name p Side2).
Proof.
  intros Hf. unfold two_sensors. pose proof (hf_wf _ _ _ Hf) as (_ & _ & N & _). pose proof (hf_names _ _ _ Hf Side1) as A1. pose proof (hf_names _ _ _ Hf Side2) as A2. unfold file_sensor in A1, A2. cbn [snum append] in A1, A2. split.
  - intros (a & b & Ha & Hb & H). apply (lookup_nodup _ _ _ N) in Ha, Hb, A1, A2. congruence.
  - intros H. exists (p_name p Side1), (p_name p Side2). auto.
Qed.
Lemma has_k f p mv : has_file f p mv -> (k_uncertainties f <-> forall i r s, nth_error (p_Kr p) i = Some r -> nth_error (p_Ks p) i = Some s -> (0 <= r /\ 0 <= s /\ (0 < r \/ 0 < s))%R).
Proof.
  intros Hf. pose proof (hf_wf _ _ _ Hf) as Hw. unfold k_uncertainties. split.
  - intros H. apply H; apply Hf.
  - intros H kr ks H1 H2. pose proof (data_unique _ _ _ _ Hw H1 (hf_kr _ _ _ Hf)) as Q1. pose proof (data_unique _ _ _ _ Hw H2 (hf_ks _ _ _ Hf)) as Q2. injection Q1 as ->. injection Q2 as ->. exact H.
Qed.
Lemma col_fun (rows : list (list R)) cov c c' : ReaderSpec.is_column rows cov c -> ReaderSpec.is_column rows cov c' -> c = c'.
Proof.
  intros (L & E) (L' & E'). apply nth_error_ext. intros i. destruct (nth_error rows i) as [r|] eqn:Er; [rewrite (E _ _ Er), (E' _ _ Er); reflexivity|].
  apply nth_error_None in Er. rewrite !(proj2 (nth_error_None _ _)) by lia. reflexivity.
Qed.

Definition covs_ok (p : mdata) (use : side -> list nat) : Prop :=
  forall sd cov ty ur us w, 1 <= cov -> nth_error (p_type p sd) (cov - 1) = Some ty -> ReaderSpec.is_column (p_Ur p sd) cov ur -> ReaderSpec.is_column (p_Us p sd) cov us ->
    nth_error (use sd) (cov - 1) = Some w -> only_form ty ur us w.
Lemma has_assigned f p mv : has_file f p mv -> (forall sd, length (wuse mv sd) = p_m p sd) -> (all_assigned f <-> covs_ok p (wuse mv)).
Proof.
  intros Hf HL. pose proof (hf_wf _ _ _ Hf) as Hw.
  assert (EQ : all_assigned f <-> forall sd col, col < p_m p sd -> assigned f (snum sd) col).
  { unfold all_assigned. split.
    - intros (H1 & H2) sd col Hc. destruct sd; [apply (H1 _ col (hf_m _ _ _ Hf Side1) Hc)|apply (H2 _ col (hf_m _ _ _ Hf Side2) Hc)].
    - intros H. split; intros m col Hm Hc; [pose proof (size_fun _ _ _ _ Hw Hm (hf_m _ _ _ Hf Side1)); subst m; exact (H Side1 col Hc)|pose proof (size_fun _ _ _ _ Hw Hm (hf_m _ _ _ Hf Side2)); subst m; exact (H Side2 col Hc)]. }
  rewrite EQ. unfold covs_ok. split.
  - intros H sd cov ty ur us w Hc E1 E2 E3 E4.
    assert (Hl : cov - 1 < p_m p sd). { destruct (hf_mat _ _ _ sd Hf) as (_ & _ & L). rewrite <- L. apply nth_error_Some. congruence. }
    destruct (H sd (cov - 1) Hl) as (ts & t & urs & uss & ur' & us' & w' & D1 & F1 & D2 & F2 & D3 & F3 & F4 & F5 & F6).
    pose proof (data_unique _ _ _ _ Hw D1 (hf_type _ _ _ Hf sd)) as Q1. injection Q1 as ->. pose proof (data_unique _ _ _ _ Hw D2 (hf_ur _ _ _ Hf sd)) as Q2. injection Q2 as ->.
    pose proof (data_unique _ _ _ _ Hw D3 (hf_us _ _ _ Hf sd)) as Q3. injection Q3 as ->.
    rewrite <- col_conv in F2, F3 by lia. pose proof (col_fun _ _ _ _ E2 F2) as <-. pose proof (col_fun _ _ _ _ E3 F3) as <-. rewrite E1 in F1. injection F1 as <-.
    destruct F4 as [(l & D4 & F4)|(F4 & _)].
    + pose proof (data_unique _ _ _ _ Hw D4 (hf_use _ _ _ Hf sd)) as Q4. injection Q4 as ->. rewrite nth_error_map, E4 in F4. cbn in F4. injection F4 as <-. split; assumption.
    + exfalso. apply F4. destruct (hf_use _ _ _ Hf sd) as (v & ? & ? & _). exists v; auto.
  - intros H sd col Hc. destruct (hf_mat _ _ _ sd Hf) as (MR & MS & L).
    destruct (nth_error (p_type p sd) col) as [ty|] eqn:Et; [|apply nth_error_None in Et; lia].
    destruct (nth_error (wuse mv sd) col) as [w|] eqn:Ew; [|apply nth_error_None in Ew; rewrite HL in Ew; lia].
    destruct (column_ex _ _ _ col MR Hc) as (ur & E2). destruct (column_ex _ _ _ col MS Hc) as (us & E3).
    assert (OF : only_form ty ur us w) by (apply (H sd (col + 1) ty ur us w); [lia|replace (col + 1 - 1) with col by lia; exact Et|exact E2|exact E3|replace (col + 1 - 1) with col by lia; exact Ew]).
    rewrite !col_conv in E2, E3 by lia. replace (col + 1 - 1) with col in * by lia.
    exists (p_type p sd), ty, (p_Ur p sd), (p_Us p sd), ur, us, (Z.of_nat w).
    split; [apply Hf|]. split; [exact Et|]. split; [apply Hf|]. split; [exact E2|]. split; [apply Hf|]. split; [exact E3|]. split; [|exact OF].
    left. exists (map Z.of_nat (wuse mv sd)). split; [apply Hf|]. rewrite nth_error_map, Ew. reflexivity.
Qed.

Lemma has_x f p mv : has_file f p mv -> (x_uncertainties f <-> x_nonneg p).
Proof.
  intros Hf. pose proof (hf_wf _ _ _ Hf) as Hw. unfold x_uncertainties, x_nonneg. split.
  - intros H sd r x [Hr|Hr] Hx; [apply (H ("Ur" ++ snum sd)%string (p_Ur p sd) r x)|apply (H ("Us" ++ snum sd)%string (p_Us p sd) r x)]; try apply Hf; auto; destruct sd; cbn; tauto.
  - intros H n rows r x Hn HD Hr Hx. destruct Hn as [<- |[<- |[<- |[<- |[]]]]].
    + pose proof (data_unique _ _ _ _ Hw HD (hf_ur _ _ _ Hf Side1)) as Q. injection Q as ->. eapply H; eauto.
    + pose proof (data_unique _ _ _ _ Hw HD (hf_ur _ _ _ Hf Side2)) as Q. injection Q as ->. eapply H; eauto.
    + pose proof (data_unique _ _ _ _ Hw HD (hf_us _ _ _ Hf Side1)) as Q. injection Q as ->. eapply H; eauto.
    + pose proof (data_unique _ _ _ _ Hw HD (hf_us _ _ _ Hf Side2)) as Q. injection Q as ->. eapply H; eauto.
Qed.

Theorem has_accepted f p mv ws us r : has_file f p mv -> packed mv ws us r (p_m p Side1) (p_m p Side2) ->
  (check f = Ok [] <-> r = p_M p /\ good_with p (wuse mv) /\ x_nonneg p /\ forall x, In x (u_val R mv) -> (0 < x)%R).
Proof.
  intros Hf Hp. rewrite (check_iff f (hf_wf _ _ _ Hf)). unfold acceptable, good_with. fold (covs_ok p (wuse mv)).
  pose proof (pk_len _ _ _ _ _ _ Hp) as (L1 & L2 & _).
  rewrite (has_two _ _ _ Hf), (has_k _ _ _ Hf), (has_x _ _ _ Hf), (has_assigned _ _ _ Hf) by (intros [|]; assumption).
  pose proof (has_consistent _ _ _ _ _ _ _ _ Hf Hp) as HC. pose proof (hf_w _ _ _ Hf) as HW. pose proof (hf_req _ _ _ Hf) as HR.
  split.
  - intros (_ & [(_ & H)|H] & H1 & H2 & H3 & H4); [apply HC in H; tauto|]. exfalso. apply (H "w_matrix_nnz"%string); [cbn; tauto|]. destruct HW as ((v & ? & ? & _) & _). exists v; auto.
  - intros (H0 & (H1 & H2 & H4) & H3 & H5). split; [exact HR|]. split; [left; split; [exact HW|apply HC; auto]|]. auto.
Qed.
