(** * Proofs for C144-C147: which files of AVHRR_to_updated_spec.py the checker accepts. *)
From Coq Require Import Reals Lra.
From Verif Require Import Base BaseLemmas ReaderModel ReaderSpec ReaderMain UncModel UncSpec UncProofs SimModel GNModel WModel WSpec WProofs WProofs2 WProofs3 WProofs4 AvModel AvSpec AvProofs AvProofs2 AvProofs3 AvProofs4 AvProofs5 AvProofs6 AvProofs7
  CheckModel CheckSpec CheckProofs CheckProofs2 CheckProofs3 CheckProofs4 CheckProofs5 IOModel IOSpec IOProofs IOProofs2 ConvModel ConvSpec ConvSpec2 ConvProofs ConvProofs2 ConvProofs3 ConvProofs4 ConvProofs5 ConvProofs6 ConvProofs11 ConvProofs12.
Open Scope nat_scope.

Definition cut (m1 m2 : nat) (mv : matvars R) : matvars R :=
  mkMatvars R (firstn m1 (wuse1 R mv)) (firstn m2 (wuse2 R mv)) (firstn m1 (uuse1 R mv)) (firstn m2 (uuse2 R mv)) (w_nnz R mv) (w_row R mv) (w_col R mv) (w_val R mv) (u_row_count R mv) (u_val R mv).
Definition use1 (ref : bool) : list nat := if ref then [0] else [1; 1; 0; 0; 0].
Definition use2 (ref : bool) : list nat := if ref then [1; 1; 0; 0; 0] else [2; 2; 0; 0; 0].

Ltac five H := match type of H with nth_error ?l ?i = Some _ => repeat (destruct i as [|i]; [cbn in H; try discriminate H; injection H as <-|]); cbn in H; try discriminate H; try (destruct i; discriminate H) end.

Lemma av_packed torad f k1 k2 band bt ref_bt ref idx p W1 u1 v1 W2 u2 v2 m2 : good_input torad f k1 k2 band bt ref_bt -> kept f idx -> ready f k1 k2 band bt ref_bt ref idx p -> wmats f ref idx p W1 u1 v1 W2 u2 v2 -> m2 = 4 \/ m2 = 5 ->
  let mv := cut (m1_of ref m2) m2 (p_W p) in exists ws us, us = (if ref then [u2; v2] else [u1; v1; u2; v2]) /\ packed mv ws us (length idx) (m1_of ref m2) m2 /\ wuse1 R mv = firstn (m1_of ref m2) (use1 ref) /\ wuse2 R mv = firstn m2 (use2 ref) /\ length (w_val R mv) = list_sum (w_nnz R mv).
Proof.
  intros G HK RD (G2 & H2 & WM) Hm2 mv. pose proof (gi_file _ _ _ _ _ _ _ G) as F. pose proof (gi_some _ _ _ _ _ _ _ G) as (i0 & Hi0 & Hu0).
  assert (HI : forall i, In i idx -> i < n_matchups f) by (intros i Hi; apply HK in Hi; apply Hi).
  assert (LI : length idx <> 0). { destruct idx; [|discriminate]. exfalso. assert (In i0 []) by (apply (proj2 HK); auto). destruct H. }
  assert (T1 : length (at_ 0%R idx (a_t1 f)) = length idx) by apply at_length. assert (T2 : length (at_ 0%R idx (a_t2 f)) = length idx) by apply at_length.
  pose proof (gen_facts _ _ k2 _ _ _ T2 LI (af_k2 _ _ _ F) (krows_sized f k2 idx _ (af_uS2 _ _ _ F) HI) G2) as (A1 & A2 & A3 & A4 & _).
  pose proof (gen_facts _ _ k2 _ _ _ T2 LI (af_k2 _ _ _ F) (krows_sized f k2 idx _ (af_uI2 _ _ _ F) HI) H2) as (_ & _ & _ & B4 & _).
  pose proof (r_mv _ _ _ _ _ _ _ _ _ RD) as MV. unfold wuses in MV.
  assert (WV : forall ws, (forall w, In w ws -> wf_csr w) -> length (concat (map (c_data R) ws)) = list_sum (map (fun w => length (c_indices R w)) ws)).
  { intros ws Hw. rewrite concat_length, map_map. f_equal. apply map_ext_in. intros w Hi. destruct (Hw w Hi) as (_ & _ & E & _). symmetry. exact E. }
  destruct ref.
  - destruct WM as (E1 & E2). rewrite E1, E2 in MV.
    assert (HW : forall w, In w [W2] -> wf_csr w /\ c_nrows R w = length idx /\ last_column_used w) by (intros w [<- |[]]; auto).
    assert (NW : [W2] <> []) by discriminate. pose proof (pack_mv _ _ _ _ _ _ _ (length idx) NW HW MV) as EM. exists [W2], [u2; v2]. split; [reflexivity|].
    unfold mv. rewrite EM. unfold cut. cbn [wuse1 wuse2 uuse1 uuse2 w_nnz w_row w_col w_val u_row_count u_val]. split; [|split; [reflexivity|split; [reflexivity|apply WV; intros w Hi; apply (HW w Hi)]]].
    constructor; cbn [wuse1 wuse2 uuse1 uuse2 w_nnz w_row w_col w_val u_row_count u_val]; try reflexivity.
    + split; [discriminate|exact HW].
    + destruct Hm2 as [-> | ->]; cbn; lia.
    + split; [|intros k Hk; assert (k = 1) by (cbn in Hk; lia); subst k; destruct Hm2 as [-> | ->]; cbn; auto]. intros x. destruct Hm2 as [-> | ->]; cbn; intros H; lia.
    + split; [|intros k Hk; assert (k = 1 \/ k = 2) as [-> | ->] by (cbn in Hk; lia); destruct Hm2 as [-> | ->]; cbn; auto]. intros x. destruct Hm2 as [-> | ->]; cbn; intros H; lia.
    + intros i w u X Y. destruct Hm2 as [-> | ->]; cbn in X, Y; do 6 (destruct i as [|i]; [cbn in X, Y; try discriminate; injection X as <-; injection Y as <-; lia|]); destruct i; discriminate.
    + intros i k u W X Y Z. destruct k as [|k]; [|destruct k; discriminate]. injection Z as <-.
      assert (Q : u = 1 \/ u = 2) by (destruct Hm2 as [-> | ->]; cbn in X, Y; do 6 (destruct i as [|i]; [cbn in X, Y; try discriminate; injection Y as <-; lia|]); destruct i; discriminate).
      destruct Q as [-> | ->]; [exists u2|exists v2]; split; auto.
  - destruct WM as (G1 & H1 & E1 & E2). rewrite E1, E2 in MV.
    pose proof (gen_facts _ _ k1 _ _ _ T1 LI (af_k1 _ _ _ F) (krows_sized f k1 idx _ (af_uS1 _ _ _ F) HI) G1) as (C1 & C2 & C3 & C4 & _).
    pose proof (gen_facts _ _ k1 _ _ _ T1 LI (af_k1 _ _ _ F) (krows_sized f k1 idx _ (af_uI1 _ _ _ F) HI) H1) as (_ & _ & _ & D4 & _).
    assert (HW : forall w, In w [W1; W2] -> wf_csr w /\ c_nrows R w = length idx /\ last_column_used w) by (intros w [<- |[<- |[]]]; auto).
    assert (NW : [W1; W2] <> []) by discriminate. pose proof (pack_mv _ _ _ _ _ _ _ (length idx) NW HW MV) as EM. exists [W1; W2], [u1; v1; u2; v2]. split; [reflexivity|].
    unfold mv. rewrite EM. unfold cut, m1_of. cbn [wuse1 wuse2 uuse1 uuse2 w_nnz w_row w_col w_val u_row_count u_val]. split; [|split; [reflexivity|split; [reflexivity|apply WV; intros w Hi; apply (HW w Hi)]]].
    constructor; cbn [wuse1 wuse2 uuse1 uuse2 w_nnz w_row w_col w_val u_row_count u_val]; try reflexivity.
    + split; [discriminate|exact HW].
    + destruct Hm2 as [-> | ->]; cbn; lia.
    + split; [|intros k Hk; assert (k = 1 \/ k = 2) as [-> | ->] by (cbn in Hk; lia); destruct Hm2 as [-> | ->]; cbn; auto 9]. intros x. destruct Hm2 as [-> | ->]; cbn; intros H; lia.
    + split; [|intros k Hk; assert (k = 1 \/ k = 2 \/ k = 3 \/ k = 4) as [-> |[-> |[-> | ->]]] by (cbn in Hk; lia); destruct Hm2 as [-> | ->]; cbn; auto 12]. intros x. destruct Hm2 as [-> | ->]; cbn; intros H; lia.
    + intros i w u X Y. destruct Hm2 as [-> | ->]; cbn in X, Y; do 10 (destruct i as [|i]; [cbn in X, Y; try discriminate; injection X as <-; injection Y as <-; lia|]); destruct i; discriminate.
    + intros i k u W X Y Z.
      assert (Q : (k = 0 /\ (u = 1 \/ u = 2)) \/ (k = 1 /\ (u = 3 \/ u = 4))) by (destruct Hm2 as [-> | ->]; cbn in X, Y; do 10 (destruct i as [|i]; [cbn in X, Y; try discriminate; injection X as X; injection Y as <-; lia|]); destruct i; discriminate).
      destruct Q as [(-> & [-> | ->])|(-> & [-> | ->])]; injection Z as <-; [exists u1|exists v1|exists u2|exists v2]; split; auto.
Qed.
