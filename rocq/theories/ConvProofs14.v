(** * Proofs for C144-C147: the files of AVHRR_to_updated_spec.py as netCDF files. *)
From Coq Require Import Reals Lra.
From Verif Require Import Base BaseLemmas ReaderModel ReaderSpec ReaderMain UncModel UncSpec UncProofs SimModel GNModel WModel WSpec WProofs WProofs2 WProofs3 WProofs4 AvModel AvSpec AvProofs AvProofs2 AvProofs3 AvProofs4 AvProofs5 AvProofs6 AvProofs7
  CheckModel CheckSpec CheckProofs CheckProofs2 CheckProofs3 CheckProofs4 CheckProofs5 IOModel IOSpec IOProofs IOProofs2 ConvModel ConvSpec ConvSpec2 ConvProofs ConvProofs2 ConvProofs3 ConvProofs4 ConvProofs5 ConvProofs6 ConvProofs11 ConvProofs12 ConvProofs13.
Open Scope nat_scope.

(** Shapes of an output file with [n] match-ups. *)
Record out_shape (o : avout) (n m1 m2 : nat) : Prop := {
  os_X1 : matrix (o_X1 o) n m1; os_X2 : matrix (o_X2 o) n m2; os_r1 : matrix (o_Ur1 o) n m1; os_r2 : matrix (o_Ur2 o) n m2; os_s1 : matrix (o_Us1 o) n m1; os_s2 : matrix (o_Us2 o) n m2;
  os_u1 : length (o_ut1 o) = m1; os_u2 : length (o_ut2 o) = m2; os_t1 : length (o_t1 o) = n; os_t2 : length (o_t2 o) = n;
  os_K : length (o_K o) = n; os_Kr : length (o_Kr o) = n; os_Ks : length (o_Ks o) = n }.
Lemma block_mat f idx a b l : AvSpec.sized (n_matchups f) 10 l -> (forall i, In i idx -> i < n_matchups f) -> b <= 10 -> matrix (block a b idx l) (length idx) (b - a).
Proof.
  intros (L & H) HI Hb. split; [apply map_length|]. intros r Hr. apply in_map_iff in Hr. destruct Hr as (i & <- & Hi). rewrite slice_length, (H (nth i l [])); [lia|]. apply nth_In. rewrite L. auto.
Qed.
Lemma zero_mat {A} m (idx : list A) : matrix (zero_rows m idx) (length idx) m.
Proof. split; [apply map_length|]. intros r Hr. apply in_map_iff in Hr. destruct Hr as (i & <- & _). apply repeat_length. Qed.
Lemma czero_mat c rows n m : matrix rows n m -> matrix (map (cols_zero c) rows) n m.
Proof. intros (L & H). split; [rewrite map_length; exact L|]. intros r Hr. apply in_map_iff in Hr. destruct Hr as (q & <- & Hq). unfold cols_zero. rewrite map_length, enumerate_length. auto. Qed.

Section S.
Context (torad : option string -> list fl -> res (list fl)) (f : avin) (k1 k2 : nat) (ref : bool) (idx : list nat) (m2 : nat) (o : avout).
Hypothesis F : av_file f k1 k2.
Hypothesis HI : forall i, In i idx -> i < n_matchups f.
Hypothesis Hm : m2 = 4 \/ m2 = 5.
Hypothesis HH : holds f idx (m1_of ref m2) m2 o.
Let M1 : m1_of ref m2 <= 5. Proof. unfold m1_of. destruct ref; lia. Qed.
Lemma ur1_mat : matrix (ur1 f ref idx (m1_of ref m2)) (length idx) (m1_of ref m2).
Proof. unfold ur1. assert (B : matrix (block 0 (m1_of ref m2) idx (a_Ur f)) (length idx) (m1_of ref m2)) by (pose proof (block_mat f idx 0 (m1_of ref m2) _ (af_Ur _ _ _ F) HI ltac:(lia)) as Q; rewrite Nat.sub_0_r in Q; exact Q). destruct ref; [exact B|apply czero_mat, B]. Qed.
Lemma ur2_mat : matrix (ur2 f idx m2) (length idx) m2.
Proof. unfold ur2. apply czero_mat. pose proof (block_mat f idx 5 (5 + m2) _ (af_Ur _ _ _ F) HI ltac:(lia)) as Q. replace (5 + m2 - 5) with m2 in Q by lia. exact Q. Qed.
Lemma out_shaped : matrix (o_Ur1 o) (length idx) (m1_of ref m2) -> matrix (o_Ur2 o) (length idx) m2 -> matrix (o_Us1 o) (length idx) (m1_of ref m2) -> matrix (o_Us2 o) (length idx) m2 -> length (o_ut1 o) = m1_of ref m2 -> length (o_ut2 o) = m2 ->
  out_shape o (length idx) (m1_of ref m2) m2.
Proof.
  intros A1 A2 A3 A4 A5 A6. destruct HH. constructor; auto; rewrite ?h_X1, ?h_X2, ?h_K, ?h_Kr, ?h_Ks, ?h_t1, ?h_t2; try apply at_length.
  - pose proof (block_mat f idx 0 (m1_of ref m2) _ (af_H _ _ _ F) HI ltac:(lia)) as Q; rewrite Nat.sub_0_r in Q; exact Q.
  - pose proof (block_mat f idx 5 (5 + m2) _ (af_H _ _ _ F) HI ltac:(lia)) as Q. replace (5 + m2 - 5) with m2 in Q by lia. exact Q.
Qed.
Lemma full_shape : full_file f ref idx (m1_of ref m2) m2 o -> out_shape o (length idx) (m1_of ref m2) m2.
Proof.
  intros [a b c d e g _]. apply out_shaped; rewrite ?a, ?b, ?c, ?d, ?e, ?g.
  - apply ur1_mat.
  - apply ur2_mat.
  - destruct ref; [apply zero_mat|]. pose proof (block_mat f idx 0 (m1_of false m2) _ (af_Us _ _ _ F) HI ltac:(lia)) as Q; rewrite Nat.sub_0_r in Q; exact Q.
  - pose proof (block_mat f idx 5 (5 + m2) _ (af_Us _ _ _ F) HI ltac:(lia)) as Q. replace (5 + m2 - 5) with m2 in Q by lia. exact Q.
  - destruct ref; [reflexivity|]. unfold m1_of. destruct Hm as [-> | ->]; reflexivity.
  - destruct Hm as [-> | ->]; reflexivity.
Qed.
Lemma structured_shape : structured_file f ref idx (m1_of ref m2) m2 o -> out_shape o (length idx) (m1_of ref m2) m2.
Proof.
  intros [a b c d e g _]. apply out_shaped; rewrite ?a, ?b, ?c, ?d, ?e, ?g; try apply zero_mat.
  - apply ur1_mat.
  - apply ur2_mat.
  - destruct ref; [reflexivity|]. unfold m1_of. destruct Hm as [-> | ->]; reflexivity.
  - destruct Hm as [-> | ->]; reflexivity.
Qed.
Lemma random_shape : random_file f ref idx (m1_of ref m2) m2 o -> out_shape o (length idx) (m1_of ref m2) m2.
Proof.
  intros [c d e g _ (L1 & L2) R1 R2]. apply out_shaped; rewrite ?c, ?d, ?e, ?g; try apply zero_mat; try apply repeat_length.
  - split; [exact L1|]. intros r Hr. apply In_nth_error in Hr. destruct Hr as (i & Hi). assert (Hl : i < length idx) by (rewrite <- L1; apply nth_error_Some; congruence).
    destruct (nth_error (ur1 f ref idx (m1_of ref m2)) i) as [r'|] eqn:E; [apply (R1 i r r' Hi E)|]. apply nth_error_None in E. rewrite (proj1 ur1_mat) in E. lia.
  - split; [exact L2|]. intros r Hr. apply In_nth_error in Hr. destruct Hr as (i & Hi). assert (Hl : i < length idx) by (rewrite <- L2; apply nth_error_Some; congruence).
    destruct (nth_error (ur2 f idx m2) i) as [r'|] eqn:E; [apply (R2 i r r' Hi E)|]. apply nth_error_None in E. rewrite (proj1 ur2_mat) in E. lia.
Qed.
End S.

(** ** The data are well shaped and written as they are *)
Definition adds_fit (o : avout) : Prop := NoDup (map fst (o_adds o)) /\ forall x, In x (o_adds o) -> In (fst x) (map snd renamed ++ ["To1"; "To2"]%string) /\ length (snd x) = length (o_K o).
Lemma vmat nanV (rows : list (list fl)) n m : matrix rows n m -> matrix (map (map (val nanV)) rows) n m.
Proof. intros (L & H). split; [etransitivity; [apply map_length|exact L]|]. intros r Hr. apply in_map_iff in Hr. destruct Hr as (q & <- & Hq). etransitivity; [apply map_length|auto]. Qed.
Lemma av_well_shaped nanV o n m1 m2 : out_shape o n m1 m2 -> adds_fit o -> well_shaped (av_data nanV o).
Proof.
  intros [a b c d e g h i j k l m q] (ND & HA). unfold well_shaped, av_data. cbn [p_M p_m p_X p_Ur p_Us p_type p_time p_K p_Kr p_Ks p_more]. rewrite l.
  split; [intros [|]; rewrite ?h, ?i, ?map_length; (split; [apply vmat; assumption|]); (split; [apply vmat; assumption|]); (split; [apply vmat; assumption|]); auto|].
  split; [etransitivity; [apply map_length|exact l]|]. split; [etransitivity; [apply map_length|exact m]|]. split; [etransitivity; [apply map_length|exact q]|].
  split; [rewrite map_map; cbn [ad_name]; exact ND|]. intros v Hv. apply in_map_iff in Hv. destruct Hv as (x & <- & Hx). destruct (HA x Hx) as (Hn & HL). cbn [ad_name]. split.
  - intros Hi. cbn in Hn, Hi. repeat (destruct Hn as [Hn|Hn]; [rewrite <- Hn in Hi; intuition discriminate|]). destruct Hn.
  - unfold add_shaped. cbn [ad_data ad_dim]. exists "M"%string. split; [reflexivity|]. left. split; [reflexivity|]. cbn [p_M]. rewrite <- l. etransitivity; [apply map_length|exact HL].
Qed.
Lemma av_nc_eq f32 trunc nanV o n m1 m2 : out_shape o n m1 m2 -> n <> 0 -> o_adds o <> [] -> av_nc f32 trunc nanV o = (do g <- write_as f32 trunc "f4" (args_of (av_data nanV o) None);; with_matrices f32 trunc g (o_W o)).
Proof.
  intros [a b c d e g h i j k l m q] Hn HA. unfold av_nc, args_of, av_data. cbn [p_M p_m p_name p_X p_Ur p_Us p_type p_time p_K p_Kr p_Ks p_more].
  assert (E : forall (rows : list (list fl)) w, matrix rows n w -> length (hd [] rows) = w) by (intros [|r rows] w (L & H); [cbn in L; congruence|apply H; left; reflexivity]).
  rewrite (E _ _ a), (E _ _ b), (E _ _ c), (E _ _ d), (E _ _ e), (E _ _ g), h, i.
  destruct (o_adds o) as [|x xs]; [congruence|]. reflexivity.
Qed.
Section W.
Context (f32 : R -> R) (trunc : R -> Z) (nanV : R) (o : avout) (n m1 m2 : nat).
Hypothesis HS : out_shape o n m1 m2.
Hypothesis Hn : n <> 0.
Hypothesis HF : adds_fit o.
Hypothesis HA : o_adds o <> [].
Let q := av_data nanV o.
Let WS : well_shaped q. Proof. exact (av_well_shaped nanV o n m1 m2 HS HF). Qed.
Let FN4 : float_name "float32". Proof. cbn; tauto. Qed.
Lemma av_write_plain : o_W o = None -> exists g, av_nc f32 trunc nanV o = Ok g /\ base_file g (mapped f32 q).
Proof.
  intros EW. rewrite (av_nc_eq f32 trunc nanV o n m1 m2 HS Hn HA), EW. fold q. rewrite (written_as f32 trunc "f4" "float32" f32 q None (or_intror (conj eq_refl (conj eq_refl eq_refl))) WS). cbn [bind with_matrices].
  eexists. split; [reflexivity|]. apply as_base; [exact FN4|]. apply mapped_shaped, WS.
Qed.
Lemma av_write_w mv : o_W o = Some mv -> ConvProofs2.sized q mv -> exists g, av_nc f32 trunc nanV o = Ok g /\ has_file g (mapped f32 q) (smv f32 mv).
Proof.
  intros EW Hz. rewrite (av_nc_eq f32 trunc nanV o n m1 m2 HS Hn HA), EW. fold q. rewrite (written_as f32 trunc "f4" "float32" f32 q None (or_intror (conj eq_refl (conj eq_refl eq_refl))) WS). cbn [bind with_matrices].
  pose proof (as_base f32 trunc "float32" _ FN4 (mapped_shaped f32 q WS)) as Hb. assert (Hz1 : ConvProofs2.sized (mapped f32 q) mv) by exact Hz.
  rewrite (append_ok f32 trunc "f4" "float32" f32 _ _ mv (or_intror (conj eq_refl (conj eq_refl eq_refl))) Hb Hz1). eexists. split; [reflexivity|]. apply appended_has; [exact FN4|exact Hb|].
  unfold ConvProofs2.sized, smv in *; cbn [w_row w_nnz w_col w_val u_val u_row_count wuse1 wuse2 uuse1 uuse2] in *; rewrite !map_length; exact Hz1.
Qed.
End W.
