(** * Proofs for C146, C147: conditions on the input of AVHRR_to_updated_spec.py. *)
From Coq Require Import Reals Lra.
From Verif Require Import Base BaseLemmas ReaderModel ReaderSpec ReaderMain UncModel UncSpec UncProofs SimModel SampleProofs GNModel WModel WSpec WProofs WProofs2 WProofs3 WProofs4 AvModel AvSpec AvProofs AvProofs2 AvProofs3 AvProofs4 AvProofs5 AvProofs6 AvProofs7
  CheckModel CheckSpec CheckProofs CheckProofs2 CheckProofs3 CheckProofs4 CheckProofs5 IOModel IOSpec IOProofs IOProofs2 ConvModel ConvSpec ConvSpec2 ConvProofs ConvProofs2 ConvProofs3 ConvProofs4 ConvProofs5 ConvProofs6 ConvProofs11 ConvProofs12 ConvProofs13 ConvProofs14 ConvProofs15.
Open Scope nat_scope.

Lemma nth_inv {A B} (h : A -> B) : forall (l : list A) i y, nth_error (map h l) i = Some y -> exists x, nth_error l i = Some x /\ y = h x.
Proof. induction l as [|a l IH]; intros [|i] y; cbn; try discriminate; [intros [= <-]; eauto|apply IH]. Qed.
Lemma col_entries (g : R -> R) nanV (rows : list (list fl)) c col x : CheckSpec.is_column (map (map g) (map (map (val nanV)) rows)) c col -> In x col -> exists r y, In r rows /\ nth_error r c = Some y /\ x = g (val nanV y).
Proof.
  intros (L & H) Hx. apply In_nth_error in Hx. destruct Hx as (i & Hi).
  destruct (nth_error (map (map g) (map (map (val nanV)) rows)) i) as [q|] eqn:Eq; [|exfalso; apply nth_error_None in Eq; rewrite <- L in Eq; apply nth_error_None in Eq; congruence].
  pose proof (H i q Eq) as Q. rewrite Hi in Q. symmetry in Q. apply nth_inv in Eq. destruct Eq as (q1 & E1 & ->). apply nth_inv in E1. destruct E1 as (r & E2 & ->).
  apply nth_inv in Q. destruct Q as (y1 & Q & ->). apply nth_inv in Q. destruct Q as (y & Q & ->). exists r, y. split; [eapply nth_error_In; eauto|]. auto.
Qed.
Lemma col_has (g : R -> R) nanV (rows : list (list fl)) c col r y : CheckSpec.is_column (map (map g) (map (map (val nanV)) rows)) c col -> In r rows -> nth_error r c = Some y -> In (g (val nanV y)) col.
Proof.
  intros (L & H) Hr Hy. apply In_nth_error in Hr. destruct Hr as (i & Hi). pose proof (map_nth_error (map g) _ _ (map_nth_error (map (val nanV)) _ _ Hi)) as Q. specialize (H i _ Q).
  rewrite (map_nth_error g _ _ (map_nth_error (val nanV) _ _ Hy)) in H. eapply nth_error_In; eauto.
Qed.
Lemma block_row a b idx (l : list (list fl)) r c y : In r (block a b idx l) -> nth_error r c = Some y -> exists i, In i idx /\ nth_error (nth i l []) (a + c) = Some y /\ c < b - a.
Proof.
  intros Hr Hy. unfold block in Hr. apply in_map_iff in Hr. destruct Hr as (i & <- & Hi). exists i. split; [exact Hi|].
  assert (Hc : c < length (slice a b (nth i l []))) by (apply nth_error_Some; congruence). rewrite slice_length in Hc. rewrite nth_error_slice in Hy. destruct (Nat.ltb_spec c (b - a)); [|discriminate]. split; [exact Hy|lia].
Qed.
Lemma row_block a b idx (l : list (list fl)) i c y : In i idx -> c < b - a -> nth_error (nth i l []) (a + c) = Some y -> exists r, In r (block a b idx l) /\ nth_error r c = Some y.
Proof. intros Hi Hc Hy. exists (slice a b (nth i l [])). split; [apply in_map_iff; exists i; auto|]. rewrite nth_error_slice. destruct (Nat.ltb_spec c (b - a)); [exact Hy|lia]. Qed.
Lemma czero_row rows r c y : structured c = false -> In r (map (cols_zero structured) rows) -> nth_error r c = Some y -> exists q, In q rows /\ nth_error q c = Some y.
Proof.
  intros Hs Hr Hy. apply in_map_iff in Hr. destruct Hr as (q & <- & Hq). exists q. split; [exact Hq|]. unfold cols_zero in Hy. apply nth_inv in Hy. destruct Hy as ((n & x) & Q & ->).
  assert (EN : Some (n, x) = option_map (fun a => (c, a)) (nth_error q c)) by (etransitivity; [symmetry; exact Q|apply enumerate_nth]). destruct (nth_error q c) as [z|] eqn:Ez; cbn [option_map] in EN; [|discriminate EN]. injection EN as -> ->. cbn [fst snd]. rewrite Hs. reflexivity.
Qed.
Lemma zero_col (g : R -> R) nanV m (idx : list nat) c col : g 0%R = 0%R -> CheckSpec.is_column (map (map g) (map (map (val nanV)) (zero_rows m idx))) c col -> Forall (eq 0%R) col.
Proof.
  intros G0 H. apply Forall_forall. intros x Hx. destruct (col_entries g nanV _ c col x H Hx) as (r & y & Hr & Hy & ->). unfold zero_rows in Hr. apply in_map_iff in Hr. destruct Hr as (i & <- & _).
  apply nth_error_In, repeat_spec in Hy. subst y. cbn [val]. auto.
Qed.

Section AV.
Context (torad : option string -> list fl -> res (list fl)) (f32 : R -> R) (trunc : R -> Z) (nanV : R).
Context (f : avin) (k1 k2 : nat) (band : Z) (bt : list fl) (ref_bt : option (list fl)) (ref : bool) (idx : list nat) (files : list avout).
Hypothesis G : good_input torad f k1 k2 band bt ref_bt.
Hypothesis HR : sensor1_is f ref.
Hypothesis HK : kept f idx.
Hypothesis E : av_main torad f None = Ok files.
Hypothesis F0 : f32 0%R = 0%R.
Let HI : forall i, In i idx -> i < n_matchups f.
Proof. intros i Hi. apply HK in Hi. apply Hi. Qed.

(** Uncertainty vectors of positive scan lines. *)
Lemma krows_in N k rows q x : AvSpec.sized N k rows -> (forall i, In i idx -> i < N) -> (forall i, In i idx -> complete rows i) -> In q (krows idx rows) -> In x q -> exists i, In i idx /\ In (Some x) (nth i rows []).
Proof.
  intros (L & H) HN HC Hq Hx. unfold krows, at_ in Hq. rewrite map_map in Hq. apply in_map_iff in Hq. destruct Hq as (i & <- & Hi). exists i. split; [exact Hi|]. unfold nums in Hx. apply in_map_iff in Hx. destruct Hx as (y & Ey & Hy).
  destruct (HC i Hi) as (r & Er & Nr). rewrite (nth_error_nth _ _ [] Er) in *. destruct y as [y|]; [subst; exact Hy|contradiction].
Qed.
Lemma gen_from times k rows W u : AvSpec.sized (n_matchups f) k rows -> (forall i, In i idx -> complete rows i) -> idx <> [] -> gen_w times (1 / 2) (KA (krows idx rows)) None None = Ok (W, u) ->
  (forall i x, In i idx -> In (Some x) (nth i rows []) -> (0 < x)%R) -> forall v, In v u -> exists i, In i idx /\ In (Some v) (nth i rows []).
Proof.
  intros HS HC NI H Hp v Hv. pose proof (krows_sized f k idx rows HS HI) as HS'. assert (LN : length idx <> 0) by (destruct idx; [congruence|discriminate]).
  assert (KI : forall q x, In q (krows idx rows) -> In x q -> exists i, In i idx /\ In (Some x) (nth i rows [])) by (intros q x; apply (krows_in (n_matchups f) k); auto).
  destruct (gen_from_rows times (1 / 2) (krows idx rows) None None W u (equal_weights k) ltac:(lra) (krows_kernel _ _ _ HS' LN) H) with (v := v) as (q & Hq & Hx); auto.
  - intros q Hq. unfold equal_weights. rewrite repeat_length. apply HS'. exact Hq.
  - intros q x Hq Hx. destruct (KI q x Hq Hx) as (i & A & B). eauto.
  - eapply KI; eauto.
Qed.
Lemma lines_pos m2 : m2 = 4 \/ m2 = 5 -> av_positive f32 nanV f ref idx m2 -> forall p W1 u1 v1 W2 u2 v2, ready f k1 k2 band bt ref_bt ref idx p -> wmats f ref idx p W1 u1 v1 W2 u2 v2 -> forall x, In x (u_val R (cut (m1_of ref m2) m2 (p_W p))) -> (0 < f32 x)%R.
Proof.
  intros Hm AP p W1 u1 v1 W2 u2 v2 RD WM x Hx.
  destruct (av_packed torad f k1 k2 band bt ref_bt ref idx p W1 u1 v1 W2 u2 v2 m2 G HK RD WM Hm) as (ws & us & EU & PK & _). rewrite (pk_uval _ _ _ _ _ _ PK) in Hx. apply in_concat in Hx. destruct Hx as (u & Hu & Hx).
  destruct (gi_file _ _ _ _ _ _ _ G) as [_ _ _ _ _ _ _ S1 I1 S2 I2 _ _ _ _ _].
  assert (NI : idx <> []). { destruct (gi_some _ _ _ _ _ _ _ G) as (i0 & Hi0 & Hu0). assert (In i0 idx) by (apply (proj2 HK); auto). intros ->. destruct H. }
  assert (US : forall i, In i idx -> usable f i) by (intros i Hi; apply (proj2 HK) in Hi; apply Hi).
  assert (P : forall rows i y, In rows [a_uS1 f; a_uI1 f; a_uS2 f; a_uI2 f] -> In i idx -> In (Some y) (nth i rows []) -> (0 < y /\ 0 < f32 y)%R) by (intros; eapply (ap_lines _ _ _ _ _ _ AP); eauto).
  assert (GO : forall times k rows W, In rows [a_uS1 f; a_uI1 f; a_uS2 f; a_uI2 f] -> AvSpec.sized (n_matchups f) k rows -> (forall i, In i idx -> complete rows i) -> gen_w times (1 / 2) (KA (krows idx rows)) None None = Ok (W, u) -> (0 < f32 x)%R).
  { intros times k rows W Hr HS HC HG. destruct (gen_from times k rows W u HS HC NI HG) with (v := x) as (i & Hi & Hy); auto; [intros i y Hi Hy; apply (P rows i y); auto|]. apply (P rows i x); auto. }
  destruct WM as (G2 & H2 & WM).
  assert (Q : u = u2 \/ u = v2 \/ (ref = false /\ (u = u1 \/ u = v1))) by (subst us; destruct ref; cbn in Hu; intuition auto).
  destruct Q as [-> |[-> |(Er & Q)]].
  - eapply (GO _ _ (a_uS2 f) _); [cbn; tauto|exact S2|exact (fun i Hi => proj1 (proj2 (proj2 (US i Hi))))|exact G2].
  - eapply (GO _ _ (a_uI2 f) _); [cbn; tauto|exact I2|exact (fun i Hi => proj2 (proj2 (proj2 (US i Hi))))|exact H2].
  - rewrite Er in WM. destruct WM as (G1 & H1 & _). destruct Q as [-> | ->].
    + eapply (GO _ _ (a_uS1 f) _); [cbn; tauto|exact S1|exact (fun i Hi => proj1 (US i Hi))|exact G1].
    + eapply (GO _ _ (a_uI1 f) _); [cbn; tauto|exact I1|exact (fun i Hi => proj1 (proj2 (US i Hi)))|exact H1].
Qed.
End AV.
