(** * Proofs for C146, C147: conditions on the input of AVHRR_to_updated_spec.py (main results). *)
From Coq Require Import Reals Lra.
From Verif Require Import Base BaseLemmas ReaderModel ReaderSpec ReaderMain UncModel UncSpec UncProofs SimModel SampleProofs GNModel WModel WSpec WProofs WProofs2 WProofs3 WProofs4 AvModel AvSpec AvProofs AvProofs2 AvProofs3 AvProofs4 AvProofs5 AvProofs6 AvProofs7
  CheckModel CheckSpec CheckProofs CheckProofs2 CheckProofs3 CheckProofs4 CheckProofs5 IOModel IOSpec IOProofs IOProofs2 ConvModel ConvSpec ConvSpec2 ConvProofs ConvProofs2 ConvProofs3 ConvProofs4 ConvProofs5 ConvProofs6 ConvProofs11 ConvProofs12 ConvProofs13 ConvProofs14 ConvProofs15 ConvProofs16.
Open Scope nat_scope.

(** Number of quantities of a side without reference. *)
Definition plain (ref : bool) (sd : side) : bool := match sd with Side1 => negb ref | Side2 => true end.
Lemma types_full (ref : bool) m2 sd c t : m2 = 4 \/ m2 = 5 -> nth_error (map Z.of_nat match sd with Side1 => if ref then [1] else firstn (m1_of ref m2) [3; 3; 1; 2; 2] | Side2 => firstn m2 [3; 3; 1; 2; 2] end) c = Some t ->
  (plain ref sd = false /\ c = 0 /\ t = 1%Z) \/ (plain ref sd = true /\ ((t = 3%Z /\ c < 2) \/ (t = 1%Z /\ c = 2) \/ (t = 2%Z /\ 3 <= c < m2))).
Proof.
  intros Hm Ht. unfold m1_of in Ht.
  destruct Hm as [-> | ->]; destruct ref, sd; cbn [firstn map Z.of_nat Pos.of_succ_nat Pos.succ] in Ht; cbn [plain negb];
    do 6 (destruct c as [|c]; [cbn [nth_error] in Ht; first [discriminate Ht|injection Ht as <-; first [left; repeat split; reflexivity|right; split; [reflexivity|lia]]]|]); destruct c; discriminate.
Qed.
Lemma types_struct (ref : bool) m2 sd c t : m2 = 4 \/ m2 = 5 -> nth_error (map Z.of_nat match sd with Side1 => if ref then [1] else firstn (m1_of ref m2) [3; 3; 1; 1; 1] | Side2 => firstn m2 [3; 3; 1; 1; 1] end) c = Some t ->
  (plain ref sd = false /\ c = 0 /\ t = 1%Z) \/ (plain ref sd = true /\ ((t = 3%Z /\ c < 2) \/ (t = 1%Z /\ 2 <= c < m2))).
Proof.
  intros Hm Ht. unfold m1_of in Ht.
  destruct Hm as [-> | ->]; destruct ref, sd; cbn [firstn map Z.of_nat Pos.of_succ_nat Pos.succ] in Ht; cbn [plain negb];
    do 6 (destruct c as [|c]; [cbn [nth_error] in Ht; first [discriminate Ht|injection Ht as <-; first [left; repeat split; reflexivity|right; split; [reflexivity|lia]]]|]); destruct c; discriminate.
Qed.
(** Column of the input file of covariate [c] of a side. *)
Definition off (sd : side) : nat := match sd with Side1 => 0 | Side2 => 5 end.

Section AV.
Context (torad : option string -> list fl -> res (list fl)) (f32 : R -> R) (trunc : R -> Z) (nanV : R).
Context (f : avin) (k1 k2 : nat) (band : Z) (bt : list fl) (ref_bt : option (list fl)) (ref : bool) (idx : list nat) (files : list avout).
Hypothesis G : good_input torad f k1 k2 band bt ref_bt.
Hypothesis HR : sensor1_is f ref.
Hypothesis HK : kept f idx.
Hypothesis E : av_main torad f None = Ok files.
Hypothesis F0 : f32 0%R = 0%R.
Let HI : forall i, In i idx -> i < n_matchups f.
Proof. intros i Hi. apply HK in Hi. apply Hi. Qed.

(** Random uncertainties as in the input file. *)
Lemma ur_col sd m2 (o : avout) c col x : m2 = 4 \/ m2 = 5 -> o_Ur1 o = ur1 f ref idx (m1_of ref m2) -> o_Ur2 o = ur2 f idx m2 -> plain ref sd = false \/ structured c = false ->
  CheckSpec.is_column (p_Ur (mapped f32 (av_data nanV o)) sd) c col -> In x col -> exists i y, In i idx /\ nth_error (nth i (a_Ur f) []) (off sd + c) = Some y /\ x = f32 (val nanV y).
Proof.
  intros Hm E1 E2 Hc HC Hx. cbn [mapped p_Ur av_data] in HC. destruct (col_entries f32 nanV _ c col x HC Hx) as (r & y & Hr & Hy & ->).
  assert (Q : exists q a b, In q (block a b idx (a_Ur f)) /\ nth_error q c = Some y /\ a = off sd).
  { destruct sd; cbn [plain off] in *.
    - rewrite E1 in Hr. unfold ur1 in Hr. destruct ref.
      + exists r, 0, (m1_of true m2). auto.
      + destruct Hc as [Hc|Hc]; [discriminate|]. destruct (czero_row _ _ c y Hc Hr Hy) as (q & A & B). exists q, 0, (m1_of false m2). auto.
    - destruct Hc as [Hc|Hc]; [discriminate|]. rewrite E2 in Hr. destruct (czero_row _ _ c y Hc Hr Hy) as (q & A & B). exists q, 5, (5 + m2). auto. }
  destruct Q as (q & a & b & A & B & ->). destruct (block_row _ _ _ _ _ _ _ A B) as (i & C & D & _). exists i, y. auto.
Qed.
Lemma av_two j o m2 : av_positive f32 nanV f ref idx m2 -> holds f idx (m1_of ref j) j o -> p_name (mapped f32 (av_data nanV o)) Side1 <> p_name (mapped f32 (av_data nanV o)) Side2.
Proof. intros AP HH. cbn [mapped av_data p_name]. pose proof (h_s1 _ _ _ _ _ HH). pose proof (h_s2 _ _ _ _ _ HH). pose proof (ap_two _ _ _ _ _ _ AP). congruence. Qed.
Lemma av_k j o m2 : av_positive f32 nanV f ref idx m2 -> holds f idx (m1_of ref j) j o ->
  forall i r s, nth_error (p_Kr (mapped f32 (av_data nanV o))) i = Some r -> nth_error (p_Ks (mapped f32 (av_data nanV o))) i = Some s -> (0 <= r /\ 0 <= s /\ (0 < r \/ 0 < s))%R.
Proof.
  intros AP HH i r s. cbn [mapped av_data p_Kr p_Ks]. rewrite (h_Kr _ _ _ _ _ HH), (h_Ks _ _ _ _ _ HH). unfold at_. intros Hr Hs.
  apply nth_inv in Hr. destruct Hr as (a & Hr & ->). apply nth_inv in Hr. destruct Hr as (b & Hr & ->). apply nth_inv in Hr. destruct Hr as (n & Hr & ->).
  apply nth_inv in Hs. destruct Hs as (a' & Hs & ->). apply nth_inv in Hs. destruct Hs as (b' & Hs & ->). apply nth_inv in Hs. destruct Hs as (n' & Hs & ->).
  assert (n' = n) by congruence. subst n'. apply (ap_k _ _ _ _ _ _ AP n). eapply nth_error_In; eauto.
Qed.
Lemma ur_pos sd m2 o c col : m2 = 4 \/ m2 = 5 -> av_positive f32 nanV f ref idx m2 -> o_Ur1 o = ur1 f ref idx (m1_of ref m2) -> o_Ur2 o = ur2 f idx m2 -> (plain ref sd = false /\ c = 0) \/ (plain ref sd = true /\ 2 <= c < m2) ->
  CheckSpec.is_column (p_Ur (mapped f32 (av_data nanV o)) sd) c col -> Forall (Rlt 0) col.
Proof.
  intros Hm AP E1 E2 Hc HC. apply Forall_forall. intros x Hx.
  assert (Q : plain ref sd = false \/ structured c = false) by (destruct Hc as [(Hc & _)|(_ & Hc)]; [auto|right; unfold structured; apply Nat.ltb_ge; lia]).
  destruct (ur_col sd m2 o c col x Hm E1 E2 Q HC Hx) as (i & y & Hi & Hy & ->). apply (ap_ran _ _ _ _ _ _ AP i (off sd + c) y Hi); [|exact Hy].
  destruct sd; cbn [plain off] in *; [left|right; destruct Hc as [(Hc & _)|Hc]; [discriminate|lia]]. destruct ref; cbn [negb] in Hc; destruct Hc as [(Hc & Hc')|(Hc & Hc')]; try discriminate; [exact Hc'|exact Hc'].
Qed.

Theorem av_structured j o : 2 <= j < 4 -> nth_error files j = Some o -> av_positive f32 nanV f ref idx (if Nat.even j then 4 else 5) -> exists g, av_nc f32 trunc nanV o = Ok g /\ check g = Ok [].
Proof.
  intros Hj Ho AP. destruct (av_accepted torad f32 trunc nanV f k1 k2 band bt ref_bt ref idx files G HR HK E j o F0 ltac:(lia) Ho) as (g & mv & EW & EG & _ & _ & CK). exists g. split; [exact EG|]. apply CK.
  destruct (av_parts torad f k1 k2 band bt ref_bt ref idx files G HR HK E j o Ho) as (HH & HC & _ & _ & HW). cbv zeta in HH, HC, HW.
  set (m2 := if Nat.even j then 4 else 5) in *. assert (Hm : m2 = 4 \/ m2 = 5) by (unfold m2; destruct (Nat.even j); auto).
  destruct (HW ltac:(lia)) as (p & W1 & u1 & v1 & W2 & u2 & v2 & RD & WM & EW'). rewrite EW in EW'. injection EW' as ->.
  split; [|exact (lines_pos torad f32 trunc nanV f k1 k2 band bt ref_bt ref idx G HR HK m2 Hm AP p W1 u1 v1 W2 u2 v2 RD WM)].
  assert (SF : structured_file f ref idx (m1_of ref m2) m2 o) by (destruct HC as [(? & _)|[(_ & HC)|(? & _)]]; [lia|exact HC|lia]).
  split; [eapply av_two; eauto|]. split; [eapply av_k; eauto|]. intros sd c t ur us Ht C1 C2. destruct SF as [a b c' d e g' _].
  assert (US : Forall (eq 0%R) us). { cbn [mapped p_Us av_data] in C2. rewrite c', d in C2. destruct sd; eapply zero_col; eauto. }
  cbn [mapped p_type av_data] in Ht. rewrite e, g' in Ht. unfold as_declared.
  destruct (types_struct ref m2 sd c t Hm Ht) as [(P1 & P2 & ->)|(P1 & [(-> & P2)|(-> & P2)])].
  - right. left. split; [reflexivity|]. split; [eapply (ur_pos sd m2); eauto|exact US].
  - left. auto.
  - right. left. split; [reflexivity|]. split; [eapply (ur_pos sd m2); eauto|exact US].
Qed.

Lemma us_col sd m2 (o : avout) c col x : m2 = 4 \/ m2 = 5 -> plain ref sd = true -> full_file f ref idx (m1_of ref m2) m2 o -> CheckSpec.is_column (p_Us (mapped f32 (av_data nanV o)) sd) c col -> In x col ->
  exists i y, In i idx /\ nth_error (nth i (a_Us f) []) (off sd + c) = Some y /\ x = f32 (val nanV y).
Proof.
  intros Hm HP HF HC Hx. cbn [mapped p_Us av_data] in HC. destruct (col_entries f32 nanV _ c col x HC Hx) as (r & y & Hr & Hy & ->). destruct HF as [_ _ e1 e2 _ _ _].
  assert (Q : exists a b, In r (block a b idx (a_Us f)) /\ a = off sd).
  { destruct sd; cbn [plain off] in *; [rewrite e1 in Hr; destruct ref; [discriminate|exists 0, (m1_of false m2); auto]|rewrite e2 in Hr; exists 5, (5 + m2); auto]. }
  destruct Q as (a & b & A & ->). destruct (block_row _ _ _ _ _ _ _ A Hy) as (i & C & D & _). exists i, y. auto.
Qed.
Theorem av_full_sufficient j o : j < 2 -> nth_error files j = Some o -> let m2 := if Nat.even j then 4 else 5 in av_positive f32 nanV f ref idx m2 -> av_systematic f32 nanV f ref idx m2 -> exists g, av_nc f32 trunc nanV o = Ok g /\ check g = Ok [].
Proof.
  intros Hj Ho m2 AP AS. destruct (av_accepted torad f32 trunc nanV f k1 k2 band bt ref_bt ref idx files G HR HK E j o F0 ltac:(lia) Ho) as (g & mv & EW & EG & _ & _ & CK). exists g. split; [exact EG|]. apply CK.
  destruct (av_parts torad f k1 k2 band bt ref_bt ref idx files G HR HK E j o Ho) as (HH & HC & _ & _ & HW). cbv zeta in HH, HC, HW. fold m2 in HH, HC, HW.
  assert (Hm : m2 = 4 \/ m2 = 5) by (unfold m2; destruct (Nat.even j); auto).
  destruct (HW ltac:(lia)) as (p & W1 & u1 & v1 & W2 & u2 & v2 & RD & WM & EW'). rewrite EW in EW'. injection EW' as ->.
  split; [|exact (lines_pos torad f32 trunc nanV f k1 k2 band bt ref_bt ref idx G HR HK m2 Hm AP p W1 u1 v1 W2 u2 v2 RD WM)].
  assert (SF : full_file f ref idx (m1_of ref m2) m2 o) by (destruct HC as [(_ & HC)|[(? & _)|(? & _)]]; [exact HC|lia|lia]).
  split; [eapply av_two; eauto|]. split; [eapply av_k; eauto|]. intros sd c t ur us Ht C1 C2. pose proof SF as [a b c' d e g' _].
  assert (NS : forall c us, plain ref sd = true -> CheckSpec.is_column (p_Us (mapped f32 (av_data nanV o)) sd) c us -> (c < 3 -> Forall (eq 0%R) us) /\ (3 <= c < m2 -> Forall (Rlt 0) us)).
  { intros c0 us0 HP HC0. split; intros Hc; apply Forall_forall; intros x Hx; destruct (us_col sd m2 o c0 us0 x Hm HP SF HC0 Hx) as (i & y & Hi & Hy & ->); destruct (AS i (off sd + c0) y Hi Hy) as (A1 & A2).
    - symmetry. apply A1. unfold no_sys. destruct sd; cbn [plain off] in *; [left; destruct ref; [discriminate|]; split; [reflexivity|lia]|right; lia].
    - apply A2. unfold sys. destruct sd; cbn [plain off] in *; [left; destruct ref; [discriminate|]; split; [reflexivity|lia]|right; lia]. }
  assert (Ht' := Ht). cbn [mapped p_type av_data] in Ht'. rewrite e, g' in Ht'. unfold as_declared.
  destruct (types_full ref m2 sd c t Hm Ht') as [(P1 & P2 & ->)|(P1 & [(-> & P2)|[(-> & P2)|(-> & P2)]])].
  - right. left. split; [reflexivity|]. split; [eapply (ur_pos sd m2); eauto|]. destruct sd; cbn [plain] in P1; [|discriminate]. destruct ref; [|discriminate]. cbn [mapped p_Us av_data] in C2. rewrite c' in C2. eapply zero_col; eauto.
  - left. split; [reflexivity|]. apply (NS c us P1 C2). lia.
  - right. left. split; [reflexivity|]. split; [eapply (ur_pos sd m2); eauto; right; split; [exact P1|lia]|]. apply (NS c us P1 C2). lia.
  - right. right. split; [reflexivity|]. split; [eapply (ur_pos sd m2); eauto; right; split; [exact P1|lia]|]. apply (NS c us P1 C2). lia.
Qed.
(** Conversely: an accepted file has such systematic uncertainties. *)
Theorem av_full_necessary j o g : j < 2 -> nth_error files j = Some o -> av_nc f32 trunc nanV o = Ok g -> check g = Ok [] -> av_systematic f32 nanV f ref idx (if Nat.even j then 4 else 5).
Proof.
  intros Hj Ho EG' CG. destruct (av_accepted torad f32 trunc nanV f k1 k2 band bt ref_bt ref idx files G HR HK E j o F0 ltac:(lia) Ho) as (g0 & mv & EW & EG & _ & _ & CK). rewrite EG in EG'. injection EG' as ->. apply CK in CG. destruct CG as ((_ & _ & DV) & _).
  destruct (av_parts torad f k1 k2 band bt ref_bt ref idx files G HR HK E j o Ho) as (HH & HC & AF & _ & _). cbv zeta in HH, HC.
  set (m2 := if Nat.even j then 4 else 5) in *. assert (Hm : m2 = 4 \/ m2 = 5) by (unfold m2; destruct (Nat.even j); auto).
  assert (SF : full_file f ref idx (m1_of ref m2) m2 o) by (destruct HC as [(_ & HC)|[(? & _)|(? & _)]]; [exact HC|lia|lia]).
  pose proof (full_shape f k1 k2 ref idx m2 o (gi_file _ _ _ _ _ _ _ G) HI Hm HH SF) as SH.
  pose proof (mapped_shaped f32 _ (av_well_shaped nanV o _ _ _ SH AF)) as (WS & _).
  assert (KEY : forall sd c i y, plain ref sd = true -> c < m2 -> In i idx -> nth_error (nth i (a_Us f) []) (off sd + c) = Some y -> (c < 3 -> f32 (val nanV y) = 0%R) /\ (3 <= c -> (0 < f32 (val nanV y))%R)).
  { intros sd c i y HP Hc Hi Hy. destruct (WS sd) as (_ & MR & MS & LT & _).
    assert (PM : p_m (mapped f32 (av_data nanV o)) sd = m2). { cbn [mapped av_data p_m]. destruct sd; cbn [plain] in HP; [|apply SH]. destruct ref; [discriminate|]. apply SH. }
    rewrite PM in *.
    destruct (columns_exist _ m2 (proj2 MR) c Hc) as (ur & C1). destruct (columns_exist _ m2 (proj2 MS) c Hc) as (us & C2).
    destruct (nth_error (p_type (mapped f32 (av_data nanV o)) sd) c) as [t|] eqn:Et; [|apply nth_error_None in Et; lia].
    pose proof (DV sd c t ur us Et C1 C2) as AD.
    assert (IN : In (f32 (val nanV y)) us).
    { assert (Q : exists r, In r (match sd with Side1 => o_Us1 o | Side2 => o_Us2 o end) /\ nth_error r c = Some y).
      { destruct SF as [_ _ e1 e2 _ _ _]. destruct sd; cbn [plain off] in *; [rewrite e1; destruct ref; [discriminate|]|rewrite e2]; apply (row_block _ _ idx (a_Us f) i c y Hi); auto; [cbn [m1_of]; lia|lia]. }
      destruct Q as (r & Q1 & Q2). cbn [mapped p_Us av_data] in C2. exact (col_has f32 nanV _ c us r y C2 Q1 Q2). }
    assert (Ht' := Et). destruct SF as [_ _ _ _ e g' _]. cbn [mapped p_type av_data] in Ht'. rewrite e, g' in Ht'. 
    destruct (types_full ref m2 sd c t Hm Ht') as [(P1 & _)|(P1 & PP)]; [congruence|]. unfold as_declared in AD.
    assert (AD' : (c < 3 -> Forall (eq 0%R) us) /\ (3 <= c -> Forall (Rlt 0) us)) by (destruct PP as [(-> & P2)|[(-> & P2)|(-> & P2)]]; destruct AD as [(D1 & D2)|[(D1 & D2 & D3)|(D1 & D2 & D3)]]; try discriminate; (split; intros; [auto|auto]; lia)).
    destruct AD' as (D1 & D2). split; intros H; [specialize (D1 H); rewrite Forall_forall in D1; symmetry; auto|specialize (D2 H); rewrite Forall_forall in D2; auto]. }
  intros i c x Hi Hx. unfold no_sys, sys. split.
  - intros [(Er & Hc)|Hc]; [apply (KEY Side1 c i x); cbn [plain off]; [rewrite Er; reflexivity|lia|exact Hi|exact Hx|exact Hc]|].
    apply (KEY Side2 (c - 5) i x); cbn [plain off]; [reflexivity|lia|exact Hi|replace (5 + (c - 5)) with c by lia; exact Hx|lia].
  - intros [(Er & Hc)|Hc]; [apply (KEY Side1 c i x); cbn [plain off]; [rewrite Er; reflexivity|lia|exact Hi|exact Hx|lia]|].
    apply (KEY Side2 (c - 5) i x); cbn [plain off]; [reflexivity|lia|exact Hi|replace (5 + (c - 5)) with c by lia; exact Hx|lia].
Qed.
End AV.
