(** * Conversion of AVHRR match-up files: what the files hold.  Proofs only. *)
From Coq Require Import Reals Lra Sorted.
From Verif Require Import Base BaseLemmas ReaderModel UncModel UncSpec UncProofs TransformModel TransformSpec GNModel GNTerms HRModel HRText WModel WSpec WProofs WProofs2 WProofs3 WProofs4 CheckProofs AvModel AvSpec AvProofs AvProofs2 AvProofs3 AvProofs4 AvProofs5.
Open Scope nat_scope.

Lemma sorted_unique : forall a b : list nat, StronglySorted lt a -> StronglySorted lt b -> (forall i, In i a <-> In i b) -> a = b.
Proof.
  induction a as [|x a IH]; intros [|y b] Ha Hb H.
  - reflexivity.
  - exfalso. apply (H y). left; auto.
  - exfalso. apply (H x). left; auto.
  - inversion Ha as [|? ? Ha' Hx]; subst. inversion Hb as [|? ? Hb' Hy]; subst. rewrite Forall_forall in Hx, Hy.
    assert (x = y). { destruct (proj1 (H x) (or_introl eq_refl)) as [->|Hi]; [auto|]. destruct (proj2 (H y) (or_introl eq_refl)) as [->|Hj]; [auto|]. specialize (Hx _ Hj). specialize (Hy _ Hi). lia. }
    subst y. f_equal. apply IH; auto. intros i. split; intros Hi.
    + destruct (proj1 (H i) (or_intror Hi)) as [->|]; [|auto]. specialize (Hx _ Hi). lia.
    + destruct (proj2 (H i) (or_intror Hi)) as [->|]; [|auto]. specialize (Hy _ Hi). lia.
Qed.
Lemma kept_unique f a b : kept f a -> kept f b -> a = b.
Proof. intros (A1 & A2) (B1 & B2). apply sorted_unique; auto. intros i. rewrite A2, B2. tauto. Qed.
Lemma sensor1_unique f a b : sensor1_is f a -> sensor1_is f b -> a = b.
Proof. destruct a, b; cbn; auto; unfold is_ref, not_ref; intros H H'; [destruct H as (r & E & E'), H' as (r' & x & F & F')|destruct H' as (r & E & E'), H as (r' & x & F & F')]; rewrite E in F; injection F as <-; congruence. Qed.

Lemma lookup_To2 {B} (c : bool) (x : B) : lookup "To2"%string (if c then [("To1"%string, x)] else []) = None.
Proof. destruct c; reflexivity. Qed.

Section Out.
Variable torad : option string -> list fl -> res (list fl).
Context {f : avin} {k1 k2 : nat} {band : Z} {bt : list fl} {ref_bt : option (list fl)} {ref : bool} {idx : list nat} {p : prepared}.
Hypothesis G : good_input torad f k1 k2 band bt ref_bt.
Hypothesis K : kept f idx.
Hypothesis RD : ready f k1 k2 band bt ref_bt ref idx p.
Let HI : forall i, In i idx -> i < n_matchups f.
Proof. intros i Hi. apply K in Hi. apply Hi. Qed.
Let F : av_file f k1 k2 := gi_file _ _ _ _ _ _ _ G.
Let RH : rows10 idx (a_H f) := sized10 f idx 10 (a_H f) (af_H f k1 k2 F) HI.
Let RR : rows10 idx (a_Ur f) := sized10 f idx 10 (a_Ur f) (af_Ur f k1 k2 F) HI.
Let RS : rows10 idx (a_Us f) := sized10 f idx 10 (a_Us f) (af_Us f k1 k2 F) HI.

Lemma holds_ok dir m2 n1 n2 ur1 ur2 us1 us2 ut1 ut2 W : m2 = 4 \/ m2 = 5 -> p_s1 p = Some n1 -> p_s2 p = Some n2 -> holds f idx (m1_of ref m2) m2 (outf p dir (m1_of ref m2) m2 n1 n2 ur1 ur2 us1 us2 ut1 ut2 W).
Proof.
  intros Hm E1 E2. destruct RD as [r1 r2 r3 r4 r5 r6 r7 r8 r9 r10 r11 r12 r13 r14 r15 r16 r17 r18 (r19 & r19') r20 r21 r22].
  assert (LA : forall n, n <> "To1"%string -> n <> "To2"%string -> forall m m', lookup n (p_adds p ++ (if m =? 4 then [("To1"%string, map (fun r => nth 4 r None) (p_X1 p))] else []) ++ (if m' =? 4 then [("To2"%string, map (fun r => nth 4 r None) (p_X2 p))] else [])) = lookup n (p_adds p)).
  { intros n N1 N2 m m'. rewrite !lookup_app'. destruct (lookup n (p_adds p)); [reflexivity|]. destruct (m =? 4), (m' =? 4); cbn [lookup]; rewrite ?(proj2 (String.eqb_neq "To1" n)), ?(proj2 (String.eqb_neq "To2" n)) by congruence; reflexivity. }
  constructor; unfold outf; cbn [o_X1 o_X2 o_K o_Kr o_Ks o_t1 o_t2 o_s1 o_s2 o_adds]; auto.
  - rewrite r2. destruct ref; cbn [m1_of]; [apply X1_ref; auto|apply X1_cols; auto].
  - rewrite r3. apply X2_cols; auto.
  - congruence.
  - congruence.
  - rewrite LA by discriminate. auto.
  - intros old new Hn. rewrite LA; [auto| |]; intros ->; cbn in Hn; intuition discriminate.
  - intros E. rewrite E. cbn [Nat.eqb]. rewrite lookup_app', r19. cbn [app lookup String.eqb Ascii.eqb Bool.eqb]. f_equal. rewrite r2. destruct ref; [discriminate E|]. unfold block. rewrite map_map. apply map_ext_in. intros i Hi. destruct (ten _ (RH i Hi)) as (?a & ?b & ?c & ?d & ?e & ?f & ?g & ?h & ?i' & ?j & ->). reflexivity.
  - intros E. rewrite E. cbn [Nat.eqb]. rewrite !lookup_app', r19'.
    rewrite lookup_To2.
    cbn [lookup String.eqb Ascii.eqb Bool.eqb]. f_equal. rewrite r3. unfold block. rewrite map_map. apply map_ext_in. intros i Hi. destruct (ten _ (RH i Hi)) as (?a & ?b & ?c & ?d & ?e & ?f & ?g & ?h & ?i' & ?j & ->). reflexivity.
Qed.

Lemma nominal_ok dir m2 n1 n2 ur1 ur2 us1 us2 ut1 ut2 W : let o := outf p dir (m1_of ref m2) m2 n1 n2 ur1 ur2 us1 us2 ut1 ut2 W in
  lookup "nominal_measurand2"%string (o_adds o) = Some (at_ None idx bt) /\ lookup "nominal_measurand1"%string (o_adds o) = option_map (at_ None idx) ref_bt.
Proof.
  destruct RD as [r1 r2 r3 r4 r5 r6 r7 r8 r9 r10 r11 r12 r13 r14 r15 r16 r17 r18 r19 r20 r21 r22]. unfold outf. cbn [o_adds]. rewrite !lookup_app', r17, r18. split; [reflexivity|]. destruct ref_bt; [reflexivity|]. cbn [option_map].
  destruct (m1_of ref m2 =? 4), (m2 =? 4); reflexivity.
Qed.

Lemma ur1_ok m2 : m2 = 4 \/ m2 = 5 -> map (firstn (m1_of ref m2)) (p_Ur1 p) = ur1 f ref idx (m1_of ref m2).
Proof. intros Hm. rewrite (r_Ur1 _ _ _ _ _ _ _ _ _ RD). unfold ur1. destruct ref; cbn [m1_of]; [apply U1_ref; auto|apply U1_cols; auto]. Qed.
Lemma ur2_ok m2 : m2 = 4 \/ m2 = 5 -> map (firstn m2) (p_Ur2 p) = ur2 f idx m2.
Proof. intros Hm. rewrite (r_Ur2 _ _ _ _ _ _ _ _ _ RD). unfold ur2. apply U2_cols; auto. Qed.

Lemma full_ok dir m2 n1 n2 : m2 = 4 \/ m2 = 5 -> full_file f ref idx (m1_of ref m2) m2 (outf p dir (m1_of ref m2) m2 n1 n2 (p_Ur1 p) (p_Ur2 p) (p_Us1 p) (p_Us2 p) (types1 ref) types2 (Some (p_W p))).
Proof.
  intros Hm. constructor; unfold outf; cbn [o_Ur1 o_Ur2 o_Us1 o_Us2 o_ut1 o_ut2 o_W].
  - apply ur1_ok; auto.
  - apply ur2_ok; auto.
  - rewrite (r_Us1 _ _ _ _ _ _ _ _ _ RD). destruct ref; cbn [m1_of]; [apply S1_ref; auto|apply S1_cols; auto].
  - rewrite (r_Us2 _ _ _ _ _ _ _ _ _ RD). apply S2_cols; auto.
  - destruct ref; reflexivity.
  - reflexivity.
  - eauto.
Qed.
Lemma zero1_ok m2 : m2 = 4 \/ m2 = 5 -> (length (p_Us1 p) = length idx /\ forall r, In r (p_Us1 p) -> length r = if ref then 1 else 5) -> map (firstn (m1_of ref m2)) (all_zero (p_Us1 p)) = zero_rows (m1_of ref m2) idx.
Proof. intros Hm (L & H). apply (Z_cols idx _ _ (if ref then 1 else 5)); auto. destruct ref; cbn [m1_of]; destruct Hm; lia. Qed.
Lemma zero2_ok m2 : m2 = 4 \/ m2 = 5 -> (length (p_Us2 p) = length idx /\ forall r, In r (p_Us2 p) -> length r = 5) -> map (firstn m2) (all_zero (p_Us2 p)) = zero_rows m2 idx.
Proof. intros Hm (L & H). apply (Z_cols idx _ _ 5); auto. destruct Hm; lia. Qed.
Lemma structured_ok dir m2 n1 n2 : m2 = 4 \/ m2 = 5 -> (length (p_Us1 p) = length idx /\ forall r, In r (p_Us1 p) -> length r = if ref then 1 else 5) -> (length (p_Us2 p) = length idx /\ forall r, In r (p_Us2 p) -> length r = 5) ->
  structured_file f ref idx (m1_of ref m2) m2 (outf p dir (m1_of ref m2) m2 n1 n2 (p_Ur1 p) (p_Ur2 p) (all_zero (p_Us1 p)) (all_zero (p_Us2 p)) (if ref then [1] else [3; 3; 1; 1; 1]) [3; 3; 1; 1; 1] (Some (p_W p))).
Proof.
  intros Hm Q1 Q2. constructor; unfold outf; cbn [o_Ur1 o_Ur2 o_Us1 o_Us2 o_ut1 o_ut2 o_W].
  - apply ur1_ok; auto.
  - apply ur2_ok; auto.
  - apply zero1_ok; auto.
  - apply zero2_ok; auto.
  - destruct ref; reflexivity.
  - reflexivity.
  - eauto.
Qed.
Lemma combined_cols W u v rows rows' m i r r' : combined W u v rows rows' -> m = 4 \/ m = 5 -> nth_error (map (firstn m) rows') i = Some r -> nth_error (map (firstn m) rows) i = Some r' ->
  length r = m /\ nth_error r 0 = Some (Some (rsum (contributions W u i))) /\ nth_error r 1 = Some (Some (rsum (contributions W v i))) /\ forall c, structured c = false -> nth_error r c = nth_error r' c.
Proof.
  intros (L & H5 & HC) Hm Hr Hr'. rewrite nth_error_map' in Hr, Hr'. destruct (nth_error rows i) as [q|] eqn:Eq; [|discriminate]. destruct (HC i q Eq) as (q' & Eq' & N0 & N1 & N2). rewrite Eq' in Hr. injection Hr as <-. injection Hr' as <-.
  assert (L5 : length q' = 5) by (apply H5; eapply nth_error_In; eauto).
  assert (NF : forall (l : list fl) c, nth_error (firstn m l) c = if c <? m then nth_error l c else None).
  { intros l c. destruct (Nat.ltb_spec c m) as [Hc|Hc].
    - revert l c Hc. clear. induction m as [|m IH]; intros l c Hc; [lia|]. destruct l as [|x l], c as [|c]; cbn; auto. apply IH. lia.
    - apply nth_error_None. rewrite firstn_length. lia. }
  split; [rewrite firstn_length; destruct Hm; lia|]. rewrite !NF. replace (0 <? m) with true by (destruct Hm; subst; reflexivity). replace (1 <? m) with true by (destruct Hm; subst; reflexivity). split; [auto|]. split; [auto|].
  intros c Hc. rewrite !NF. destruct (c <? m); auto.
Qed.
Lemma random_ok dir m2 n1 n2 c1 c2 W1 u1 v1 W2 u2 v2 : m2 = 4 \/ m2 = 5 -> (length (p_Us1 p) = length idx /\ forall r, In r (p_Us1 p) -> length r = if ref then 1 else 5) -> (length (p_Us2 p) = length idx /\ forall r, In r (p_Us2 p) -> length r = 5) ->
  combined W2 u2 v2 (p_Ur2 p) c2 -> (if ref then c1 = p_Ur1 p else combined W1 u1 v1 (p_Ur1 p) c1) ->
  random_file f ref idx (m1_of ref m2) m2 (outf p dir (m1_of ref m2) m2 n1 n2 c1 c2 (all_zero (p_Us1 p)) (all_zero (p_Us2 p)) (if ref then [1] else repeat 1 5) (repeat 1 5) None).
Proof.
  intros Hm Q1 Q2 C2 C1.
  assert (L1 : length (p_Ur1 p) = length idx) by (rewrite (r_Ur1 _ _ _ _ _ _ _ _ _ RD); unfold columns; rewrite !map_length; apply at_length).
  assert (L2 : length (p_Ur2 p) = length idx) by (rewrite (r_Ur2 _ _ _ _ _ _ _ _ _ RD); unfold columns; rewrite !map_length; apply at_length).
  constructor; unfold outf; cbn [o_Ur1 o_Ur2 o_Us1 o_Us2 o_ut1 o_ut2 o_W].
  - apply zero1_ok; auto.
  - apply zero2_ok; auto.
  - destruct ref; [reflexivity|]. cbn [m1_of]. destruct Hm as [->| ->]; reflexivity.
  - destruct Hm as [->| ->]; reflexivity.
  - reflexivity.
  - rewrite !map_length. split; [|destruct C2; congruence]. destruct ref; [subst c1; auto|destruct C1; congruence].
  - intros i r r' Hr Hr'. rewrite <- (ur1_ok m2 Hm) in Hr'. destruct ref.
    + subst c1. rewrite Hr in Hr'. injection Hr' as <-. split; [|auto]. change (m1_of true m2) with 1 in *. rewrite (r_Ur1 _ _ _ _ _ _ _ _ _ RD) in Hr. rewrite (U1_ref idx (a_Ur f) RR) in Hr. apply nth_error_In in Hr. unfold block in Hr. apply in_map_iff in Hr as (j & <- & Hj). destruct (ten _ (RR j Hj)) as (?a & ?b & ?c & ?d & ?e & ?f & ?g & ?h & ?i' & ?j & ->). reflexivity.
    + destruct (combined_cols _ _ _ _ _ _ _ _ _ C1 Hm Hr Hr') as (A & _ & _ & B). split; [auto|]. intros c [Hc|Hc]; [discriminate|auto].
  - intros i r r' Hr Hr'. rewrite <- (ur2_ok m2 Hm) in Hr'. destruct (combined_cols _ _ _ _ _ _ _ _ _ C2 Hm Hr Hr') as (A & _ & _ & B). auto.
Qed.
End Out.
