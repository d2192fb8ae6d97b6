(** * Proofs for C44: W and u matrices; the whole check. *)
From Coq Require Import Reals Lra.
From Verif Require Import Base BaseLemmas ReaderModel ReaderMain SimModel SimProofs2 CheckModel CheckSpec CheckProofs CheckProofs2.
Open Scope nat_scope.

Lemma zmax_iff l m : zmax l = Ok m <-> largest l m.
Proof.
  unfold zmax, largest. destruct l as [|x l]; [split; [discriminate|intros ([] & _)]|]. destruct (fold_zmax l x) as (A & B & C). set (r := fold_left Z.max l x) in *. cbv zeta in *.
  split.
  - intros E. injection E as <-. split; [cbn; destruct A; auto|]. intros y [<-|Hy]; auto.
  - intros (Hm & Hb). f_equal. assert (m <= r)%Z by (destruct Hm as [<-|Hm]; auto). assert (r <= m)%Z by (apply Hb; cbn; destruct A; auto). lia.
Qed.
Lemma zmax_ex l : l <> [] -> exists m, zmax l = Ok m.
Proof. destruct l; [congruence|]. intros _. unfold zmax. eauto. Qed.
Lemma largest_app a b x y : largest a x -> largest b y -> largest (a ++ b) (Z.max x y).
Proof.
  intros (A & B) (C & D). split.
  - apply in_or_app. destruct (Z.max_spec x y) as [(_ & ->)|(_ & ->)]; auto.
  - intros z Hz. apply in_app_or in Hz. destruct Hz as [Hz|Hz]; [specialize (B z Hz)|specialize (D z Hz)]; lia.
Qed.
Lemma largest_succ a m : largest a m -> zmax (map (fun x => x + 1)%Z a) = Ok (m + 1)%Z.
Proof.
  intros (A & B). apply zmax_iff. split; [apply (in_map (fun x => x + 1)%Z); auto|]. intros x Hx. apply in_map_iff in Hx. destruct Hx as (y & <- & Hy). specialize (B y Hy). lia.
Qed.
Lemma use_iff a m e : largest a m -> (use_check a e = Ok [] <-> (forall x, In x a -> x <> 0%Z -> 1 <= x <= m)%Z /\ forall k, (1 <= k <= m)%Z -> In k a).
Proof.
  intros HL. unfold use_check. rewrite (largest_succ a m HL). cbn [bind].
  assert (OK : forall l : list err, Ok l = Ok [] <-> l = []) by (intros l; split; congruence). rewrite OK, errif_nil, Bool.negb_false_iff. unfold set_eqb. rewrite Bool.andb_true_iff, !forallb_forall.
  replace (m + 1 - 1)%Z with m by lia.
  assert (R : forall k, In k (map (fun i => Z.of_nat i + 1)%Z (seq 0 (Z.to_nat m))) <-> (1 <= k <= m)%Z).
  { intros k. rewrite in_map_iff. split; [intros (i & <- & Hi); apply in_seq in Hi; lia|]. intros Hk. exists (Z.to_nat (k - 1)). split; [lia|apply in_seq; lia]. }
  assert (X : forall x l, existsb (Z.eqb x) l = true <-> In x l).
  { intros x l. rewrite existsb_exists. split; [intros (y & Hy & E); apply Z.eqb_eq in E; subst; auto|intros Hx; exists x; split; [auto|apply Z.eqb_refl]]. }
  assert (FI : forall x, In x (filter (fun y => negb (y =? 0)%Z) a) <-> In x a /\ x <> 0%Z).
  { intros x. rewrite filter_In, Bool.negb_true_iff, Z.eqb_neq. tauto. }
  split.
  - intros (A & B). split.
    + intros x Hx Hn. apply R, X, A, FI. auto.
    + intros k Hk. apply R in Hk. apply B in Hk. apply X, FI in Hk. tauto.
  - intros (A & B). split; intros x Hx; apply X.
    + apply FI in Hx. apply R. apply A; tauto.
    + apply FI. apply R in Hx. split; [auto|lia].
Qed.
Lemma numbered_iff a m n e : largest a m -> (Z.of_nat n = m /\ use_check a e = Ok [] <-> numbered a n).
Proof.
  intros HL. rewrite (use_iff a m e HL). destruct HL as (A & B). unfold numbered. split.
  - intros (<- & C & D). split; [|exact D]. intros x Hx. destruct (Z.eq_dec x 0) as [->|N]; [lia|specialize (C x Hx N); lia].
  - intros (C & D). assert (E : Z.of_nat n = m).
    { pose proof (C m A). destruct n as [|n]; [lia|]. pose proof (B _ (D (Z.of_nat (S n)) ltac:(lia))). lia. }
    split; [auto|]. rewrite E in *. split; [|auto]. intros x Hx N. specialize (C x Hx). lia.
Qed.

(** ** Columns with matrices *)
Lemma in_where p a i : In i (where_ p a) <-> exists x, nth_error a i = Some x /\ p x = true.
Proof.
  unfold where_. rewrite in_map_iff. split.
  - intros ((j & x) & E & H). cbn in E. subst j. apply filter_In in H. destruct H as (H & Hp). apply in_enumerate in H. eauto.
  - intros (x & H & Hp). exists (i, x). split; [auto|]. apply filter_In. split; [|auto]. apply in_enumerate. auto.
Qed.
Lemma where_eq p q (a b : list Z) : length a = length b -> (where_ p a = where_ q b <-> forall i x y, nth_error a i = Some x -> nth_error b i = Some y -> p x = q y).
Proof.
  intros HL. split.
  - intros E i x y Hx Hy. destruct (p x) eqn:Ep; destruct (q y) eqn:Eq; auto.
    + assert (H : In i (where_ p a)) by (apply in_where; eauto). rewrite E in H. apply in_where in H. destruct H as (z & Hz & Hq). congruence.
    + assert (H : In i (where_ q b)) by (apply in_where; eauto). rewrite <- E in H. apply in_where in H. destruct H as (z & Hz & Hq). congruence.
  - unfold where_, enumerate. rewrite <- HL. generalize 0 at 1 2 as k. revert b HL. induction a as [|x a IH]; intros [|y b] HL k H; try discriminate; [auto|].
    cbn [length seq combine filter snd]. pose proof (H 0 x y eq_refl eq_refl) as E0. rewrite E0.
    assert (E1 : forall i x' y', nth_error a i = Some x' -> nth_error b i = Some y' -> p x' = q y') by (intros i; apply (H (S i))).
    specialize (IH b ltac:(cbn in HL; lia) (S k) E1). destruct (q y); cbn [map fst]; [f_equal|]; auto.
Qed.
Lemma mismatch_iff a b : length a = length b -> (errif (negb (eqln (where_ (fun x => negb (x =? 0)%Z) a) (where_ (fun x => negb (x =? 0)%Z) b))) EWUMismatch = [] <->
  forall i w u, nth_error a i = Some w -> nth_error b i = Some u -> (w = 0 <-> u = 0)%Z).
Proof.
  intros HL. rewrite errif_nil, Bool.negb_false_iff. unfold eqln. destruct (list_eq_dec Nat.eq_dec _ _) as [E|E].
  - split; [|auto]. intros _. rewrite where_eq in E by auto. intros i w u Hw Hu. specialize (E i w u Hw Hu). destruct (Z.eqb_spec w 0), (Z.eqb_spec u 0); cbn in E; try discriminate; tauto.
  - split; [discriminate|]. intros H. exfalso. apply E, where_eq; auto. intros i w u Hw Hu. specialize (H i w u Hw Hu). destruct (Z.eqb_spec w 0), (Z.eqb_spec u 0); cbn; auto; tauto.
Qed.

(** ** Widths *)
Definition width_good (wuse uuse col rows : list Z) (s : Z) (p : nat * Z) : Prop :=
  exists mx, zmax (zslice s (s + snd p) col) = Ok mx /\ forall i, nth_error wuse i = Some (Z.of_nat (fst p) + 1)%Z -> exists u r, nth_error uuse i = Some u /\ pyget rows (u - 1) = Ok r /\ r = (mx + 1)%Z.
Lemma width_step_iff wuse uuse col rows s es p : (exists t, width_step wuse uuse col rows (s, es) p = Ok (t, [])) <-> es = [] /\ width_good wuse uuse col rows s p.
Proof.
  destruct p as (i, n). unfold width_step, width_good. cbn [fst snd]. split.
  - intros (t & E). destruct (zmax _) as [mx|]; [|discriminate]. cbn [bind] in E. destruct (mapM _ _) as [more|] eqn:Em; [|discriminate]. cbn [bind] in E. injection E as _ E. apply app_nil2 in E. destruct E as (-> & E).
    split; [auto|]. exists mx. split; [auto|]. intros q Hq.
    assert (Hin : In q (where_ (fun x => (x =? Z.of_nat i + 1)%Z) wuse)) by (apply in_where; eexists; split; [eauto|apply Z.eqb_refl]).
    apply In_nth_error in Hin. destruct Hin as (k & Hk). destruct (mapM_nth _ _ _ _ _ Em Hk) as (b & Eb & Hb). unfold get in Eb. destruct (nth_error uuse q) as [u|]; [|discriminate]. cbn [bind] in Eb.
    destruct (pyget rows (u - 1)) as [r|] eqn:Er; [|discriminate]. cbn [bind] in Eb. exists u, r. do 2 (split; [auto|]). injection Eb as Eb.
    assert (b = []). { apply nth_error_In in Hb. destruct b as [|e b]; [auto|]. exfalso. assert (In e (concat more)) by (apply in_concat; eexists; split; [eauto|left; auto]). rewrite E in *. auto. }
    subst b. apply errif_nil, Bool.negb_false_iff, Z.eqb_eq in H. auto.
  - intros (-> & mx & Em & H). rewrite Em. cbn [bind].
    match goal with |- context [mapM ?g ?l] => destruct (mapM_ok_ex g l) as (more & EM) end.
    { intros q Hq. apply in_where in Hq. destruct Hq as (x & Hx & Ex). apply Z.eqb_eq in Ex. subst x. destruct (H q Hx) as (u & r & A & B & C). unfold get. rewrite A. cbn [bind]. rewrite B. cbn [bind]. eauto. }
    rewrite EM. cbn [bind]. eexists. f_equal. f_equal. cbn [app].
    destruct (concat more) as [|e es] eqn:EC; [auto|]. exfalso. assert (In e (concat more)) by (rewrite EC; left; auto). apply in_concat in H0. destruct H0 as (b & Hb & He). apply In_nth_error in Hb. destruct Hb as (k & Hk).
    assert (k < length (where_ (fun x => (x =? Z.of_nat i + 1)%Z) wuse)) by (rewrite <- (mapM_length _ _ _ EM); apply nth_error_Some; congruence).
    destruct (nth_error (where_ (fun x => (x =? Z.of_nat i + 1)%Z) wuse) k) as [q|] eqn:Eq; [|apply nth_error_None in Eq; lia].
    destruct (mapM_nth _ _ _ _ _ EM Eq) as (b' & Eb & Hb'). assert (b' = b) by congruence. subst b'. apply nth_error_In, in_where in Eq. destruct Eq as (x & Hx & Ex). apply Z.eqb_eq in Ex. subst x.
    destruct (H q Hx) as (u & r & A & B & C). unfold get in Eb. rewrite A in Eb. cbn [bind] in Eb. rewrite B in Eb. cbn [bind] in Eb. subst r. rewrite Z.eqb_refl in Eb. injection Eb as <-. destruct He.
Qed.
Lemma step_state wuse uuse col rows s es p t es' : width_step wuse uuse col rows (s, es) p = Ok (t, es') -> t = (s + snd p)%Z.
Proof. destruct p as (i, n). unfold width_step. destruct (zmax _); [|discriminate]. cbn [bind]. destruct (mapM _ _); [|discriminate]. cbn [bind snd]. congruence. Qed.
Lemma widths_iff wuse uuse col rows nnz : forall k s es, (exists t, foldM (width_step wuse uuse col rows) (combine (seq k (length nnz)) nnz) (s, es) = Ok (t, [])) <->
  es = [] /\ forall j n, nth_error nnz j = Some n -> width_good wuse uuse col rows (s + zsum (firstn j nnz)) (k + j, n).
Proof.
  induction nnz as [|n nnz IH]; intros k s es; cbn [length seq combine foldM].
  - split; [intros (t & E); injection E as _ ->; split; [auto|intros [|?] ? ?; discriminate]|intros (-> & _); eauto].
  - split.
    + intros (t & E). destruct (width_step wuse uuse col rows (s, es) (k, n)) as [(s1 & es1)|] eqn:E1; [|discriminate]. cbn [bind] in E.
      destruct (proj1 (IH _ _ _) (ex_intro _ t E)) as (-> & H). destruct (proj1 (width_step_iff _ _ _ _ _ _ _) (ex_intro _ s1 E1)) as (-> & G). apply step_state in E1. cbn [snd] in E1. subst s1.
      split; [auto|]. intros [|j] m Hj.
      * cbn in Hj. injection Hj as <-. cbn. rewrite Z.add_0_r, Nat.add_0_r. auto.
      * cbn in Hj. specialize (H j m Hj). cbn [firstn zsum fold_right]. fold (zsum (firstn j nnz)). replace (s + (n + zsum (firstn j nnz)))%Z with (s + n + zsum (firstn j nnz))%Z by lia. replace (k + S j) with (S k + j) by lia. auto.
    + intros (-> & H). destruct (proj2 (width_step_iff wuse uuse col rows s [] (k, n))) as (s1 & E1).
      { split; [auto|]. specialize (H 0 n eq_refl). cbn in H. rewrite Z.add_0_r, Nat.add_0_r in H. auto. }
      rewrite E1. cbn [bind]. apply step_state in E1. cbn [snd] in E1. subst s1. apply IH. split; [auto|]. intros j m Hj. specialize (H (S j) m Hj). cbn [firstn zsum fold_right] in H. fold (zsum (firstn j nnz)) in H.
      replace (s + (n + zsum (firstn j nnz)))%Z with (s + n + zsum (firstn j nnz))%Z in H by lia. replace (k + S j) with (S k + j) in H by lia. auto.
Qed.
Lemma zslice_slice {A} (s e : Z) (l : list A) : (0 <= s)%Z -> (0 <= e)%Z -> zslice s e l = slice (Z.to_nat s) (Z.to_nat e) l.
Proof.
  intros Hs He. unfold zslice, norm. destruct (Z.ltb_spec s 0); [lia|]. destruct (Z.ltb_spec e 0); [lia|]. unfold slice.
  set (a := Z.to_nat s). set (b := Z.to_nat e). destruct (Nat.le_gt_cases (length l) a).
  - rewrite !skipn_all2 by lia. rewrite !firstn_nil. auto.
  - rewrite (Nat.min_l a) by lia. destruct (Nat.le_gt_cases b (length l)); [rewrite Nat.min_l by lia; auto|].
    rewrite Nat.min_r by lia. rewrite !firstn_all2; auto; rewrite skipn_length; lia.
Qed.
Lemma zsum_nonneg l : (forall n, In n l -> 0 <= n)%Z -> (0 <= zsum l)%Z.
Proof. induction l as [|a l IH]; intros H; cbn; [lia|]. fold (zsum l). pose proof (H a (or_introl eq_refl)). assert (0 <= zsum l)%Z by (apply IH; intros; apply H; right; auto). lia. Qed.
Lemma zsum_firstn_S l j n : nth_error l j = Some n -> zsum (firstn (j + 1) l) = (zsum (firstn j l) + n)%Z.
Proof.
  revert j. induction l as [|a l IH]; intros [|j] H; try discriminate; cbn in H.
  - injection H as ->. cbn. destruct l; cbn; lia.
  - cbn [Nat.add firstn zsum fold_right]. fold (zsum (firstn (j + 1) l)). fold (zsum (firstn j l)). rewrite IH by auto. lia.
Qed.

(** ** Together *)
Theorem w_iff f : wf_nc f -> required f -> w_variables f ->
  (check_w_matrix_variable_dimensions f = Ok [] /\ check_w_variable_values f = Ok [] <-> w_consistent f).
Proof.
  intros Hw Hr HW. pose proof HW as HW'. destruct HW' as (V1 & V2 & V3 & V4 & V5 & V6 & V7 & V8 & V9 & V10). pose proof (proj1 (required_table f) Hr) as Ht.
  assert (SUB : subset (map fst W_VARIABLE_DATA) (names f) = true).
  { apply subset_in. intros n Hn. apply present_in. apply in_map_iff in Hn. destruct Hn as ((m & d & t) & E & Hi). cbn in E. subst m. destruct (proj1 (w_table f) HW _ _ _ Hi) as (v & ? & ? & _). exists v; auto. }
  destruct (decl_i1 f _ _ Hw V1) as (nnz & D1 & S1). destruct (decl_i2 f _ _ _ Hw V2) as (rows & nr & D2 & _ & S2 & _). destruct (decl_i1 f _ _ Hw V3) as (col & D3 & S3).
  destruct (decl_i1 f _ _ Hw V5) as (w1 & D5 & S5). destruct (decl_i1 f _ _ Hw V6) as (w2 & D6 & S6). destruct (decl_i1 f _ _ Hw V7) as (cnt & D7 & S7). destruct (decl_f1 f _ _ Hw V8) as (uval & D8 & S8).
  destruct (decl_i1 f _ _ Hw V9) as (u1 & D9 & S9). destruct (decl_i1 f _ _ Hw V10) as (u2 & D10 & S10).
  destruct (decl_f1 f "Kr" "M" Hw) as (kr & _ & SM); [apply Ht; cbn; tauto|].
  pose proof (size_fun f _ _ _ Hw S5 S9) as L1. pose proof (size_fun f _ _ _ Hw S6 S10) as L2.
  assert (LL : length (w1 ++ w2) = length (u1 ++ u2)) by (rewrite !app_length; lia).
  assert (OK : forall l : list err, Ok l = Ok [] <-> l = []) by (intros l; split; congruence).
  (* the dimensions *)
  assert (DIM : check_w_matrix_variable_dimensions f = Ok [] <-> exists a b c d, largest w1 a /\ largest w2 b /\ largest u1 c /\ largest u2 d /\
     Z.of_nat (length nnz) = Z.max a b /\ Z.of_nat (length cnt) = Z.max c d /\ nr = length kr + 1 /\ Z.of_nat (length col) = zsum nnz /\ Z.of_nat (length uval) = zsum cnt).
  { unfold check_w_matrix_variable_dimensions. rewrite SUB, (proj1 (size_ndim f _ _ Hw) S1), (proj2 (in1_data f _ _ Hw) D5), (proj2 (in1_data f _ _ Hw) D6). cbn [bind].
    rewrite (proj1 (size_ndim f _ _ Hw) S7), (proj2 (in1_data f _ _ Hw) D9), (proj2 (in1_data f _ _ Hw) D10), (proj1 (size_ndim f _ _ Hw) S2), (proj1 (size_ndim f _ _ Hw) SM), (proj1 (size_ndim f _ _ Hw) S3), (proj1 (size_ndim f _ _ Hw) S8), (proj2 (in1_data f _ _ Hw) D1), (proj2 (in1_data f _ _ Hw) D7). cbn [bind].
    split.
    - intros E. destruct (zmax w1) as [a|] eqn:E1; [|discriminate]. cbn [bind] in E. destruct (zmax w2) as [b|] eqn:E2; [|discriminate]. cbn [bind] in E. destruct (zmax u1) as [c|] eqn:E3; [|discriminate]. cbn [bind] in E. destruct (zmax u2) as [d|] eqn:E4; [|discriminate]. cbn [bind] in E.
      apply OK in E. rewrite !app_nil2, !errif_nil, !Bool.negb_false_iff, !Z.eqb_eq, Nat.eqb_eq in E. exists a, b, c, d. rewrite <- !zmax_iff. tauto.
    - intros (a & b & c & d & A & B & C & D & E). apply zmax_iff in A, B, C, D. rewrite A, B. cbn [bind]. rewrite C, D. cbn [bind]. apply OK. rewrite !app_nil2, !errif_nil, !Bool.negb_false_iff, !Z.eqb_eq, Nat.eqb_eq. tauto. }
  assert (NEG : forall l, negb (forallb (fun x => (0 <=? x)%Z) l) = false <-> forall n, In n l -> (0 <= n)%Z).
  { intros l. rewrite Bool.negb_false_iff, forallb_forall. split; intros H n Hn; specialize (H n Hn); apply Z.leb_le; auto. }
  assert (VAL : check_w_variable_values f = Ok [] <-> use_check (w1 ++ w2) EWUse = Ok [] /\ use_check (u1 ++ u2) EUUse = Ok [] /\
     (forall i w u, nth_error (w1 ++ w2) i = Some w -> nth_error (u1 ++ u2) i = Some u -> (w = 0 <-> u = 0)%Z) /\
     (forall j n, nth_error nnz j = Some n -> width_good (w1 ++ w2) (u1 ++ u2) col cnt (zsum (firstn j nnz)) (j, n)) /\
     (forall x, In x uval -> 0 < x)%R /\ (forall n, In n nnz -> 0 <= n)%Z /\ (forall n, In n (concat rows) -> 0 <= n)%Z /\ (forall n, In n col -> 0 <= n)%Z /\ (forall n, In n cnt -> 0 <= n)%Z).
  { unfold check_w_variable_values. rewrite SUB, (proj2 (in1_data f _ _ Hw) D5), (proj2 (in1_data f _ _ Hw) D6), (proj2 (in1_data f _ _ Hw) D9), (proj2 (in1_data f _ _ Hw) D10). cbn [bind].
    rewrite (proj2 (in1_data f _ _ Hw) D1), (proj2 (in1_data f _ _ Hw) D3), (proj2 (in1_data f _ _ Hw) D7), (proj2 (fl1_data f _ _ Hw) D8), (proj2 (in2_data f _ _ Hw) D2). cbn [bind].
    pose proof (widths_iff (w1 ++ w2) (u1 ++ u2) col cnt nnz 0 0 []) as WI. unfold enumerate.
    rewrite <- (mismatch_iff _ _ LL). rewrite <- (all_iff _ _ uval pos_iff), <- !NEG.
    assert (WI' : (forall j n, nth_error nnz j = Some n -> width_good (w1 ++ w2) (u1 ++ u2) col cnt (zsum (firstn j nnz)) (j, n)) <->
      exists t, foldM (width_step (w1 ++ w2) (u1 ++ u2) col cnt) (combine (seq 0 (length nnz)) nnz) (0%Z, []) = Ok (t, [])).
    { rewrite WI. cbn [Nat.add]. split; [intros H; split; [auto|]; intros j n Hj; apply (H j n Hj)|intros (_ & H) j n Hj; apply (H j n Hj)]. }
    rewrite WI'. clear WI WI'. split.
    - intros E. destruct (use_check (w1 ++ w2) EWUse) as [e1|]; [|discriminate]. cbn [bind] in E. destruct (use_check (u1 ++ u2) EUUse) as [e2|]; [|discriminate]. cbn [bind] in E.
      destruct (foldM _ _ _) as [(t & e4)|]; [|discriminate]. cbn [bind snd] in E. apply OK in E. rewrite !app_nil2 in E. destruct E as (-> & -> & E3 & -> & E5 & E6 & E7 & E8 & E9). apply errif_nil in E5, E6, E7, E8, E9. apply Bool.negb_false_iff in E5.
      do 3 (split; [auto|]). split; [eauto|]. tauto.
    - intros (A & B & C & (t & D) & E & G). rewrite A, B. cbn [bind]. rewrite D. cbn [bind snd]. rewrite C. rewrite E. cbn [negb errif app]. apply OK. rewrite !app_nil2, !errif_nil. tauto. }
  rewrite DIM, VAL. clear DIM VAL. unfold w_consistent. split.
  - intros ((a & b & c & d & A & B & C & D & E1 & E2 & E3 & E4 & E5) & F1 & F2 & F3 & F4 & F5 & F6 & F7 & F8 & F9).
    exists (length kr), (length nnz), (length cnt), nr, (length col), (length uval), nnz, rows, col, w1, w2, cnt, uval, u1, u2. split; [repeat apply conj; auto|].
    split; [destruct A as (A & _); intros ->; destruct A|]. split; [destruct B as (B & _); intros ->; destruct B|].
    split; [apply (numbered_iff _ _ _ EWUse (largest_app _ _ _ _ A B)); auto|]. split; [apply (numbered_iff _ _ _ EUUse (largest_app _ _ _ _ C D)); auto|].
    do 9 (split; [auto|]). intros k n Hk. destruct (F4 k n Hk) as (mx & M1 & M2). cbn [fst snd] in M1, M2. exists mx.
    assert (P0 : (0 <= zsum (firstn k nnz))%Z) by (apply zsum_nonneg; intros x Hx; apply F6; rewrite <- (firstn_skipn k nnz); apply in_or_app; auto).
    assert (P1 : (0 <= n)%Z) by (apply F6; eapply nth_error_In; eauto).
    rewrite zslice_slice in M1 by lia. split.
    + apply zmax_iff. rewrite <- (zsum_firstn_S nnz k n Hk) in M1. exact M1.
    + intros i u Hi Hu. destruct (M2 i Hi) as (u' & r & Eu & Er & ->). assert (u' = u) by congruence. subst u'.
      assert (Hu1 : (1 <= u)%Z). { assert (u <> 0%Z) by (intros E0; apply (F3 i _ _ Hi Hu) in E0; lia). pose proof (proj1 (use_iff _ _ EUUse (largest_app _ _ _ _ C D)) F2) as (G & _). specialize (G u (nth_error_In _ _ Hu) H). lia. }
      unfold pyget in Er. destruct (Z.leb_spec 0 (u - 1)); [|lia]. unfold get in Er. destruct (nth_error cnt (Z.to_nat (u - 1))); [congruence|discriminate].
  - intros (M & nw & nu & nr' & nn & nru & nnz' & rows' & col' & w1' & w2' & cnt' & uval' & u1' & u2' & (Z1 & Z2 & Z3 & Z4 & Z5 & Z6 & Y1 & Y2 & Y3 & Y4 & Y5 & Y6 & Y7 & Y8 & Y9) & N1 & N2 & Q1 & Q2 & Q3 & Q4 & Q5 & Q6 & Q7 & Q8 & Q9 & Q10 & Q11 & Q12).
    pose proof (data_unique _ _ _ _ Hw D1 Y1) as I_1. injection I_1 as <-. pose proof (data_unique _ _ _ _ Hw D2 Y2) as I_2. injection I_2 as <-. pose proof (data_unique _ _ _ _ Hw D3 Y3) as I_3. injection I_3 as <-.
    pose proof (data_unique _ _ _ _ Hw D5 Y4) as I_4. injection I_4 as <-. pose proof (data_unique _ _ _ _ Hw D6 Y5) as I_5. injection I_5 as <-. pose proof (data_unique _ _ _ _ Hw D7 Y6) as I_6. injection I_6 as <-.
    pose proof (data_unique _ _ _ _ Hw D8 Y7) as I_7. injection I_7 as <-. pose proof (data_unique _ _ _ _ Hw D9 Y8) as I_8. injection I_8 as <-. pose proof (data_unique _ _ _ _ Hw D10 Y9) as I_9. injection I_9 as <-.
    pose proof (size_fun _ _ _ _ Hw SM Z1) as I_10. subst M. pose proof (size_fun _ _ _ _ Hw S1 Z2) as I_11. subst nw. pose proof (size_fun _ _ _ _ Hw S7 Z3) as I_12. subst nu. pose proof (size_fun _ _ _ _ Hw S2 Z4) as I_13. subst nr'.
    pose proof (size_fun _ _ _ _ Hw S3 Z5) as I_14. subst nn. pose proof (size_fun _ _ _ _ Hw S8 Z6) as I_15. subst nru.
    assert (NE1 : u1 <> []) by (destruct u1; [destruct w1; [congruence|discriminate]|congruence]). assert (NE2 : u2 <> []) by (destruct u2; [destruct w2; [congruence|discriminate]|congruence]).
    destruct (zmax_ex w1 N1) as (a & A). destruct (zmax_ex w2 N2) as (b & B). destruct (zmax_ex u1 NE1) as (c & C). destruct (zmax_ex u2 NE2) as (d & D). apply zmax_iff in A, B, C, D.
    destruct (proj2 (numbered_iff _ _ _ EWUse (largest_app _ _ _ _ A B)) Q1) as (R1 & R2). destruct (proj2 (numbered_iff _ _ _ EUUse (largest_app _ _ _ _ C D)) Q2) as (R3 & R4).
    split; [exists a, b, c, d; do 8 (split; [auto|]); auto|]. do 3 (split; [auto|]). split; [|tauto].
    intros j n Hj. destruct (Q12 j n Hj) as (mx & M1 & M2). exists mx. cbn [fst snd].
    assert (P0 : (0 <= zsum (firstn j nnz))%Z) by (apply zsum_nonneg; intros x Hx; apply Q7; rewrite <- (firstn_skipn j nnz); apply in_or_app; auto).
    assert (P1 : (0 <= n)%Z) by (apply Q7; eapply nth_error_In; eauto). split.
    + apply zmax_iff. rewrite zslice_slice by lia. rewrite <- (zsum_firstn_S nnz j n Hj). exact M1.
    + intros i Hi. destruct (nth_error (u1 ++ u2) i) as [u|] eqn:Eu; [|apply nth_error_None in Eu; assert (i < length (w1 ++ w2)) by (apply nth_error_Some; congruence); lia].
      exists u, (mx + 1)%Z. split; [auto|]. split; [|auto]. specialize (M2 i u Hi Eu).
      assert (Hu1 : (1 <= u)%Z). { assert (u <> 0%Z) by (intros E0; apply (Q6 i _ _ Hi Eu) in E0; lia). destruct Q2 as (G & _). specialize (G u (nth_error_In _ _ Eu)). lia. }
      unfold pyget. destruct (Z.leb_spec 0 (u - 1)); [|lia]. unfold get. rewrite M2. auto.
Qed.
Theorem check_iff f : wf_nc f -> (check f = Ok [] <-> acceptable f).
Proof.
  intros Hw. unfold check, acceptable. split.
  - intros E. repeat (match type of E with bind ?x _ = _ => destruct x as [?|] eqn:?; cbn [bind] in E; [|discriminate] end). injection E as E. rewrite !app_nil2 in E. destruct E as (E1 & E2 & E3 & E4 & -> & -> & -> & ->).
    destruct (proj1 (format_iff f Hw) (conj E1 (conj E2 E3))) as (HR & HW). split; [auto|].
    assert (AA : all_assigned f) by (apply assignment_iff; auto).
    split; [|split; [apply attributes_iff; auto|]].
    + destruct HW as [HW|HW]; [left; split; [auto|apply w_iff; auto]|right; auto].
    + destruct (proj1 (values_iff f Hw HR)) as (K & U); [auto|]. split; [auto|]. split; [|auto]. intros n rows r x Hn D Hr Hx. cbn in Hn. destruct Hn as [<-|[<-|[<-|[<-|[]]]]].
      * apply (U "Ur1"%string rows r x); auto; cbn; tauto. * apply (U "Ur2"%string rows r x); auto; cbn; tauto. * apply (U "Us1"%string rows r x); auto; cbn; tauto.
      * apply (assigned_nonneg f Hw HR AA rows r x); auto.
  - intros (HR & HW & HS & HK & HX & HA).
    assert (W : check_w_matrix_variable_dimensions f = Ok [] /\ check_w_variable_values f = Ok []).
    { destruct HW as [(W1 & W2)|HW]; [apply w_iff; auto|]. unfold check_w_matrix_variable_dimensions, check_w_variable_values.
      replace (subset (map fst W_VARIABLE_DATA) (names f)) with false; [auto|]. symmetry. apply Bool.not_true_iff_false. intros E. pose proof (proj1 (subset_in _ _) E) as E'. apply (HW "w_matrix_nnz"%string); [cbn; tauto|]. apply present_in, E'. cbn. tauto. }
    destruct W as (W1 & W2). rewrite W1, W2. cbn [bind].
    replace (check_variable_values f) with (@Ok (list err) []) by (symmetry; apply values_iff; auto; split; [auto|]; intros n rows r x Hn; apply HX; cbn in Hn; cbn; tauto). cbn [bind].
    assert (HW' : w_or_none f) by (destruct HW as [(? & _)|?]; [left|right]; auto).
    replace (check_uncertainty_assignment f) with (@Ok (list err) []) by (symmetry; apply assignment_iff; auto). cbn [bind].
    destruct (proj2 (format_iff f Hw) (conj HR HW')) as (E1 & E2 & E3). rewrite E1, E2, E3, (proj2 (attributes_iff f Hw) HS). auto.
Qed.
