(** * C30: the covariance matrix is symmetric positive definite and has a Cholesky factor.  Proofs only. *)
From Coq Require Import Reals Lra Psatz.
From Verif Require Import Base BaseLemmas ReaderModel UncModel MuModel MuProofs SampleSpec SampleProofs TransformModel TransformSpec TransformProofs TransformProofs2 TransformMain EvalModel GNModel GNSpec GNAlgebra GNTerms GNMain GNLoop GNTotal GNForward GNForward2 GNOutput PCModel PCSpec PCAlgebra.
Open Scope nat_scope.

Definition inw (s k p : nat) : bool := (s <=? p) && (p <? s + k).
Definition block (s k : nat) (v : nat -> nat -> R) (p q : nat) : R := if inw s k p && inw s k q then v (p - s) (q - s) else 0%R.

Lemma inw_true s k p : inw s k p = true <-> s <= p < s + k.
Proof. unfold inw. rewrite andb_true_iff, Nat.leb_le, Nat.ltb_lt. tauto. Qed.
Lemma inw_false s k p : inw s k p = false <-> ~ s <= p < s + k.
Proof. rewrite <- inw_true. destruct (inw s k p); split; congruence. Qed.

Lemma nth_assign {A} s e (v l l' : list A) d : length v = length (slice s e l) -> assign s e v l = Ok l' ->
  length l' = length l /\ forall i, nth i l' d = if inw s (length v) i then nth (i - s) v d else nth i l d.
Proof.
  intros L H. unfold assign in H. rewrite L, Nat.eqb_refl in H. injection H as <-. pose proof (slice_length s e l) as Ls.
  destruct (Nat.le_gt_cases s (length l)) as [Hs|Hs].
  - split. { rewrite !app_length, firstn_length, skipn_length. lia. }
    intros i. unfold inw. destruct (Nat.leb_spec s i) as [H1|H1]; cbn [andb].
    + rewrite app_nth2 by (rewrite firstn_length; lia). rewrite firstn_length, Nat.min_l by lia.
      destruct (Nat.ltb_spec i (s + length v)).
      * rewrite app_nth1 by lia. reflexivity.
      * rewrite app_nth2 by lia. rewrite nth_skipn'. f_equal. lia.
    + rewrite app_nth1 by (rewrite firstn_length; lia). rewrite <- (firstn_skipn s l) at 2. rewrite app_nth1 by (rewrite firstn_length; lia). reflexivity.
  - assert (length v = 0) by lia. destruct v; [|discriminate]. rewrite (firstn_all2 l) by lia. rewrite (skipn_all2 l) by lia. cbn [app]. rewrite app_nil_r.
    split; [auto|]. intros i. replace (inw s (length []) i) with false; [auto|]. symmetry. apply inw_false. cbn. lia.
Qed.

Lemma add_block_inv s e B V V' n : square V n -> add_block s e B V = Ok V' ->
  exists k, k = Nat.min (e - s) (n - s) /\ length B = k /\ (forall b, In b B -> length b = k) /\ square V' n /\
    forall p q, p < n -> q < n -> entry V' p q = (entry V p q + block s k (entry B) p q)%R.
Proof.
  intros (LV & RV) H. unfold add_block in H. destruct (Nat.eqb_spec (length B) (length (slice s e V))) as [LB|]; [|discriminate].
  destruct (mapM _ _) as [rows'|] eqn:E; [|discriminate]. cbn [bind] in H. rewrite slice_length, LV in LB.
  pose proof (mapM_length _ _ _ E) as Lr. rewrite combine_length, slice_length, LV in Lr.
  set (k := Nat.min (e - s) (n - s)) in *. exists k. split; [auto|]. split; [lia|].
  assert (G : forall i, i < k -> length (nth i B []) = k /\ length (nth i rows' []) = n /\
     forall q, nth q (nth i rows' []) 0%R = (nth q (nth (s + i) V []) 0 + if inw s k q then nth (q - s) (nth i B []) 0 else 0)%R).
  { intros i Hi. assert (Hsi : s + i < n) by lia.
    assert (Ec : nth_error (combine (slice s e V) B) i = Some (nth (s + i) V [], nth i B [])).
    { rewrite (nth_error_nth' _ ([], [])) by (rewrite combine_length, slice_length; lia). f_equal. rewrite combine_nth by (rewrite slice_length; lia).
      f_equal. unfold slice. rewrite <- (nth_skipn' s V i []). rewrite <- (firstn_skipn (e - s) (skipn s V)) at 2. rewrite app_nth1 by (rewrite firstn_length, skipn_length; lia). reflexivity. }
    destruct (mapM_nth _ _ _ _ _ E Ec) as (r & Er & Nr). cbn [fst snd] in Er.
    assert (LVi : length (nth (s + i) V []) = n) by (apply RV, nth_In; lia).
    destruct (Nat.eqb_spec (length (nth i B [])) (length (slice s e (nth (s + i) V [])))) as [Lb|]; [|discriminate].
    destruct (add_slice_nth _ _ _ _ _ Lb Er) as (L' & N'). rewrite slice_length, LVi in Lb.
    rewrite (nth_nth_error _ _ [] _ Nr). split; [lia|]. split; [lia|]. intros q. rewrite N'. unfold inw. replace (length (nth i B [])) with k by lia. reflexivity. }
  split. { intros b Hb. apply (In_nth _ _ []) in Hb. destruct Hb as (i & Hi & <-). apply G. lia. }
  destruct (nth_assign s e rows' V V' [] ltac:(rewrite slice_length; lia) H) as (L' & N').
  assert (Lk : length rows' = k) by lia. rewrite Lk in N'.
  split.
  - split; [lia|]. intros r Hr. apply (In_nth _ _ []) in Hr. destruct Hr as (p & Hp & <-). rewrite N'. destruct (inw s k p) eqn:Ew.
    + apply inw_true in Ew. apply G. lia.
    + apply RV, nth_In. lia.
  - intros p q Hp Hq. unfold entry at 1. rewrite N'. unfold block. destruct (inw s k p) eqn:Ew; cbn [andb].
    + apply inw_true in Ew. destruct (G (p - s) ltac:(lia)) as (_ & _ & Gq). rewrite Gq. replace (s + (p - s)) with p by lia. unfold entry. destruct (inw s k q); reflexivity.
    + unfold entry. lra.
Qed.

Lemma add_block_ok s e B V n : square V n -> s <= e <= n -> square B (e - s) -> exists V', add_block s e B V = Ok V'.
Proof.
  intros (LV & RV) Hse (LB & RB). unfold add_block. rewrite slice_length, LV, LB. replace (e - s =? Nat.min (e - s) (n - s)) with true by (symmetry; apply Nat.eqb_eq; lia).
  destruct (mapM_ok_ex (fun p : list R * list R => if length (snd p) =? length (slice s e (fst p)) then add_slice s e (snd p) (fst p) else Raise ValueError) (combine (slice s e V) B)) as (rows & E).
  - intros (r, b) Hrb. cbn [fst snd]. assert (Lr : length r = n). { apply RV. apply in_combine_l in Hrb. unfold slice in Hrb. rewrite <- (firstn_skipn s V). apply in_or_app. right. rewrite <- (firstn_skipn (e - s) (skipn s V)). apply in_or_app. auto. }
    assert (Lb : length b = e - s) by (apply RB; eapply in_combine_r; eauto). rewrite slice_length, Lr, Lb. replace (e - s =? Nat.min (e - s) (n - s)) with true by (symmetry; apply Nat.eqb_eq; lia).
    destruct (add_slice_ok s e b r ltac:(lia) ltac:(lia)) as (A' & EA & _). eauto.
  - rewrite E. cbn [bind]. unfold assign. rewrite (mapM_length _ _ _ E), combine_length, slice_length, LV, LB.
    replace (Nat.min (Nat.min (e - s) (n - s)) (e - s) =? Nat.min (e - s) (n - s)) with true by (symmetry; apply Nat.eqb_eq; lia). eauto.
Qed.

(** ** invariant of the loops *)
Definition good (n : nat) (V : list (list R)) : Prop :=
  square V n /\ (forall p q, p < n -> q < n -> entry V p q = entry V q p) /\
  forall x, (sm n (fun p => x p * x p) <= qf n (entry V) x)%R.

Lemma good_eye n : good n (eye n).
Proof.
  split; [apply eye_square|]. split.
  - intros p q Hp Hq. rewrite !eye_entry, Nat.eqb_sym by auto. reflexivity.
  - intros x. rewrite (qf_ext n _ (fun p q => if p =? q then 1%R else 0%R) x x) by (auto; intros; apply eye_entry; auto). rewrite qf_eye. lra.
Qed.
Lemma good_add n V s e A V' : good n V -> add_block s e (gram A) V = Ok V' -> good n V'.
Proof.
  intros (S & Sy & Q) H. destruct (add_block_inv _ _ _ _ _ _ S H) as (k & Hk & LB & _ & S' & Ee).
  assert (LA : length A = k) by (unfold gram in LB; rewrite map_length in LB; auto).
  split; [auto|]. split.
  - intros p q Hp Hq. rewrite !Ee by auto. rewrite (Sy p q) by auto. f_equal. unfold block. rewrite andb_comm. destruct (inw s k q && inw s k p) eqn:E; [|auto].
    apply andb_true_iff in E. rewrite !inw_true in E. rewrite !gram_entry by lia. apply inner_comm.
  - intros x. rewrite (qf_ext n _ (fun p q => entry V p q + block s k (entry (gram A)) p q)%R x x) by auto. rewrite qf_plus.
    destruct (Nat.le_gt_cases s n).
    + unfold block, inw. rewrite qf_win by lia. rewrite <- LA. pose proof (gram_nonneg A (fun i => x (s + i))). specialize (Q x). lra.
    + assert (Ez : qf n (block s k (entry (gram A))) x = 0%R).
      { apply sm_zero. intros p Hp. apply sm_zero. intros q Hq. unfold block. replace (inw s k p) with false by (symmetry; apply inw_false; lia). cbn. ring. }
      rewrite Ez. specialize (Q x). lra.
Qed.

Lemma foldM_keep {S A} (f : S -> A -> res S) (P : S -> Prop) l : (forall s a s', P s -> f s a = Ok s' -> P s') -> forall s s', P s -> foldM f l s = Ok s' -> P s'.
Proof.
  intros H. induction l as [|a l IH]; intros s s' Hs E; cbn [foldM] in E; [injection E as <-; auto|].
  destruct (f s a) as [s1|] eqn:E1; [|discriminate]. eapply IH; [|exact E]. eapply H; eauto.
Qed.

Section VK.
Context {T : Type}.
Variable st : solver T.

Lemma VK_good V : calc_VK T st = Ok V -> exists n, pylast (cNm (m_idx R T (g_m T st))) = Ok n /\ good n V.
Proof.
  unfold calc_VK. intros H. destruct (pylast (cNm _)) as [n|]; [|discriminate]. cbn [bind] in H. exists n. split; [auto|].
  repeat (match type of H with bind ?x _ = _ => destruct x as [?|] eqn:?; cbn [bind] in H; [|discriminate] end). injection H as <-.
  match goal with F : foldM _ _ (eye n, _) = Ok ?p |- _ => assert (G : good n (fst p)); [|clear F; revert G; generalize p; intros (V, JT) (S & Sy & Q)] end.
  - match goal with F : foldM _ _ (eye n, _) = Ok _ |- _ => revert F end. apply (foldM_keep _ (fun p => good n (fst p))); [|apply good_eye].
    intros (V, JT) (i, pr) (V', JT') G E. cbn [fst] in *. unfold pc_series in E.
    repeat (match type of E with bind ?x _ = _ => destruct x as [?|] eqn:?; cbn [bind] in E; [|discriminate] end).
    assert (K : good n (fst (V', JT'))); [|exact K]. revert E. apply (foldM_keep _ (fun p => good n (fst p))); [|exact G]. clear G.
    intros (V1, JT1) (j, s) (V2, JT2) G E. cbn [fst snd] in *. destruct (pc_side T st s (i + 1)) as [side|]; [|discriminate]. cbn [bind] in E.
    destruct (fst side) as [J|].
    + assert (K : good n (fst (V2, JT2))); [|exact K]. revert E. apply (foldM_keep _ (fun p => good n (fst p))); [|exact G]. clear G.
      intros (V3, JT3) c (V4, JT4) G E. unfold pc_cov in E. cbn [fst snd] in *.
      repeat (match type of E with bind ?x _ = _ => destruct x as [?|] eqn:?; cbn [bind] in E; [|discriminate] end).
      destruct (u_kind R _); try discriminate;
      repeat (match type of E with bind ?x _ = _ => destruct x as [?|] eqn:?; cbn [bind] in E; [|discriminate] end); injection E as <- _; eapply good_add; eauto.
    + unfold pc_ref in E. cbn [fst snd] in *.
      repeat (match type of E with bind ?x _ = _ => destruct x as [?|] eqn:?; cbn [bind] in E; [|discriminate] end). injection E as <- _; eapply good_add; eauto.
  - cbn [fst snd] in *. split; [apply mat_add_square; [auto|apply col_gram_square]|]. split.
    + intros p q Hp Hq. rewrite !(mat_add_entry _ _ n) by (auto; apply col_gram_square). rewrite (Sy p q) by auto. f_equal. rewrite !col_gram_entry by auto.
      apply sm_ext. intros t _. ring.
    + intros x. rewrite (qf_ext n _ (fun p q => entry V p q + sm (length JT) (fun t => nth p (nth t JT []) 0 * nth q (nth t JT []) 0))%R x x); auto.
      * rewrite qf_plus. pose proof (qf_gram_nonneg n (length JT) (fun t p => nth p (nth t JT []) 0%R) x). specialize (Q x). lra.
      * intros p q Hp Hq. rewrite (mat_add_entry _ _ n) by (auto; apply col_gram_square). rewrite col_gram_entry by auto. reflexivity.
Qed.
End VK.

Lemma good_spd n V : good n V -> spd V n.
Proof.
  intros (S & Sy & Q). split; [auto|]. split; [eapply entry_sym_out; eauto|]. intros x Hx (i & Hi).
  rewrite (quad_qf V n) by auto. specialize (Q (fun i => nth i x 0%R)).
  assert (P : (0 < sm n (fun p => nth p x 0 * nth p x 0))%R).
  { apply (sm_pos n _ i); [intros; nra| |nra]. destruct (Nat.lt_ge_cases i n); [auto|]. rewrite nth_overflow in Hi by lia. congruence. }
  lra.
Qed.

(** ** Cholesky factors exist *)
Lemma qf_S n v x : (forall p q, p < S n -> q < S n -> v p q = v q p) ->
  qf (S n) v x = (v 0%nat 0%nat * x 0%nat * x 0%nat + 2 * x 0%nat * sm n (fun i => v (S i) 0%nat * x (S i)) + qf n (fun p q => v (S p) (S q)) (fun i => x (S i)))%R.
Proof.
  intros Sy. unfold qf. rewrite sm_S, sm_S.
  rewrite (sm_ext n (fun i => sm (S n) (fun q => x (S i) * v (S i) q * x q)%R) (fun i => x 0%nat * (v (S i) 0%nat * x (S i)) + sm n (fun q => x (S i) * v (S i) (S q) * x (S q)))%R)
    by (intros i _; rewrite sm_S; ring).
  rewrite sm_plus, sm_scal.
  rewrite (sm_ext n (fun i => x 0%nat * v 0%nat (S i) * x (S i))%R (fun i => x 0%nat * (v (S i) 0%nat * x (S i)))%R) by (intros i Hi; rewrite (Sy 0 (S i)) by lia; ring).
  rewrite sm_scal. ring.
Qed.

Lemma qf_zero n v x : (forall i, i < n -> x i = 0%R) -> qf n v x = 0%R.
Proof. intros H. apply sm_zero. intros p Hp. apply sm_zero. intros q Hq. rewrite (H p Hp). ring. Qed.

Lemma chol_exists n : forall v, (forall p q, p < n -> q < n -> v p q = v q p) ->
  (forall x, (exists i, i < n /\ x i <> 0%R) -> (0 < qf n v x)%R) ->
  exists l : nat -> nat -> R, (forall i j, i < j -> l i j = 0%R) /\ (forall i, i < n -> (0 < l i i)%R) /\
    forall i j, i < n -> j < n -> v i j = sm n (fun t => l i t * l j t)%R.
Proof.
  induction n as [|n IH]; intros v Sy P.
  - exists (fun _ _ => 0%R). split; [auto|]. split; intros; lia.
  - set (dd := v 0 0). assert (Hd : (0 < dd)%R).
    { specialize (P (fun i => if i =? 0 then 1%R else 0%R) (ex_intro _ 0 (conj (Nat.lt_0_succ n) R1_neq_R0))). rewrite qf_S in P by auto.
      cbn [Nat.eqb] in P. rewrite sm_zero in P by (intros; ring). rewrite qf_zero in P by auto. unfold dd. lra. }
    destruct (IH (fun i j => v (S i) (S j) - v (S i) 0%nat * v (S j) 0%nat / dd)%R) as (l & U & D & E).
    + intros p q Hp Hq. rewrite (Sy (S p) (S q)) by lia. unfold Rdiv. ring.
    + intros x (i & Hi & Hx). set (b := sm n (fun i => v (S i) 0%nat * x i)%R).
      specialize (P (fun i => match i with 0 => (- b / dd)%R | S i => x i end) (ex_intro _ (S i) (conj (proj1 (Nat.succ_lt_mono _ _) Hi) Hx))).
      rewrite qf_S in P by auto. fold b dd in P. change (fun i : nat => x i) with x in P.
      assert (Eq : qf n (fun i j => v (S i) (S j) - v (S i) 0%nat * v (S j) 0%nat / dd)%R x = (qf n (fun p q => v (S p) (S q)) x - b * b / dd)%R).
      { assert (Eb : (b * b / dd)%R = qf n (fun i j => v (S i) 0%nat * v (S j) 0%nat / dd)%R x).
        { unfold qf, b, Rdiv. rewrite Rmult_assoc. rewrite <- sm_scal_r. apply sm_ext. intros p _. rewrite <- sm_scal_r, <- sm_scal. apply sm_ext. intros q _. ring. }
        rewrite Eb. replace (qf n (fun p q => v (S p) (S q)) x) with (qf n (fun i j => (v (S i) (S j) - v (S i) 0%nat * v (S j) 0%nat / dd) + v (S i) 0%nat * v (S j) 0%nat / dd)%R x).
        - rewrite qf_plus. ring.
        - apply qf_ext; auto. intros. ring. }
      rewrite Eq. replace (dd * (- b / dd) * (- b / dd) + 2 * (- b / dd) * b)%R with (- (b * b / dd))%R in P by (field; lra). lra.
    + exists (fun i j => match i, j with 0, 0 => sqrt dd | 0, S _ => 0%R | S i, 0 => (v (S i) 0%nat / sqrt dd)%R | S i, S j => l i j end).
      assert (Hs : (0 < sqrt dd)%R) by (apply sqrt_lt_R0; auto). assert (Ss : (sqrt dd * sqrt dd)%R = dd) by (apply sqrt_sqrt; lra).
      split; [|split].
      * intros [|i] [|j] H; try lia; auto. apply U. lia.
      * intros [|i] H; [auto|]. apply D. lia.
      * intros [|i] [|j] Hi Hj; rewrite sm_S.
        -- rewrite sm_zero by (intros; ring). fold dd. lra.
        -- rewrite sm_zero by (intros; ring). rewrite (Sy 0 (S j)) by lia. field. lra.
        -- rewrite sm_zero by (intros; ring). field. lra.
        -- rewrite <- E by lia. replace (v (S i) 0%nat / sqrt dd * (v (S j) 0%nat / sqrt dd))%R with (v (S i) 0%nat * v (S j) 0%nat / dd)%R; [ring|].
           rewrite <- Ss at 1. field. lra.
Qed.

Lemma spd_cholesky V n : spd V n -> exists L, cholesky_factor L V n.
Proof.
  intros (S & Sy & P).
  destruct (chol_exists n (entry V)) as (l & U & D & E).
  - intros; apply Sy.
  - intros x (i & Hi & Hx). assert (H : (0 < quad V (map x (seq 0 n)))%R).
    { apply P; [rewrite map_length, seq_length; auto|]. exists i. rewrite map_seq_nth by auto. auto. }
    rewrite (quad_qf V n) in H by (auto; rewrite map_length, seq_length; auto).
    rewrite (qf_ext n _ (entry V) _ x) in H; auto. intros p Hp. apply map_seq_nth; auto.
  - exists (map (fun i => map (l i) (seq 0 n)) (seq 0 n)).
    assert (SL : square (map (fun i => map (l i) (seq 0 n)) (seq 0 n)) n) by apply mapseq_square.
    split; [auto|]. split; [|split].
    + intros i j Hij. destruct (Nat.lt_ge_cases j n) as [Hj|Hj].
      * rewrite mapseq_entry by lia. apply U. auto.
      * unfold entry. destruct (Nat.lt_ge_cases i n); [apply nth_overflow; rewrite (square_nth _ n) by auto; auto|].
        rewrite (nth_overflow (map _ _)) by (rewrite map_length, seq_length; auto). destruct j; auto.
    + intros i Hi. rewrite mapseq_entry by auto. auto.
    + intros i j Hi Hj. rewrite E by auto. rewrite (inner_sm n) by (apply square_nth; auto). apply sm_ext. intros t Ht. change (nth t (nth i ?L []) 0%R) with (entry L i t).
      fold (entry (map (fun i => map (l i) (seq 0 n)) (seq 0 n)) i t). fold (entry (map (fun i => map (l i) (seq 0 n)) (seq 0 n)) j t).
      rewrite !mapseq_entry by auto. reflexivity.
Qed.
