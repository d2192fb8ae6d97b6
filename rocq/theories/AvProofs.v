(** * Conversion of AVHRR match-up files: selection of match-ups.  Proofs only. *)
From Coq Require Import Reals Lra Sorted.
From Verif Require Import Base BaseLemmas ReaderModel UncModel TransformModel GNModel WModel WSpec AvModel AvSpec.
Open Scope nat_scope.

Definition sel {A} (mask : list bool) (l : list A) : list A := map snd (filter fst (combine mask l)).
Definition idx_of (mask : list bool) : list nat := sel mask (seq 0 (length mask)).

Lemma masked_ok {A} mask (l l' : list A) : masked mask l = Ok l' <-> length mask = length l /\ l' = sel mask l.
Proof.
  unfold masked, sel. destruct (length mask =? length l) eqn:E; [apply Nat.eqb_eq in E|apply Nat.eqb_neq in E]; split; intros H.
  - injection H as <-. auto.
  - destruct H as (_ & ->). reflexivity.
  - discriminate.
  - destruct H. contradiction.
Qed.

Lemma sel_map {A B} (g : A -> B) mask l : sel mask (map g l) = map g (sel mask l).
Proof. revert l. induction mask as [|[|] mask IH]; intros [|x l]; try reflexivity; unfold sel in *; cbn [map combine filter fst snd]; [f_equal|]; apply IH. Qed.

Lemma sel_at {A} (d : A) mask l : length mask = length l -> sel mask l = at_ d (idx_of mask) l.
Proof.
  intros H. unfold at_, idx_of. rewrite <- sel_map. f_equal.
  rewrite H. symmetry. apply (nth_ext _ _ d d); [rewrite map_length, seq_length; reflexivity|].
  intros i Hi. rewrite map_length, seq_length in Hi. rewrite (nth_indep _ d (nth 0 l d)) by (rewrite map_length, seq_length; auto).
  rewrite (map_nth (fun i => nth i l d)). rewrite seq_nth by auto. reflexivity.
Qed.

Lemma sel_seq_spec mask : forall k, StronglySorted lt (sel mask (seq k (length mask))) /\
  forall i, In i (sel mask (seq k (length mask))) <-> k <= i /\ nth_error mask (i - k) = Some true.
Proof.
  induction mask as [|b mask IH]; intros k.
  - cbn. split; [constructor|]. intros i. split; [contradiction|]. intros (_ & H). destruct (i - k); discriminate.
  - destruct (IH (S k)) as (S1 & S2). cbn [length seq]. unfold sel in *. cbn [combine filter fst].
    assert (Hs : forall i, In i (map snd (filter fst (combine mask (seq (S k) (length mask))))) -> k < i) by (intros i Hi; apply S2 in Hi; lia).
    assert (HN : forall i, k < i -> nth_error (b :: mask) (i - k) = nth_error mask (i - S k)) by (intros i Hi; replace (i - k) with (S (i - S k)) by lia; reflexivity).
    destruct b; cbn [map snd].
    + split; [constructor; [auto|apply Forall_forall; auto]|]. intros i. cbn [In]. split.
      * intros [<-|H]; [split; [lia|rewrite Nat.sub_diag; reflexivity]|]. specialize (Hs i H). apply S2 in H as (H1 & H2). split; [lia|]. rewrite HN by lia. auto.
      * intros (H1 & H2). destruct (Nat.eq_dec k i) as [|Hne]; [auto|]. right. apply S2. rewrite HN in H2 by lia. split; [lia|auto].
    + split; [auto|]. intros i. split.
      * intros H. specialize (Hs i H). apply S2 in H as (H1 & H2). split; [lia|]. rewrite HN by lia. auto.
      * intros (H1 & H2). destruct (Nat.eq_dec k i) as [->|Hne]; [rewrite Nat.sub_diag in H2; discriminate|]. apply S2. rewrite HN in H2 by lia. split; [lia|auto].
Qed.

Lemma idx_spec mask : StronglySorted lt (idx_of mask) /\ forall i, In i (idx_of mask) <-> nth_error mask i = Some true.
Proof.
  destruct (sel_seq_spec mask 0) as (A & B). split; [exact A|]. intros i. rewrite (B i). rewrite Nat.sub_0_r. split; [tauto|]. intros H. split; [lia|auto].
Qed.

Lemma exists_nan r : existsb isnan r = false <-> ~ In None r.
Proof.
  split.
  - intros H Hin. assert (E : existsb isnan r = true) by (apply existsb_exists; exists None; auto). congruence.
  - intros H. destruct (existsb isnan r) eqn:E; [|reflexivity]. apply existsb_exists in E as ([x|] & Hin & E); [discriminate|contradiction].
Qed.

(** The mask without temperature limit. *)
Lemma mask_spec u11 u12 u21 u22 lim mask : valid_mask u11 u12 u21 u22 lim = Ok mask -> length u11 = length u12 -> length u11 = length u21 -> length u11 = length u22 ->
  length mask = length u11 /\ forall i, nth_error mask i = Some true <->
    complete u11 i /\ complete u12 i /\ complete u21 i /\ complete u22 i /\
    match lim with None => True | Some (bt, l) => exists b, nth_error bt i = Some b /\ forall x, b = Some x -> (l <= x)%R end.
Proof.
  intros H L1 L2 L3. unfold valid_mask in H.
  destruct (mapM _ _) as [v|] eqn:E; cbn [bind] in H; [|discriminate]. injection H as <-.
  pose proof (mapM_length _ _ _ E) as Lv. unfold enumerate in Lv. rewrite combine_length, seq_length, !combine_length in Lv. 
  replace (length u11 - length v) with 0 by lia. cbn [repeat]. rewrite app_nil_r. split; [lia|]. intros i.
  destruct (Nat.lt_ge_cases i (length u11)) as [Hi|Hi].
  2:{ split.
      - intros H. assert (nth_error v i <> None) by congruence. apply nth_error_Some in H0. lia.
      - intros ((r & H & _) & _). assert (Hn : nth_error u11 i <> None) by congruence. apply nth_error_Some in Hn. lia. }
  destruct (nth_error u11 i) as [r11|] eqn:E1; [|apply nth_error_None in E1; lia]. destruct (nth_error u12 i) as [r12|] eqn:E2; [|apply nth_error_None in E2; lia].
  destruct (nth_error u21 i) as [r21|] eqn:E3; [|apply nth_error_None in E3; lia]. destruct (nth_error u22 i) as [r22|] eqn:E4; [|apply nth_error_None in E4; lia].
  assert (EC : forall {A B} (a : list A) (b : list B) x y, nth_error a i = Some x -> nth_error b i = Some y -> nth_error (combine a b) i = Some (x, y)).
  { intros A B a b x y. clear. revert a b. induction i as [|i IH]; intros [|a' a] [|b' b] Ha Hb; try discriminate; cbn in *; [congruence|]. apply IH; auto. }
  assert (En : nth_error (enumerate (combine (combine u11 u12) (combine u21 u22))) i = Some (i, (r11, r12, (r21, r22)))).
  { unfold enumerate. apply EC.
    - rewrite !combine_length. rewrite (nth_error_nth' _ 0) by (rewrite seq_length; lia). rewrite seq_nth by lia. reflexivity.
    - apply EC; apply EC; auto. }
  destruct (mapM_nth _ _ _ i _ E En) as (b & Eb & Ev).
  rewrite Ev. cbn beta iota in Eb.
  assert (C1 : forall u r, nth_error u i = Some r -> (complete u i <-> existsb isnan r = false)).
  { intros u r Hu. unfold complete. rewrite Hu, exists_nan. split; [intros (r' & H & Hn); injection H as <-; auto|intros Hn; exists r; auto]. }
  rewrite (C1 _ _ E1), (C1 _ _ E2), (C1 _ _ E3), (C1 _ _ E4).
  destruct lim as [(bt, l)|].
  - destruct (get bt i) as [x|] eqn:Eg; cbn [bind] in Eb; [|discriminate]. apply get_ok in Eg. injection Eb as <-. rewrite Eg.
    destruct (existsb isnan r11), (existsb isnan r12), (existsb isnan r21), (existsb isnan r22); cbn [orb negb andb]; try (split; [discriminate|intuition discriminate]).
    split.
    + intros H. do 4 (split; [reflexivity|]). exists x. split; [reflexivity|]. intros y ->. destruct (Rlt_dec y l); [discriminate|lra].
    + intros (_ & _ & _ & _ & b & Hb & Hl). injection Hb as <-. destruct x as [x|]; [|reflexivity]. specialize (Hl x eq_refl). destruct (Rlt_dec x l); [lra|reflexivity].
  - cbn [bind] in Eb. injection Eb as <-.
    destruct (existsb isnan r11), (existsb isnan r12), (existsb isnan r21), (existsb isnan r22); cbn [orb negb andb]; split; intuition discriminate.
Qed.
