(** * Proofs for C38, C39, C67. *)
From Coq Require Import Reals Lra Permutation.
From Verif Require Import Base BaseLemmas ReaderModel UncModel MuModel MuProofs SampleSpec TransformModel TransformProofs2 SimModel SimSpec.
Open Scope nat_scope.

(** ** min, max *)
Lemma fold_rmin l x : let r := fold_left Rmin l x in (r = x \/ In r l) /\ (r <= x)%R /\ forall y, In y l -> (r <= y)%R.
Proof.
  revert x; induction l as [|a l IH]; intros x; cbv zeta; cbn [fold_left]; [split; [auto|]; split; [lra|intros y []]|].
  destruct (IH (Rmin x a)) as (A & B & C). split; [|split].
  - destruct A as [A|A]; [|right; right; exact A]. destruct (Rle_dec x a) as [H|H]; [rewrite Rmin_left in A by lra; rewrite Rmin_left by lra; auto|rewrite Rmin_right in A by lra; rewrite Rmin_right by lra; right; left; auto].
  - pose proof (Rmin_l x a). lra.
  - intros y [<-|H]; [pose proof (Rmin_r x a); lra|auto].
Qed.
Lemma fold_rmax l x : let r := fold_left Rmax l x in (r = x \/ In r l) /\ (x <= r)%R /\ forall y, In y l -> (y <= r)%R.
Proof.
  revert x; induction l as [|a l IH]; intros x; cbv zeta; cbn [fold_left]; [split; [auto|]; split; [lra|intros y []]|].
  destruct (IH (Rmax x a)) as (A & B & C). split; [|split].
  - destruct A as [A|A]; [|right; right; exact A]. destruct (Rle_dec x a) as [H|H]; [rewrite Rmax_right in A by lra; rewrite Rmax_right by lra; right; left; auto|rewrite Rmax_left in A by lra; rewrite Rmax_left by lra; auto].
  - pose proof (Rmax_l x a). lra.
  - intros y [<-|H]; [pose proof (Rmax_r x a); lra|auto].
Qed.
Lemma rmin_ok l : l <> [] -> exists r, rmin l = Ok r /\ In r l /\ forall y, In y l -> (r <= y)%R.
Proof.
  destruct l as [|x l]; [congruence|intros _]. cbn [rmin]. destruct (fold_rmin l x) as (A & B & C). eexists. split; [reflexivity|]. split; [destruct A as [->|A]; [left|right]; auto|].
  intros y [<-|H]; auto.
Qed.
Lemma rmax_ok l : l <> [] -> exists r, rmax l = Ok r /\ In r l /\ forall y, In y l -> (y <= r)%R.
Proof.
  destruct l as [|x l]; [congruence|intros _]. cbn [rmax]. destruct (fold_rmax l x) as (A & B & C). eexists. split; [reflexivity|]. split; [destruct A as [->|A]; [left|right]; auto|].
  intros y [<-|H]; auto.
Qed.

(** ** linspace *)
Lemma linspace_length a b n : length (linspace a b n) = n.
Proof. destruct n as [|[|n]]; cbn [linspace length]; auto. rewrite map_length, seq_length. auto. Qed.
Lemma linspace_nth a b n i : i < n -> nth_error (linspace a b n) i = Some (a + INR i * ((b - a) / INR (n - 1)))%R.
Proof.
  intros H. destruct n as [|[|n]]; [lia| |].
  - assert (i = 0) by lia. subst. cbn. f_equal. lra.
  - unfold linspace. erewrite map_nth_error; [|rewrite (nth_error_nth' _ 0) by (rewrite seq_length; lia); rewrite seq_nth by lia; reflexivity].
    f_equal. replace (S (S n) - 1) with (S n) by lia. rewrite (S_INR (S n)). cbn [Nat.add]. replace (INR (S n) + 1 - 1)%R with (INR (S n)) by lra. reflexivity.
Qed.
Lemma space_fill v n : v <> [] -> exists w, space_fill_sim v n = Ok w /\ space_filling v w n.
Proof.
  intros H. destruct (rmin_ok v H) as (lo & E1 & I1 & L1). destruct (rmax_ok v H) as (hi & E2 & I2 & L2).
  unfold space_fill_sim. rewrite E1. cbn [bind]. rewrite E2. cbn [bind]. eexists. split; [reflexivity|]. split; [apply linspace_length|].
  exists lo, hi. pose proof (L2 lo I1) as Hlh.
  do 2 (split; [auto|]). split; [intros x Hx; split; auto|]. split; [|split; [|split]].
  - intros x Hx. apply In_nth_error in Hx as (i & Hi). assert (i < n) by (rewrite <- (linspace_length lo hi n); apply nth_error_Some; congruence).
    rewrite linspace_nth in Hi by auto. injection Hi as <-. destruct (Nat.eq_dec n 1) as [->|Hn]; [assert (i = 0) by lia; subst; cbn; lra|].
    assert (0 < INR (n - 1))%R by (apply lt_0_INR; lia). assert (INR i <= INR (n - 1))%R by (apply le_INR; lia).
    assert (0 <= INR i)%R by apply pos_INR. assert (HD : (0 <= (hi - lo) / INR (n - 1))%R) by (apply Rmult_le_pos; [lra|left; apply Rinv_0_lt_compat; auto]).
    split; [assert (0 <= INR i * ((hi - lo) / INR (n - 1)))%R by (apply Rmult_le_pos; auto); lra|].
    assert (INR i * ((hi - lo) / INR (n - 1)) <= INR (n - 1) * ((hi - lo) / INR (n - 1)))%R by (apply Rmult_le_compat_r; auto).
    assert (INR (n - 1) * ((hi - lo) / INR (n - 1)) = hi - lo)%R by (field; lra). lra.
  - intros Hn. rewrite linspace_nth by lia. f_equal. cbn. lra.
  - intros Hn. rewrite linspace_nth by lia. f_equal. assert (0 < INR (n - 1))%R by (apply lt_0_INR; lia). field. lra.
  - intros i x y Hx Hy. assert (i + 1 < n) by (rewrite <- (linspace_length lo hi n); apply nth_error_Some; congruence).
    rewrite linspace_nth in Hx by lia. rewrite linspace_nth in Hy by lia. injection Hx as <-. injection Hy as <-. rewrite plus_INR. cbn [INR]. lra.
Qed.

(** ** Blocks *)
Fixpoint pairs (t : nat) (ns : list nat) : list (nat * nat) := match ns with [] => [] | n :: ns' => (t, t + n) :: pairs (t + n) ns' end.
Lemma cumul_cons t ns : cumul t ns = t :: tl (cumul t ns).
Proof. destruct ns; reflexivity. Qed.
Lemma removelast_cumul t n ns : removelast (cumul t (n :: ns)) = t :: removelast (cumul (t + n) ns).
Proof. cbn [cumul]. rewrite (cumul_cons (t + n) ns). reflexivity. Qed.
Lemma pairs_eq t ns : combine (removelast (cumul t ns)) (tl (cumul t ns)) = pairs t ns.
Proof.
  revert t; induction ns as [|n ns IH]; intros t; [reflexivity|]. rewrite removelast_cumul. cbn [tl cumul pairs]. rewrite cumul_cons. cbn [combine]. f_equal. rewrite <- cumul_cons. apply IH.
Qed.
Lemma list_sum_const n (l : list nat) : list_sum (map (fun _ => n) l) = n * length l.
Proof. induction l; cbn [map list_sum fold_right length]; [lia|]. unfold list_sum in *. rewrite IHl. lia. Qed.

Lemma sim_x_from x n ns : (forall a, In a ns -> a <> 0) ->
  forall t s pre, t + list_sum ns <= length x -> length pre = s ->
  exists vs, map (@length R) vs = map (fun _ => n) ns /\
    foldM (fun sx p => let '((istart, iend), (sstart, send)) := p in
      do v <- space_fill_sim (slice istart iend x) (send - sstart);; assign sstart send v sx)
      (combine (pairs t ns) (pairs s (map (fun _ => n) ns))) (pre ++ repeat 0%R (list_sum (map (fun _ => n) ns))) = Ok (pre ++ concat vs) /\
    forall b w, nth_error vs b = Some w -> space_filling (slice (t + list_sum (firstn b ns)) (t + list_sum (firstn (b + 1) ns)) x) w n.
Proof.
  induction ns as [|a ns IH]; intros Hp t s pre Hx Hs.
  - exists []. split; [reflexivity|]. split; [reflexivity|]. intros [|b] w; discriminate.
  - assert (Ha : a <> 0) by (apply Hp; left; auto).
    change (list_sum (a :: ns)) with (a + list_sum ns) in Hx.
    destruct (space_fill (slice t (t + a) x) n) as (w & Ew & Sw).
    { intros E. apply (f_equal (@length R)) in E. rewrite slice_length in E by lia. cbn in E. lia. }
    destruct (IH (fun b Hb => Hp b (or_intror Hb)) (t + a) (s + n) (pre ++ w)) as (vs & Hl & E & Hb); [lia|rewrite app_length; destruct Sw; lia|].
    exists (w :: vs). split; [cbn [map]; f_equal; [apply Sw|auto]|]. split.
    + cbn [pairs map combine foldM]. replace (s + n - s) with n by lia. rewrite Ew. cbn [bind].
      change (list_sum (n :: map (fun _ => n) ns)) with (n + list_sum (map (fun _ => n) ns)). rewrite repeat_app.
      assert (Ln : length (repeat 0%R n) = n) by apply repeat_length.
      pose proof (assign_mid pre (repeat 0%R n) (repeat 0%R (list_sum (map (fun _ => n) ns))) w) as Am. rewrite Ln, Hs in Am.
      rewrite Am by apply Sw. rewrite app_assoc. rewrite E. rewrite <- app_assoc. reflexivity.
    + intros [|b] w' Hw; cbn [nth_error] in Hw.
      * injection Hw as <-. cbn [firstn Nat.add list_sum fold_right]. rewrite !Nat.add_0_r. exact Sw.
      * specialize (Hb b w' Hw). cbn [firstn Nat.add].
        change (list_sum (a :: firstn b ns)) with (a + list_sum (firstn b ns)). change (list_sum (a :: firstn (b + 1) ns)) with (a + list_sum (firstn (b + 1) ns)).
        rewrite !Nat.add_assoc. exact Hb.
Qed.

Lemma sim_x x n ns : length x = list_sum ns -> (forall a, In a ns -> a <> 0) ->
  exists x', return_simulation_x x (cumul 0 ns) (cumul 0 (map (fun _ => n) ns)) = Ok x' /\
    fills_ranges (cumul 0 ns) x (cumul 0 (map (fun _ => n) ns)) x' n.
Proof.
  intros Hx Hp. destruct (sim_x_from x n ns Hp 0 0 []) as (vs & Hl & E & Hb); [lia|reflexivity|].
  exists (concat vs). split.
  - unfold return_simulation_x. rewrite pylast_cumul. cbn [bind Nat.add]. rewrite !pairs_eq. exact E.
  - intros b v (lo & hi & A & B & C & D).
    assert (Hbl : b < length ns).
    { assert (b + 1 < length (cumul 0 ns)) by (apply nth_error_Some; congruence). rewrite cumul_length in H. lia. }
    rewrite cumul_nth in A by lia. rewrite cumul_nth in B by lia. injection A as <-. injection B as <-.
    assert (Lv : length vs = length ns) by (rewrite <- (map_length (@length R) vs), Hl, map_length; auto).
    destruct (nth_error vs b) as [w|] eqn:Ew; [|apply nth_error_None in Ew; lia].
    exists w. split; [rewrite <- Hl; apply is_block_concat; auto|]. subst v. apply Hb; auto.
Qed.

Theorem simulate_fills {T} (m : mobj R T) n : wf_mobj m ->
  (forall N, In N (Nm (m_idx R T m)) -> N <> 0) ->
  exists m', simulate T m n = Ok m' /\ same_series (m_idx R T m) (m_idx R T m') n /\ m_ps R T m' = m_ps R T m /\
    cNm (m_idx R T m') = cumul 0 (Nm (m_idx R T m')) /\ idxs (m_idx R T m') = cumul 0 (N_var (m_idx R T m')) /\
    fills_ranges (idxs (m_idx R T m)) (m_values R T m) (idxs (m_idx R T m')) (m_values R T m') n /\
    fills_ranges (cNm (m_idx R T m)) (m_ks R T m) (cNm (m_idx R T m')) (m_ks R T m') n.
Proof.
  intros W Hp. destruct W.
  assert (Hv : forall a, In a (N_var (m_idx R T m)) -> a <> 0).
  { intros a Ha. apply In_nth_error in Ha as (b & Hb).
    assert (b < length (n_mu (m_idx R T m))) by (rewrite wf_blocks; apply nth_error_Some; congruence).
    destruct (nth_error (n_mu (m_idx R T m)) b) as [k|] eqn:Ek; [|apply nth_error_None in Ek; lia].
    destruct (wf_series b k Ek) as (_ & N & HN & HN'). rewrite Hb in HN'. injection HN' as <-. apply Hp. eapply nth_error_In; eauto. }
  destruct (sim_x _ n _ wf_values Hv) as (xs & Ex & Fx). destruct (sim_x _ n _ wf_ks Hp) as (ks & Ek & Fk).
  unfold simulate. cbn [return_simulation_idx idxs cNm]. rewrite wf_idxs, wf_cnm. rewrite Ex. cbn [bind]. rewrite Ek. cbn [bind].
  eexists. split; [reflexivity|]. cbn [m_idx m_ps m_values m_ks idxs cNm Nm N_var]. rewrite <- wf_idxs, <- wf_cnm.
  split. { unfold same_series. cbn. rewrite !map_length. do 6 (split; [reflexivity|]). split; [reflexivity|]. split; [|split; [reflexivity|]]; intros x Hx; apply in_map_iff in Hx as (? & <- & _); auto. }
  rewrite wf_idxs, wf_cnm. auto.
Qed.

(** An empty series is rejected. *)
Lemma sim_x_empty x n ns : length x = list_sum ns -> In 0 ns ->
  return_simulation_x x (cumul 0 ns) (cumul 0 (map (fun _ => n) ns)) = Raise ValueError.
Proof.
  intros Hx H0.
  assert (G : exists l1 l2, ns = l1 ++ 0 :: l2 /\ forall a, In a l1 -> a <> 0).
  { clear Hx. induction ns as [|a ns IH]; [destruct H0|]. destruct a as [|a]; [exists [], ns; split; [auto|intros ? []]|].
    destruct H0 as [H0|H0]; [discriminate|]. destruct (IH H0) as (l1 & l2 & E & Hl). exists (S a :: l1), l2. split; [rewrite E; auto|]. intros b [<-|Hb]; auto. }
  destruct G as (l1 & l2 & -> & Hl).
  unfold return_simulation_x. rewrite pylast_cumul. cbn [bind Nat.add]. rewrite !pairs_eq.
  assert (P : forall t l l', pairs t (l ++ l') = pairs t l ++ pairs (t + list_sum l) l').
  { intros t l l'. revert t; induction l as [|c l IH]; intros t; cbn [app pairs]; [cbn; rewrite Nat.add_0_r; auto|]. rewrite IH. change (list_sum (c :: l)) with (c + list_sum l). rewrite Nat.add_assoc. auto. }
  rewrite list_sum_app in Hx. cbn in Hx. fold (list_sum l2) in Hx.
  assert (Hx' : 0 + list_sum l1 <= length x) by lia.
  destruct (sim_x_from x n l1 Hl 0 0 [] Hx' eq_refl) as (vs & Hv & E & _).
  rewrite map_app, !P. cbn [map pairs].
  assert (C : forall {A B} (a a' : list A) (b b' : list B), length a = length b -> combine (a ++ a') (b ++ b') = combine a b ++ combine a' b').
  { intros A B a a' b. revert a; induction b as [|y b IH]; intros [|z a] b' Hab; cbn in Hab; try lia; cbn [app combine]; [auto|]. f_equal. apply IH. lia. }
  assert (PL : forall t l, length (pairs t l) = length l) by (intros t l; revert t; induction l; intros t; cbn; auto).
  rewrite C by (rewrite !PL, map_length; auto). cbn [combine].
  rewrite list_sum_app, repeat_app.
  assert (Gf : forall l sx sx' post, foldM (fun sx p => let '((istart, iend), (sstart, send)) := p in
      do v <- space_fill_sim (slice istart iend x) (send - sstart);; assign sstart send v sx) l sx = Ok sx' ->
      (forall p, In p l -> snd (snd p) <= length sx) -> (forall p, In p l -> fst (snd p) <= snd (snd p)) ->
      foldM (fun sx p => let '((istart, iend), (sstart, send)) := p in
      do v <- space_fill_sim (slice istart iend x) (send - sstart);; assign sstart send v sx) l (sx ++ post) = Ok (sx' ++ post)).
  { induction l as [|[[i1 i2] [s1 s2]] l IH]; intros sx sx' post Ef Hf Hg; cbn [foldM] in *; [injection Ef as <-; auto|].
    destruct (space_fill_sim (slice i1 i2 x) (s2 - s1)) as [v|] eqn:Ev; cbn [bind] in *; [|discriminate].
    pose proof (Hf _ (or_introl eq_refl)) as F1. pose proof (Hg _ (or_introl eq_refl)) as G1. cbn [fst snd] in F1, G1.
    assert (Ls : length (slice s1 s2 (sx ++ post)) = length (slice s1 s2 sx)) by (rewrite !slice_length; rewrite ?app_length; lia).
    destruct (assign s1 s2 v sx) as [sx1|] eqn:Ea; [|discriminate].
    assert (La : length sx1 = length sx /\ assign s1 s2 v (sx ++ post) = Ok (sx1 ++ post)).
    { unfold assign in *. rewrite Ls. assert (SL : length (slice s1 s2 sx) = s2 - s1) by (rewrite slice_length; lia). rewrite SL in *.
      assert (Hlv : length v = s2 - s1).
      { unfold space_fill_sim in Ev. destruct (rmin _); cbn [bind] in Ev; [|discriminate]. destruct (rmax _); cbn [bind] in Ev; [|discriminate]. injection Ev as <-. apply linspace_length. }
      rewrite Hlv, Nat.eqb_refl in Ea. rewrite Hlv, Nat.eqb_refl. injection Ea as <-. split.
      - rewrite !app_length, firstn_length, skipn_length. lia.
      - f_equal. rewrite firstn_app, skipn_app. replace (s1 - length sx) with 0 by lia. replace (s1 + (s2 - s1) - length sx) with 0 by lia. cbn [firstn skipn]. rewrite app_nil_r, <- !app_assoc. reflexivity. }
    destruct La as (La & ->). apply IH; auto; intros p Hp; [rewrite La; apply Hf; right; auto|apply Hg; right; auto]. }
  rewrite foldM_app. cbn [app] in E.
  assert (Hin : forall p, In p (combine (pairs 0 l1) (pairs 0 (map (fun _ : nat => n) l1))) -> In (snd p) (pairs 0 (map (fun _ : nat => n) l1))).
  { intros [p q] Hp. eapply in_combine_r; eauto. }
  assert (Hpr : forall t l p, In p (pairs t l) -> fst p <= snd p <= t + list_sum l).
  { intros t l. revert t; induction l as [|c l IH]; intros t p Hp; [destruct Hp|]. change (list_sum (c :: l)) with (c + list_sum l). destruct Hp as [<-|Hp]; [cbn; lia|]. specialize (IH _ _ Hp). lia. }
  erewrite Gf; [|exact E| |]; cycle 1.
  { intros p Hp. apply Hin, Hpr in Hp. rewrite repeat_length. lia. }
  { intros p Hp. apply Hin, Hpr in Hp. lia. }
  cbn [foldM]. unfold space_fill_sim at 1.
  assert (Z : slice (0 + list_sum l1) (0 + list_sum l1 + 0) x = []) by (unfold slice; rewrite Nat.add_0_r, Nat.sub_diag; reflexivity).
  rewrite Z. reflexivity.
Qed.
Theorem simulate_empty {T} (m : mobj R T) n : wf_mobj m -> In 0 (Nm (m_idx R T m)) -> simulate T m n = Raise ValueError.
Proof.
  intros W H. destruct W. unfold simulate. cbn [return_simulation_idx idxs cNm].
  apply In_nth_error in H as (k & Hk). assert (k < length (Nm (m_idx R T m))) by (apply nth_error_Some; congruence).
  destruct (In_nth_error (n_mu (m_idx R T m)) (k + 1) (wf_all_series (k + 1) ltac:(lia))) as (b & Hb).
  destruct (wf_series b (k + 1) Hb) as (_ & N & A & B). replace (k + 1 - 1) with k in A by lia. rewrite Hk in A. injection A as <-. apply nth_error_In in B.
  rewrite wf_idxs. rewrite (sim_x_empty _ n _ wf_values B). reflexivity.
Qed.
