From Coq Require Import Reals Lra Sorted.
From Verif Require Import Base BaseLemmas ReaderModel UncModel UncProofs UncProofs2 MuModel MuProofs SensorSpec SampleSpec SampleProofs SampleProofs2 TransformModel TransformSpec TransformProofs TransformProofs2 TransformMain TransformMain2 TransformMain3 EvalModel EvalSpec EvalProofs.
Open Scope nat_scope.

Section M.
Context {T : Type}.
Notation mobj := (mobj R T).
Variables (m : mobj) (sd : sdat T).
Hypothesis Ev : evaluable m sd.
Hypothesis Mt : models_total m sd.
Notation sizes l := (map (fun n => nth (n - 1) (Nm (m_idx R T m)) 0) l).

Definition side_out (n side : nat) (r : list R) : Prop :=
  exists s X a c xt al t f J, side_input m sd n side s X a c xt al t /\ nth_error (sd_model T sd) s = Some f /\
    f X a c xt al t = Ok (r, J).

Lemma series_ok l n : selection m l -> In n l -> 1 <= n /\ exists p N, nth_error (Im (m_idx R T m)) (n - 1) = Some p /\
  nth_error (Nm (m_idx R T m)) (n - 1) = Some N /\ nth (n - 1) (Nm (m_idx R T m)) 0 = N.
Proof.
  intros (_ & H) Hn. specialize (H n Hn). split; [lia|].
  destruct (nth_error (Im (m_idx R T m)) (n - 1)) as [p|] eqn:Ep; [|apply nth_error_None in Ep; rewrite (ev_im _ _ Ev) in Ep; lia].
  destruct (nth_error (Nm (m_idx R T m)) (n - 1)) as [N|] eqn:EN; [|apply nth_error_None in EN; lia].
  exists p, N. repeat split. apply nth_nth_error. auto.
Qed.

Lemma assign_side_concat (side : nat) (cs0 cs1 : list (list R)) k o0 o1 v : side < 2 ->
  nth_error cs0 k = Some o0 -> nth_error cs1 k = Some o1 -> map (@length R) cs0 = map (@length R) cs1 -> length v = length o0 ->
  assign_side side (list_sum (firstn k (map (@length R) cs0))) (list_sum (firstn (S k) (map (@length R) cs0))) v (concat cs0, concat cs1)
  = Ok (if side =? 0 then (concat (upd k v cs0), concat cs1) else (concat cs0, concat (upd k v cs1))).
Proof.
  intros Hs H0 H1 Hm Hv. assert (length o0 = length o1).
  { assert (E : nth_error (map (@length R) cs0) k = nth_error (map (@length R) cs1) k) by congruence.
    rewrite !nth_error_map', H0, H1 in E. cbn in E. congruence. }
  destruct side as [|[|]]; [| |lia]; unfold assign_side; cbn [fst snd Nat.eqb].
  - rewrite (assign_concat _ _ _ _ H0 Hv). reflexivity.
  - rewrite Hm. rewrite (assign_concat _ _ _ _ H1) by congruence. reflexivity.
Qed.

Lemma measurand_blocks l : selection m l -> exists bs0 bs1,
  evaluate_measurand T m sd (SelList l) = Ok (concat bs0, concat bs1) /\ map (@length R) bs0 = sizes l /\ map (@length R) bs1 = sizes l /\
  forall k n, nth_error l k = Some n -> exists v0 v1, nth_error bs0 k = Some v0 /\ nth_error bs1 k = Some v1 /\ side_out n 0 v0 /\ side_out n 1 v1.
Proof.
  intros Hl. unfold evaluate_measurand. cbn [sel_list]. rewrite (sel_sizes m l Hl), pylast_cumul. cbn [bind plus].
  rewrite !repeat_concat. set (z := map (fun n => repeat 0%R n) (sizes l)).
  assert (Lz : map (@length R) z = sizes l).
  { unfold z. rewrite map_map. rewrite <- (map_id (sizes l)) at 2. apply map_ext. intros. apply repeat_length. }
  match goal with |- context [foldM ?f _ _] => set (step := f) end.
  destruct (pair_fold step (fun n _ _ v0 v1 => side_out n 0 v0 /\ side_out n 1 v1) (sizes l) l 0 z z Lz Lz) as (bs0 & bs1 & Ef & L0 & L1 & _ & Hr).
  - rewrite map_length. reflexivity.
  - intros i n Hn cs0 cs1 o0 o1 C0 C1 D0 D1. cbn [plus] in *.
    destruct (series_ok l n Hl (nth_error_In _ _ Hn)) as (Hn1 & p & N & Hp & HN & HnN).
    destruct (side_eval_ok m sd n 0 p Ev Hn1 ltac:(lia) Hp) as (X0 & a0 & c0 & xt0 & al0 & t0 & f0 & S0 & F0 & E0).
    destruct (side_eval_ok m sd n 1 p Ev Hn1 ltac:(lia) Hp) as (X1 & a1 & c1 & xt1 & al1 & t1 & f1 & S1 & F1 & E1).
    destruct (proj1 Mt _ _ _ _ _ _ _ _ _ N f0 S0 F0 HN) as (v0 & J0 & R0 & Lv0).
    destruct (proj1 Mt _ _ _ _ _ _ _ _ _ N f1 S1 F1 HN) as (v1 & J1 & R1 & Lv1).
    cbn [Nat.eqb] in E0, E1. rewrite R0 in E0. rewrite R1 in E1.
    assert (Hi : i < length (sizes l)) by (rewrite map_length; apply nth_error_Some; congruence).
    assert (HNi : nth_error (sizes l) i = Some N) by (rewrite nth_error_map', Hn; cbn; congruence).
    assert (Lo0 : length o0 = N) by (rewrite <- C0, nth_error_map', D0 in HNi; cbn in HNi; congruence).
    assert (Lo1 : length o1 = N) by (rewrite <- C1, nth_error_map', D1 in HNi; cbn in HNi; congruence).
    exists v0, v1. split; [|split; [congruence|split; [congruence|]]].
    + unfold step. cbn [fst snd]. replace (Z.of_nat n - 1)%Z with (Z.of_nat (n - 1)) by lia. rewrite pyget_of_nat, (proj2 (get_ok _ _ _) Hp). cbn [bind].
      rewrite (proj2 (get_ok _ _ _) (cumul_nth 0 (sizes l) i ltac:(lia))). cbn [bind].
      rewrite (proj2 (get_ok _ _ _) (cumul_nth 0 (sizes l) (i + 1) ltac:(lia))). cbn [bind plus foldM fst snd].
      rewrite E0. cbn [bind fst]. rewrite Nat.add_1_r, <- C0. rewrite (assign_side_concat 0 cs0 cs1 i o0 o1 v0) by (auto; congruence). cbn [Nat.eqb].
      rewrite E1. cbn [bind fst]. assert (EC : map (@length R) cs0 = map (@length R) (upd i v0 cs0)).
      { symmetry. eapply upd_len_map; eauto. congruence. }
      rewrite EC. rewrite (assign_side_concat 1 (upd i v0 cs0) cs1 i v0 o1 v1); auto; try congruence.
      apply upd_nth_same. rewrite <- (map_length (@length R)), C0. auto.
    + split; [exists (fst p), X0, a0, c0, xt0, al0, t0, f0, J0|exists (snd p), X1, a1, c1, xt1, al1, t1, f1, J1]; auto.
  - exists bs0, bs1. split; [exact Ef|]. split; [auto|]. split; [auto|]. intros k n Hk.
    destruct (Hr k n Hk) as (o0 & o1 & v0 & v1 & _ & _ & H0 & H1 & HQ0 & HQ1). exists v0, v1. auto.
Qed.

Notation adj_out := (adjusted_side m sd).

Lemma adj_step l n side cs0 cs1 i o0 o1 p N b0 r0 d0 : side < 2 -> length o0 = N -> length r0 = N -> nth_error (sizes l) i = Some N ->
  map (@length R) cs0 = sizes l -> map (@length R) cs1 = sizes l -> nth_error cs0 i = Some o0 -> nth_error cs1 i = Some o1 ->
  nth_error (Im (m_idx R T m)) (n - 1) = Some p ->
  nth_error (sd_adj T sd) (if side =? 0 then fst p else snd p) = Some b0 -> b0 (if side =? 0 then o0 else o1) = Ok (r0, d0) ->
  (do b <- get (sd_adj T sd) (if side =? 0 then fst p else snd p);;
   do r <- b (slice (list_sum (firstn i (sizes l))) (list_sum (firstn (S i) (sizes l))) (side_of side (concat cs0, concat cs1)));;
   assign_side side (list_sum (firstn i (sizes l))) (list_sum (firstn (S i) (sizes l))) (fst r) (concat cs0, concat cs1))
  = Ok (if side =? 0 then (concat (upd i r0 cs0), concat cs1) else (concat cs0, concat (upd i r0 cs1))).
Proof.
  intros Hs Lo Lr HN C0 C1 D0 D1 Hp Hb Hr. rewrite (proj2 (get_ok _ _ _) Hb). cbn [bind].
  assert (E : slice (list_sum (firstn i (sizes l))) (list_sum (firstn (S i) (sizes l))) (side_of side (concat cs0, concat cs1)) = (if side =? 0 then o0 else o1)).
  { destruct side as [|[|]]; [| |lia]; cbn [side_of fst snd Nat.eqb]; [rewrite <- C0|rewrite <- C1]; apply BaseLemmas.slice_concat; auto. }
  rewrite E, Hr. cbn [bind fst]. rewrite <- C0. apply (assign_side_concat side cs0 cs1 i o0 o1); auto; congruence.
Qed.

Lemma adjusted_blocks l s : selection m l -> sel_list (m_idx R T m) s = l -> exists bs0 bs1,
  evaluate_adjusted_measurand T m sd s = Ok (concat bs0, concat bs1) /\ map (@length R) bs0 = sizes l /\ map (@length R) bs1 = sizes l /\
  forall k n, nth_error l k = Some n -> exists v0 v1, nth_error bs0 k = Some v0 /\ nth_error bs1 k = Some v1 /\ adj_out n 0 v0 /\ adj_out n 1 v1.
Proof.
  intros Hl Hsl. unfold evaluate_adjusted_measurand. rewrite Hsl.
  destruct (measurand_blocks l Hl) as (bs0 & bs1 & Em & L0 & L1 & Hm). rewrite Em. cbn [bind]. rewrite (sel_sizes m l Hl).
  match goal with |- context [foldM ?f _ _] => set (step := f) end.
  destruct (pair_fold step (fun n o0 o1 v0 v1 => exists p b0 b1 d0 d1, nth_error (Im (m_idx R T m)) (n - 1) = Some p /\
       nth_error (sd_adj T sd) (fst p) = Some b0 /\ nth_error (sd_adj T sd) (snd p) = Some b1 /\ b0 o0 = Ok (v0, d0) /\ b1 o1 = Ok (v1, d1))
       (sizes l) l 0 bs0 bs1 L0 L1) as (bs0' & bs1' & Ef & L0' & L1' & _ & Hr).
  - rewrite map_length. reflexivity.
  - intros i n Hn cs0 cs1 o0 o1 C0 C1 D0 D1. cbn [plus] in *.
    destruct (series_ok l n Hl (nth_error_In _ _ Hn)) as (Hn1 & p & N & Hp & HN & HnN).
    destruct (ev_pair _ _ Ev _ _ Hp) as (_ & Hin).
    destruct (Hin (fst p) (or_introl eq_refl)) as (_ & _ & Ha0 & _). destruct (Hin (snd p) (or_intror eq_refl)) as (_ & _ & Ha1 & _).
    destruct (nth_error (sd_adj T sd) (fst p)) as [b0|] eqn:Eb0; [|apply nth_error_None in Eb0; lia].
    destruct (nth_error (sd_adj T sd) (snd p)) as [b1|] eqn:Eb1; [|apply nth_error_None in Eb1; lia].
    destruct (proj2 Mt _ _ o0 Eb0) as (v0 & d0 & R0 & Lv0). destruct (proj2 Mt _ _ o1 Eb1) as (v1 & d1 & R1 & Lv1).
    assert (Hi : i < length (sizes l)) by (rewrite map_length; apply nth_error_Some; congruence).
    assert (HNi : nth_error (sizes l) i = Some N) by (rewrite nth_error_map', Hn; cbn; congruence).
    assert (Lo0 : length o0 = N) by (rewrite <- C0, nth_error_map', D0 in HNi; cbn in HNi; congruence).
    assert (Lo1 : length o1 = N) by (rewrite <- C1, nth_error_map', D1 in HNi; cbn in HNi; congruence).
    exists v0, v1. split; [|split; [congruence|split; [congruence|]]].
    + unfold step. cbn [fst snd]. replace (Z.of_nat n - 1)%Z with (Z.of_nat (n - 1)) by lia. rewrite pyget_of_nat, (proj2 (get_ok _ _ _) Hp). cbn [bind].
      rewrite (proj2 (get_ok _ _ _) (cumul_nth 0 (sizes l) i ltac:(lia))). cbn [bind].
      rewrite (proj2 (get_ok _ _ _) (cumul_nth 0 (sizes l) (i + 1) ltac:(lia))). cbn [bind plus foldM fst snd]. rewrite Nat.add_1_r.
      pose proof (adj_step l n 0 cs0 cs1 i o0 o1 p N b0 v0 d0 ltac:(lia) Lo0 ltac:(congruence) HNi C0 C1 D0 D1 Hp Eb0 R0) as S0.
      cbn [Nat.eqb] in S0. rewrite S0.
      assert (C0' : map (@length R) (upd i v0 cs0) = sizes l) by (rewrite (upd_len_map _ _ _ _ D0) by congruence; auto).
      pose proof (adj_step l n 1 (upd i v0 cs0) cs1 i v0 o1 p N b1 v1 d1 ltac:(lia) ltac:(congruence) ltac:(congruence) HNi C0' C1
        ltac:(apply upd_nth_same; rewrite <- (map_length (@length R)), C0; auto) D1 Hp Eb1 R1) as S1.
      cbn [Nat.eqb] in S1. rewrite S1. reflexivity.
    + exists p, b0, b1, d0, d1. auto.
  - exists bs0', bs1'. split; [exact Ef|]. split; [auto|]. split; [auto|]. intros k n Hk.
    destruct (Hr k n Hk) as (o0 & o1 & v0 & v1 & B0 & B1 & H0 & H1 & p & b0 & b1 & d0 & d1 & Hp & Hb0 & Hb1 & R0 & R1). cbn [plus] in *.
    destruct (Hm k n Hk) as (w0 & w1 & W0 & W1 & S0 & S1). assert (w0 = o0) by congruence. assert (w1 = o1) by congruence. subst.
    exists v0, v1. split; [auto|]. split; [auto|].
    destruct S0 as (s0 & X0 & a0 & c0 & xt0 & al0 & t0 & f0 & J0 & I0 & F0 & G0). destruct S1 as (s1 & X1 & a1 & c1 & xt1 & al1 & t1 & f1 & J1 & I1 & F1 & G1).
    destruct (si_sensor _ _ _ _ _ _ _ _ _ _ _ I0) as (p0 & Hp0 & ->). destruct (si_sensor _ _ _ _ _ _ _ _ _ _ _ I1) as (p1 & Hp1 & ->).
    assert (p0 = p) by congruence. assert (p1 = p) by congruence. subst p0 p1. cbn [Nat.eqb] in *.
    split; [exists (fst p), X0, a0, c0, xt0, al0, t0, f0, J0, b0, o0, d0|exists (snd p), X1, a1, c1, xt1, al1, t1, f1, J1, b1, o1, d1]; auto 10.
Qed.

Lemma series_rows_concat l k (bs : list (list R)) v : map (@length R) bs = sizes l -> nth_error bs k = Some v -> series_rows m l k (concat bs) = v.
Proof.
  intros L H. unfold series_rows, n_matchups. rewrite <- !firstn_map. rewrite <- L. apply BaseLemmas.slice_concat. auto.
Qed.

Theorem measurand_rows l : selection m l -> exists c0 c1,
  evaluate_measurand T m sd (SelList l) = Ok (c0, c1) /\ length c0 = n_matchups m l /\ length c1 = n_matchups m l /\
  forall k n side, nth_error l k = Some n -> side < 2 ->
    exists s X a c xt al t f r J, side_input m sd n side s X a c xt al t /\ nth_error (sd_model T sd) s = Some f /\
      f X a c xt al t = Ok (r, J) /\ series_rows m l k (if side =? 0 then c0 else c1) = r.
Proof.
  intros Hl. destruct (measurand_blocks l Hl) as (bs0 & bs1 & Em & L0 & L1 & Hm). exists (concat bs0), (concat bs1).
  split; [auto|]. unfold n_matchups. split; [rewrite concat_length, L0; auto|]. split; [rewrite concat_length, L1; auto|].
  intros k n side Hk Hside. destruct (Hm k n Hk) as (v0 & v1 & H0 & H1 & S0 & S1).
  destruct side as [|[|]]; [| |lia]; cbn [Nat.eqb].
  - destruct S0 as (s & X & a & c & xt & al & t & f & J & I & F & G). exists s, X, a, c, xt, al, t, f, v0, J. repeat (split; [auto|]). apply series_rows_concat; auto.
  - destruct S1 as (s & X & a & c & xt & al & t & f & J & I & F & G). exists s, X, a, c, xt, al, t, f, v1, J. repeat (split; [auto|]). apply series_rows_concat; auto.
Qed.

Lemma concat_zip f (bs0 bs1 : list (list R)) : map (@length R) bs0 = map (@length R) bs1 ->
  zip2 f (concat bs0) (concat bs1) = concat (map (fun p => zip2 f (fst p) (snd p)) (combine bs0 bs1)).
Proof.
  revert bs1. induction bs0 as [|x bs0 IH]; intros [|y bs1] H; cbn in H; try discriminate; [reflexivity|]. injection H as H1 H2.
  cbn [combine map concat fst snd]. rewrite <- IH by auto. unfold zip2.
  assert (G : forall (a b c d : list R), length a = length b -> combine (a ++ c) (b ++ d) = combine a b ++ combine c d).
  { clear. induction a as [|? a IH]; intros [|? b] c d H; cbn in *; try discriminate; auto. rewrite IH by lia. auto. }
  rewrite G by auto. rewrite map_app. reflexivity.
Qed.

Theorem K_rows l s : selection m l -> sel_list (m_idx R T m) s = l -> exists ks,
  evaluate_K T m sd s = Ok ks /\ length ks = n_matchups m l /\
  forall k n, nth_error l k = Some n -> exists b1 b2, adj_out n 0 b1 /\ adj_out n 1 b2 /\
    series_rows m l k ks = map (fun p => fst p - snd p)%R (combine b2 b1).
Proof.
  intros Hl Hs. destruct (adjusted_blocks l s Hl Hs) as (bs0 & bs1 & Em & L0 & L1 & Hm).
  unfold evaluate_K. rewrite Em. cbn [bind fst snd]. rewrite bop_eq by (rewrite !concat_length, L0, L1; auto).
  rewrite concat_zip by congruence. eexists. split; [reflexivity|].
  assert (LL : map (@length R) (map (fun p => zip2 Rminus (fst p) (snd p)) (combine bs1 bs0)) = sizes l).
  { apply nth_error_ext. intros i. rewrite <- L1. rewrite !nth_error_map'.
    destruct (nth_error bs1 i) as [y|] eqn:E1.
    - assert (E0 : exists x, nth_error bs0 i = Some x /\ length x = length y).
      { assert (E : nth_error (map (@length R) bs0) i = nth_error (map (@length R) bs1) i) by congruence. rewrite !nth_error_map', E1 in E.
        destruct (nth_error bs0 i); [|discriminate]. cbn in E. eexists; split; [reflexivity|congruence]. }
      destruct E0 as (x & E0 & Lx).
      assert (EC : nth_error (combine bs1 bs0) i = Some (y, x)).
      { clear - E0 E1. revert bs1 i E0 E1. induction bs0 as [|? bs0 IH]; intros [|? bs1] [|i] E0 E1; cbn in *; try discriminate; [congruence|auto]. }
      rewrite EC. cbn [option_map fst snd]. rewrite zip2_length by auto. reflexivity.
    - assert (EC : nth_error (combine bs1 bs0) i = None).
      { apply nth_error_None. apply nth_error_None in E1. rewrite combine_length. lia. }
      rewrite EC. reflexivity. }
  split; [rewrite concat_length, LL; reflexivity|]. intros k n Hk. destruct (Hm k n Hk) as (v0 & v1 & H0 & H1 & S0 & S1).
  exists v0, v1. split; [auto|]. split; [auto|]. rewrite (series_rows_concat l k _ (zip2 Rminus v1 v0)); auto.
  rewrite nth_error_map'. assert (EC : nth_error (combine bs1 bs0) k = Some (v1, v0)).
  { clear - H0 H1. revert bs1 k H0 H1. induction bs0 as [|? bs0 IH]; intros [|? bs1] [|i] E0 E1; cbn in *; try discriminate; [congruence|auto]. }
  rewrite EC. reflexivity.
Qed.

(** the default selection: all series *)
Lemma all_selected : selection m (distinct (n_mu (m_idx R T m))) /\ distinct (n_mu (m_idx R T m)) = seq 1 (length (Nm (m_idx R T m))).
Proof.
  assert (M : forall x, mem Nat.eqb x (n_mu (m_idx R T m)) = true <-> 1 <= x <= length (Nm (m_idx R T m))).
  { intros x. rewrite mem_in by (intros; apply Nat.eqb_eq). split.
    - intros H. apply In_nth_error in H as (b & Hb). destruct (ev_series _ _ Ev b x Hb) as (H1 & N & HN & _).
      assert (x - 1 < length (Nm (m_idx R T m))) by (apply nth_error_Some; congruence). lia.
    - apply (ev_all _ _ Ev). }
  assert (E : distinct (n_mu (m_idx R T m)) = seq 1 (length (Nm (m_idx R T m)))).
  { unfold distinct. set (n := length (Nm (m_idx R T m))) in *.
    assert (Hmax : list_max (n_mu (m_idx R T m)) = n).
    { apply Nat.le_antisymm.
      - apply list_max_le. apply Forall_forall. intros x Hx. apply (mem_in Nat.eqb) in Hx; [|intros; apply Nat.eqb_eq]. apply M in Hx. lia.
      - destruct (Nat.eq_dec n 0) as [->|Hn]; [lia|].
        assert (Hin : In n (n_mu (m_idx R T m))) by (apply (ev_all _ _ Ev); lia).
        assert (F : Forall (fun k => k <= list_max (n_mu (m_idx R T m))) (n_mu (m_idx R T m))) by (apply list_max_le; lia).
        rewrite Forall_forall in F. apply F; auto. }
    rewrite Hmax. cbn [seq filter].
    destruct (mem Nat.eqb 0 (n_mu (m_idx R T m))) eqn:E0; [apply M in E0; lia|].
    rewrite (filter_ext_in _ (fun _ => true)).
    - clear. generalize (seq 1 n). induction l; cbn; congruence.
    - intros x Hx. apply in_seq in Hx. apply M. lia. }
  split; [|auto]. rewrite E. split.
  - clear. generalize 1 at 1. intros k. generalize (length (Nm (m_idx R T m))). intros n. revert k. induction n; intros k; cbn; constructor; auto.
    apply Forall_forall. intros x Hx. apply in_seq in Hx. lia.
  - intros n Hn. apply in_seq in Hn. lia.
Qed.
End M.
