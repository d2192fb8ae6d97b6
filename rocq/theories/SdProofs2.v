(** * Proofs for C148: files converted from AVHRR match-ups are usable, and their rows are filled. *)
From Coq Require Import Reals Lra.
From Verif Require Import Base BaseLemmas ReaderModel ReaderSpec ReaderProofs ReaderMain UncModel UncSpec UncProofs UnckModel EvalModel SimModel WModel WSpec WProofs WProofs2 GNModel CheckModel CheckSpec CheckProofs AvModel AvSpec AvProofs AvProofs3 AvProofs5 AvProofs6 IOModel IOSpec IOProofs FullModel FullSpec ConvModel ConvSpec ConvSpec2 ConvProofs ConvProofs2 ConvProofs6 ConvProofs13 ConvProofs14 ConvProofs15 SdProofs.
Open Scope nat_scope.

Lemma sum_Z l : fold_right Z.add 0%Z (map Z.of_nat l) = Z.of_nat (list_sum l).
Proof. induction l as [|a l IH]; [reflexivity|]. cbn [map fold_right]. rewrite IH. change (list_sum (a :: l)) with (a + list_sum l). lia. Qed.
Lemma concat_at {A} (l : list (list A)) k x i : nth_error l k = Some x -> i < length x -> nth_error (concat l) (list_sum (firstn k (map (@length A) l)) + i) = nth_error x i.
Proof.
  revert k. induction l as [|y l IH]; intros [|k] H Hi; try discriminate.
  - injection H as ->. cbn [firstn concat]. change (list_sum []) with 0. apply nth_error_app1. exact Hi.
  - cbn [map firstn concat]. change (list_sum (length y :: firstn k (map (@length A) l))) with (length y + list_sum (firstn k (map (@length A) l))). rewrite nth_error_app2 by lia.
    replace (length y + list_sum (firstn k (map (@length A) l)) + i - length y) with (list_sum (firstn k (map (@length A) l)) + i) by lia. apply IH; auto.
Qed.
Lemma nth_mapZ l i z : nth_error (map Z.of_nat l) i = Some z -> exists n, nth_error l i = Some n /\ z = Z.of_nat n.
Proof. rewrite nth_error_map. destruct (nth_error l i) as [n|]; [|discriminate]. cbn. intros [= <-]. eauto. Qed.

Lemma has_filled g p mv ws : has_file g p mv -> w_nnz R mv = map (fun w => length (c_indices R w)) ws -> w_row R mv = map (c_indptr R) ws -> w_col R mv = concat (map (c_indices R) ws) -> (forall w, In w ws -> filled w) ->
  pointers_ordered g /\ rows_filled g.
Proof.
  intros Hf En Er Ec Hw. pose proof (hf_wf _ _ _ Hf) as Wf.
  assert (DR : forall rows, data g "w_matrix_row" (IArr2 rows) -> rows = map (map Z.of_nat) (map (c_indptr R) ws)) by (intros rows D; pose proof (data_unique _ _ _ _ Wf D (hf_row _ _ _ Hf)) as Q; injection Q as ->; congruence).
  assert (DN : forall l, data g "w_matrix_nnz" (IArr1 l) -> l = map Z.of_nat (map (fun w => length (c_indices R w)) ws)) by (intros l D; pose proof (data_unique _ _ _ _ Wf D (hf_nnz _ _ _ Hf)) as Q; injection Q as ->; congruence).
  assert (DC : forall l, data g "w_matrix_col" (IArr1 l) -> l = map Z.of_nat (concat (map (c_indices R) ws))) by (intros l D; pose proof (data_unique _ _ _ _ Wf D (hf_col _ _ _ Hf)) as Q; injection Q as ->; congruence).
  split.
  - intros rows r i x q D Hi Hp Hq. rewrite (DR rows D) in Hi. apply in_map_iff in Hi. destruct Hi as (ip & <- & Hi). apply in_map_iff in Hi. destruct Hi as (w & <- & Hi).
    apply nth_mapZ in Hp, Hq. destruct Hp as (x' & Hp & ->), Hq as (q' & Hq & ->). destruct (Hw w Hi i x' q' Hp Hq). lia.
  - intros nnz rows col k r i x q D1 D2 D3 Hr Hp Hq. rewrite (DR rows D2) in Hr. rewrite map_map, nth_error_map in Hr. destruct (nth_error ws k) as [w|] eqn:Ew; [|discriminate]. cbn in Hr. injection Hr as <-.
    apply nth_mapZ in Hp, Hq. destruct Hp as (x' & Hp & ->), Hq as (q' & Hq & ->). destruct (Hw w (nth_error_In _ _ Ew) i x' q' Hp Hq) as (L & L2 & HO). split; [lia|].
    rewrite (DN nnz D1), (DC col D3), firstn_map, sum_Z. set (s := list_sum (firstn k (map (fun w => length (c_indices R w)) ws))). intros lo hi Hlo Hhi.
    replace (Z.to_nat (Z.of_nat s + Z.of_nat x')) with (s + x') in Hlo by lia. replace (Z.to_nat (Z.of_nat s + Z.of_nat q' - 1)) with (s + (q' - 1)) in Hhi by lia.
    apply nth_mapZ in Hlo, Hhi. destruct Hlo as (a & Ha & ->), Hhi as (b & Hb & ->).
    assert (ES : s = list_sum (firstn k (map (@length nat) (map (c_indices R) ws)))) by (unfold s; rewrite map_map; reflexivity).
    assert (EK : nth_error (map (c_indices R) ws) k = Some (c_indices R w)) by (rewrite nth_error_map, Ew; reflexivity).
    rewrite ES, (concat_at _ _ _ _ EK) in Ha by lia. rewrite ES, (concat_at _ _ _ _ EK) in Hb by lia. specialize (HO a b Ha Hb). lia.
Qed.

Lemma sensor_fun g sd x y : wf_nc g -> file_sensor g sd x -> file_sensor g sd y -> x = y.
Proof. intros (_ & _ & NA & _) A B. unfold file_sensor in *. apply (lookup_nodup _ _ _ NA) in A. apply (lookup_nodup _ _ _ NA) in B. congruence. Qed.

(** What the files of a conversion bring along. *)
Record brought (g : ncfile) (n1 n2 : string) (m1 m2 M : nat) (t1 : list Z) : Prop := {
  br_usable : check g = Ok [] -> FullSpec.usable g;
  br_filled : rows_filled g;
  br_M : size g "M" M; br_pos : 1 <= M;
  br_name : forall sd s, file_sensor g sd s -> s = match sd with Side1 => n1 | Side2 => n2 end;
  br_names : forall sd, file_sensor g sd match sd with Side1 => n1 | Side2 => n2 end;
  br_m : forall sd k, size g ("m" ++ IOSpec.snum sd) k -> k = match sd with Side1 => m1 | Side2 => m2 end;
  br_m' : forall sd, size g ("m" ++ IOSpec.snum sd) match sd with Side1 => m1 | Side2 => m2 end;
  br_type : data g "uncertainty_type1" (IArr1 t1)
}.

Section AV.
Context (torad : option string -> list fl -> res (list fl)) (f32 : R -> R) (trunc : R -> Z) (nanV : R).
Context (f : avin) (k1 k2 : nat) (band : Z) (bt : list fl) (ref_bt : option (list fl)) (ref : bool) (idx : list nat) (files : list avout).
Hypothesis G : good_input torad f k1 k2 band bt ref_bt.
Hypothesis HR : sensor1_is f ref.
Hypothesis HK : kept f idx.
Hypothesis E : av_main torad f None = Ok files.
Let HI : forall i, In i idx -> i < n_matchups f.
Proof. intros i Hi. apply HK in Hi. apply Hi. Qed.
Let LI : length idx <> 0.
Proof. destruct (gi_some _ _ _ _ _ _ _ G) as (i0 & Hi0 & Hu0). assert (In i0 idx) by (apply (proj2 HK); auto). destruct idx; [destruct H|discriminate]. Qed.

Lemma av_ws p W1 u1 v1 W2 u2 v2 : AvProofs3.ready f k1 k2 band bt ref_bt ref idx p -> wmats f ref idx p W1 u1 v1 W2 u2 v2 ->
  w_nnz R (p_W p) = map (fun w => length (c_indices R w)) (p_ws p) /\ w_row R (p_W p) = map (c_indptr R) (p_ws p) /\ w_col R (p_W p) = concat (map (c_indices R) (p_ws p)) /\ forall w, In w (p_ws p) -> filled w.
Proof.
  intros RD (G2 & H2 & WM). pose proof (gi_file _ _ _ _ _ _ _ G) as F.
  assert (T1 : length (at_ 0%R idx (a_t1 f)) = length idx) by apply at_length. assert (T2 : length (at_ 0%R idx (a_t2 f)) = length idx) by apply at_length.
  pose proof (gen_facts _ _ k2 _ _ _ T2 LI (af_k2 _ _ _ F) (krows_sized f k2 idx _ (af_uS2 _ _ _ F) HI) G2) as (A1 & A2 & A3 & _).
  destruct (weights_nonzero k2 (af_k2 _ _ _ F)) as (_ & X2 & N2). pose proof (gen_filled _ _ _ _ _ _ _ _ _ (krows_kernel _ _ _ (krows_sized f k2 idx _ (af_uS2 _ _ _ F) HI) LI) X2 N2 G2) as Q2.
  pose proof (r_mv _ _ _ _ _ _ _ _ _ RD) as MV. unfold wuses in MV.
  assert (QQ : p_ws p <> [] /\ forall w, In w (p_ws p) -> (wf_csr w /\ c_nrows R w = length idx /\ last_column_used w) /\ filled w).
  { destruct ref.
    - destruct WM as (E1 & E2). rewrite E1. split; [discriminate|]. intros w [<- |[]]. auto.
    - destruct WM as (G1 & H1 & E1 & E2). rewrite E1.
      pose proof (gen_facts _ _ k1 _ _ _ T1 LI (af_k1 _ _ _ F) (krows_sized f k1 idx _ (af_uS1 _ _ _ F) HI) G1) as (C1 & C2 & C3 & _).
      destruct (weights_nonzero k1 (af_k1 _ _ _ F)) as (_ & X1 & N1). pose proof (gen_filled _ _ _ _ _ _ _ _ _ (krows_kernel _ _ _ (krows_sized f k1 idx _ (af_uS1 _ _ _ F) HI) LI) X1 N1 G1) as Q1.
      split; [discriminate|]. intros w [<- |[<- |[]]]; auto. }
  destruct QQ as (NE & QQ). assert (HW : forall w, In w (p_ws p) -> wf_csr w /\ c_nrows R w = length idx /\ last_column_used w) by (intros w Hi; apply (QQ w Hi)).
  assert (EM : exists wu1 wu2 uu1 uu2, return_w_matrix_variables R 0%R wu1 wu2 uu1 uu2 (p_ws p) (p_us p) = Ok (p_W p)) by (destruct ref; eauto). destruct EM as (wu1 & wu2 & uu1 & uu2 & EM).
  pose proof (pack_mv _ _ _ _ _ _ _ (length idx) NE HW EM) as EQ. rewrite EQ. cbn [w_nnz w_row w_col]. do 3 (split; [reflexivity|]). intros w Hi. apply (QQ w Hi).
Qed.

Lemma cut_row m1 m2 mv : w_row R (cut m1 m2 mv) = w_row R mv. Proof. reflexivity. Qed.

Theorem av_brought j o : f32 0%R = 0%R -> nth_error files j = Some o -> exists g t1, av_nc f32 trunc nanV o = Ok g /\
  brought g (o_s1 o) (o_s2 o) (m1_of ref (if Nat.even j then 4 else 5)) (if Nat.even j then 4 else 5) (length idx) t1 /\ (ref = true -> t1 = [1%Z]).
Proof.
  intros F0 Hj. destruct (av_parts torad f k1 k2 band bt ref_bt ref idx files G HR HK E j o Hj) as (HH & HC & AF & NA & HW). cbv zeta in *.
  pose proof (gi_file _ _ _ _ _ _ _ G) as F. set (m2 := if Nat.even j then 4 else 5) in *. assert (Hm : m2 = 4 \/ m2 = 5) by (unfold m2; destruct (Nat.even j); auto).
  assert (SH : out_shape o (length idx) (m1_of ref m2) m2).
  { destruct HC as [(_ & HC)|[(_ & HC)|(_ & HC)]]; [eapply full_shape; eauto|eapply structured_shape; eauto|eapply random_shape; eauto]. }
  assert (TY : (forall x, In x (o_ut1 o) -> x <> 4) /\ (forall x, In x (o_ut2 o) -> x <> 4) /\ (ref = true -> o_ut1 o = [1])).
  { assert (Q : forall m x (l : list nat), In x (firstn m l) -> In x l) by (intros m x l Hx; rewrite <- (firstn_skipn m l); apply in_or_app; auto).
    destruct HC as [(_ & HC)|[(_ & HC)|(_ & HC)]].
    - rewrite (ff_ut1 _ _ _ _ _ _ HC), (ff_ut2 _ _ _ _ _ _ HC). split; [|split].
      + destruct ref; intros x Hx; [destruct Hx as [<- |[]]; discriminate|apply Q in Hx; cbn in Hx; lia].
      + intros x Hx; apply Q in Hx; cbn in Hx; lia.
      + intros ->. reflexivity.
    - rewrite (sf_ut1 _ _ _ _ _ _ HC), (sf_ut2 _ _ _ _ _ _ HC). split; [|split].
      + destruct ref; intros x Hx; [destruct Hx as [<- |[]]; discriminate|apply Q in Hx; cbn in Hx; lia].
      + intros x Hx; apply Q in Hx; cbn in Hx; lia.
      + intros ->. reflexivity.
    - rewrite (rf_ut1 _ _ _ _ _ _ HC), (rf_ut2 _ _ _ _ _ _ HC). split; [|split].
      + intros x Hx. apply repeat_spec in Hx. subst x. discriminate.
      + intros x Hx. apply repeat_spec in Hx. subst x. discriminate.
      + intros ->. unfold m1_of. reflexivity. }
  destruct TY as (TY1 & TY2 & TYR).
  assert (PM : p_M (mapped f32 (av_data nanV o)) = length idx) by (cbn [mapped av_data p_M]; apply SH).
  assert (PM1 : p_m (mapped f32 (av_data nanV o)) Side1 = m1_of ref m2) by (cbn [mapped av_data p_m]; apply SH). assert (PM2 : p_m (mapped f32 (av_data nanV o)) Side2 = m2) by (cbn [mapped av_data p_m]; apply SH).
  assert (TY4 : forall sd, ~ In 4%Z (p_type (mapped f32 (av_data nanV o)) sd)).
  { intros sd Hi. cbn [mapped av_data p_type] in Hi. apply in_map_iff in Hi. destruct Hi as (x & Ex & Hi). assert (x = 4) by lia. subst x. destruct sd; [exact (TY1 _ Hi eq_refl)|exact (TY2 _ Hi eq_refl)]. }
  assert (P1 : 1 <= m1_of ref m2) by (unfold m1_of; destruct ref; lia).
  assert (BR : forall g, wf_nc g -> (check g = Ok [] -> w_variables g -> row_pointers g /\ pointers_ordered g) -> rows_filled g -> size g "M" (p_M (mapped f32 (av_data nanV o))) ->
     (forall sd, size g ("m" ++ IOSpec.snum sd) (p_m (mapped f32 (av_data nanV o)) sd)) -> (forall sd, file_sensor g sd (p_name (mapped f32 (av_data nanV o)) sd)) ->
     (forall sd, data g ("uncertainty_type" ++ IOSpec.snum sd) (IArr1 (p_type (mapped f32 (av_data nanV o)) sd))) -> brought g (o_s1 o) (o_s2 o) (m1_of ref m2) m2 (length idx) (map Z.of_nat (o_ut1 o))).
  { intros g B1 B2 B3 B4 B5 B6 B7. rewrite PM in B4. constructor.
    - intros CK. constructor; auto.
      + intros sd l M HD Hi _. pose proof (data_unique _ _ _ _ B1 HD (B7 sd)) as Q. injection Q as ->. exfalso. exact (TY4 sd Hi).
      + intros sd k Hk. rewrite (size_fun _ _ _ _ B1 Hk (B5 sd)). destruct sd; [rewrite PM1; exact P1|rewrite PM2; lia].
    - exact B3.
    - exact B4.
    - lia.
    - intros sd s Hs. rewrite (sensor_fun _ _ _ _ B1 Hs (B6 sd)). destruct sd; reflexivity.
    - intros sd. specialize (B6 sd). destruct sd; exact B6.
    - intros sd k Hk. rewrite (size_fun _ _ _ _ B1 Hk (B5 sd)). destruct sd; assumption.
    - intros sd. specialize (B5 sd). destruct sd; [rewrite PM1 in B5|rewrite PM2 in B5]; exact B5.
    - exact (B7 Side1). }
  destruct (le_lt_dec 4 j) as [Hj4|Hj4].
  - destruct (av_plain_accepted torad f32 trunc nanV f k1 k2 band bt ref_bt ref idx files G HR HK E j o Hj4 Hj) as (g & EW & EG & HB & _). exists g, (map Z.of_nat (o_ut1 o)). split; [exact EG|]. split; [|intros Er; rewrite (TYR Er); reflexivity].
    assert (NW : forall n a, In n w_names -> ~ data g n a) by (intros n a Hn (v & Hv & En & _); apply (bf_now _ _ HB n Hn); exists v; auto).
    apply BR; try apply HB.
    + intros _ ((v & Hv & En & _) & _). exfalso. apply (bf_now _ _ HB "w_matrix_nnz"%string); [cbn; tauto|exists v; auto].
    + intros nnz rows col k r i x q D. exfalso. apply (NW "w_matrix_nnz"%string (IArr1 nnz)); [cbn; tauto|exact D].
  - destruct (av_accepted torad f32 trunc nanV f k1 k2 band bt ref_bt ref idx files G HR HK E j o F0 Hj4 Hj) as (g & mv & EW & EG & HF & RP & _). exists g, (map Z.of_nat (o_ut1 o)). split; [exact EG|]. split; [|intros Er; rewrite (TYR Er); reflexivity].
    destruct (HW Hj4) as (p & W1 & u1 & v1 & W2 & u2 & v2 & RD & WM & EW'). rewrite EW in EW'. injection EW' as ->. destruct (av_ws p W1 u1 v1 W2 u2 v2 RD WM) as (Q1 & Q2 & Q3 & Q4).
    destruct (has_filled g _ _ (p_ws p) HF Q1 Q2 Q3 Q4) as (PO & RF). apply BR; try apply HF; auto.
Qed.
End AV.
