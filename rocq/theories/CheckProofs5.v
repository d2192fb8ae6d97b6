(** * Proofs for C72: reading the matrices of an acceptable file. *)
From Coq Require Import Reals Lra.
From Verif Require Import Base BaseLemmas ReaderModel ReaderMain UncModel TransformProofs SimModel CheckModel CheckSpec CheckProofs CheckProofs2 CheckProofs3.
Open Scope nat_scope.

Lemma nat_sum l : (forall n, In n l -> 0 <= n)%Z -> list_sum (map Z.to_nat l) = Z.to_nat (fold_right Z.add 0 l)%Z.
Proof.
  induction l as [|a l IH]; intros H; [reflexivity|]. cbn [map]. change (fold_right Z.add 0 (a :: l))%Z with (a + fold_right Z.add 0 l)%Z. change (list_sum (Z.to_nat a :: map Z.to_nat l)) with (Z.to_nat a + list_sum (map Z.to_nat l)). rewrite IH by (intros; apply H; right; auto).
  rewrite Z2Nat.inj_add; [reflexivity|apply H; left; auto|apply zsum_nonneg; intros; apply H; right; auto].
Qed.
Lemma firstn_in {A} k (l : list A) x : In x (firstn k l) -> In x l.
Proof. intros H. rewrite <- (firstn_skipn k l). apply in_or_app. auto. Qed.
Lemma sum_firstn l k : (forall n, In n l -> 0 <= n)%Z -> list_sum (firstn k (map Z.to_nat l)) = Z.to_nat (fold_right Z.add 0 (firstn k l))%Z.
Proof. intros H. rewrite firstn_map. apply nat_sum. intros n Hn. apply H. eapply firstn_in; eauto. Qed.
Lemma largest_max l mx : (forall n, In n l -> 0 <= n)%Z -> largest l mx -> pymax (map Z.to_nat l) = Ok (Z.to_nat mx).
Proof.
  intros H (Hi & Hm). assert (E : list_max (map Z.to_nat l) = Z.to_nat mx).
  { apply Nat.le_antisymm.
    - apply list_max_le, Forall_forall. intros k Hk. apply in_map_iff in Hk. destruct Hk as (z & <- & Hz). apply Z2Nat.inj_le; auto.
    - pose proof (proj1 (list_max_le (map Z.to_nat l) _) (le_n _)) as F. rewrite Forall_forall in F. apply F, in_map, Hi. }
  destruct l as [|a l]; [destruct Hi|]. cbn [map pymax]. cbn [map] in E. rewrite E. reflexivity.
Qed.
Lemma slice_map {A B} (g : A -> B) s e l : slice s e (map g l) = map g (slice s e l).
Proof. unfold slice. rewrite skipn_map, firstn_map. reflexivity. Qed.
Lemma in_slice {A} s e (l : list A) x : In x (slice s e l) -> In x l.
Proof. unfold slice. intros H. apply firstn_in in H. rewrite <- (firstn_skipn s l). apply in_or_app. auto. Qed.
Lemma last_map {A B} (g : A -> B) l d : last (map g l) (g d) = g (last l d).
Proof. induction l as [|a [|b l] IH]; [reflexivity|reflexivity|]. cbn [map last] in *. exact IH. Qed.
Lemma cum_le l j : (forall n, In n l -> 0 <= n)%Z -> (fold_right Z.add 0 (firstn j l) <= fold_right Z.add 0 l)%Z.
Proof.
  revert j. induction l as [|a l IH]; intros j H; [rewrite firstn_nil; cbn; lia|]. destruct j.
  - change (firstn 0 (a :: l)) with (@nil Z). cbn [fold_right]. pose proof (zsum_nonneg l ltac:(intros; apply H; right; auto)) as Q. unfold zsum in Q. specialize (H a (or_introl eq_refl)). lia.
  - cbn [firstn fold_right]. specialize (IH j ltac:(intros; apply H; right; auto)). lia.
Qed.

Theorem reading f mv M i k u : wf_nc f -> acceptable f -> w_variables f -> row_pointers f -> read_matvars f mv -> size f "M" M ->
  nth_error (wuse1 R mv ++ wuse2 R mv) i = Some k -> nth_error (uuse1 R mv ++ uuse2 R mv) i = Some u -> k <> 0 ->
  exists w uv, open_w_matrix R mv k = Ok w /\ open_u_matrix R mv u = Ok uv /\ c_nrows R w = M /\ c_ncols R w = length uv.
Proof.
  intros Hw Ha HW Hrp Hmv HM Hk Hu Hk0. destruct Ha as (_ & [(_ & HC)|HN] & _).
  2:{ exfalso. apply (HN "w_matrix_nnz"%string); [cbn; tauto|]. destruct HW as ((v & ? & ? & _) & _). exists v; auto. }
  destruct HC as (M' & nw & nu & nr & nn & nru & nnz & rows & col & w1 & w2 & cnt & uval & u1 & u2 & (S1 & S2 & S3 & S4 & S5 & S6 & D1 & D2 & D3 & D4 & D5 & D6 & D7 & D8 & D9) & _ & _ & (NW & NW') & (NU & NU') & -> & SN & SU & HZ & P1 & P2 & P3 & P4 & P5 & HX).
  pose proof (size_fun _ _ _ _ Hw S1 HM). subst M'.
  destruct Hmv as (nnz' & rows' & col' & val & w1' & w2' & cnt' & uval' & u1' & u2' & (E1 & E2 & E3 & E4 & E5 & E6 & E7 & E8 & E9 & E10) & ->).
  pose proof (data_unique _ _ _ _ Hw D1 E1) as Q1. pose proof (data_unique _ _ _ _ Hw D2 E2) as Q2. pose proof (data_unique _ _ _ _ Hw D3 E3) as Q3. pose proof (data_unique _ _ _ _ Hw D4 E5) as Q4. pose proof (data_unique _ _ _ _ Hw D5 E6) as Q5.
  pose proof (data_unique _ _ _ _ Hw D6 E7) as Q6. pose proof (data_unique _ _ _ _ Hw D7 E8) as Q7. pose proof (data_unique _ _ _ _ Hw D8 E9) as Q8. pose proof (data_unique _ _ _ _ Hw D9 E10) as Q9.
  injection Q1 as <-. injection Q2 as <-. injection Q3 as <-. injection Q4 as <-. injection Q5 as <-. injection Q6 as <-. injection Q7 as <-. injection Q8 as <-. injection Q9 as <-.
  destruct HW as (A1 & A2 & A3 & A4 & _ & _ & A7 & A8 & _ & _).
  destruct (decl_i1 _ _ _ Hw A1) as (x1 & X1 & L1). pose proof (data_unique _ _ _ _ Hw D1 X1) as Q. injection Q as <-. pose proof (size_fun _ _ _ _ Hw S2 L1) as Ln.
  destruct (decl_i2 _ _ _ _ Hw A2) as (x2 & k2 & X2 & L2 & L2' & L2''). pose proof (data_unique _ _ _ _ Hw D2 X2) as Q. injection Q as <-. pose proof (size_fun _ _ _ _ Hw S2 L2) as Lr. pose proof (size_fun _ _ _ _ Hw S4 L2') as Lr'. subst k2.
  destruct (decl_i1 _ _ _ Hw A3) as (x3 & X3 & L3). pose proof (data_unique _ _ _ _ Hw D3 X3) as Q. injection Q as <-. pose proof (size_fun _ _ _ _ Hw S5 L3) as Lc.
  destruct (decl_f1 _ _ _ Hw A4) as (x4 & X4 & L4). pose proof (data_unique _ _ _ _ Hw E4 X4) as Q. injection Q as <-. pose proof (size_fun _ _ _ _ Hw S5 L4) as Lv.
  destruct (decl_i1 _ _ _ Hw A7) as (x7 & X7 & L7). pose proof (data_unique _ _ _ _ Hw D6 X7) as Q. injection Q as <-. pose proof (size_fun _ _ _ _ Hw S3 L7) as Lu.
  destruct (decl_f1 _ _ _ Hw A8) as (x8 & X8 & L8). pose proof (data_unique _ _ _ _ Hw D7 X8) as Q. injection Q as <-. pose proof (size_fun _ _ _ _ Hw S6 L8) as Luv.
  clear L1 L2 L2' L3 L4 L7 L8 X1 X2 X3 X4 X7 X8 A1 A2 A3 A4 A7 A8.
  cbn [wuse1 wuse2 uuse1 uuse2] in Hk, Hu. rewrite <- map_app in Hk, Hu. rewrite nth_error_map in Hk, Hu.
  destruct (nth_error (w1 ++ w2) i) as [kz|] eqn:Kz; [|discriminate]. cbn [option_map] in Hk. injection Hk as <-.
  destruct (nth_error (u1 ++ u2) i) as [uz|] eqn:Uz; [|discriminate]. cbn [option_map] in Hu. injection Hu as <-.
  pose proof (NW kz (nth_error_In _ _ Kz)) as Rk. pose proof (NU uz (nth_error_In _ _ Uz)) as Ru. pose proof (HZ i kz uz Kz Uz) as Hz.
  assert (kz <> 0)%Z by (intros ->; auto). assert (uz <> 0)%Z by tauto.
  set (j := Z.to_nat kz - 1). assert (Ej : Z.to_nat kz = j + 1) by lia.
  destruct (nth_error nnz j) as [n|] eqn:En; [|apply nth_error_None in En; lia].
  destruct (nth_error rows j) as [r|] eqn:Er; [|apply nth_error_None in Er; lia].
  destruct (HX j n En) as (mx & Hmx & Hcnt).
  specialize (Hcnt i uz). rewrite Kz, Uz in Hcnt. specialize (Hcnt ltac:(f_equal; lia) eq_refl).
  destruct (Hrp nnz rows j r n D1 D2 Er En) as (Hhd & Hlast).
  assert (Lrow : length r = M + 1) by (apply L2''; eapply nth_error_In; eauto).
  pose proof (cum_le nnz (j + 1) P1) as C1. pose proof (zsum_firstn_S nnz j n En) as C2. unfold zsum in C2.
  assert (C3 : (0 <= fold_right Z.add 0 (firstn j nnz))%Z) by (apply zsum_nonneg; intros x Hx; apply P1; eapply firstn_in; eauto).
  assert (Hn0 : (0 <= n)%Z) by (apply P1; eapply nth_error_In; eauto).
  set (lo := Z.to_nat (fold_right Z.add 0%Z (firstn j nnz))) in *. set (hi := Z.to_nat (fold_right Z.add 0%Z (firstn (j + 1) nnz))) in *.
  assert (Hlh : lo <= hi <= length col) by (unfold lo, hi; lia). assert (Hhn : hi - lo = Z.to_nat n) by (unfold lo, hi; lia).
  set (ju := Z.to_nat uz - 1). assert (Eju : Z.to_nat uz = ju + 1) by lia.
  replace (Z.to_nat (uz - 1)) with ju in Hcnt by lia.
  pose proof (cum_le cnt (ju + 1) P4) as U1. pose proof (zsum_firstn_S cnt ju _ Hcnt) as U2. unfold zsum in U2.
  assert (U3 : (0 <= fold_right Z.add 0 (firstn ju cnt))%Z) by (apply zsum_nonneg; intros x Hx; apply P4; eapply firstn_in; eauto).
  set (ulo := Z.to_nat (fold_right Z.add 0%Z (firstn ju cnt))) in *. set (uhi := Z.to_nat (fold_right Z.add 0%Z (firstn (ju + 1) cnt))) in *.
  assert (Hmx0 : (0 <= mx)%Z) by (apply P3; eapply in_slice; exact (proj1 Hmx)).
  assert (Huh : ulo <= uhi <= length uval) by (unfold ulo, uhi; lia).
  exists (mkCsr R (slice lo hi val) (map Z.to_nat (slice lo hi col)) (map Z.to_nat r) M (Z.to_nat mx + 1)), (slice ulo uhi uval).
  assert (Hlc : length (slice lo hi col) = hi - lo) by (apply slice_length'; lia). assert (Hlv : length (slice lo hi val) = hi - lo) by (apply slice_length'; lia).
  split; [|split; [|split; [reflexivity|]]].
  - unfold open_w_matrix. cbn [w_nnz w_row w_col w_val]. rewrite Ej. replace (j + 1 - 1) with j by lia.
    assert (G1 : get (cumul 0 (map Z.to_nat nnz)) j = Ok lo). { apply get_ok. rewrite cumul_nth by (rewrite map_length; lia). cbn [Nat.add]. rewrite sum_firstn by auto. reflexivity. }
    assert (G2 : get (cumul 0 (map Z.to_nat nnz)) (j + 1) = Ok hi). { apply get_ok. rewrite cumul_nth by (rewrite map_length; lia). cbn [Nat.add]. rewrite sum_firstn by auto. reflexivity. }
    rewrite G1, G2. cbn [bind]. assert (G3 : get (map (map Z.to_nat) rows) j = Ok (map Z.to_nat r)) by (apply get_ok; rewrite nth_error_map, Er; reflexivity).
    rewrite G3. cbn [bind]. rewrite slice_map, (largest_max (slice lo hi col) mx); [|intros x Hx; apply P3; eapply in_slice; eauto|exact Hmx]. cbn [bind].
    unfold csr_new. rewrite !map_length, Lrow, Hlc, Hlv. replace (M + 1 - 1) with M by lia. rewrite !Nat.eqb_refl.
    destruct r as [|r0 r]; [cbn in Lrow; lia|]. cbn [hd_error] in Hhd. injection Hhd as ->. cbn [map andb]. change (Z.to_nat 0) with 0. cbv iota.
    assert (EL : last (0 :: map Z.to_nat r) 0 <= hi - lo).
    { pose proof (last_map Z.to_nat (0%Z :: r) 0%Z) as LM. cbn [map] in LM. change (Z.to_nat 0) with 0 in LM. rewrite LM. rewrite Hhn. clear - Hlast. set (q := last (0%Z :: r) 0%Z) in *. lia. }
    apply Nat.leb_le in EL. rewrite EL. reflexivity.
  - unfold open_u_matrix. cbn [u_row_count u_val]. rewrite Eju. replace (ju + 1 - 1) with ju by lia.
    assert (Hlt : ju < length cnt) by (apply nth_error_Some; rewrite Hcnt; discriminate).
    assert (G1 : get (cumul 0 (map Z.to_nat cnt)) ju = Ok ulo). { apply get_ok. rewrite cumul_nth by (rewrite map_length; lia). cbn [Nat.add]. rewrite sum_firstn by auto. reflexivity. }
    assert (G2 : get (cumul 0 (map Z.to_nat cnt)) (ju + 1) = Ok uhi). { apply get_ok. rewrite cumul_nth by (rewrite map_length; lia). cbn [Nat.add]. rewrite sum_firstn by auto. reflexivity. }
    rewrite G1, G2. reflexivity.
  - cbn [c_ncols]. rewrite slice_length' by lia. unfold ulo, uhi. lia.
Qed.
