(** Proofs for C117: what an accepted file guarantees about its uncertainties and matrices. *)
From Coq Require Import Reals Lra.
From Verif Require SampleProofs UnckProofs.
From Verif Require Import Base BaseLemmas ReaderModel ReaderSpec ReaderProofs ReaderMain UncModel UncSpec UncProofs UncProofs2 UnckModel MuModel SampleSpec TransformModel TransformSpec
  SimModel CheckModel CheckSpec CheckProofs CheckProofs2 CheckProofs3 CheckProofs4 CheckProofs5 IOModel IOSpec IOProofs IOProofs2 IOProofs3 IOProofs4 FullModel FullSpec FullProofs2.
Open Scope nat_scope.

Lemma open_w_inv {V} (mv : matvars V) w W : open_w_matrix V mv w = Ok W ->
  exists lo hi r, nth_error (cumul 0 (w_nnz V mv)) (w - 1) = Some lo /\ nth_error (cumul 0 (w_nnz V mv)) w = Some hi /\ nth_error (w_row V mv) (w - 1) = Some r /\
    c_indices V W = slice lo hi (w_col V mv) /\ c_indptr V W = r /\ length r = c_nrows V W + 1 /\ hd_error r = Some 0 /\ length (c_indices V W) = length (c_data V W) /\
    last r 0 <= length (c_indices V W) /\ (forall c, In c (c_indices V W) -> c < c_ncols V W).
Proof.
  unfold open_w_matrix. destruct (get (cumul 0 (w_nnz V mv)) (w - 1)) as [lo|] eqn:E1; [|discriminate]. destruct (get (cumul 0 (w_nnz V mv)) w) as [hi|] eqn:E2; [|discriminate]. cbn [bind].
  destruct (get (w_row V mv) (w - 1)) as [r|] eqn:E3; [|discriminate]. cbn [bind].
  destruct (pymax (slice lo hi (w_col V mv))) as [mx|] eqn:E4; [|discriminate]. cbn [bind]. unfold csr_new.
  destruct (length r =? _) eqn:A1; [|discriminate]. cbn [andb]. destruct r as [|r0 r]; [discriminate|]. destruct r0; [|discriminate].
  destruct (length (slice lo hi (w_col V mv)) =? _) eqn:A2; [|discriminate]. cbn [andb]. destruct (last (0 :: r) 0 <=? _) eqn:A3; [|discriminate].
  intros [= <-]. exists lo, hi, (0 :: r). cbn [c_indices c_indptr c_nrows c_data c_ncols].
  split; [apply get_ok; exact E1|]. split; [apply get_ok; exact E2|]. split; [apply get_ok; exact E3|]. split; [reflexivity|]. split; [reflexivity|].
  split; [apply Nat.eqb_eq; exact A1|]. split; [reflexivity|]. split; [apply Nat.eqb_eq; exact A2|]. split; [apply Nat.leb_le; exact A3|].
  intros c Hc. unfold pymax in E4. destruct (slice lo hi (w_col V mv)) as [|x l] eqn:Es; [destruct Hc|]. assert (Em : mx = list_max (x :: l)) by congruence.
  assert (F : Forall (fun k => k <= list_max (x :: l)) (x :: l)) by (apply list_max_le; lia). rewrite Forall_forall in F. specialize (F c Hc). lia.
Qed.

Lemma ordered_le_last (r : list nat) : (forall i p q, nth_error r i = Some p -> nth_error r (i + 1) = Some q -> p <= q) -> forall i p, nth_error r i = Some p -> p <= last r 0.
Proof.
  induction r as [|a r IH]; intros H i p Hi; [destruct i; discriminate|]. destruct r as [|b r].
  - destruct i as [|i]; [injection Hi as ->; cbn; lia|destruct i; discriminate].
  - change (last (a :: b :: r) 0) with (last (b :: r) 0).
    assert (H' : forall i p q, nth_error (b :: r) i = Some p -> nth_error (b :: r) (i + 1) = Some q -> p <= q) by (intros j x y Hx Hy; apply (H (S j)); auto).
    destruct i as [|i]; [|exact (IH H' i p Hi)]. injection Hi as ->. pose proof (H 0 p b eq_refl eq_refl). pose proof (IH H' 0 b eq_refl). lia.
Qed.

Lemma form_w t ur us w : form t ur us w -> (forall t', form t' ur us w -> t' = t) -> (0 < w)%Z -> t = 3%Z \/ t = 4%Z.
Proof.
  intros F U Hw. destruct F as [(-> & H1 & H2)|[(-> & H1 & H2)|[(-> & _)|(-> & _)]]]; auto.
  - left. symmetry. apply U. right. right. left. auto.
  - right. symmetry. apply U. right. right. right. auto.
Qed.

(** The integer lists behind the matrix numbers of a file that is accepted. *)
Section File.
Variables (f : ncfile) (uf : ufile R).
Hypothesis (HF : wf_nc f) (HA : acceptable f) (HV : view f uf).

Lemma mats_read mv : umat R (uf_u R uf) = Some mv -> w_variables f /\ w_consistent f /\ read_matvars f mv.
Proof.
  intros Em. destruct (vw_w _ _ HV) as [(HWv & mv' & Em' & Hr)|(_ & Em')]; [|congruence]. rewrite Em in Em'. injection Em' as <-. split; [exact HWv|]. split; [|exact Hr].
  destruct HA as (_ & [(_ & HC)|HN] & _); [exact HC|]. exfalso. destruct HWv as ((v & Hv & En & _) & _). apply (HN "w_matrix_nnz"%string); [cbn; tauto|exists v; auto].
Qed.

Lemma side_numbers mv sd c w u : umat R (uf_u R uf) = Some mv -> nth_error (swuse mv sd) c = Some w -> nth_error (suuse mv sd) c = Some u ->
  exists i, nth_error (wuse1 R mv ++ wuse2 R mv) i = Some w /\ nth_error (uuse1 R mv ++ uuse2 R mv) i = Some u /\ (w = 0 <-> u = 0) /\
    exists l, data f ("w_matrix_use" ++ IOSpec.snum sd) (IArr1 l) /\ nth_error l c = Some (Z.of_nat w).
Proof.
  intros Em Hw Hu. destruct (mats_read mv Em) as (HWv & HC & Hr).
  pose proof Hr as (nnz & rows & col & val & w1 & w2 & cnt & uval & u1 & u2 & (_ & _ & _ & _ & Dw1 & Dw2 & _ & _ & Du1 & Du2) & Emv).
  set (wl := match sd with Side1 => w1 | Side2 => w2 end). set (ul := match sd with Side1 => u1 | Side2 => u2 end).
  assert (Sw : swuse mv sd = map Z.to_nat wl) by (rewrite Emv; destruct sd; reflexivity). assert (Su : suuse mv sd = map Z.to_nat ul) by (rewrite Emv; destruct sd; reflexivity).
  rewrite Sw, nth_error_map' in Hw. rewrite Su, nth_error_map' in Hu. destruct (nth_error wl c) as [wz|] eqn:Ew; [|discriminate]. destruct (nth_error ul c) as [uz|] eqn:Eu; [|discriminate].
  cbn in Hw, Hu. injection Hw as <-. injection Hu as <-.
  assert (L12 : length w1 = length u1).
  { destruct HWv as (_ & _ & _ & _ & W5 & _ & _ & _ & W9 & _). destruct (in1_decl f _ _ HF W5) as (a & _ & Da & Sa). destruct (in1_decl f _ _ HF W9) as (x & _ & Dc & Sc).
    pose proof (data_unique _ _ _ _ HF Dw1 Da) as X1. pose proof (data_unique _ _ _ _ HF Du1 Dc) as X3. injection X1 as ->. injection X3 as ->. eapply size_fun; eauto. }
  destruct (nth_side Z.to_nat w1 w2 sd c wz Ew) as (N1 & N2). destruct (nth_side Z.to_nat u1 u2 sd c uz Eu) as (N3 & N4). rewrite <- L12 in N3, N4.
  destruct HC as (Mx & nw & nu & nr & nn & nru & nnz' & rows' & col' & w1' & w2' & cnt' & uval' & u1' & u2' & (_ & _ & _ & _ & _ & _ & _ & _ & _ & Dw1' & Dw2' & _ & _ & Du1' & Du2') & _ & _ & HNw & HNu & _ & _ & _ & H0 & _).
  pose proof (data_unique _ _ _ _ HF Dw1 Dw1') as X1. pose proof (data_unique _ _ _ _ HF Dw2 Dw2') as X2. pose proof (data_unique _ _ _ _ HF Du1 Du1') as X3. pose proof (data_unique _ _ _ _ HF Du2 Du2') as X4. injection X1 as <-. injection X2 as <-. injection X3 as <-. injection X4 as <-.
  pose proof (proj1 HNw wz (nth_error_In _ _ N2)) as W0. pose proof (proj1 HNu uz (nth_error_In _ _ N4)) as U0. pose proof (H0 _ _ _ N2 N4) as Z0.
  eexists. split; [rewrite Emv; exact N1|]. split; [rewrite Emv; exact N3|]. split; [lia|].
  exists wl. split; [destruct sd; assumption|]. rewrite Z2Nat.id by lia. exact Ew.
Qed.

Lemma column_assigned sd c : c < sm (uf_d R uf) sd -> assigned f (IOSpec.snum sd) c.
Proof. intros Hlt. destruct HA as (_ & _ & _ & _ & _ & (HA1 & HA2)). pose proof (vw_m _ _ HV sd) as Hm. destruct sd; [eapply HA1; eauto|eapply HA2; eauto]. Qed.

Lemma accepted_typed : typed uf.
Proof.
  intros mv sd c ty w u Em Ht Hw Hu. destruct (side_numbers mv sd c w u Em Hw Hu) as (i & _ & _ & Z0 & l & Dl & El). split; [exact Z0|]. intros Hn.
  destruct (vw_t _ _ HV sd) as (ts & Dt & Et & Lt). rewrite Et, nth_error_map' in Ht. destruct (nth_error ts c) as [t|] eqn:Ett; [|discriminate]. cbn in Ht. injection Ht as <-.
  destruct (column_assigned sd c) as (ts' & t' & urs & uss & ur & us & wz & D1 & E1 & D2 & E2 & D3 & E3 & E4 & F & U); [rewrite <- Lt; apply nth_error_Some; congruence|].
  pose proof (data_unique _ _ _ _ HF D1 Dt) as X1. injection X1 as ->. rewrite Ett in E1. injection E1 as <-.
  assert (wz = Z.of_nat w).
  { destruct E4 as [(l' & Dl' & El')|(Np & _)]; [pose proof (data_unique _ _ _ _ HF Dl Dl') as X; injection X as <-; congruence|]. exfalso. apply Np. destruct Dl as (v & Hv & En & _). exists v; auto. }
  subst wz. destruct (form_w _ _ _ _ F U) as [-> | ->]; [lia|left; reflexivity|right; reflexivity].
Qed.

(** Random uncertainties of types 1 and 2 are positive. *)
Lemma ur_positive sd cov r ur ty : 1 <= cov -> nth_error (stypes (uf_u R uf) sd) (cov - 1) = Some ty -> ty = 1 \/ ty = 2 -> sUr (uf_u R uf) sd = Some r -> ReaderSpec.is_column r cov ur -> forall x, In x ur -> (0 < x)%R.
Proof.
  intros Hc Ht Hty Er Hcol x Hx. destruct (vw_t _ _ HV sd) as (ts & Dt & Et & Lt). rewrite Et, nth_error_map' in Ht. destruct (nth_error ts (cov - 1)) as [t|] eqn:Ett; [|discriminate]. cbn in Ht. injection Ht as <-.
  destruct (column_assigned sd (cov - 1)) as (ts' & t' & urs & uss & ur' & us & wz & D1 & E1 & D2 & E2 & D3 & E3 & E4 & F & U); [rewrite <- Lt; apply nth_error_Some; congruence|].
  pose proof (data_unique _ _ _ _ HF D1 Dt) as X1. injection X1 as ->. rewrite Ett in E1. injection E1 as <-.
  destruct (vw_ur _ _ HV sd) as (r' & Dr & Er' & _). rewrite Er in Er'. injection Er' as <-. pose proof (data_unique _ _ _ _ HF D2 Dr) as X2. injection X2 as ->.
  assert (ur' = ur).
  { destruct E2 as (L2 & N2). destruct Hcol as (L1 & N1). apply nth_error_ext. intros i. destruct (nth_error r i) as [row|] eqn:Ei; [rewrite (N2 i row Ei), (N1 i row Ei); reflexivity|].
    apply nth_error_None in Ei. rewrite !(proj2 (nth_error_None _ i)) by lia. reflexivity. }
  subst ur'. assert (FF : Forall (Rlt 0) ur) by (destruct F as [(_ & H & _)|[(_ & H & _)|[(-> & _)|(-> & _)]]]; [exact H|exact H|exfalso; destruct Hty as [Q|Q]; discriminate Q|exfalso; destruct Hty as [Q|Q]; discriminate Q]).
  rewrite Forall_forall in FF. exact (FF x Hx).
Qed.
Lemma u_positive mv u U : umat R (uf_u R uf) = Some mv -> open_u_matrix R mv u = Ok U -> forall x, In x U -> (0 < x)%R.
Proof.
  intros Em E x Hx. destruct (mats_read mv Em) as (_ & HC & (nnz & rows & col & val & w1 & w2 & cnt & uval & u1 & u2 & (_ & _ & _ & _ & _ & _ & _ & Du & _) & Emv)).
  unfold open_u_matrix in E. destruct (get (cumul 0 (u_row_count R mv)) (u - 1)) as [lo|]; [|discriminate]. destruct (get (cumul 0 (u_row_count R mv)) u) as [hi|]; [|discriminate]. cbn [bind] in E. injection E as <-.
  destruct HC as (Mx & nw & nu & nr & nn & nru & nnz' & rows' & col' & w1' & w2' & cnt' & uval' & u1' & u2' & (_ & _ & _ & _ & _ & _ & _ & _ & _ & _ & _ & _ & Du' & _) & _ & _ & _ & _ & _ & _ & _ & _ & _ & _ & _ & _ & P & _).
  pose proof (data_unique _ _ _ _ HF Du Du') as X. injection X as <-. apply P. rewrite Emv in Hx. cbn [u_val] in Hx. eapply in_slice. exact Hx.
Qed.

Lemma accepted_csr mv sd c w u W U : (w_variables f -> row_pointers f /\ pointers_ordered f) -> umat R (uf_u R uf) = Some mv -> nth_error (swuse mv sd) c = Some w -> nth_error (suuse mv sd) c = Some u -> w <> 0 ->
  open_w_matrix R mv w = Ok W -> open_u_matrix R mv u = Ok U -> csr_shape W (d_M R (uf_d R uf)) (length U).
Proof.
  intros HP Em Hw Hu Hn EW EU. destruct (mats_read mv Em) as (HWv & HC & Hr). destruct (side_numbers mv sd c w u Em Hw Hu) as (i & Nw & Nu & _).
  destruct (reading f mv (d_M R (uf_d R uf)) i w u HF HA HWv (proj1 (HP HWv)) Hr (vw_M _ _ HV) Nw Nu Hn) as (W' & U' & EW' & EU' & Er & Ec). rewrite EW in EW'. injection EW' as <-. rewrite EU in EU'. injection EU' as <-.
  destruct (open_w_inv mv w W EW) as (lo & hi & r & _ & _ & I3 & _ & I5 & I6 & _ & I8 & I9 & I10).
  assert (ORD : forall j p q, nth_error r j = Some p -> nth_error r (j + 1) = Some q -> p <= q).
  { destruct Hr as (nnz & rows & col & val & w1 & w2 & cnt & uval & u1 & u2 & (_ & Drow & _) & Emv). rewrite Emv in I3. cbn [w_row] in I3. rewrite nth_error_map' in I3.
    destruct (nth_error rows (w - 1)) as [rz|] eqn:Erz; [|discriminate]. cbn in I3. injection I3 as <-. intros j p q Hp Hq. rewrite nth_error_map' in Hp, Hq.
    destruct (nth_error rz j) as [pz|] eqn:Ep; [|discriminate]. destruct (nth_error rz (j + 1)) as [qz|] eqn:Eq; [|discriminate]. cbn in Hp, Hq. injection Hp as <-. injection Hq as <-.
    pose proof (proj2 (HP HWv) rows rz j pz qz Drow (nth_error_In _ _ Erz) Ep Eq). lia. }
  split; [exact Er|]. split; [exact Ec|]. split; [rewrite I5, I6, Er; reflexivity|]. split; [symmetry; exact I8|]. split.
  - rewrite I5. intros j p q Hp Hq. split; [exact (ORD j p q Hp Hq)|]. pose proof (ordered_le_last r ORD _ q Hq). lia.
  - intros x Hx. rewrite <- Ec. exact (I10 x Hx).
Qed.

(** Rows with entries. *)
Lemma accepted_rows mv w W j : rows_filled f -> umat R (uf_u R uf) = Some mv -> open_w_matrix R mv w = Ok W -> csr_shape W (c_nrows R W) (c_ncols R W) -> j < c_nrows R W ->
  exists p q lo hi, nth_error (c_indptr R W) j = Some p /\ nth_error (c_indptr R W) (j + 1) = Some q /\ p < q <= length (c_indices R W) /\
      nth_error (c_indices R W) p = Some lo /\ nth_error (c_indices R W) (q - 1) = Some hi /\ lo <= hi.
Proof.
  intros HR Em EW (_ & _ & Lp & _ & HO & _) Hj. destruct (mats_read mv Em) as (HWv & HC & Hr).
  destruct (open_w_inv mv w W EW) as (lo & hi & r & I1 & I2 & I3 & I4 & I5 & I6 & _ & I8 & I9 & I10). rewrite I5 in *.
  destruct (nth_error r j) as [p|] eqn:Ep; [|apply nth_error_None in Ep; lia]. destruct (nth_error r (j + 1)) as [q|] eqn:Eq; [|apply nth_error_None in Eq; lia].
  destruct (HO j p q Ep Eq) as (H1 & H2).
  pose proof Hr as (nnz & rows & col & val & w1 & w2 & cnt & uval & u1 & u2 & (Dn & Drow & Dcol & _) & Emv).
  pose proof HC as (Mx & nw & nu & nr & nn & nru & nnz' & rows' & col' & w1' & w2' & cnt' & uval' & u1' & u2' & (_ & _ & _ & _ & _ & _ & Dn' & Drow' & Dcol' & _) & _ & _ & _ & _ & _ & _ & _ & _ & P1 & P2 & P3 & _).
  pose proof (data_unique _ _ _ _ HF Dn Dn') as X1. pose proof (data_unique _ _ _ _ HF Drow Drow') as X2. pose proof (data_unique _ _ _ _ HF Dcol Dcol') as X3. injection X1 as <-. injection X2 as <-. injection X3 as <-.
  rewrite Emv in I1, I2, I3, I4. cbn [w_row w_nnz w_col] in I1, I2, I3, I4. rewrite nth_error_map' in I3. destruct (nth_error rows (w - 1)) as [rz|] eqn:Erz; [|discriminate]. cbn in I3. injection I3 as <-.
  rewrite nth_error_map' in Ep, Eq. destruct (nth_error rz j) as [pz|] eqn:Epz; [|discriminate]. destruct (nth_error rz (j + 1)) as [qz|] eqn:Eqz; [|discriminate]. cbn in Ep, Eq. injection Ep as <-. injection Eq as <-.
  assert (Pz : (0 <= pz)%Z) by (apply P2; apply in_concat; exists rz; split; [exact (nth_error_In _ _ Erz)|exact (nth_error_In _ _ Epz)]).
  destruct (HR nnz rows col (w - 1) rz j pz qz Dn Drow Dcol Erz Epz Eqz) as (S1 & S2).
  assert (C3 : (0 <= fold_right Z.add 0 (firstn (w - 1) nnz))%Z) by (apply zsum_nonneg; intros x Hx; apply P1; eapply firstn_in; eauto).
  assert (El : lo = Z.to_nat (fold_right Z.add 0 (firstn (w - 1) nnz))%Z).
  { assert (LL : w - 1 <= length (map Z.to_nat nnz)). { assert (w - 1 < length (cumul 0 (map Z.to_nat nnz))) by (apply nth_error_Some; congruence). rewrite cumul_length in H. lia. }
    rewrite cumul_nth in I1 by exact LL. injection I1 as <-. cbn [Nat.add]. rewrite sum_firstn by auto. reflexivity. }
  rewrite I4, slice_map, map_length in H2 |- *. set (s := slice lo hi col) in *.
  assert (Bs : forall k x, nth_error s k = Some x -> nth_error col (lo + k) = Some x).
  { intros k x Hk. unfold s, slice in Hk. assert (Kl : k < hi - lo) by (assert (k < length (firstn (hi - lo) (skipn lo col))) by (apply nth_error_Some; congruence); rewrite firstn_length in H; lia).
    rewrite SampleProofs.nth_error_firstn, (proj2 (Nat.ltb_lt k _) Kl), SampleProofs.nth_error_skipn in Hk. exact Hk. }
  destruct (nth_error s (Z.to_nat pz)) as [a|] eqn:Ea; [|apply nth_error_None in Ea; lia]. destruct (nth_error s (Z.to_nat qz - 1)) as [b|] eqn:Eb; [|apply nth_error_None in Eb; lia].
  exists (Z.to_nat pz), (Z.to_nat qz), (Z.to_nat a), (Z.to_nat b). split; [reflexivity|]. split; [reflexivity|]. split; [lia|].
  split; [rewrite nth_error_map', Ea; reflexivity|]. split; [rewrite nth_error_map', Eb; reflexivity|].
  pose proof (S2 a b) as S. replace (Z.to_nat (fold_right Z.add 0%Z (firstn (w - 1) nnz) + pz)) with (lo + Z.to_nat pz) in S by lia.
  replace (Z.to_nat (fold_right Z.add 0%Z (firstn (w - 1) nnz) + qz - 1)) with (lo + (Z.to_nat qz - 1)) in S by lia.
  specialize (S (Bs _ _ Ea) (Bs _ _ Eb)). lia.
Qed.

(** The uncertainties of K are positive. *)
Lemma kr_positive k M : kr_ok f k -> size f "M" M -> length k = M /\ forall x, In x k -> (0 < x)%R.
Proof.
  intros (kr & ks & E1 & E2 & E3) HM. destruct HA as (HR & _ & _ & HK & _). pose proof HR as (_ & _ & _ & _ & _ & _ & _ & R8 & R9 & _).
  destruct (fl1_decl f _ _ HF R8) as (kr' & E1' & D8 & S8). destruct (fl1_decl f _ _ HF R9) as (ks' & E2' & D9 & S9). rewrite E1 in E1'. injection E1' as <-. rewrite E2 in E2'. injection E2' as <-.
  pose proof (size_fun _ _ _ _ HF S8 HM) as L8. pose proof (size_fun _ _ _ _ HF S9 HM) as L9.
  pose proof (HK kr ks D8 D9) as P. clear - E3 L8 L9 P.
  unfold unck in E3. rewrite (proj2 (Nat.eqb_eq _ _) (eq_trans L8 (eq_sym L9))) in E3. injection E3 as <-. split.
  - rewrite map_length, combine_length. lia.
  - intros x Hx. apply in_map_iff in Hx. destruct Hx as ((r & s) & <- & Hi). cbn [fst snd]. apply In_nth_error in Hi. destruct Hi as (i & Hi).
    rewrite nth_error_combine in Hi. destruct (nth_error kr i) as [r'|] eqn:A; [|discriminate]. destruct (nth_error ks i) as [s'|] eqn:B; [|discriminate]. injection Hi as -> ->. destruct (P i r s A B) as (P1 & P2 & P3). apply sqrt_lt_R0.
    destruct P3 as [P3|P3]; [pose proof (Rmult_lt_0_compat _ _ P3 P3); pose proof (Rle_0_sqr s) as Q|pose proof (Rmult_lt_0_compat _ _ P3 P3); pose proof (Rle_0_sqr r) as Q]; unfold Rsqr in Q; lra.
Qed.
End File.
