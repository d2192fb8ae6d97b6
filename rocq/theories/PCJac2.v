(** * C58: the modelled K and its derivative.  Proofs only. *)
From Coq Require Import Reals Lra.
From Verif Require Import Base BaseLemmas ReaderModel UncModel MuModel MuProofs SensorSpec SampleSpec SampleProofs TransformModel TransformSpec TransformProofs TransformProofs2 TransformMain TransformMain2 TransformMain3 EvalModel EvalSpec EvalProofs GNModel GNSpec GNAlgebra GNTerms GNAdjoint GNMain GNLoop GNTotal GNForward GNForward2 GNResidual GNOutput GNDeriv PCModel PCSpec PCAlgebra PCMatrix PCSide PCWeights PCWeights2 PCWeights3 PCJac.
Open Scope nat_scope.

Section K.
Context {T : Type}.
Notation mobj := (mobj R T).

Lemma assign_end {A} (l v v' : list A) : length v = length v' -> assign (length l) (length l + length v') v' (l ++ v) = Ok (l ++ v').
Proof.
  intros L. unfold assign. rewrite slice_length, app_length. replace (length v' =? _) with true by (symmetry; apply Nat.eqb_eq; lia).
  rewrite firstn_app, firstn_all, Nat.sub_diag. cbn [firstn]. rewrite app_nil_r. f_equal. f_equal. rewrite (skipn_all2 (l ++ v)) by (rewrite app_length; lia). apply app_nil_r.
Qed.

Lemma update_for (m : mobj) st a a' : pc_for m st a -> functions_ok m st -> length a' = length (sd_a T (g_sd T st)) ->
  exists st', pc_update T st a' = Ok st' /\ g_m T st' = g_m T st /\ g_sd T st' = g_sd T st /\ pc_for m st' a' /\ functions_ok m st'.
Proof.
  intros PF FO L. exists (with_xyza T st (m_values R T (g_m T st) ++ a')).
  destruct (solver_facts (pm m) (pst m st) (SF' m st a PF)) as (nv & ns & St & _ & _ & Hlast & _).
  change (pylast (idxs (m_idx R T (g_m T st))) = Ok (length (m_values R T (g_m T st)))) in Hlast.
  split.
  - unfold pc_update. rewrite Hlast. cbn [bind]. rewrite (pf_xyza _ _ _ PF), <- L, assign_end by (rewrite (pf_a _ _ _ PF); auto). reflexivity.
  - split; [reflexivity|]. split; [reflexivity|]. split; [|exact FO]. destruct PF. constructor; auto.
Qed.

Lemma adjusted_side_fun (m : mobj) sd n side r r' : adjusted_side m sd n side r -> adjusted_side m sd n side r' -> r = r'.
Proof.
  intros (s & X & a & c & xt & al & t & f & J & b & r0 & d & H1 & H2 & H3 & H4 & H5) (s' & X' & a' & c' & xt' & al' & t' & f' & J' & b' & r0' & d' & K1 & K2 & K3 & K4 & K5).
  destruct (side_input_fun _ _ _ _ _ _ _ _ _ _ _ _ _ _ _ _ _ _ H1 K1) as (<- & <- & <- & <- & <- & <- & <-).
  assert (f = f') by congruence. subst f'. rewrite H3 in K3. injection K3 as <- <-. assert (b = b') by congruence. subst b'. congruence.
Qed.
Lemma model_K_fun (m : mobj) sd a p x x' : model_K m sd a p x -> model_K m sd a p x' -> x = x'.
Proof.
  intros (n & i & N & r0 & r1 & uK & H1 & H2 & H3 & H4 & H5 & H6 & H7) (n' & i' & N' & r0' & r1' & uK' & K1 & K2 & K3 & K4 & K5 & K6 & K7).
  destruct (pos_unique _ _ _ _ _ _ _ H1 K1 H2 K2 ltac:(congruence)) as (<- & <-).
  rewrite (adjusted_side_fun _ _ _ _ _ _ H4 K4), (adjusted_side_fun _ _ _ _ _ _ H5 K5) in H7. congruence.
Qed.

Lemma pc_adjusted (m : mobj) st a n side s name N ps ms f b X as_ c xt al r J r' JB : pc_data m st a n side s name N ps ms f b X as_ c xt al r J r' JB ->
  adjusted_side (without_times m) (with_params (g_sd T st) a) (n + 1) side r'.
Proof. intros PD. destruct PD. exists s, X, as_, c, xt, al, None, f, J, b, r, JB. auto. Qed.

Lemma match_up_K (m : mobj) st a n i N x dd : nth_error (Nm (m_idx R T m)) n = Some N -> i < N -> match_up m st a n i N x dd ->
  model_K m (g_sd T st) a (list_sum (firstn n (Nm (m_idx R T m))) + i) x.
Proof.
  intros HN Hi (v1 & v2 & v3 & v4 & v5 & v6 & v7 & v8 & v9 & v10 & v11 & v12 & v13 & v14 & v15 & v16 & v17 & v18 & v19 & v20 & v21 & v22 & v23 & v24 & v25 & v26 & v27 & v28 & v29 & v30 & H1 & H2 & H3 & H4 & H5 & H6 & H7).
  exists n, i, N, v15, v28, v30. split; [auto|]. split; [auto|]. split; [auto|]. split; [eapply pc_adjusted; eauto|]. split; [eapply pc_adjusted; eauto|]. auto.
Qed.

Lemma locate_pos (ns : list nat) : forall p, p < list_sum ns -> exists n N i, nth_error ns n = Some N /\ i < N /\ p = list_sum (firstn n ns) + i.
Proof.
  induction ns as [|N ns IH]; intros p Hp; [cbn in Hp; lia|].
  destruct (Nat.lt_ge_cases p N); [exists 0, N, p; cbn; auto|].
  unfold list_sum in Hp. cbn [fold_right] in Hp. fold (list_sum ns) in Hp. destruct (IH (p - N) ltac:(lia)) as (n & N' & i & H1 & H2 & H3).
  exists (S n), N', i. split; [auto|]. split; [auto|]. unfold list_sum. cbn. fold (list_sum (firstn n ns)). lia.
Qed.

Lemma kJ_values (m : mobj) st a : pc_for m st a -> functions_ok m st ->
  exists k Ja, pc_kJ T st = Ok (k, Ja) /\ length k = list_sum (Nm (m_idx R T m)) /\
    length Ja = length (sd_a T (g_sd T st)) /\ (forall col, In col Ja -> length col = list_sum (Nm (m_idx R T m))) /\
    (forall p, p < list_sum (Nm (m_idx R T m)) -> exists x, model_K m (g_sd T st) a p x) /\
    forall p x, model_K m (g_sd T st) a p x -> nth p k 0%R = x.
Proof.
  intros PF FO. destruct (kJ_all m st a PF FO) as ((k & Ja) & E & jc & D1 & D2 & D3 & D4). cbn [fst snd] in *. exists k, Ja. split; [auto|]. split; [auto|].
  destruct D2 as [I1 I2 I3 I4 I5]. cbn [fst snd] in *. split; [auto|]. split; [auto|].
  assert (G : forall p, p < list_sum (Nm (m_idx R T m)) -> model_K m (g_sd T st) a p (nth p k 0%R)).
  { intros p Hp. destruct (locate_pos _ p Hp) as (n & N & i & H1 & H2 & ->). eapply match_up_K; eauto. apply (D4 n N i); auto. apply nth_error_Some. congruence. }
  split; [intros p Hp; eexists; apply G; auto|]. intros p x Hx. eapply model_K_fun; [|exact Hx]. apply G.
  destruct Hx as (n & i & N & r0 & r1 & uK & H1 & H2 & H3 & _). subst p. pose proof (firstn_sum_mono (Nm (m_idx R T m)) (S n) (length (Nm (m_idx R T m)))) as Mo.
  rewrite (list_sum_firstn_S _ _ _ H1), firstn_all in Mo. assert (n < length (Nm (m_idx R T m))) by (apply nth_error_Some; congruence). lia.
Qed.

Lemma labelled_vadd name (ps : list string) : forall a h da, length a = length ps -> length da = length ps ->
  labelled name ps (vadd a (vscale h da)) = vadd (labelled name ps a) (vscale h (labelled name ps da)).
Proof.
  induction ps as [|x ps IH]; intros [|y a] h [|z da] L1 L2; try discriminate; [reflexivity|]. cbn in L1, L2.
  unfold labelled in *. cbn [vscale map vadd combine filter fst snd]. specialize (IH a h da ltac:(lia) ltac:(lia)). unfold vscale in *.
  destruct (String.eqb x name); cbn [map snd vadd]; rewrite ?IH; reflexivity.
Qed.

Lemma row_dot_dir n ncol Ja jc da p : cols_inv n ncol Ja jc -> p < n -> length da = ncol -> row_dot Ja da p = dir ncol jc da p.
Proof.
  intros [I1 I2 I3 I4 I5] Hp L. cbn [fst snd] in *. unfold row_dot, dir. rewrite (inner_sm ncol) by (rewrite ?map_length; auto). apply sm_ext. intros c Hc. f_equal.
  rewrite (nth_indep _ 0%R ((fun col => nth p col 0%R) [])) by (rewrite map_length; lia). rewrite (map_nth (fun col => nth p col 0%R)). apply I5; auto.
Qed.

(** one side moves along a parameter direction *)
Lemma side_slope (m : mobj) st a n side s name N ps ms f b X as_ c xt al r J r' JB uK i da : pc_for m st a -> functions_ok m st -> parameter_derivatives m (g_sd T st) ->
  pc_data m st a n side s name N ps ms f b X as_ c xt al r J r' JB -> nth_error (sensors (m_idx R T m)) s = Some name -> nth_error (Nm (m_idx R T m)) n = Some N -> i < N -> length da = length a -> length ps = length a ->
  exists R' : R -> list R, (forall h, adjusted_side (without_times m) (with_params (g_sd T st) (vadd a (vscale h da))) (n + 1) side (R' h)) /\
    derivable_pt_lim (fun h => ((if side =? 1 then 1 else -1) * nth i (R' h) 0 / nth i uK 0)%R) 0%R (side_dir m side ps name J JB uK i da).
Proof.
  intros PF FO PDER PD Hname HN Hi Lda Lps. destruct PD as [Q1 Q2 Q3 Q4 Q5 Q6 (Q7 & Q8 & Q9) (Q10 & Q11) Q12 Q13 Q14 Q15].
  destruct (PDER a n side s X as_ c xt al f b r J N Q1 Q2 Q4 HN Q3) as (DF & g & B & Eb & Hb & DG).
  rewrite Q5 in Eb. injection Eb as Er' EB.
  set (rh := fun h => match f X (vadd as_ (vscale h (labelled name ps da))) c xt al None with Ok (r, _) => r | Raise _ => [] end).
  assert (Eas : as_ = labelled name ps a).
  { destruct (si_a _ _ _ _ _ _ _ _ _ _ _ Q1) as (nm & ps' & A1 & A2 & A3 & A4). cbn [without_times m_idx m_ps with_params sd_a] in *. assert (nm = name) by congruence. assert (ps' = ps) by congruence. subst. auto. }
  assert (Lpa : length (labelled name ps da) = length as_).
  { rewrite Eas. clear - Lda Lps. revert a da Lda Lps. induction ps as [|x ps IH]; intros [|y a] [|z da]; try discriminate; [reflexivity|]. intros L1 L2. cbn in L1, L2. unfold labelled in *. cbn [combine filter fst].
    specialize (IH a da ltac:(lia) ltac:(lia)). destruct (String.eqb x name); cbn [map length]; rewrite ?IH; auto. }
  assert (SI : forall h, side_input (without_times m) (with_params (g_sd T st) (vadd a (vscale h da))) (n + 1) side s X (vadd as_ (vscale h (labelled name ps da))) c xt al None).
  { intros h. destruct Q1 as [B1 B2 B3 (nm & ps' & C1 & C2 & C3 & C4) B5 B6 B7]. constructor; auto. exists nm, ps'. cbn [with_params sd_a sd_cs sd_c without_times m_idx m_ps] in *.
    assert (nm = name) by congruence. assert (ps' = ps) by congruence. subst nm ps'. do 2 (split; [auto|]). split; [|auto]. rewrite Eas, labelled_vadd by congruence. reflexivity. }
  assert (TOT : forall h, exists Jh, f X (vadd as_ (vscale h (labelled name ps da))) c xt al None = Ok (rh h, Jh) /\ length (rh h) = N).
  { intros h. destruct (update_for m st a (vadd a (vscale h da)) PF FO) as (st' & _ & Egm & Egs & PF' & FO').
    { rewrite GNMain.vadd_len by (rewrite GNMain.vscale_len; auto). apply (pf_a _ _ _ PF). }
    destruct (si_sensor _ _ _ _ _ _ _ _ _ _ _ Q1) as (pp & Hpp & Hs). cbn [without_times m_idx] in Hpp. replace (n + 1 - 1) with n in Hpp by lia.
    assert (Hs2 : side < 2 \/ side >= 2) by lia.
    assert (Hss : s = fst pp \/ s = snd pp) by (destruct (side =? 0); auto).
    pose proof (pf_ev _ _ _ PF) as Ev.
    destruct (proj2 FO n pp s name ps ms N f b X (vadd as_ (vscale h (labelled name ps da))) c xt al None Hpp Hss Hname Q13 Q14 HN Q2 Q4 Q10 Q11)
      as (rr & Jr & rr' & Br & E1 & L1 & _).
    - rewrite GNMain.vadd_len by (rewrite GNMain.vscale_len; auto). auto.
    - destruct (si_a _ _ _ _ _ _ _ _ _ _ _ Q1) as (nm & ps' & A1 & A2 & A3 & A4). cbn [without_times m_idx m_ps with_params sd_a sd_cs sd_c] in *. assert (nm = name) by congruence. subst. auto.
    - pose proof (si_xt _ _ _ _ _ _ _ _ _ _ _ Q1) as Sx. apply (part_rows (pm m) (pst m st) (SF' m st a PF) n N _ _ HN) in Sx; auto. intros l El. apply (ev_opt _ _ Ev). cbn [without_times m_across1 m_across2] in El. destruct (side =? 0); rewrite El; cbn; auto.
    - pose proof (si_al _ _ _ _ _ _ _ _ _ _ _ Q1) as Sx. apply (part_rows (pm m) (pst m st) (SF' m st a PF) n N _ _ HN) in Sx; auto. intros l El. apply (ev_opt _ _ Ev). cbn [without_times m_along1 m_along2] in El. destruct (side =? 0); rewrite El; cbn; auto.
    - exact I.
    - exists Jr. unfold rh. rewrite E1. auto. }
  exists (fun h => map g (rh h)). split.
  - intros h. destruct (TOT h) as (Jh & E1 & L1). destruct (Hb (rh h)) as (B' & EB'). exists s, X, (vadd as_ (vscale h (labelled name ps da))), c, xt, al, None, f, Jh, b, (rh h), B'. auto.
  - specialize (DF (labelled name ps da) i Lpa Hi). fold rh in DF.
    assert (R0 : nth i (rh 0%R) 0%R = nth i r 0%R).
    { unfold rh. replace (vadd as_ (vscale 0 (labelled name ps da))) with as_; [rewrite Q3; reflexivity|]. clear - Lpa. revert Lpa. generalize (labelled name ps da). induction as_ as [|x l IH]; intros [|y l'] L; try discriminate; [reflexivity|].
      cbn in L. unfold vscale in *. cbn [map vadd]. rewrite <- IH by lia. f_equal. lra. }
    apply (derivable_ext (fun h => ((if side =? 1 then 1 else -1) / nth i uK 0) * g (nth i (rh h) 0))%R).
    { intros h. destruct (TOT h) as (Jh & _ & L1). rewrite GNTerms.nth_map0 by lia. unfold Rdiv. ring. }
    set (sl := match J with None => 0%R | Some cols => inner (map (fun col => nth i col 0%R) (skipn (length X) cols)) (labelled name ps da) end) in DF.
    assert (Ev : side_dir m side ps name J JB uK i da = ((if side =? 1 then 1 else -1) / nth i uK 0 * (nth i JB 0 * sl))%R).
    { unfold side_dir, sl. destruct J as [cols|]; [|ring]. destruct Q15 as (Ems & _). rewrite Q10, Ems. unfold Rdiv. ring. }
    rewrite Ev. apply derivable_pt_lim_scal. apply (derivable_pt_lim_comp (fun h => nth i (rh h) 0%R) g 0%R sl (nth i JB 0%R)); [exact DF|]. rewrite R0, EB. apply DG. auto.
Qed.

Lemma K_derivative (m : mobj) st a da : pc_for m st a -> functions_ok m st -> parameter_derivatives m (g_sd T st) -> length da = length a ->
  exists k Ja, pc_kJ T st = Ok (k, Ja) /\
    forall p, p < list_sum (Nm (m_idx R T m)) -> derivable_pt_lim (fun h => K_at st (vadd a (vscale h da)) p) 0%R (row_dot Ja da p).
Proof.
  intros PF FO PDER Lda. destruct (kJ_all m st a PF FO) as ((k & Ja) & E & jc & D1 & D2 & D3 & D4). cbn [fst snd] in *. exists k, Ja. split; [auto|].
  intros p Hp. assert (La : length da = length (sd_a T (g_sd T st))) by (rewrite Lda; apply (pf_a _ _ _ PF)).
  rewrite (row_dot_dir _ _ _ _ _ _ D2 Hp La). destruct (locate_pos _ p Hp) as (n & N & i & H1 & H2 & ->).
  destruct (D4 n N i) as (name0 & name1 & ps & s0 & ms0 & f0 & b0 & X0 & as0 & c0 & xt0 & al0 & r0 & J0 & r0' & JB0 & s1 & ms1 & f1 & b1 & X1 & as1 & c1 & xt1 & al1 & r1 & J1 & r1' & JB1 & uK & G1 & G2 & G3 & G4 & G5 & G6 & G7); [apply nth_error_Some; congruence|auto|auto|].
  rewrite (G7 da La).
  assert (Lps : length ps = length a). { pose proof (pd_ps _ _ _ _ _ _ _ _ _ _ _ _ _ _ _ _ _ _ _ _ _ G1) as P. destruct (pf_ps _ _ _ PF) as (ps' & E' & L'). rewrite (pf_a _ _ _ PF). congruence. }
  destruct (side_slope m st a n 0 s0 name0 N ps ms0 f0 b0 X0 as0 c0 xt0 al0 r0 J0 r0' JB0 uK i da PF FO PDER G1 G3 H1 H2 Lda Lps) as (R0 & A0 & S0).
  destruct (side_slope m st a n 1 s1 name1 N ps ms1 f1 b1 X1 as1 c1 xt1 al1 r1 J1 r1' JB1 uK i da PF FO PDER G2 G4 H1 H2 Lda Lps) as (R1 & A1 & S1).
  cbn [Nat.eqb] in S0, S1.
  apply (derivable_ext (fun h => (-1 * nth i (R0 h) 0 / nth i uK 0) + (1 * nth i (R1 h) 0 / nth i uK 0))%R).
  - intros h. unfold K_at. destruct (update_for m st a (vadd a (vscale h da)) PF FO) as (st' & Eu & Egm & Egs & PF' & FO').
    { rewrite GNMain.vadd_len by (rewrite GNMain.vscale_len; auto). apply (pf_a _ _ _ PF). }
    rewrite Eu. destruct (kJ_values m st' (vadd a (vscale h da)) PF' FO') as (k' & Ja' & E' & _ & _ & _ & _ & V'). rewrite E'. cbn [fst].
    symmetry. apply V'. exists n, i, N, (R0 h), (R1 h), uK. rewrite Egs. do 6 (split; [auto|]). unfold Rdiv. ring.
  - apply (derivable_pt_lim_plus (fun h => (-1 * nth i (R0 h) 0 / nth i uK 0)%R) (fun h => (1 * nth i (R1 h) 0 / nth i uK 0)%R)); auto.
Qed.
End K.

(** ** weighting *)
Lemma lower_injective L n : square L n -> (forall i j, i < j -> entry L i j = 0%R) -> (forall i, i < n -> (0 < entry L i i)%R) ->
  forall x y, length x = n -> length y = n -> mul_vec L x = mul_vec L y -> x = y.
Proof.
  intros (LL & RL) Low Pos x y Lx Ly E.
  assert (G : forall i, i < n -> nth i x 0%R = nth i y 0%R).
  { intros i. induction i as [i IH] using (well_founded_induction Wf_nat.lt_wf). intros Hi.
    assert (Ei : inner (nth i L []) x = inner (nth i L []) y).
    { assert (Em : nth i (mul_vec L x) 0%R = nth i (mul_vec L y) 0%R) by (rewrite E; reflexivity). unfold mul_vec in Em.
      rewrite (nth_indep _ 0%R (inner [] x)) in Em by (rewrite map_length; lia). rewrite (map_nth (fun r => inner r x)) in Em.
      rewrite (nth_indep _ 0%R (inner [] y)) in Em by (rewrite map_length; lia). rewrite (map_nth (fun r => inner r y)) in Em. auto. }
    assert (Lr : length (nth i L []) = n) by (apply RL, nth_In; lia).
    rewrite !(inner_sm n) in Ei by auto.
    assert (Z : sm n (fun j => entry L i j * (nth j x 0 - nth j y 0))%R = 0%R).
    { transitivity (sm n (fun j => nth j (nth i L []) 0 * nth j x 0)%R - sm n (fun j => nth j (nth i L []) 0 * nth j y 0)%R)%R; [|lra].
      unfold Rminus at 2. rewrite <- (Rmult_1_l (sm n (fun j => nth j (nth i L []) 0 * nth j y 0)%R)), Ropp_mult_distr_l, <- sm_scal, <- sm_plus. apply sm_ext. intros j Hj. unfold entry. ring. }
    rewrite (sm_ext n _ (fun j => if j =? i then (entry L i j * (nth j x 0 - nth j y 0))%R else 0%R)) in Z.
    - rewrite (sm_delta n i (fun j => entry L i j * (nth j x 0 - nth j y 0))%R Hi) in Z. pose proof (Pos i Hi). apply Rmult_integral in Z. destruct Z; lra.
    - intros j Hj. destruct (Nat.eqb_spec j i) as [->|Hn]; [reflexivity|]. destruct (Nat.lt_ge_cases j i); [rewrite IH by lia; lra|]. rewrite Low by lia. lra. }
  apply (nth_ext _ _ 0%R 0%R); [congruence|]. intros i Hi. apply G. lia.
Qed.

Lemma mul_vec_len M x : length (mul_vec M x) = length M. Proof. apply map_length. Qed.
Lemma mul_vec_nth M x i : i < length M -> nth i (mul_vec M x) 0%R = inner (nth i M []) x.
Proof. intros H. unfold mul_vec. rewrite (nth_indep _ 0%R (inner [] x)) by (rewrite map_length; auto). apply (map_nth (fun r => inner r x)). Qed.

Lemma whitened_cost L V n d f w : square V n -> cholesky_factor L V n -> length f = n -> length w = n -> mul_vec L f = d -> mul_vec V w = d -> inner f f = inner w d.
Proof.
  intros (LV & RV) ((LL & RL) & Low & Pos & Ch) Lf Lw Ef Ew.
  set (z := map (fun j => sm n (fun i => entry L i j * nth i w 0)%R) (seq 0 n)).
  assert (Lz : length z = n) by (unfold z; rewrite map_length, seq_length; auto).
  assert (Zn : forall j, j < n -> nth j z 0%R = sm n (fun i => entry L i j * nth i w 0)%R).
  { intros j Hj. unfold z. rewrite (nth_indep _ 0%R ((fun j => sm n (fun i => entry L i j * nth i w 0)%R) 0)) by (rewrite map_length, seq_length; auto). rewrite (map_nth (fun j => sm n (fun i => entry L i j * nth i w 0)%R)), seq_nth by auto. reflexivity. }
  assert (Rw : forall (M : list (list R)) p, length M = n -> (forall r, In r M -> length r = n) -> p < n -> length (nth p M []) = n) by (intros M p H1 H2 Hp; apply H2, nth_In; lia).
  assert (Ez : mul_vec L z = d).
  { rewrite <- Ew. apply (nth_ext _ _ 0%R 0%R); [rewrite !mul_vec_len; lia|]. intros p Hp. rewrite mul_vec_len in Hp. rewrite !mul_vec_nth by lia.
    rewrite !(inner_sm n) by (auto; apply Rw; auto; lia).
    transitivity (sm n (fun j => sm n (fun i => entry L p j * entry L i j * nth i w 0)%R)).
    { apply sm_ext. intros j Hj. rewrite Zn, <- sm_scal by auto. apply sm_ext. intros i Hi. unfold entry. ring. }
    rewrite sm_swap. apply sm_ext. intros i Hi. change (nth i (nth p V []) 0%R) with (entry V p i). rewrite Ch by lia. rewrite (inner_sm n) by (apply Rw; auto; lia). rewrite <- sm_scal_r. reflexivity. }
  assert (f = z) by (apply (lower_injective L n (conj LL RL) Low Pos); auto; congruence).
  transitivity (inner z f); [congruence|]. rewrite <- Ef. rewrite !(inner_sm n) by (auto; rewrite mul_vec_len; auto).
  transitivity (sm n (fun j => sm n (fun i => nth i w 0 * (entry L i j * nth j f 0))%R)).
  { apply sm_ext. intros j Hj. rewrite Zn, <- sm_scal_r by auto. apply sm_ext. intros. ring. }
  rewrite sm_swap. apply sm_ext. intros i Hi. rewrite mul_vec_nth by lia. rewrite (inner_sm n) by (auto; apply Rw; auto; lia). rewrite <- sm_scal. reflexivity.
Qed.
