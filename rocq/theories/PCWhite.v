(** * C58, C31: the weighted residual and its derivative; the covariance.  Proofs only. *)
From Coq Require Import Reals Lra Wf_nat.
From Verif Require Import Base BaseLemmas ReaderModel UncModel MuModel MuProofs SensorSpec SampleSpec SampleProofs TransformModel TransformSpec TransformProofs TransformProofs2 TransformMain TransformMain2 TransformMain3 EvalModel EvalSpec EvalProofs HistModel GNModel GNSpec GNAlgebra GNTerms GNAdjoint GNMain GNLoop GNTotal GNForward GNForward2 GNResidual GNOutput GNDeriv PCModel PCSpec PCAlgebra PCMatrix PCSide PCWeights PCWeights2 PCWeights3 PCJac PCJac2 PCLoop.
Open Scope nat_scope.

Lemma mul_vec_sm L n x i : square L n -> length x = n -> i < n -> nth i (mul_vec L x) 0%R = sm n (fun j => entry L i j * nth j x 0)%R.
Proof.
  intros (LL & RL) Lx Hi. rewrite mul_vec_nth by lia. rewrite (inner_sm n) by (auto; apply RL, nth_In; lia). reflexivity.
Qed.

(** Row [i] of a lower triangular system solved for its last unknown. *)
Lemma lower_row L n x i : lower_triangular L n -> length x = n -> i < n ->
  nth i x 0%R = ((nth i (mul_vec L x) 0 - sm i (fun j => entry L i j * nth j x 0)) / entry L i i)%R.
Proof.
  intros (S & Low & Pos) Lx Hi. rewrite (mul_vec_sm L n) by auto. replace n with (i + (1 + (n - i - 1))) by lia. rewrite !sm_app.
  rewrite (sm_zero (n - i - 1)) by (intros j _; rewrite Low by lia; ring). rewrite (sm_S 0). change (sm 0 (fun _ => ?f)) with 0%R. unfold sm at 2. cbn [seq map rsum fold_right]. rewrite Nat.add_0_r.
  pose proof (Pos i Hi). field. lra.
Qed.

Lemma derivable_sm n (f : nat -> R -> R) (d : nat -> R) x : (forall j, j < n -> derivable_pt_lim (f j) x (d j)) ->
  derivable_pt_lim (fun h => sm n (fun j => f j h)) x (sm n d).
Proof.
  revert f d. induction n as [|n IH]; intros f d H.
  - apply (derivable_ext (fun _ => 0%R)); [reflexivity|]. apply derivable_pt_lim_const.
  - rewrite sm_S. apply (derivable_ext (fun h => f O h + sm n (fun j => f (S j) h))%R); [intros; rewrite sm_S; reflexivity|].
    apply (derivable_pt_lim_plus (f 0) (fun h => sm n (fun j => f (S j) h))); [apply H; lia|]. apply (IH (fun j => f (S j))). intros. apply H. lia.
Qed.

(** If [L f(h) = d(h)] and [L g = d'], then [f' = g]. *)
Lemma lower_derivative L n (f d : R -> list R) g d' : lower_triangular L n -> (forall h, length (f h) = n /\ mul_vec L (f h) = d h) ->
  length g = n -> mul_vec L g = d' -> (forall p, p < n -> derivable_pt_lim (fun h => nth p (d h) 0%R) 0 (nth p d' 0%R)) ->
  forall p, p < n -> derivable_pt_lim (fun h => nth p (f h) 0%R) 0 (nth p g 0%R).
Proof.
  intros LT Hf Lg Eg Hd p. induction p as [p IH] using (well_founded_induction lt_wf). intros Hp.
  rewrite (lower_row L n g p LT Lg Hp), Eg.
  apply (derivable_ext (fun h => (/ entry L p p) * (nth p (d h) 0 - sm p (fun j => entry L p j * nth j (f h) 0)))%R).
  { intros h. destruct (Hf h) as (L1 & E1). rewrite (lower_row L n (f h) p LT L1 Hp), E1. unfold Rdiv. ring. }
  assert (E : ((nth p d' 0 - sm p (fun j => entry L p j * nth j g 0)) / entry L p p = / entry L p p * (nth p d' 0 - sm p (fun j => entry L p j * nth j g 0)))%R) by (unfold Rdiv; ring).
  rewrite E. apply derivable_pt_lim_scal. apply (derivable_pt_lim_minus (fun h => nth p (d h) 0%R) (fun h => sm p (fun j => entry L p j * nth j (f h) 0)%R)); [apply Hd; auto|].
  apply (derivable_sm p (fun j h => entry L p j * nth j (f h) 0)%R (fun j => entry L p j * nth j g 0)%R). intros j Hj. apply derivable_pt_lim_scal. apply IH; lia.
Qed.

(** A combination of columns. *)
Definition comb (J : list (list R)) (da : list R) (n : nat) : list R := map (row_dot J da) (seq 0 n).
Lemma comb_len J da n : length (comb J da n) = n. Proof. unfold comb. rewrite map_length, seq_length. auto. Qed.
Lemma comb_nth J da n p : p < n -> nth p (comb J da n) 0%R = row_dot J da p.
Proof. intros H. unfold comb. rewrite (map_seq_nth (row_dot J da) n p 0%R) by auto. reflexivity. Qed.
Lemma row_dot_nil da p : row_dot [] da p = 0%R. Proof. reflexivity. Qed.
Lemma row_dot_cons c J x da p : row_dot (c :: J) (x :: da) p = (nth p c 0 * x + row_dot J da p)%R. Proof. reflexivity. Qed.
Lemma comb_mul L n : square L n -> forall Ja J da, Forall2 (fun c c' => length c' = n /\ mul_vec L c' = c) Ja J -> length da = length J ->
  mul_vec L (comb J da n) = comb Ja da n.
Proof.
  intros S Ja J da F Ld. apply (nth_ext _ _ 0%R 0%R); [rewrite mul_vec_len, comb_len; apply S|]. rewrite mul_vec_len. intros p Hp. replace (length L) with n in Hp by (symmetry; apply S).
  rewrite (mul_vec_sm L n) by (auto using comb_len). rewrite comb_nth by auto.
  rewrite (sm_ext n _ (fun j => entry L p j * row_dot J da j)%R) by (intros; rewrite comb_nth by auto; reflexivity).
  revert da Ld. induction F as [|c c' Ja J (L1 & E1) F IH]; intros da Ld; destruct da as [|x da]; try discriminate.
  - apply sm_zero. intros. unfold row_dot. cbn. ring.
  - rewrite row_dot_cons, <- IH by (cbn in Ld; lia). rewrite <- E1, (mul_vec_sm L n) by auto. rewrite <- sm_scal_r, <- sm_plus. apply sm_ext. intros j Hj. rewrite row_dot_cons. ring.
Qed.

Section W.
Context {T : Type}.
Notation mobj := (mobj R T).
Variable solve : list (list R) -> list R -> res (list R).
Hypothesis SE : solve_exact solve.

Lemma get_f_ok (m : mobj) st a L : pc_for m st a -> functions_ok m st -> lower_triangular L (list_sum (Nm (m_idx R T m))) ->
  exists k Ja f, pc_kJ T st = Ok (k, Ja) /\ get_f T solve st L = Ok f /\ length f = list_sum (Nm (m_idx R T m)) /\ mul_vec L f = zip2 Rminus k (m_ks R T (g_m T st)) /\
    length k = list_sum (Nm (m_idx R T m)) /\ length (m_ks R T (g_m T st)) = list_sum (Nm (m_idx R T m)).
Proof.
  intros PF FO LT. destruct (kJ_values m st a PF FO) as (k & Ja & Ek & Lk & _).
  pose proof (proj2 (ks_len (pm m) (pst m st) (SF' m st a PF))) as Lks. change (length (m_ks R T (g_m T st)) = list_sum (Nm (m_idx R T m))) in Lks.
  destruct (SE L _ (zip2 Rminus k (m_ks R T (g_m T st))) LT) as (f & E & Lf & Ef); [rewrite zip2_len; lia|].
  exists k, Ja, f. split; [auto|]. split; [|auto]. unfold get_f. rewrite Ek. cbn [bind fst]. rewrite bop_eq by congruence. exact E.
Qed.

Lemma get_Ja_ok (m : mobj) st a L : pc_for m st a -> functions_ok m st -> lower_triangular L (list_sum (Nm (m_idx R T m))) ->
  exists k Ja J, pc_kJ T st = Ok (k, Ja) /\ get_Ja T solve st L = Ok J /\ length J = length (sd_a T (g_sd T st)) /\ length Ja = length J /\
    Forall2 (fun c c' => length c' = list_sum (Nm (m_idx R T m)) /\ mul_vec L c' = c) Ja J.
Proof.
  intros PF FO LT. destruct (kJ_values m st a PF FO) as (k & Ja & Ek & _ & LJ & LC & _). exists k, Ja.
  assert (exists J, mapM (solve L) Ja = Ok J /\ Forall2 (fun c c' => length c' = list_sum (Nm (m_idx R T m)) /\ mul_vec L c' = c) Ja J) as (J & EJ & F).
  { clear LJ Ek. induction Ja as [|c Ja IH]; [exists []; split; [reflexivity|constructor]|].
    destruct IH as (J & EJ & F); [intros; apply LC; right; auto|]. destruct (SE L _ c LT (LC c (or_introl eq_refl))) as (x & Ex & Lx & Mx).
    exists (x :: J). cbn [mapM]. rewrite Ex. cbn [bind]. rewrite EJ. split; [reflexivity|]. constructor; auto. }
  exists J. pose proof (Forall2_len _ _ _ F) as Lf. split; [auto|]. split; [unfold get_Ja; rewrite Ek; exact EJ|]. split; [lia|]. auto.
Qed.

Lemma weighted_derivative (m : mobj) st a L da : pc_for m st a -> functions_ok m st -> parameter_derivatives m (g_sd T st) ->
  lower_triangular L (list_sum (Nm (m_idx R T m))) -> length da = length a ->
  exists J, get_Ja T solve st L = Ok J /\ length J = length a /\
    forall p, p < list_sum (Nm (m_idx R T m)) -> derivable_pt_lim (fun h => weighted_residual_at solve st L (vadd a (vscale h da)) p) 0%R (row_dot J da p).
Proof.
  intros PF FO PD LT Ld. set (N := list_sum (Nm (m_idx R T m))) in *.
  destruct (get_Ja_ok m st a L PF FO LT) as (k & Ja & J & Ek & EJ & LJ & LJa & F). exists J. split; [auto|]. split; [rewrite LJ; symmetry; apply (pf_a _ _ _ PF)|].
  destruct (K_derivative m st a da PF FO PD Ld) as (k0 & Ja0 & Ek0 & DK). rewrite Ek in Ek0. injection Ek0 as <- <-.
  set (ah := fun h => vadd a (vscale h da)).
  assert (Lah : forall h, length (ah h) = length (sd_a T (g_sd T st))) by (intros h; unfold ah; rewrite GNMain.vadd_len by (rewrite GNMain.vscale_len; auto); apply (pf_a _ _ _ PF)).
  set (fh := fun h => match pc_update T st (ah h) with Ok st' => match get_f T solve st' L with Ok f => f | Raise _ => [] end | Raise _ => [] end).
  assert (FH : forall h, length (fh h) = N /\ exists k, length k = N /\ (forall p, nth p k 0%R = K_at st (ah h) p) /\ mul_vec L (fh h) = zip2 Rminus k (m_ks R T (g_m T st)) /\ length (m_ks R T (g_m T st)) = N).
  { intros h. destruct (update_for m st a (ah h) PF FO (Lah h)) as (st' & Eu & Em & Es & PF' & FO'). unfold fh, K_at. rewrite Eu.
    destruct (get_f_ok m st' (ah h) L PF' FO' LT) as (k1 & Ja1 & f & E1 & E2 & E3 & E4 & E5 & E6). rewrite E2, E1. split; [auto|]. exists k1. rewrite Em in *. cbn [fst]. auto. }
  intros p Hp. rewrite <- (comb_nth J da N p Hp).
  apply (derivable_ext (fun h => nth p (fh h) 0%R)).
  { intros h. unfold weighted_residual_at, fh. fold (ah h). destruct (pc_update T st (ah h)) as [st'|]; [|destruct p; reflexivity]. destruct (get_f T solve st' L); [auto|destruct p; reflexivity]. }
  apply (lower_derivative L N fh (fun h => mul_vec L (fh h)) (comb J da N) (comb Ja da N) LT); auto.
  - intros h. split; [apply FH|reflexivity].
  - apply comb_len.
  - apply comb_mul; auto; [apply LT|]. rewrite LJ, Ld. apply (pf_a _ _ _ PF).
  - intros q Hq. rewrite comb_nth by auto.
    apply (derivable_ext (fun h => K_at st (ah h) q - nth q (m_ks R T (g_m T st)) 0)%R).
    { intros h. destruct (FH h) as (_ & k1 & L1 & V1 & M1 & L2). rewrite M1, zip2_nth by lia. rewrite V1. reflexivity. }
    assert (Em : row_dot Ja da q = (row_dot Ja da q - 0)%R) by ring. rewrite Em.
    apply (derivable_pt_lim_minus (fun h => K_at st (ah h) q) (fun _ => nth q (m_ks R T (g_m T st)) 0%R)); [apply DK; auto|apply derivable_pt_lim_const].
Qed.

(** The sum of squares of the weighted residual is the residual weighted with the inverse of VK. *)
Lemma weighted_sum (m : mobj) st a L V w : pc_for m st a -> functions_ok m st -> square V (list_sum (Nm (m_idx R T m))) ->
  cholesky_factor L V (list_sum (Nm (m_idx R T m))) ->
  exists f d, get_f T solve st L = Ok f /\ length d = list_sum (Nm (m_idx R T m)) /\
    (forall p x, model_K m (g_sd T st) a p x -> nth p d 0%R = (x - nth p (m_ks R T (g_m T st)) 0)%R) /\
    (length w = list_sum (Nm (m_idx R T m)) -> mul_vec V w = d -> inner f f = inner w d).
Proof.
  intros PF FO SV CF. assert (LT : lower_triangular L (list_sum (Nm (m_idx R T m)))) by (destruct CF as (C1 & C2 & C3 & _); split; auto).
  destruct (get_f_ok m st a L PF FO LT) as (k & Ja & f & E1 & E2 & E3 & E4 & E5 & E6). destruct (kJ_values m st a PF FO) as (k' & Ja' & E' & _ & _ & _ & _ & V'). rewrite E1 in E'. injection E' as <- <-.
  exists f, (zip2 Rminus k (m_ks R T (g_m T st))). split; [auto|]. split; [rewrite zip2_len; lia|]. split.
  - intros p x Hx. rewrite <- (V' p x Hx). destruct Hx as (n & i & N & _ & _ & _ & H1 & H2 & -> & _).
    rewrite zip2_nth; [reflexivity|congruence|]. rewrite E5. pose proof (firstn_sum_mono (Nm (m_idx R T m)) (S n) (length (Nm (m_idx R T m)))) as M. rewrite firstn_all, (list_sum_firstn_S _ _ _ H1) in M. assert (S n <= length (Nm (m_idx R T m))) by (apply nth_error_Some; congruence). lia.
  - intros Lw Ew. eapply whitened_cost; eauto.
Qed.
End W.

(** ** The covariance *)
Lemma rsum_sm n f : rsum (map f (seq 0 n)) = sm n f. Proof. reflexivity. Qed.

Lemma qr_injective J M N : (square M (length J)) ->
  (forall i j, i < length J -> j < length J -> inner (nth i J []) (nth j J []) = rsum (map (fun t => entry M t i * entry M t j)%R (seq 0 (length J)))) ->
  independent_columns J N -> injective_mat M (length J).
Proof.
  intros S G (LC & IND) x Lx Ex. apply IND; auto. set (n := length J) in *.
  assert (Rd : forall p, row_dot J x p = sm n (fun i => nth p (nth i J []) 0 * nth i x 0)%R).
  { intros p. unfold row_dot. rewrite (inner_sm n) by (rewrite ?map_length; auto). apply sm_ext. intros i Hi. rewrite (nth_indep _ 0%R (nth p [] 0%R)) by (rewrite map_length; auto). rewrite (map_nth (fun col => nth p col 0%R)). reflexivity. }
  assert (Mz : forall t, t < n -> sm n (fun i => entry M t i * nth i x 0)%R = 0%R).
  { intros t Ht. rewrite <- (mul_vec_sm M n) by auto. rewrite Ex. apply nth_repeat. }
  assert (Q : sm N (fun p => row_dot J x p * row_dot J x p)%R = sm n (fun t => sm n (fun i => entry M t i * nth i x 0) * sm n (fun i => entry M t i * nth i x 0))%R).
  { transitivity (sm n (fun i => sm n (fun j => nth i x 0 * nth j x 0 * inner (nth i J []) (nth j J [])))%R).
    - rewrite (sm_ext N _ (fun p => sm n (fun i => sm n (fun j => nth p (nth i J []) 0 * nth i x 0 * (nth p (nth j J []) 0 * nth j x 0))))%R).
      2:{ intros p Hp. rewrite Rd. rewrite <- sm_scal_r. apply sm_ext. intros i Hi. rewrite <- sm_scal. reflexivity. }
      rewrite sm_swap. apply sm_ext. intros i Hi. rewrite sm_swap. apply sm_ext. intros j Hj.
      rewrite (inner_sm N) by (apply LC, nth_In; auto). rewrite <- sm_scal. apply sm_ext. intros. ring.
    - symmetry. rewrite (sm_ext n (fun t => sm n _ * sm n _)%R (fun t => sm n (fun i => sm n (fun j => entry M t i * nth i x 0 * (entry M t j * nth j x 0))))%R).
      2:{ intros t Ht. rewrite <- sm_scal_r. apply sm_ext. intros i Hi. rewrite <- sm_scal. reflexivity. }
      rewrite sm_swap. apply sm_ext. intros i Hi. rewrite sm_swap. apply sm_ext. intros j Hj. rewrite (G i j Hi Hj), rsum_sm, <- sm_scal. apply sm_ext. intros. ring. }
  rewrite (sm_zero n) in Q by (intros t Ht; rewrite Mz by auto; ring).
  intros p Hp. destruct (Req_dec (row_dot J x p) 0) as [|Hn]; [auto|]. exfalso.
  assert (0 < sm N (fun p => row_dot J x p * row_dot J x p))%R; [|lra].
  apply (sm_pos N _ p); auto; [intros i _|]; nra.
Qed.

Section Cov.
Context {T : Type}.
Variables (cholesky : list (list R) -> res (list (list R))) (solve : list (list R) -> list R -> res (list R)).
Variable least_squares : nat -> solver T -> list (list R) -> list R -> res (list (list R) * list R).
Variables (qr_R lstsq_eye : list (list R) -> res (list (list R))).
Hypothesis ls_len : same_length least_squares.

Lemma run_inverse st tol r : runPC T cholesky solve least_squares qr_R lstsq_eye st tol = Ok r -> qr_exact qr_R -> lstsq_exact lstsq_eye ->
  exists sts as_ LKs st' st2 LK J, pc_passes cholesky solve least_squares st (sd_a T (g_sd T st)) sts as_ LKs /\ pc_iter r = length LKs /\
    nth_error sts (length LKs) = Some st' /\ nth_error as_ (length LKs) = Some (pc_a r) /\ nth_error LKs (length LKs - 1) = Some LK /\
    pc_update T st' (pc_a r) = Ok st2 /\ get_Ja T solve st2 LK = Ok J /\
    forall N, independent_columns J N -> square (pc_V r) (length J) /\
      forall i j, i < length J -> j < length J -> rsum (map (fun t => entry (pc_V r) i t * inner (nth t J []) (nth j J []))%R (seq 0 (length J))) = delta i j.
Proof.
  intros H QE LE. destruct (run_passes cholesky solve least_squares ls_len qr_R lstsq_eye st tol r H) as (sts0 & as0 & LKs0 & _).
  unfold runPC in H. destruct (pc_loop _ _ _ _ _ _ _ _ _ _) as [(((st' & l) & conv) & n)|] eqn:E; [|discriminate]. cbn [bind] in H.
  destruct (loop_passes _ _ _ ls_len _ _ _ _ _ _ _ _ _ _ E) as (sts & as_ & LKs & H1 & H2 & H3 & H4 & H5 & H6 & H7 & H8 & H9 & H10 & H11 & H12 & H13).
  destruct l as [(LK & a)|]; [|discriminate]. cbn [bind fst snd] in H.
  destruct (pc_update T st' a) as [st2|] eqn:Eu; [|discriminate]. cbn [bind] in H. destruct (get_Ja T solve st2 LK) as [J|] eqn:EJ; [|discriminate]. cbn [bind] in H.
  destruct (qr_R J) as [Rm|] eqn:EQ; [|discriminate]. cbn [bind] in H. destruct (lstsq_eye Rm) as [U|] eqn:EL; [|discriminate]. cbn [bind] in H. injection H as <-. cbn [pc_iter pc_a pc_V].
  assert (Hne : LKs <> []). { intros H0. destruct (H9 H0) as (Hl & _). discriminate. }
  exists sts, as_, LKs, st', st2, LK, J. split. { do 4 (split; [auto|]). intros. apply (H5 k); auto. }
  destruct (length LKs) as [|k] eqn:Ek; [destruct LKs; [congruence|discriminate]|].
  destruct (nth_error LKs k) as [LK'|] eqn:ELk; [|apply nth_error_None in ELk; lia]. destruct (nth_error as_ (S k)) as [a'|] eqn:Ea; [|apply nth_error_None in Ea; lia].
  specialize (H10 k LK' a' eq_refl ELk Ea). injection H10 as <- <-.
  split; [lia|]. split; [auto|]. split; [auto|]. split; [replace (S k - 1) with k by lia; auto|]. split; [auto|]. split; [auto|].
  intros N IND. destruct (QE J Rm EQ) as (SR & GR). pose proof (qr_injective J Rm N SR GR IND) as Inj. destruct (LE Rm U _ SR Inj EL) as (SU & _ & PR).
  set (n0 := length J) in *. assert (LU : length U = n0) by apply SU. split; [rewrite <- LU; apply gram_square|].
  intros i j Hi Hj. rewrite rsum_sm.
  (* sum_t (U U')_it (R'R)_tj = sum_s U_is sum_u (sum_t U_ts R_ut) R_uj *)
  rewrite (sm_ext n0 _ (fun t => sm n0 (fun s => sm n0 (fun u => entry U i s * entry U t s * (entry Rm u t * entry Rm u j))))%R).
  2:{ intros t Ht. rewrite gram_entry by lia. rewrite (inner_sm n0) by (apply SU, nth_In; lia). rewrite GR by auto. rewrite rsum_sm, <- sm_scal_r. apply sm_ext. intros s Hs. rewrite <- sm_scal. reflexivity. }
  rewrite sm_swap. rewrite (sm_ext n0 _ (fun s => sm n0 (fun u => entry U i s * entry Rm u j * sm n0 (fun t => entry Rm u t * entry U t s)))%R).
  2:{ intros s Hs. rewrite sm_swap. apply sm_ext. intros u Hu. rewrite <- sm_scal. apply sm_ext. intros. ring. }
  rewrite (sm_ext n0 _ (fun s => entry U i s * entry Rm s j)%R).
  2:{ intros s Hs. rewrite (sm_ext n0 _ (fun u => if u =? s then entry U i s * entry Rm u j else 0)%R); [apply (sm_delta n0 s (fun u => entry U i s * entry Rm u j)%R Hs)|].
      intros u Hu. destruct (PR u s Hu Hs) as (_ & P2). unfold mat_prod in P2. rewrite rsum_sm in P2. rewrite P2. unfold delta. destruct (u =? s); ring. }
  destruct (PR i j Hi Hj) as (P1 & _). unfold mat_prod in P1. rewrite rsum_sm in P1. exact P1.
Qed.
End Cov.

(** ** C59 *)
Section Stale.
Context {T : Type}.
Variables (cholesky : list (list R) -> res (list (list R))) (solve : list (list R) -> list R -> res (list R)).
Variable least_squares : nat -> solver T -> list (list R) -> list R -> res (list (list R) * list R).

Lemma calls_last (m : mobj R T) LK : forall tried st a x st', pc_for m st a -> functions_ok m st -> (forall y, In y (tried ++ [x]) -> length y = length a) ->
  pc_calls T solve st LK (tried ++ [x]) = Ok st' -> pc_for m st' x /\ functions_ok m st' /\ g_sd T st' = g_sd T st.
Proof.
  induction tried as [|y tried IH]; intros st a x st' PF FO HL E; unfold pc_calls in E; cbn [app foldM] in E.
  - destruct (update_for m st a x PF FO) as (st1 & E1 & _ & Es & PF1 & FO1). { rewrite (HL x) by (left; auto). apply (pf_a _ _ _ PF). }
    rewrite E1 in E. cbn [bind] in E. destruct (get_f T solve st1 LK) as [f|]; [|discriminate]. cbn [bind] in E. injection E as <-. auto.
  - assert (Ly : length y = length a) by (apply HL; left; auto).
    destruct (update_for m st a y PF FO) as (st1 & E1 & _ & Es & PF1 & FO1). { rewrite Ly. apply (pf_a _ _ _ PF). }
    rewrite E1 in E. cbn [bind] in E. destruct (get_f T solve st1 LK) as [f|]; [|discriminate]. cbn [bind] in E.
    destruct (IH st1 y x st' PF1 FO1) as (P & F & S'); auto. { intros z Hz. rewrite Ly. apply HL. right. auto. } split; [auto|]. split; [auto|congruence].
Qed.

Lemma weights_at_estimate (m : mobj R T) st a0 sts as_ LKs : ends_at_solution least_squares ->
  pc_passes cholesky solve least_squares st a0 sts as_ LKs -> pc_for m st a0 -> functions_ok m st ->
  forall k s a, nth_error sts k = Some s -> nth_error as_ k = Some a -> pc_for m s a /\ functions_ok m s /\ g_sd T s = g_sd T st.
Proof.
  intros EN (H1 & H2 & H3 & H4 & H5) PF FO. induction k as [|k IH]; intros s a Hs Ha.
  - rewrite H4 in Hs. rewrite H3 in Ha. injection Hs as <-. injection Ha as <-. auto.
  - assert (S k < length sts) by (apply nth_error_Some; congruence).
    destruct (nth_error sts k) as [s0|] eqn:Es0; [|apply nth_error_None in Es0; lia]. destruct (nth_error as_ k) as [a1|] eqn:Ea1; [|apply nth_error_None in Ea1; lia].
    destruct (nth_error LKs k) as [LK|] eqn:EL; [|apply nth_error_None in EL; lia].
    destruct (IH s0 a1 eq_refl eq_refl) as (PF0 & FO0 & Sd0).
    destruct (H5 k s0 s a1 a LK Es0 Hs Ea1 Ha EL) as (VK & tried & _ & _ & E3 & E4 & _).
    destruct (EN _ _ _ _ _ _ E3) as ((t & ->) & HL). destruct (calls_last m LK t s0 a1 a s PF0 FO0 HL E4) as (P & F & Sd). split; [auto|]. split; [auto|congruence].
Qed.
End Stale.
