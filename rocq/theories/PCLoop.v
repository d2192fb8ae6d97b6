(** * C31: the loop of the preconditioner solver.  Proofs only. *)
From Coq Require Import Reals Lra Wf_nat.
From Verif Require Import Base BaseLemmas ReaderModel UncModel MuModel MuProofs SampleSpec SampleProofs TransformModel TransformSpec TransformProofs TransformProofs2 TransformMain EvalModel HistModel GNModel GNSpec GNAlgebra GNTerms GNMain GNLoop GNTotal GNForward GNForward2 GNOutput PCModel PCSpec PCAlgebra PCMatrix.
Open Scope nat_scope.

Lemma sqrt_up_ceil x : ceil_sqrt x (Nat.sqrt_up x).
Proof.
  split.
  - destruct x; [cbn; lia|]. pose proof (Nat.sqrt_up_spec (S x) ltac:(lia)). lia.
  - intros k Hk. apply Nat.sqrt_up_le_square; lia.
Qed.

Lemma norm2_distance x y : norm2 (zip2 Rminus x y) = distance x y.
Proof. unfold norm2, distance. f_equal. induction (zip2 Rminus x y) as [|a l IH]; [reflexivity|]. cbn [map inner]. rewrite rsum_cons, IH. reflexivity. Qed.

Section Loop.
Context {T : Type}.
Variables (cholesky : list (list R) -> res (list (list R))) (solve : list (list R) -> list R -> res (list R)).
Variable least_squares : nat -> solver T -> list (list R) -> list R -> res (list (list R) * list R).
Notation pass := (pc_pass cholesky solve least_squares).

Hypothesis ls_len : same_length least_squares.

(** The passes made from a given point of the loop. *)
Lemma loop_passes tol fuel : forall st a0 n last st' l conv n', pc_loop T cholesky solve least_squares tol fuel st a0 n last = Ok (st', l, conv, n') ->
  exists sts as_ LKs, length as_ = S (length LKs) /\ length sts = S (length LKs) /\ nth_error as_ 0 = Some a0 /\ nth_error sts 0 = Some st /\
    (forall k s s' a a' LK, nth_error sts k = Some s -> nth_error sts (S k) = Some s' -> nth_error as_ k = Some a -> nth_error as_ (S k) = Some a' ->
       nth_error LKs k = Some LK -> pass (n + k) s a LK s' a') /\
    n' = n + length LKs /\ length LKs <= fuel /\ nth_error sts (length LKs) = Some st' /\
    (LKs = [] -> l = last /\ fuel = 0 /\ conv = false) /\
    (forall k LK a, length LKs = S k -> nth_error LKs k = Some LK -> nth_error as_ (S k) = Some a -> l = Some (LK, a)) /\
    (forall k a a', S k < length LKs -> nth_error as_ k = Some a -> nth_error as_ (S k) = Some a' -> ~ (distance a' a < tol)%R) /\
    (forall k a a', length LKs = S k -> nth_error as_ k = Some a -> nth_error as_ (S k) = Some a' -> if conv then (distance a' a < tol)%R else ~ (distance a' a < tol)%R) /\
    (conv = false -> length LKs = fuel).
Proof.
  induction fuel as [|fuel IH]; intros st a0 n last st' l conv n' H; cbn [pc_loop] in H.
  - injection H as <- <- <- <-. exists [st], [a0], []. cbn [length]. do 4 (split; [reflexivity|]). split; [intros k s s' a a' LK _ _ _ _ H; destruct k; discriminate|].
    split; [lia|]. split; [lia|]. split; [reflexivity|]. split; [auto|]. split; [intros; discriminate|]. split; [intros; lia|]. split; [intros; lia|auto].
  - destruct (calc_VK T st) as [VK|] eqn:E1; [|discriminate]. cbn [bind] in H. destruct (cholesky VK) as [LK|] eqn:E2; [|discriminate]. cbn [bind] in H.
    destruct (least_squares n st LK a0) as [(tried, a1)|] eqn:E3; [|discriminate]. cbn [bind fst snd] in H.
    destruct (pc_calls T solve st LK tried) as [st1|] eqn:E4; [|discriminate]. cbn [bind] in H.
    pose proof (ls_len _ _ _ _ _ _ E3) as La. rewrite bop_eq in H by auto. cbn [bind] in H. rewrite norm2_distance in H.
    assert (P0 : pass n st a0 LK st1 a1) by (exists VK, tried; auto).
    destruct (rltb (distance a1 a0) tol) eqn:Et.
    + injection H as <- <- <- <-. exists [st; st1], [a0; a1], [LK]. cbn [length]. do 4 (split; [reflexivity|]).
      split. { intros [|k] s s' a a' LK' H1 H2 H3 H4 H5; [|destruct k; discriminate]. cbn in H1, H2, H3, H4, H5. injection H1 as <-. injection H2 as <-. injection H3 as <-. injection H4 as <-. injection H5 as <-. rewrite Nat.add_0_r. auto. }
      split; [lia|]. split; [lia|]. split; [reflexivity|]. split; [discriminate|].
      split. { intros k LK' a Hk H1 H2. injection Hk as <-. cbn in H1, H2. injection H1 as <-. injection H2 as <-. reflexivity. }
      split; [intros; lia|]. split; [|discriminate]. intros k a a' Hk H1 H2. injection Hk as <-. cbn in H1, H2. injection H1 as <-. injection H2 as <-. unfold rltb in Et. destruct (Rlt_dec (distance a1 a0) tol); [auto|discriminate].
    + apply IH in H as (sts & as_ & LKs & H1 & H2 & H3 & H4 & H5 & H6 & H7 & H8 & H9 & H10 & H11 & H12 & H13).
      assert (Hn : ~ (distance a1 a0 < tol)%R) by (unfold rltb in Et; destruct (Rlt_dec (distance a1 a0) tol); [discriminate|auto]).
      exists (st :: sts), (a0 :: as_), (LK :: LKs). cbn [length]. do 2 (split; [lia|]). do 2 (split; [reflexivity|]).
      split. { intros [|k] s s' a a' LK' K1 K2 K3 K4 K5; cbn [nth_error] in *.
        - injection K1 as <-. injection K3 as <-. injection K5 as <-. assert (s' = st1) by congruence. assert (a' = a1) by congruence. subst. rewrite Nat.add_0_r. auto.
        - replace (n + S k) with (S n + k) by lia. eapply H5; eauto. }
      split; [lia|]. split; [lia|]. split; [auto|]. split; [discriminate|].
      split. { intros k LK' a Hk K1 K2. injection Hk as Hk. destruct k as [|k].
        - destruct LKs; [|discriminate]. cbn [nth_error] in K1, K2. injection K1 as <-. change (nth_error as_ 0 = Some a) in K2. rewrite H3 in K2. injection K2 as <-. destruct (H9 eq_refl) as (-> & _). reflexivity.
        - cbn [nth_error] in K1, K2. eapply H10; eauto. }
      split. { intros [|k] a a' Hk K1 K2; cbn [nth_error] in *; [|eapply H11; eauto; lia]. injection K1 as <-. rewrite H3 in K2. injection K2 as <-. auto. }
      split. { intros k a a' Hk K1 K2. injection Hk as Hk. destruct k as [|k]; cbn [nth_error] in *; [|eapply H12; eauto].
        injection K1 as <-. rewrite H3 in K2. injection K2 as <-. destruct LKs; [|discriminate]. destruct (H9 eq_refl) as (_ & _ & ->). auto. }
      intros Hc. rewrite (H13 Hc). reflexivity.
Qed.

Lemma run_passes qr_R lstsq_eye st tol r : runPC T cholesky solve least_squares qr_R lstsq_eye st tol = Ok r ->
  exists sts as_ LKs, pc_passes cholesky solve least_squares st (sd_a T (g_sd T st)) sts as_ LKs /\
    pc_iter r = length LKs /\ 1 <= length LKs /\
    (exists c, ceil_sqrt (length (m_values R T (g_m T st)) + length (sd_a T (g_sd T st))) c /\ length LKs <= 20 + c /\
       (length LKs < 20 + c -> forall k a a', length LKs = S k -> nth_error as_ k = Some a -> nth_error as_ (S k) = Some a' -> (distance a' a < tol)%R)) /\
    (forall k a a', S k < length LKs -> nth_error as_ k = Some a -> nth_error as_ (S k) = Some a' -> ~ (distance a' a < tol)%R) /\
    nth_error as_ (length LKs) = Some (pc_a r).
Proof.
  unfold runPC. intros H. destruct (pc_loop _ _ _ _ _ _ _ _ _ _) as [(((st' & l) & conv) & n)|] eqn:E; [|discriminate]. cbn [bind] in H.
  destruct (loop_passes _ _ _ _ _ _ _ _ _ _ E) as (sts & as_ & LKs & H1 & H2 & H3 & H4 & H5 & H6 & H7 & H8 & H9 & H10 & H11 & H12 & H13).
  destruct l as [(LK & a)|]; [|discriminate]. cbn [bind fst snd] in H.
  destruct (pc_update T st' a) as [st2|]; [|discriminate]. cbn [bind] in H. destruct (get_Ja T solve st2 LK) as [J|]; [|discriminate]. cbn [bind] in H.
  destruct (qr_R J) as [Rm|]; [|discriminate]. cbn [bind] in H. destruct (lstsq_eye Rm) as [U|]; [|discriminate]. cbn [bind] in H. injection H as <-. cbn [pc_iter pc_a].
  exists sts, as_, LKs. split. { split; [auto|]. split; [auto|]. split; [auto|]. split; [auto|]. intros. apply (H5 k); auto. }
  assert (Hne : LKs <> []). { intros H0. destruct (H9 H0) as (Hl & _). discriminate. }
  split; [lia|]. split; [destruct LKs; [congruence|cbn; lia]|]. split; [|split; [auto|]].
  - exists (Nat.sqrt_up (length (m_values R T (g_m T st)) + length (sd_a T (g_sd T st)))). split; [apply sqrt_up_ceil|]. split; [exact H7|].
    intros Hlt k a1 a2 Hk K1 K2. specialize (H12 k a1 a2 Hk K1 K2). destruct conv; [auto|]. specialize (H13 eq_refl). unfold pc_mxiter in H13. lia.
  - destruct (length LKs) as [|k] eqn:Ek; [destruct LKs; [congruence|discriminate]|].
    destruct (nth_error LKs k) as [LK'|] eqn:EL; [|apply nth_error_None in EL; lia]. destruct (nth_error as_ (S k)) as [a'|] eqn:Ea; [|apply nth_error_None in Ea; lia].
    specialize (H10 k LK' a' eq_refl EL Ea). injection H10 as _ ->. reflexivity.
Qed.

Lemma gram_psd U n x : length U = n -> length x = n -> (0 <= quad (gram U) x)%R.
Proof. intros L Lx. rewrite (quad_qf _ n) by (auto; rewrite <- L; apply gram_square). rewrite <- L. apply gram_nonneg. Qed.

Lemma run_covariance qr_R lstsq_eye st tol r : runPC T cholesky solve least_squares qr_R lstsq_eye st tol = Ok r ->
  exists n, square (pc_V r) n /\ symmetric (pc_V r) /\ forall x, length x = n -> (0 <= quad (pc_V r) x)%R.
Proof.
  unfold runPC. intros H. destruct (pc_loop _ _ _ _ _ _ _ _ _ _) as [(((st' & l) & conv) & n)|] eqn:E; [|discriminate]. cbn [bind] in H.
  destruct l as [(LK & a)|]; [|discriminate]. cbn [bind fst snd] in H.
  destruct (pc_update T st' a) as [st2|]; [|discriminate]. cbn [bind] in H. destruct (get_Ja T solve st2 LK) as [J|]; [|discriminate]. cbn [bind] in H.
  destruct (qr_R J) as [Rm|]; [|discriminate]. cbn [bind] in H. destruct (lstsq_eye Rm) as [U|]; [|discriminate]. cbn [bind] in H. injection H as <-. cbn [pc_V].
  exists (length U). split; [apply gram_square|]. split.
  - apply (entry_sym_out _ (length U)); [apply gram_square|]. intros p q Hp Hq. rewrite !gram_entry by auto. apply inner_comm.
  - intros x Lx. apply (gram_psd U (length U)); auto.
Qed.
End Loop.

From Verif Require Import GNAdjoint GNResidual SensorSpec EvalSpec PCSide PCWeights PCWeights2 PCWeights3 PCJac PCJac2.
Section Returns.
Context {T : Type}.
Variables (cholesky : list (list R) -> res (list (list R))) (solve : list (list R) -> list R -> res (list R)).
Variable least_squares : nat -> solver T -> list (list R) -> list R -> res (list (list R) * list R).
Variables (qr_R lstsq_eye : list (list R) -> res (list (list R))).

Lemma calls_ok (m : mobj R T) LK : forall tried st a, pc_for m st a -> functions_ok m st -> solve_total solve ->
  lower_triangular LK (list_sum (Nm (m_idx R T m))) -> (forall x, In x tried -> length x = length a) ->
  exists st' a', pc_calls T solve st LK tried = Ok st' /\ g_m T st' = g_m T st /\ g_sd T st' = g_sd T st /\ pc_for m st' a' /\ functions_ok m st'.
Proof.
  induction tried as [|x tried IH]; intros st a PF FO ST SL HT; [exists st, a; do 4 (split; [auto|]); auto|].
  unfold pc_calls. cbn [foldM].
  assert (Lx : length x = length a) by (apply HT; left; auto).
  destruct (update_for m st a x PF FO) as (st1 & E1 & Em & Es & PF1 & FO1); [rewrite Lx; apply (pf_a _ _ _ PF)|].
  rewrite E1. cbn [bind]. destruct (kJ_values m st1 x PF1 FO1) as (k & Ja & Ek & Lk & _).
  unfold get_f at 1. rewrite Ek. cbn [bind fst].
  assert (Lks : length (m_ks R T (g_m T st1)) = list_sum (Nm (m_idx R T m))).
  { apply (ks_len (pm m) (pst m st1) (SF' m st1 x PF1)). }
  rewrite bop_eq by congruence. cbn [bind].
  destruct (ST LK (list_sum (Nm (m_idx R T m))) (zip2 Rminus k (m_ks R T (g_m T st1))) SL) as (y & Ey); [rewrite zip2_len; lia|]. rewrite Ey. cbn [bind].
  destruct (IH st1 x PF1 FO1 ST SL) as (st' & a' & E' & Em' & Es' & PF' & FO'). { intros y0 Hy. rewrite Lx. apply HT. right. auto. }
  exists st', a'. split; [exact E'|]. do 2 (split; [congruence|]). auto.
Qed.

Lemma loop_returns (m : mobj R T) tol : cholesky_total cholesky -> solve_total solve -> least_squares_total least_squares ->
  forall fuel st a a0 n last, pc_for m st a -> functions_ok m st -> one_effect_per_sensor m st -> length a0 = length a ->
  (exists x, last = Some x /\ lower_triangular (fst x) (list_sum (Nm (m_idx R T m))) /\ length (snd x) = length a) \/ 1 <= fuel ->
  exists st' a' LK x conv n', pc_loop T cholesky solve least_squares tol fuel st a0 n last = Ok (st', Some (LK, x), conv, n') /\
    pc_for m st' a' /\ functions_ok m st' /\ g_sd T st' = g_sd T st /\ length x = length a /\ lower_triangular LK (list_sum (Nm (m_idx R T m))).
Proof.
  intros CT ST LT. induction fuel as [|fuel IH]; intros st a a0 n last PF FO OE La Hf; cbn [pc_loop].
  - destruct Hf as [((LK & x) & -> & H1 & H2)|Hf]; [|lia]. cbn [fst snd] in *. exists st, a, LK, x, false, n. do 5 (split; [auto|]). auto.
  - destruct (VK_propagated m st a PF FO OE) as (V & EV & _). rewrite EV. cbn [bind].
    destruct (VK_good st V EV) as (nn & Enn & G). apply good_spd in G.
    assert (Hnn : nn = list_sum (Nm (m_idx R T m))).
    { destruct (SLd m st a PF) as (_ & _ & _ & S4 & _). rewrite S4, (wf_cnm _ (pf_wf _ _ _ PF)), pylast_cumul in Enn. injection Enn as <-. reflexivity. }
    subst nn. destruct (CT V _ G) as (LK & EL & CF). assert (SL : lower_triangular LK (list_sum (Nm (m_idx R T m)))) by (destruct CF as (C1 & C2 & C3 & _); split; auto). rewrite EL. cbn [bind].
    destruct (LT n st LK a0) as (tried & a1 & E1 & T1 & T2). rewrite E1. cbn [bind fst snd].
    destruct (calls_ok m LK tried st a PF FO ST SL) as (st1 & a2 & E2 & Em & Es & PF1 & FO1). { intros x Hx. rewrite (T1 x Hx). auto. }
    rewrite E2. cbn [bind]. rewrite bop_eq by auto. cbn [bind].
    assert (OE1 : one_effect_per_sensor m st1) by (destruct OE; constructor; auto; rewrite Es; auto).
    assert (La2 : length a2 = length a) by (rewrite (pf_a _ _ _ PF1), (pf_a _ _ _ PF), Es; auto).
    destruct (rltb _ _).
    + exists st1, a2, LK, a1, true, (S n). do 3 (split; [auto|]). split; [auto|]. split; [congruence|auto].
    + destruct (IH st1 a2 a1 (S n) (Some (LK, a1)) PF1 FO1 OE1) as (st' & a' & LK' & x & conv & n' & E' & P1 & P2 & P3 & P4 & P5); [congruence|left; exists (LK, a1); cbn [fst snd]; split; [auto|]; split; [auto|congruence]|].
      exists st', a', LK', x, conv, n'. split; [exact E'|]. split; [auto|]. split; [auto|]. split; [congruence|]. split; [congruence|auto].
Qed.

Lemma run_returns (m : mobj R T) st tol : cholesky_total cholesky -> solve_total solve -> least_squares_total least_squares ->
  (forall J, exists x, qr_R J = Ok x) -> (forall M, exists x, lstsq_eye M = Ok x) ->
  pc_for m st (sd_a T (g_sd T st)) -> functions_ok m st -> one_effect_per_sensor m st ->
  exists r, runPC T cholesky solve least_squares qr_R lstsq_eye st tol = Ok r.
Proof.
  intros CT ST LT QT LQ PF FO OE. unfold runPC.
  destruct (loop_returns m tol CT ST LT (pc_mxiter T st) st _ (sd_a T (g_sd T st)) 0 None PF FO OE eq_refl) as (st' & a' & LK & x & conv & n' & E & PF' & FO' & Es & Lx & SL); [right; unfold pc_mxiter; lia|].
  rewrite E. cbn [bind fst snd].
  destruct (update_for m st' a' x PF' FO') as (st2 & E2 & _ & _ & PF2 & FO2); [rewrite Es; auto|]. rewrite E2. cbn [bind].
  destruct (kJ_values m st2 x PF2 FO2) as (k & Ja & Ek & _ & _ & LJ & _). unfold get_Ja. rewrite Ek. cbn [bind snd].
  destruct (mapM_ok_ex (solve LK) Ja) as (J & EJ). { intros col Hc. apply (ST LK _ col SL). auto. }
  rewrite EJ. cbn [bind]. destruct (QT J) as (Rm & ->). cbn [bind]. destruct (LQ Rm) as (U & ->). cbn [bind]. eauto.
Qed.
End Returns.
