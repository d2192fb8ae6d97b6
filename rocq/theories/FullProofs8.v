(** Proofs for C119: the preconditioner of a whole harmonisation. *)
From Coq Require Import Reals Lra Permutation QArith Qreals.
From Verif Require Import Base BaseLemmas ReaderModel ReaderSpec UncModel SensorModel SensorSpec MuModel MuProofs SampleModel SampleSpec SampleMain SampleMain2
  TransformModel TransformSpec TransformProofs TransformProofs2 TransformMain EvalModel EvalSpec GNModel GNMain PCModel PCAlgebra PCMatrix PCJac2 PCLoop PCWhite PCSpec LsmrModel EivModel EivSpec EivProofs3 FullModel FullSpec FullProofs6 FullProofs7 GNSpec.
Open Scope nat_scope.

Lemma gram_spd U M n : inverses U M n -> spd (gram U) n.
Proof.
  intros ((LU & RU) & _ & PR). assert (SG : square (gram U) n) by (rewrite <- LU; apply gram_square). split; [exact SG|]. split.
  { apply (entry_sym_out _ n SG). intros p q Hp Hq. rewrite !gram_entry by lia. apply inner_comm. }
  intros x Lx (j & Hj). assert (Hjn : j < n). { destruct (le_lt_dec n j) as [H|H]; [|exact H]. exfalso. apply Hj. apply nth_overflow. lia. }
  rewrite (quad_qf _ n) by auto.
  assert (EQ : forall p q, p < n -> q < n -> entry (gram U) p q = sm n (fun t => entry U p t * entry U q t)%R).
  { intros p q Hp Hq. rewrite gram_entry by lia. apply inner_sm; apply RU, nth_In; lia. }
  rewrite (qf_ext n _ (fun p q => sm n (fun t => entry U p t * entry U q t)%R) _ (fun i => nth i x 0%R)) by (exact EQ || reflexivity).
  rewrite (qf_gram n n (fun t p => entry U p t)). cbv zeta.
  set (y := fun t => sm n (fun p => nth p x 0 * entry U p t)%R).
  destruct (Rlt_or_le 0 (sm n (fun t => y t * y t)%R)) as [P|P]; [exact P|exfalso].
  assert (Z : forall t, t < n -> y t = 0%R).
  { intros t Ht. destruct (Req_dec (y t) 0) as [|Hn]; [assumption|]. exfalso. assert (0 < sm n (fun t => y t * y t))%R; [|lra].
    apply (sm_pos n _ t); auto; [intros i _|]; nra. }
  apply Hj.
  assert (E : nth j x 0%R = sm n (fun t => y t * entry M t j)%R).
  { unfold y. rewrite (sm_ext n (fun t => sm n (fun p => nth p x 0 * entry U p t) * entry M t j)%R (fun t => sm n (fun p => nth p x 0 * (entry U p t * entry M t j)))%R).
    2:{ intros t Ht. rewrite <- sm_scal_r. apply sm_ext. intros. ring. }
    rewrite sm_swap. rewrite (sm_ext n _ (fun p => if p =? j then nth p x 0%R else 0%R)).
    2:{ intros p Hp. rewrite sm_scal. destruct (PR p j Hp Hjn) as (P1 & _). unfold mat_prod in P1. rewrite rsum_sm in P1. rewrite P1. unfold delta. destruct (p =? j); ring. }
    rewrite sm_delta by auto. reflexivity. }
  rewrite E. apply sm_zero. intros t Ht. rewrite (Z t Ht). ring.
Qed.

(** Solving with a triangular matrix keeps columns independent. *)
Lemma whiten_independent solve LK Ja J n : solve_exact solve -> lower_triangular LK n -> mapM (solve LK) Ja = Ok J -> independent_columns Ja n -> independent_columns J n.
Proof.
  intros SE LT EJ (LC & IND). pose proof (mapM_length _ _ _ EJ) as L.
  assert (C : forall i col, nth_error Ja i = Some col -> exists x, nth_error J i = Some x /\ length x = n /\ mul_vec LK x = col).
  { intros i col H. destruct (mapM_nth _ _ _ _ _ EJ H) as (x & E & Hx). destruct (SE LK n col LT (LC col (nth_error_In _ _ H))) as (x' & E' & Q1 & Q2). rewrite E in E'. injection E' as <-. eauto. }
  assert (LJ : forall col, In col J -> length col = n).
  { intros col H. apply In_nth_error in H. destruct H as (i & H). assert (i < length Ja) by (rewrite <- L; apply nth_error_Some; congruence). destruct (nth_error Ja i) as [c|] eqn:Ec; [|apply nth_error_None in Ec; lia].
    destruct (C i c Ec) as (x & Q1 & Q2 & _). rewrite H in Q1. injection Q1 as <-. exact Q2. }
  split; [exact LJ|]. rewrite L. intros x Lx Hz. apply IND; [exact Lx|]. intros p Hp.
  assert (Rd : forall (A : list (list R)) q, length A = length x -> row_dot A x q = sm (length x) (fun i => nth q (nth i A []) 0 * nth i x 0)%R).
  { intros A q HA. unfold row_dot. rewrite (inner_sm (length x)) by (rewrite ?map_length; auto). apply sm_ext. intros i Hi. rewrite (nth_indep _ 0%R (nth q [] 0%R)) by (rewrite map_length; lia). rewrite (map_nth (fun col => nth q col 0%R)). reflexivity. }
  rewrite Rd by lia. destruct LT as (SL & _).
  rewrite (sm_ext _ _ (fun i => sm n (fun t => entry LK p t * (nth t (nth i J []) 0 * nth i x 0)))%R).
  2:{ intros i Hi. destruct (nth_error Ja i) as [col|] eqn:Ec; [|apply nth_error_None in Ec; lia]. destruct (C i col Ec) as (y & Y1 & Y2 & Y3).
      rewrite (nth_error_nth _ _ _ Ec), (nth_error_nth _ _ _ Y1), <- Y3. rewrite (mul_vec_sm LK n) by auto. rewrite <- sm_scal_r. apply sm_ext. intros. ring. }
  rewrite sm_swap. apply sm_zero. intros t Ht. rewrite sm_scal. rewrite <- Rd by lia. rewrite Hz by lia. ring.
Qed.

Section Pre.
Context {T : Type} (zeroT : T).
Variables (cholesky : list (list R) -> res (list (list R))) (solve : list (list R) -> list R -> res (list R)).
Variable least_squares : nat -> solver T -> list (list R) -> list R -> res (list (list R) * list R).
Variables (qr_R lstsq_eye : list (list R) -> res (list (list R))) (smp : nat -> list nat -> nat -> list nat).

Lemma run_full (m : mobj R T) st tol : cholesky_total cholesky -> solve_exact solve -> least_squares_total least_squares ->
  (forall J, exists x, qr_R J = Ok x) -> qr_exact qr_R -> (forall M, exists x, lstsq_eye M = Ok x) -> lstsq_exact lstsq_eye ->
  pc_for m st (sd_a T (g_sd T st)) -> functions_ok m st -> one_effect_per_sensor m st ->
  exists r st2 k Ja, runPC T cholesky solve least_squares qr_R lstsq_eye st tol = Ok r /\ length (pc_a r) = length (sd_a T (g_sd T st)) /\
    g_m T st2 = g_m T st /\ g_sd T st2 = g_sd T st /\ g_xyza T st2 = m_values R T (g_m T st) ++ pc_a r /\ pc_kJ T st2 = Ok (k, Ja) /\ length Ja = length (pc_a r) /\
    (independent_columns Ja (list_sum (Nm (m_idx R T m))) -> spd (pc_V r) (length (pc_a r))).
Proof.
  intros CT SE LT QT QE LQ LE PF FO OE. assert (ST : solve_total solve). { intros L n d H1 H2. destruct (SE L n d H1 H2) as (x & E & _). eauto. }
  unfold runPC.
  assert (IN : g_m T st = g_m T st) by reflexivity.
  destruct (loop_returns cholesky solve least_squares m tol CT ST LT (pc_mxiter T st) st _ (sd_a T (g_sd T st)) 0 None PF FO OE eq_refl) as (st' & a' & LK & x & conv & n' & E & PF' & FO' & Es & Lx & SL); [right; unfold pc_mxiter; lia|].
  rewrite E. cbn [bind fst snd].
  destruct (update_for m st' a' x PF' FO') as (st2 & E2 & Em2 & Es2 & PF2 & FO2); [rewrite Es; auto|]. rewrite E2. cbn [bind].
  destruct (kJ_values m st2 x PF2 FO2) as (k & Ja & Ek & _ & LJa & LJ & _). unfold get_Ja. rewrite Ek. cbn [bind snd].
  destruct (mapM_ok_ex (solve LK) Ja) as (J & EJ). { intros col Hc. apply (ST LK _ col SL). auto. }
  rewrite EJ. cbn [bind]. destruct (QT J) as (Rm & EQ). rewrite EQ. cbn [bind]. destruct (LQ Rm) as (U & EU). rewrite EU. cbn [bind].
  assert (Em : g_m T st2 = g_m T st). { pose proof (pf_run _ _ _ PF2) as A. rewrite (pf_run _ _ _ PF) in A. injection A as <-. reflexivity. }
  eexists. exists st2, k, Ja. split; [reflexivity|]. cbn [pc_a pc_V]. split; [exact Lx|]. split; [exact Em|]. split; [congruence|]. split; [rewrite (pf_xyza _ _ _ PF2), Em; reflexivity|]. split; [exact Ek|]. split; [congruence|].
  intros IND. pose proof (whiten_independent solve LK Ja J _ SE SL EJ IND) as IJ. destruct (QE J Rm EQ) as (SR & GR). pose proof (qr_injective J Rm _ SR GR IJ) as Inj.
  pose proof (LE Rm U _ SR Inj EU) as IV. rewrite (mapM_length _ _ _ EJ), LJa, Es2, Es in IV. rewrite Lx. exact (gram_spd _ _ _ IV).
Qed.

Lemma precondition_ok (m : mobj R T) sd : cholesky_total cholesky -> solve_exact solve -> least_squares_total least_squares ->
  (forall J, exists x, qr_R J = Ok x) -> qr_exact qr_R -> (forall M, exists x, lstsq_eye M = Ok x) -> lstsq_exact lstsq_eye -> is_sample smp ->
  ready m sd -> complete_mobj m -> w_rows m ->
  exists s d a V st k Ja, sample2ind R T 0%R zeroT rms_u smp m (1 # 10)%Q 100000%Z = Ok s /\ tn_run T s = Ok d /\
    precondition zeroT cholesky solve least_squares qr_R lstsq_eye smp m sd = Ok (a, V) /\ length a = length (sd_a T sd) /\
    g_m T st = d /\ g_sd T st = sd /\ g_xyza T st = m_values R T d ++ a /\ pc_kJ T st = Ok (k, Ja) /\ length Ja = length a /\
    (independent_columns Ja (list_sum (Nm (m_idx R T s))) -> spd V (length a)).
Proof.
  intros CT SE LT QT QE LQ LE IS RD CM WR.
  destruct (sampling_succeeds 0%R zeroT rms_u smp m (1 # 10)%Q 100000%Z (rd_wf _ _ RD) CM IS) as (s & Es); [split; unfold Qle; cbn; lia|lia|].
  destruct (sampled_facts zeroT rms_u smp m s _ _ (rd_wf _ _ RD) Es) as (sel & SA).
  destruct (run_spec s (s_wf m s sd sel RD SA) (s_shapes m s sd sel RD SA)) as (nv & ns & vs & ix' & _ & _ & _ & _ & _ & _ & _ & Ed). match type of Ed with _ = Ok ?x => set (d := x) in * end.
  pose proof (s_pc m s sd sel RD WR SA d Ed) as PF.
  destruct (run_full s (gn_init T d sd (sd_cs T sd)) (1 / 1000000)%R CT SE LT QT QE LQ LE PF) as (r & st2 & k & Ja & Er & La & Em & Esd & Ex & Ek & LJ & SP).
  { apply (s_functions m s sd sel RD SA). repeat split. }
  { apply (s_effects m s sd sel RD SA). }
  exists s, d, (pc_a r), (pc_V r), st2, k, Ja. split; [exact Es|]. split; [exact Ed|]. split.
  { unfold precondition. rewrite Es. cbn [bind]. rewrite Ed. cbn [bind]. rewrite Er. reflexivity. }
  do 6 (split; [assumption|]). exact SP.
Qed.
End Pre.
