(** * Proofs for C144-C147: what the checker demands of files with types 1, 2 and 3. *)
From Coq Require Import Reals Lra.
From Verif Require Import Base BaseLemmas ReaderModel ReaderSpec ReaderMain UncModel UncSpec UncProofs SimModel WProofs2 AvModel CheckModel CheckSpec CheckProofs CheckProofs2 CheckProofs3 CheckProofs4 CheckProofs5 IOModel IOSpec IOProofs IOProofs2 ConvModel ConvSpec ConvSpec2 ConvProofs ConvProofs2 ConvProofs3 ConvProofs4 ConvProofs5.
Open Scope nat_scope.

(** ** Files without W matrices *)
Section B.
Context (f : ncfile) (p : mdata) (Hf : base_file f p).
Definition no_use (sd : side) : list nat := repeat 0 (p_m p sd).
Lemma bf_mat sd : matrix (p_Ur p sd) (p_M p) (p_m p sd) /\ matrix (p_Us p sd) (p_M p) (p_m p sd) /\ length (p_type p sd) = p_m p sd.
Proof. apply (base_mat f p sd); apply Hf. Qed.
Lemma base_assigned : all_assigned f <-> covs_ok p no_use.
Proof.
  pose proof (bf_wf _ _ Hf) as Hw.
  assert (EQ : all_assigned f <-> forall sd col, col < p_m p sd -> assigned f (snum sd) col).
  { unfold all_assigned. split.
    - intros (H1 & H2) sd col Hc. destruct sd; [apply (H1 _ col (bf_m _ _ Hf Side1) Hc)|apply (H2 _ col (bf_m _ _ Hf Side2) Hc)].
    - intros H. split; intros m col Hm Hc; [pose proof (size_fun _ _ _ _ Hw Hm (bf_m _ _ Hf Side1)); subst m; exact (H Side1 col Hc)|pose proof (size_fun _ _ _ _ Hw Hm (bf_m _ _ Hf Side2)); subst m; exact (H Side2 col Hc)]. }
  assert (NU : forall sd, ~ present f ("w_matrix_use" ++ snum sd)) by (intros sd; apply (bf_now _ _ Hf); destruct sd; cbn; tauto).
  rewrite EQ. unfold covs_ok. split.
  - intros H sd cov ty ur us w Hc E1 E2 E3 E4.
    assert (Hl : cov - 1 < p_m p sd). { destruct (bf_mat sd) as (_ & _ & L). rewrite <- L. apply nth_error_Some. congruence. }
    destruct (H sd (cov - 1) Hl) as (ts & t & urs & uss & ur' & us' & w' & D1 & F1 & D2 & F2 & D3 & F3 & F4 & F5 & F6).
    pose proof (data_unique _ _ _ _ Hw D1 (bf_type _ _ Hf sd)) as Q1. injection Q1 as ->. pose proof (data_unique _ _ _ _ Hw D2 (bf_ur _ _ Hf sd)) as Q2. injection Q2 as ->.
    pose proof (data_unique _ _ _ _ Hw D3 (bf_us _ _ Hf sd)) as Q3. injection Q3 as ->.
    rewrite <- col_conv in F2, F3 by lia. pose proof (col_fun _ _ _ _ E2 F2) as <-. pose proof (col_fun _ _ _ _ E3 F3) as <-. rewrite E1 in F1. injection F1 as <-.
    unfold no_use in E4. rewrite repeat_nth in E4 by exact Hl. injection E4 as <-.
    destruct F4 as [(l & (v & V1 & V2 & _) & _)|(_ & ->)]; [exfalso; apply (NU sd); exists v; auto|]. split; assumption.
  - intros H sd col Hc. destruct (bf_mat sd) as (MR & MS & L).
    destruct (nth_error (p_type p sd) col) as [ty|] eqn:Et; [|apply nth_error_None in Et; lia].
    destruct (column_ex _ _ _ col MR Hc) as (ur & E2). destruct (column_ex _ _ _ col MS Hc) as (us & E3).
    assert (OF : only_form ty ur us 0) by (apply (H sd (col + 1) ty ur us 0); [lia|replace (col + 1 - 1) with col by lia; exact Et|exact E2|exact E3|unfold no_use; apply repeat_nth; lia]).
    rewrite !col_conv in E2, E3 by lia. replace (col + 1 - 1) with col in * by lia.
    exists (p_type p sd), ty, (p_Ur p sd), (p_Us p sd), ur, us, 0%Z.
    split; [apply Hf|]. split; [exact Et|]. split; [apply Hf|]. split; [exact E2|]. split; [apply Hf|]. split; [exact E3|]. split; [|exact OF].
    right. auto.
Qed.
Lemma base_x : x_uncertainties f <-> x_nonneg p.
Proof.
  pose proof (bf_wf _ _ Hf) as Hw. unfold x_uncertainties, x_nonneg. split.
  - intros H sd r x [Hr|Hr] Hx; [apply (H ("Ur" ++ snum sd)%string (p_Ur p sd) r x)|apply (H ("Us" ++ snum sd)%string (p_Us p sd) r x)]; try apply Hf; auto; destruct sd; cbn; tauto.
  - intros H n rows r x Hn HD Hr Hx. destruct Hn as [<- |[<- |[<- |[<- |[]]]]].
    + pose proof (data_unique _ _ _ _ Hw HD (bf_ur _ _ Hf Side1)) as Q. injection Q as ->. eapply H; eauto.
    + pose proof (data_unique _ _ _ _ Hw HD (bf_ur _ _ Hf Side2)) as Q. injection Q as ->. eapply H; eauto.
    + pose proof (data_unique _ _ _ _ Hw HD (bf_us _ _ Hf Side1)) as Q. injection Q as ->. eapply H; eauto.
    + pose proof (data_unique _ _ _ _ Hw HD (bf_us _ _ Hf Side2)) as Q. injection Q as ->. eapply H; eauto.
Qed.
Theorem base_accepted : check f = Ok [] <-> good_with p no_use /\ x_nonneg p.
Proof.
  rewrite (check_iff f (bf_wf _ _ Hf)). unfold acceptable, good_with. fold (covs_ok p no_use). rewrite base_assigned, base_x.
  pose proof (bf_wf _ _ Hf) as Hw. pose proof (bf_req _ _ Hf) as HR.
  assert (T : two_sensors f <-> p_name p Side1 <> p_name p Side2).
  { unfold two_sensors. destruct Hw as (_ & _ & N & _). pose proof (bf_names _ _ Hf Side1) as A1. pose proof (bf_names _ _ Hf Side2) as A2. unfold file_sensor in A1, A2. cbn [snum append] in A1, A2. split.
    - intros (a & b & Ha & Hb & H). apply (lookup_nodup _ _ _ N) in Ha, Hb, A1, A2. congruence.
    - intros H. exists (p_name p Side1), (p_name p Side2). auto. }
  assert (K : k_uncertainties f <-> forall i r s, nth_error (p_Kr p) i = Some r -> nth_error (p_Ks p) i = Some s -> (0 <= r /\ 0 <= s /\ (0 < r \/ 0 < s))%R).
  { unfold k_uncertainties. split; [intros H; apply H; apply Hf|].
    intros H kr ks H1 H2. pose proof (data_unique _ _ _ _ Hw H1 (bf_kr _ _ Hf)) as Q1. pose proof (data_unique _ _ _ _ Hw H2 (bf_ks _ _ Hf)) as Q2. injection Q1 as ->. injection Q2 as ->. exact H. }
  rewrite T, K. pose proof (bf_now _ _ Hf) as HN. split; [intros (_ & _ & H1 & H2 & H3 & H4); auto|]. intros ((H1 & H2 & H4) & H3). split; [exact HR|]. split; [right; exact HN|]. auto.
Qed.
End B.

(** ** Covariates of types 1, 2 and 3 *)
Lemma declared_form t ur us w : ur <> [] -> us <> [] -> (t = 1%Z \/ t = 2%Z \/ t = 3%Z) -> (w <> 0 <-> t = 3%Z) -> (t = 3%Z -> Forall (eq 0%R) ur) -> (only_form t ur us w <-> as_declared t ur us).
Proof.
  intros Hr Hs Ht Hw H3. unfold only_form, form, as_declared. pose proof (pos_zero ur Hr) as PR. pose proof (pos_zero us Hs) as PS.
  destruct Ht as [-> |[-> | ->]].
  - assert (w = 0) by (destruct (Nat.eq_dec w 0) as [|N]; [auto|apply Hw in N; discriminate]). subst w. split; [intros (A & _); intuition lia|]. intros A. split; [intuition lia|]. intros t' B. intuition lia.
  - assert (w = 0) by (destruct (Nat.eq_dec w 0) as [|N]; [auto|apply Hw in N; discriminate]). subst w. split; [intros (A & _); intuition lia|]. intros A. split; [intuition lia|]. intros t' B. intuition lia.
  - specialize (H3 eq_refl). assert (w <> 0) by (apply Hw; reflexivity). split; [intros (A & _); intuition lia|]. intros A. assert (Z0 : Forall (eq 0%R) us) by (intuition lia). split; [right; right; left; repeat split; auto; lia|]. intros t' B. intuition lia.
Qed.

(** Every covariate has type 1, 2 or 3, those of type 3 a W matrix and no random uncertainties of their own. *)
Definition simple_use (p : mdata) (use : side -> list nat) : Prop :=
  forall sd c t w, nth_error (p_type p sd) c = Some t -> nth_error (use sd) c = Some w -> (t = 1%Z \/ t = 2%Z \/ t = 3%Z) /\ (w <> 0 <-> t = 3%Z) /\
    (t = 3%Z -> forall ur, CheckSpec.is_column (p_Ur p sd) c ur -> Forall (eq 0%R) ur).
Theorem declared_iff p use : p_M p <> 0 -> (forall sd, matrix (p_Ur p sd) (p_M p) (p_m p sd) /\ matrix (p_Us p sd) (p_M p) (p_m p sd) /\ length (p_type p sd) = p_m p sd /\ length (use sd) = p_m p sd) ->
  simple_use p use -> (good_with p use /\ x_nonneg p <-> declared_values p).
Proof.
  intros HM HS HU. unfold good_with, declared_values. fold (covs_ok p use).
  assert (NE : forall (rows : list (list R)) k c col, matrix rows (p_M p) k -> CheckSpec.is_column rows c col -> col <> []) by (intros rows k c col (L & _) (L' & _) ->; cbn in L'; lia).
  assert (CV : covs_ok p use <-> forall sd c t ur us, nth_error (p_type p sd) c = Some t -> CheckSpec.is_column (p_Ur p sd) c ur -> CheckSpec.is_column (p_Us p sd) c us -> as_declared t ur us).
  { unfold covs_ok. split.
    - intros H sd c t ur us Et C1 C2. destruct (HS sd) as (MR & MS & L & LU). assert (Hc : c < p_m p sd) by (rewrite <- L; apply nth_error_Some; congruence).
      destruct (nth_error (use sd) c) as [w|] eqn:Ew; [|apply nth_error_None in Ew; lia]. destruct (HU sd c t w Et Ew) as (A & B & C).
      apply (declared_form t ur us w (NE _ _ _ _ MR C1) (NE _ _ _ _ MS C2) A B (fun E => C E ur C1)).
      apply (H sd (c + 1)); [lia|replace (c + 1 - 1) with c by lia; exact Et|apply col_conv; [lia|replace (c + 1 - 1) with c by lia; exact C1]|apply col_conv; [lia|replace (c + 1 - 1) with c by lia; exact C2]|replace (c + 1 - 1) with c by lia; exact Ew].
    - intros H sd cov t ur us w Hc Et C1 C2 Ew. apply (proj1 (col_conv _ _ _ Hc)) in C1. apply (proj1 (col_conv _ _ _ Hc)) in C2. destruct (HS sd) as (MR & MS & _). destruct (HU sd _ t w Et Ew) as (A & B & C).
      apply (declared_form t ur us w (NE _ _ _ _ MR C1) (NE _ _ _ _ MS C2) A B (fun E => C E ur C1)). exact (H sd _ t ur us Et C1 C2). }
  assert (XN : covs_ok p use -> x_nonneg p).
  { rewrite CV. intros H sd r x Hr Hx. destruct (HS sd) as (MR & MS & L & LU). apply In_nth_error in Hx. destruct Hx as (c & Hx).
    assert (Hl : length r = p_m p sd) by (destruct Hr as [Hr|Hr]; [apply MR|apply MS]; exact Hr). assert (Hc : c < p_m p sd) by (rewrite <- Hl; apply nth_error_Some; congruence).
    destruct (columns_exist (p_Ur p sd) (p_m p sd) (proj2 MR) c Hc) as (ur & E1). destruct (columns_exist (p_Us p sd) (p_m p sd) (proj2 MS) c Hc) as (us & E2).
    destruct (nth_error (p_type p sd) c) as [t|] eqn:Et; [|apply nth_error_None in Et; lia]. destruct (nth_error (use sd) c) as [w|] eqn:Ew; [|apply nth_error_None in Ew; lia]. destruct (HU sd c t w Et Ew) as (_ & _ & C).
    specialize (H sd c t ur us Et E1 E2).
    assert (Q : (Forall (eq 0%R) ur \/ Forall (Rlt 0) ur) /\ (Forall (eq 0%R) us \/ Forall (Rlt 0) us)) by (destruct H as [(E & H)|[H|H]]; [split; [left; exact (C E ur E1)|auto]|tauto|tauto]).
    destruct Q as (Q1 & Q2). destruct Hr as [Hr|Hr]; apply In_nth_error in Hr; destruct Hr as (i & Hi).
    - destruct E1 as (_ & E1). specialize (E1 i r Hi). rewrite Hx in E1. apply nth_error_In in E1. destruct Q1 as [Q|Q]; rewrite Forall_forall in Q; specialize (Q x E1); lra.
    - destruct E2 as (_ & E2). specialize (E2 i r Hi). rewrite Hx in E2. apply nth_error_In in E2. destruct Q2 as [Q|Q]; rewrite Forall_forall in Q; specialize (Q x E2); lra. }
  split.
  - intros ((A & B & C) & _). split; [exact A|]. split; [exact B|]. apply (proj1 CV C).
  - intros (A & B & C). apply (proj2 CV) in C. auto.
Qed.
