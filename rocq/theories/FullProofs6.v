(** Proofs for C118: the run of the solver on an opened object. *)
From Coq Require Import Reals Lra.
From Verif Require Import Base BaseLemmas ReaderModel ReaderSpec UncModel SensorModel SensorSpec MuModel SampleModel SampleSpec TransformModel TransformSpec TransformProofs TransformMain EvalModel EvalSpec GNModel
  PCModel PCSpec LsmrModel EivModel EivSpec EivProofs3 FullModel FullSpec GNSpec.
Open Scope nat_scope.

Lemma in_list_sum x l : In x l -> x <= list_sum l.
Proof. induction l as [|y l IH]; intros H; [destruct H|]. change (list_sum (y :: l)) with (y + list_sum l). destruct H as [->|H]; [lia|]. specialize (IH H). lia. Qed.

Section Run.
Context {T : Type}.
Variables (m : mobj R T) (sd : sdat T) (RD : ready m sd).

Lemma ready_functions st : same_functions sd (g_sd T st) -> functions_ok m st.
Proof.
  intros (E1 & E2 & E3 & E4). split; [rewrite E4; intros s b r H; destruct (rd_adj _ _ RD s b r H) as (r' & B & Q1 & Q2 & _); eauto|].
  intros n p s name ps ms N f b X a c xt al t Hp Hs Hn Hps Hms HN Hf Hb HX HXl Ha Hc Hxt Hal Ht. rewrite E3 in Hf. rewrite E4 in Hb. rewrite E1, E2 in Hc. subst c.
  destruct (rd_model _ _ RD n p s name ps ms N f X a xt al t Hp Hs Hn Hps Hms Hf HX HXl Ha Hxt Hal Ht) as (r & J & R1 & R2 & R3).
  destruct (rd_adj _ _ RD s b r Hb) as (r' & B & B1 & B2 & B3). exists r, J, r', B. do 3 (split; [assumption|]). split; [congruence|]. split; [congruence|exact R3].
Qed.
Lemma ready_evaluable sd' : same_functions sd sd' -> evaluable m sd'.
Proof. intros (E1 & E2 & E3 & E4). destruct (rd_ev _ _ RD) as [A1 A2 A3 A4 A5 A6 A7 A8 A9 A10 A11 A12]. constructor; auto. rewrite E3, E4. exact A9. Qed.

Lemma start_solver d a L : tn_run T m = Ok d -> length a = length (sd_a T sd) -> square L (length a) -> solver_for m (start sd d a L).
Proof.
  intros Ed Ha (L1 & L2). constructor; cbn [start g_m g_sd g_ocs g_xyza g_S sd_cs sd_a].
  - apply (rd_wf _ _ RD).
  - apply (rd_shapes _ _ RD).
  - apply (rd_oidx _ _ RD).
  - exact Ed.
  - apply ready_evaluable. repeat split.
  - apply (rd_some _ _ RD).
  - apply (rd_blocks _ _ RD).
  - apply (rd_covs _ _ RD).
  - destruct (rd_ps _ _ RD) as (ps & P1 & P2 & P3). exists ps. split; [exact P1|]. split; [exact P2|]. unfold n_pars. cbn. congruence.
  - reflexivity.
  - rewrite app_length. reflexivity.
  - split; assumption.
Qed.
Lemma run_dims : exists d, tn_run T m = Ok d /\ m_oidx R T d = Some (m_idx R T m) /\ m_ps R T d = m_ps R T m /\
  ((exists N, In N (Nm (m_idx R T m)) /\ 1 <= N) -> 1 <= length (m_values R T d)).
Proof.
  destruct (run_spec m (rd_wf _ _ RD) (rd_shapes _ _ RD)) as (nv & ns & vs & ix' & _ & _ & L1 & TS & Lv & _ & _ & E). eexists. split; [exact E|]. cbn [m_oidx m_ps m_values]. split; [apply (rd_oidx _ _ RD)|]. split; [reflexivity|].
  intros (N & HN & P). rewrite app_length, concat_length, Lv. apply In_nth_error in HN. destruct HN as (n & HN).
  assert (In (n + 1) (n_mu (m_idx R T m))) as Hi. { apply (wf_all_series _ (rd_wf _ _ RD)). assert (n < length (Nm (m_idx R T m))) by (apply nth_error_Some; congruence). lia. }
  apply In_nth_error in Hi. destruct Hi as (b & Hb). destruct (wf_series _ (rd_wf _ _ RD) b _ Hb) as (_ & N' & HN' & HV). replace (n + 1 - 1) with n in HN' by lia. rewrite HN in HN'. injection HN' as <-.
  assert (b < length (N_var (m_idx R T m))) as LT by (apply nth_error_Some; congruence). rewrite <- (wf_unc _ (rd_wf _ _ RD)) in LT.
  destruct (nth_error (m_unc R T m) b) as [u|] eqn:Eu; [|apply nth_error_None in Eu; lia]. destruct (nth_error nv b) as [n'|] eqn:En; [|apply nth_error_None in En; lia].
  assert (Q : 1 <= n').
  { pose proof (TS b u N n' Eu HV En) as TT. unfold transformed_size in TT. pose proof (rd_u _ _ RD u) as RU. destruct (u_kind R u) as [r|r s|wi ui|wi ui s]; cbn [u_of] in RU; try lia.
    - destruct TT as (uv & T1 & T2). specialize (RU ui uv (nth_error_In _ _ Eu) eq_refl T1). destruct uv; [congruence|]. cbn in T2. lia.
    - destruct TT as (uv & T1 & T2). specialize (RU ui uv (nth_error_In _ _ Eu) eq_refl T1). destruct uv; [congruence|]. cbn in T2. lia. }
  apply nth_error_In in En. pose proof (in_list_sum _ _ En). lia.
Qed.
End Run.

Section Harm.
Context {T : Type} (zeroT : T).
Variables (cholesky : list (list R) -> res (list (list R))) (solve : list (list R) -> list R -> res (list R))
          (least_squares : nat -> solver T -> list (list R) -> list R -> res (list (list R) * list R))
          (qr_R lstsq_eye : list (list R) -> res (list (list R))) (smp : nat -> list nat -> nat -> list nat).
Variables (tolA tolB eps tol : R) (xs : list vec).

Lemma eiv_from_outcome m sd save a V : ready m sd -> cholesky_total cholesky -> (0 <= tolA)%R -> (exists N, In N (Nm (m_idx R T m)) /\ 1 <= N) ->
  length a = length (sd_a T sd) -> spd V (length a) ->
  exists d L, tn_run T m = Ok d /\ cholesky V = Ok L /\ cholesky_factor L V (length a) /\ solver_for m (start sd d a L) /\ functions_ok m (start sd d a L) /\ 1 <= n_vars (start sd d a L) /\
    eiv_from cholesky tolA tolB eps tol xs m sd save (a, V) =
      match eiv_run T tolA tolB eps xs (start sd d a L) tol (negb save) with
      | Ok r => Ok (mkHout (match m_ps R T m with Some l => l | None => [] end) (Some (m_idx R T m)) r)
      | Raise e => Raise e
      end.
Proof.
  intros RD CT HA HN La SV. destruct (run_dims m sd RD) as (d & Ed & Eo & Ep & NV). destruct (CT V _ SV) as (L & EL & FL). exists d, L. split; [exact Ed|]. split; [exact EL|]. split; [exact FL|].
  split; [apply start_solver; auto; apply FL|]. split; [apply (ready_functions m sd RD); repeat split|]. split; [exact (NV HN)|].
  unfold eiv_from. rewrite Ed. cbn [bind]. rewrite EL. cbn [bind]. fold (start sd d a L). rewrite Ep. destruct (rd_ps _ _ RD) as (ps & P1 & _). rewrite P1. cbn [bind].
  destruct (eiv_run T tolA tolB eps xs (start sd d a L) tol (negb save)); cbn [bind]; [rewrite Eo|]; reflexivity.
Qed.
End Harm.
