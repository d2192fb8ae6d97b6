From Coq Require Import Reals Lra.
From Verif Require Import Base BaseLemmas ReaderModel UncModel MuModel TransformModel EvalModel HistModel.
Open Scope nat_scope.

Section H.
Context {T : Type}.
Notation mobj := (mobj R T).

Lemma run_ps (m d : mobj) : tn_run T m = Ok d -> m_ps R T d = m_ps R T m /\ m_ops R T d = m_ops R T m.
Proof.
  intros H. unfold tn_run in H. repeat (match type of H with bind ?x _ = _ => destruct x; cbn [bind] in H; [|discriminate] end).
  injection H as <-. auto.
Qed.
Lemma reverse_ps (d r : mobj) : tn_reverse T d = Ok r -> m_ps R T r = m_ops R T d /\ m_ops R T r = m_ops R T d.
Proof.
  intros H. unfold tn_reverse in H. repeat (match type of H with bind ?x _ = _ => destruct x; cbn [bind] in H; [|discriminate] end).
  injection H as <-. auto.
Qed.

Lemma labels_never_lost (os : list (op T)) (h h' : hobj T) : m_ps R T (h_m T h) <> None -> m_ops R T (h_m T h) <> None ->
  exec_all T h os = Ok h' -> m_ps R T (h_m T h') <> None.
Proof.
  unfold exec_all. revert h. induction os as [|o os IH]; intros h H1 H2 He; cbn [foldM] in He; [injection He as <-; auto|].
  destruct (exec T h o) as [h1|] eqn:E; [|discriminate].
  assert (G : m_ps R T (h_m T h1) <> None /\ m_ops R T (h_m T h1) <> None).
  { destruct o as [ps sd| |]; cbn [exec] in E.
    - destruct (h_alias T h); injection E as <-; cbn; split; auto; discriminate.
    - destruct (tn_run T (h_m T h)) as [d|] eqn:Ed; cbn [bind] in E; [|discriminate]. injection E as <-.
      destruct (run_ps _ _ Ed) as (P1 & P2). cbn [h_m]. rewrite P1, P2. auto.
    - destruct (tn_reverse T (h_m T h)) as [d|] eqn:Ed; cbn [bind] in E; [|discriminate]. injection E as <-.
      destruct (reverse_ps _ _ Ed) as (P1 & P2). cbn [h_m]. rewrite P1, P2. auto. }
  apply (IH h1); tauto.
Qed.

Lemma labels_kept (os : list (op T)) (m : mobj) ps sd (h' : hobj T) :
  (forall o, In o os -> o = OpRun T \/ o = OpReverse T) -> exec_all T (opened_with T m ps sd) os = Ok h' ->
  m_ps R T (h_m T h') = Some ps /\ h_sd T h' = sd.
Proof.
  intros Ho He.
  assert (G : forall os h, (forall o, In o os -> o = OpRun T \/ o = OpReverse T) ->
     m_ps R T (h_m T h) = Some ps -> m_ops R T (h_m T h) = Some ps -> h_sd T h = sd -> h_ocs T h = sd_cs T sd ->
     foldM (exec T) os h = Ok h' -> m_ps R T (h_m T h') = Some ps /\ h_sd T h' = sd).
  { clear. induction os as [|o os IH]; intros h Ho H1 H2 H3 H4 He; cbn [foldM] in He; [injection He as <-; auto|].
    destruct (exec T h o) as [h1|] eqn:E; [|discriminate].
    destruct (Ho o (or_introl eq_refl)) as [->| ->]; cbn [exec] in E.
    - destruct (tn_run T (h_m T h)) as [d|] eqn:Ed; cbn [bind] in E; [|discriminate]. injection E as <-.
      destruct (run_ps _ _ Ed) as (P1 & P2). eapply IH; [| | | | |exact He]; cbn; try congruence. intros; apply Ho; right; auto.
    - destruct (tn_reverse T (h_m T h)) as [d|] eqn:Ed; cbn [bind] in E; [|discriminate]. injection E as <-.
      destruct (reverse_ps _ _ Ed) as (P1 & P2). eapply IH; [| | | | |exact He]; cbn; try congruence.
      + intros; apply Ho; right; auto.
      + rewrite H3, H4. destruct sd. reflexivity. }
  eapply G; [exact Ho| | | | |exact He]; reflexivity.
Qed.

Lemma labels_lost (m d r : mobj) ps sd : tn_run T (set_ps T m (Some ps) None) = Ok d -> tn_reverse T d = Ok r ->
  exists h', exec_all T (opened_without T m) [OpSet T ps sd; OpRun T; OpReverse T] = Ok h' /\ h_m T h' = r /\ m_ps R T r = None.
Proof.
  intros H1 H2. exists (mkH T r (set_cs T sd []) [] true). split; [|split; [reflexivity|]].
  - unfold exec_all, opened_without. cbn [foldM exec h_alias bind h_m h_sd h_ocs].
    assert (E : set_ps T (set_ps T m None None) (Some ps) (m_ops R T (set_ps T m None None)) = set_ps T m (Some ps) None) by reflexivity.
    rewrite E, H1. cbn [bind h_m h_sd h_ocs foldM exec]. rewrite H2. reflexivity.
  - destruct (reverse_ps _ _ H2) as (-> & _). destruct (run_ps _ _ H1) as (_ & ->). reflexivity.
Qed.
End H.
