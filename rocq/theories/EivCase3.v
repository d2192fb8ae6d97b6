(** * The small problem meets the hypotheses of C26 and C110 at every estimate. *)
From Coq Require Import Reals ZArith Lra Lia.
From Verif Require Import Base BaseLemmas ReaderModel UncModel MuModel SensorSpec SampleSpec TransformModel TransformSpec TransformProofs TransformProofs2 EvalModel EvalSpec
  HistModel GNModel GNAlgebra GNTerms GNAdjoint GNMain GNResidual GNForward GNDeriv GNLoop GNTotal GNOutput PCAlgebra LsmrModel MinresModel
  EivModel EivSpec EivProofs EivProofs2 EivProofs3 EivCase EivCase2 GNSpec PropertiesEval PropertiesGN PropertiesGN2.
Local Open Scope R_scope.

Lemma off_deriv X c a r J dX da i N : off_model X a c None None None = Ok (r, J) -> length X = 1%nat -> length dX = length X -> length da = length a -> (forall col, In col X -> length col = N) ->
  (forall col, In col dX -> length col = N) -> (i < N)%nat ->
  derivable_pt_lim (fun h => nth i (output off_model (cols_add X h dX) (vadd a (vscale h da)) c) 0) 0 (jac_row J dX da i).
Proof.
  intros E L1 L La H1 H2 Hi. destruct X as [|x [|? X]]; try discriminate. destruct a as [|a0 [|? ?]]; try discriminate. injection E as <- <-.
  destruct dX as [|e [|? dX]]; try discriminate. destruct da as [|d0 [|? ?]]; try discriminate.
  assert (Lx : length x = N) by (apply H1; left; auto). assert (Le : length e = N) by (apply H2; left; auto).
  assert (EJ : jac_row (Some [map (fun _ => 1) x; map (fun _ => 1) x]) [e] [d0] i = nth i e 0 + d0).
  { cbn [jac_row map app inner]. rewrite !GNTerms.nth_map0 by lia. ring. }
  rewrite EJ. apply (derivable_ext (fun h => (a0 + nth i x 0) + h * (nth i e 0 + d0))).
  - intros h. unfold output, cols_add, off_model. cbn [combine map fst snd vadd vscale].
    assert (Lv : length (vadd x (vscale h e)) = N) by (rewrite GNMain.vadd_len; rewrite ?GNMain.vscale_len; congruence).
    change (map (fun a2 : R => h * a2) e) with (vscale h e).
    rewrite GNTerms.nth_map0 by lia. rewrite GNForward.nth_vadd, GNForward.nth_vscale by (rewrite GNMain.vscale_len; congruence). ring.
  - assert (E0 : (0 + (1 * (nth i e 0 + d0) + id 0 * 0)) = nth i e 0 + d0) by (unfold id; ring). apply (derivable_val _ _ _ _ E0).
    apply (derivable_pt_lim_plus (fun _ => a0 + nth i x 0) (fun h => h * (nth i e 0 + d0))); [apply derivable_pt_lim_const|].
    apply (derivable_pt_lim_mult id (fun _ => nth i e 0 + d0)); [apply derivable_pt_lim_id|apply derivable_pt_lim_const].
Qed.

Lemma ox_derivatives k1 k2 x : unknowns_vec (oxst k1 k2) x -> derivatives_correct (oxm k1 k2) (with_xyza nat (oxst k1 k2) x).
Proof.
  intros Ux e n p s name ps f b X c N a r J EO Hp Hs Hn Hps Hf Hb HN HX Ha Hc Ef.
  pose proof (solver_with (oxm k1 k2) (oxst k1 k2) (ox_solver k1 k2) x Ux) as SX. set (sx := with_xyza nat (oxst k1 k2) x) in *.
  destruct (GNResidual.residual_ok (oxm k1 k2) sx SX (ox_functions k1 k2) (g_xyza nat sx) (sf_xyza _ _ SX)) as (e' & ks & EO' & EV' & _).
  assert (EX : exists X', covariates e s (n + 1) X' /\ forall col N, In col X' -> nth_error (Nm (m_idx R nat (oxm k1 k2))) n = Some N -> length col = N).
  { destruct (EvalProofs.covariates_ex e' _ s (n + 1) EV') as (X' & HX' & L').
    exists X'. split.
    - unfold covariates in *. rewrite (eo_idx _ _ _ _ EO). rewrite (eo_idx _ _ _ _ EO') in HX'.
      destruct (eo_values _ _ _ _ EO) as (r0 & E0 & ->). destruct (eo_values _ _ _ _ EO') as (r1 & E1 & E2). rewrite E2 in HX'. assert (r1 = r0) by congruence. subst. exact HX'.
    - intros col N' Hc' HN'. rewrite (eo_idx _ _ _ _ EO') in L'. apply (L' col N' Hc'). replace (n + 1 - 1)%nat with n by lia. auto. }
  destruct EX as (X' & HX' & LX').
  assert (X' = X).
  { clear - HX HX'. unfold covariates in *. revert X' HX'. induction HX; intros X' HX'; inversion HX'; subst; auto.
    f_equal; auto. eapply MuProofs.is_block_fun; eauto. }
  subst X'. assert (LX : forall col, In col X -> length col = N) by (intros; eauto). clear LX' HX' EO' EV'.
  assert (LX1 : length X = 1%nat).
  { apply GNResidual.Forall2_len in HX. rewrite <- HX, (eo_idx _ _ _ _ EO). destruct n as [|n]; cbn in Hp; try (destruct n; discriminate); injection Hp as <-; destruct Hs as [-> | ->]; reflexivity. }
  assert (Hfs : f = ref_model \/ f = off_model) by (destruct s as [|[|s]]; cbn in Hf; try (destruct s; discriminate); injection Hf as <-; auto).
  assert (b = default_adj) by (destruct s as [|[|s]]; cbn in Hb; try (destruct s; discriminate); injection Hb as <-; auto). subst b.
  assert (Lr : length r = N).
  { destruct X as [|x0 [|? ?]]; try discriminate. specialize (LX x0 (or_introl eq_refl)). destruct Hfs as [-> | ->]; cbn in Ef.
    - injection Ef as <- _. auto.
    - destruct a as [|a0 [|? ?]]; try discriminate. injection Ef as <- _. rewrite map_length. auto. }
  split; [|apply adj_deriv; auto].
  intros dX da i L1 L2 L3 Hi. destruct Hfs as [-> | ->].
  - eapply ref_deriv; eauto.
  - eapply off_deriv; eauto.
Qed.
Lemma ox_ignores k1 k2 : ignores_indices (oxm k1 k2) (oxst k1 k2).
Proof. intros n p s f X a c xt al t _ _ Hf. destruct s as [|[|s]]; cbn in Hf; try (destruct s; discriminate); injection Hf as <-; reflexivity. Qed.
Lemma ox_reference k1 k2 : reference_random (oxm k1 k2) (oxst k1 k2).
Proof.
  intros n p s f X a c r b u Hp Hs Hf Ef Hb Hu.
  destruct b as [|[|b]]; cbn in Hu; try (destruct b; discriminate); injection Hu as <-; eexists; reflexivity.
Qed.
