(** Property theorems C26 (the forward product is the derivative of the residual).
    Vocabulary: GNSpec.v, EvalSpec.v, TransformSpec.v.  Model: GNModel.v. *)
From Coq Require Import Reals Lra Sorted.
From Verif Require Import Base BaseLemmas ReaderModel UncModel MuModel SensorSpec SampleSpec TransformModel TransformSpec TransformMain2 EvalModel EvalSpec
  HistModel GNModel GNSpec GNMain GNResidual GNLoop GNTotal GNOutput GNDeriv PropertiesTransform PropertiesEval PropertiesGN.
Open Scope nat_scope.

Section Props.
Context {T : Type}.
Notation mobj := (mobj R T).

(** C26: at the solver's current estimate x0, for every direction x, entry i of the product J P x is the
    derivative of entry i of the residual along the preconditioned direction dx = P x.
    Partial: sensor functions that depend on scan indices or times are excluded (the residual is
    evaluated without them, C26_indices_refuted), and so are reference sensors with a systematic
    uncertainty (C26_reference_systematic_refuted). *)
Theorem C26_product_is_derivative_partial : forall (m : mobj) (st : solver T), solver_for m st -> functions_ok m st ->
  derivatives_correct m st -> ignores_indices m st -> reference_random m st ->
  forall x, unknowns_vec st x ->
  exists dx Jx, calc_Px T st x false = Ok dx /\ unknowns_vec st dx /\
  calc_prod_JPx T st x false = Ok Jx /\ residual_vec st Jx /\
  (forall h, exists f, calc_f T st (vadd (g_xyza T st) (vscale h dx)) = Ok f /\ residual_vec st f) /\
  forall i, i < n_vars st + n_ks st -> derivable_pt_lim (residual_along st dx i) 0 (nth i Jx 0%R).
Proof. intros. apply (product_is_derivative m st); auto. Qed.
End Props.
Print Assumptions C26_product_is_derivative_partial.

Section Concrete.
Local Open Scope R_scope.

(** The sensor functions of the examples have correct derivatives. *)
Lemma ref_deriv X c a r J dX da i N : ref_model X a c None None None = Ok (r, J) -> length dX = length X -> (forall col, In col X -> length col = N) ->
  (forall col, In col dX -> length col = N) -> (i < N)%nat ->
  derivable_pt_lim (fun h => nth i (output ref_model (cols_add X h dX) (vadd a (vscale h da)) c) 0) 0 (jac_row J dX da i).
Proof.
  intros E L H1 H2 Hi. destruct X as [|x X]; [discriminate|]. injection E as <- <-. destruct dX as [|e dX]; [discriminate|].
  assert (Lx : length x = N) by (apply H1; left; auto). assert (Le : length e = N) by (apply H2; left; auto).
  cbn [jac_row hd]. apply (derivable_ext (fun h => nth i x 0 + h * nth i e 0)).
  - intros h. unfold output, cols_add, ref_model. cbn [combine map fst snd]. rewrite GNForward.nth_vadd, GNForward.nth_vscale by (rewrite GNMain.vscale_len; congruence). reflexivity.
  - assert (E0 : (0 + (1 * nth i e 0 + id 0 * 0)) = nth i e 0) by (unfold id; ring). apply (derivable_val _ _ _ _ E0).
    apply (derivable_pt_lim_plus (fun _ => nth i x 0) (fun h => h * nth i e 0)); [apply derivable_pt_lim_const|].
    apply (derivable_pt_lim_mult id (fun _ => nth i e 0)); [apply derivable_pt_lim_id|apply derivable_pt_lim_const].
Qed.
Lemma lin_deriv X c a r J dX da i N : lin_model X a c None None None = Ok (r, J) -> length X = 1%nat -> length dX = length X -> length da = length a -> (forall col, In col X -> length col = N) ->
  (forall col, In col dX -> length col = N) -> (i < N)%nat ->
  derivable_pt_lim (fun h => nth i (output lin_model (cols_add X h dX) (vadd a (vscale h da)) c) 0) 0 (jac_row J dX da i).
Proof.
  intros E L1 L La H1 H2 Hi. destruct X as [|x [|? X]]; try discriminate. destruct a as [|a0 [|a1 [|? ?]]]; try discriminate. injection E as <- <-.
  destruct dX as [|e [|? dX]]; try discriminate. destruct da as [|d0 [|d1 [|? ?]]]; try discriminate.
  assert (Lx : length x = N) by (apply H1; left; auto). assert (Le : length e = N) by (apply H2; left; auto).
  assert (EJ : jac_row (Some [map (fun _ => a1) x; map (fun _ => 1) x; x]) [e] [d0; d1] i = a1 * nth i e 0 + d0 + nth i x 0 * d1).
  { cbn [jac_row map app inner]. rewrite !GNTerms.nth_map0 by lia. ring. }
  rewrite EJ. apply (derivable_ext (fun h => (a0 + h * d0) + (a1 + h * d1) * (nth i x 0 + h * nth i e 0))).
  - intros h. unfold output, cols_add, lin_model. cbn [combine map fst snd vadd vscale].
    assert (Lv : length (vadd x (vscale h e)) = N) by (rewrite GNMain.vadd_len; rewrite ?GNMain.vscale_len; congruence).
    change (map (fun a2 : R => h * a2) e) with (vscale h e).
    rewrite GNTerms.nth_map0 by lia. rewrite GNForward.nth_vadd, GNForward.nth_vscale by (rewrite GNMain.vscale_len; congruence). reflexivity.
  - assert (D : forall u v, derivable_pt_lim (fun h => u + h * v) 0 v).
    { intros u v. assert (E0 : (0 + (1 * v + id 0 * 0)) = v) by (unfold id; ring). apply (derivable_val _ _ _ _ E0).
      apply (derivable_pt_lim_plus (fun _ => u) (fun h => h * v)); [apply derivable_pt_lim_const|].
      apply (derivable_pt_lim_mult id (fun _ => v)); [apply derivable_pt_lim_id|apply derivable_pt_lim_const]. }
    assert (E0 : d0 + (d1 * (nth i x 0 + 0 * nth i e 0) + (a1 + 0 * d1) * nth i e 0) = a1 * nth i e 0 + d0 + nth i x 0 * d1) by ring.
    apply (derivable_val _ _ _ _ E0).
    apply (derivable_pt_lim_plus (fun h => a0 + h * d0) (fun h => (a1 + h * d1) * (nth i x 0 + h * nth i e 0))); [apply D|].
    apply (derivable_pt_lim_mult (fun h => a1 + h * d1) (fun h => nth i x 0 + h * nth i e 0)); apply D.
Qed.
Lemma adj_deriv (r : list R) N : length r = N -> exists g B, default_adj r = Ok (map g r, B) /\ (forall r', exists B', default_adj r' = Ok (map g r', B')) /\
       forall i, (i < N)%nat -> derivable_pt_lim g (nth i r 0) (nth i B 0).
Proof.
  intros L. exists (fun v => v), (map (fun _ => 1) r). unfold default_adj. rewrite map_id. split; [reflexivity|]. split.
  - intros r'. rewrite map_id. eexists. reflexivity.
  - intros i Hi. rewrite GNTerms.nth_map0 by lia. apply derivable_pt_lim_id.
Qed.

Example gx_derivatives : derivatives_correct gxm gxst.
Proof.
  intros e n p s name ps f b X c N a r J EO Hp Hs Hn Hps Hf Hb HN HX Ha Hc Ef.
  destruct (GNResidual.residual_ok gxm gxst gx_solver gx_functions (g_xyza nat gxst) (sf_xyza _ _ gx_solver)) as (e' & ks & EO' & EV' & _).
  assert (EX : exists X', covariates e s (n + 1) X' /\ forall col N, In col X' -> nth_error (Nm (m_idx R nat gxm)) n = Some N -> length col = N).
  { destruct (EvalProofs.covariates_ex e' _ s (n + 1) EV') as (X' & HX' & L').
    exists X'. split.
    - unfold covariates in *. rewrite (eo_idx _ _ _ _ EO). rewrite (eo_idx _ _ _ _ EO') in HX'.
      destruct (eo_values _ _ _ _ EO) as (r0 & E0 & ->). destruct (eo_values _ _ _ _ EO') as (r1 & E1 & E2). rewrite E2 in HX'. assert (r1 = r0) by congruence. subst. exact HX'.
    - intros col N' Hc' HN'. rewrite (eo_idx _ _ _ _ EO') in L'. apply (L' col N' Hc'). replace (n + 1 - 1)%nat with n by lia. auto. }
  destruct EX as (X' & HX' & LX').
  assert (X' = X).
  { clear - HX HX'. unfold covariates in *. revert X' HX'. induction HX; intros X' HX'; inversion HX'; subst; auto.
    f_equal; auto. eapply MuProofs.is_block_fun; eauto. }
  subst X'. assert (LX : forall col, In col X -> length col = N) by (intros; eauto). clear LX' HX' EO' EV'.
  assert (LX1 : length X = 1%nat).
  { apply GNResidual.Forall2_len in HX. rewrite <- HX, (eo_idx _ _ _ _ EO). destruct n as [|[|n]]; cbn in Hp; try (destruct n; discriminate); injection Hp as <-; destruct Hs as [-> | ->]; reflexivity. }
  assert (Hfs : f = ref_model \/ f = lin_model) by (destruct s as [|[|[|s]]]; cbn in Hf; try (destruct s; discriminate); injection Hf as <-; auto).
  assert (b = default_adj) by (destruct s as [|[|[|s]]]; cbn in Hb; try (destruct s; discriminate); injection Hb as <-; auto). subst b.
  assert (Lr : length r = N).
  { destruct X as [|x [|? ?]]; try discriminate. specialize (LX x (or_introl eq_refl)). destruct Hfs as [-> | ->]; cbn in Ef.
    - injection Ef as <- _. auto.
    - destruct a as [|a0 [|a1 [|? ?]]]; try discriminate. injection Ef as <- _. rewrite map_length. auto. }
  split; [|apply adj_deriv; auto].
  intros dX da i L1 L2 L3 Hi. destruct Hfs as [-> | ->].
  - eapply ref_deriv; eauto.
  - eapply lin_deriv; eauto.
Qed.
Example gx_ignores : ignores_indices gxm gxst.
Proof. intros n p s f X a c xt al t _ _ Hf. destruct s as [|[|[|s]]]; cbn in Hf; try (destruct s; discriminate); injection Hf as <-; reflexivity. Qed.
Example gx_reference : reference_random gxm gxst.
Proof.
  intros n p s f X a c r b u Hp Hs Hf Ef Hb Hu.
  destruct s as [|[|[|s]]]; cbn in Hf; try (destruct s; discriminate); injection Hf as <-.
  - destruct n as [|[|n]]; cbn in Hp; try (destruct n; discriminate); injection Hp as <-; cbn in Hs; [|lia].
    cbn in Hb. destruct Hb as [<-|[]]. cbn in Hu. injection Hu as <-. eexists. reflexivity.
  - destruct X as [|x X]; [discriminate|]. destruct a as [|a0 [|a1 [|? ?]]]; discriminate.
  - destruct X as [|x X]; [discriminate|]. destruct a as [|a0 [|a1 [|? ?]]]; discriminate.
Qed.
(** C26 applies to a solver with all four uncertainty types, e.g. along the direction (1, ..., 1). *)
Example gx_derivative : exists dx Jx, calc_Px nat gxst (repeat 1 16) false = Ok dx /\ calc_prod_JPx nat gxst (repeat 1 16) false = Ok Jx /\
  forall i, (i < 16)%nat -> derivable_pt_lim (residual_along gxst dx i) 0 (nth i Jx 0).
Proof.
  destruct gx_vars as (V & K & P).
  assert (U : unknowns_vec gxst (repeat 1 16)) by (unfold unknowns_vec; rewrite V, P; reflexivity).
  destruct (C26_product_is_derivative_partial gxm gxst gx_solver gx_functions gx_derivatives gx_ignores gx_reference _ U) as (dx & Jx & E1 & _ & E2 & _ & _ & D).
  exists dx, Jx. split; [auto|]. split; [auto|]. rewrite V, K in D. exact D.
Qed.

(** C26 fails for a reference sensor A with a systematic uncertainty: one match-up A-B; along the
    systematic error the residual of K has slope -1, the product says 0. *)
Definition rxidx : idx_t :=
  mkIdx [1]%nat [0; 1]%nat [(0, 1)]%nat ["A"; "B"]%string [1; 1]%nat [0; 1]%nat [1; 1]%nat [1; 1]%nat [1; 1]%nat [0; 1; 2]%nat.
Definition rxps : list string := ["B"; "B"]%string.
Definition rxm (u : unc R) (xt : option (list R)) : mobj R nat :=
  mkMobj R nat rxidx (Some rxps) (Some rxidx) (Some rxps) [1; 2] [0] [u; mkUnc R (UK1 R [1]) None] [[1]] [] [] None None None xt None None None.
Definition rxsd (f : smodel nat) : sdat nat := mkSdat nat [0; 1] [] [] [ref_model; f] [default_adj; default_adj].
Definition rxst (u : unc R) (xt : option (list R)) (f : smodel nat) : solver nat :=
  gn_init nat (match tn_run nat (rxm u xt) with Ok d => d | Raise _ => rxm u xt end) (rxsd f) [].
Definition u_sys : unc R := mkUnc R (UK2 R [1] [1]) (Some 1%nat).
Definition u_ran : unc R := mkUnc R (UK1 R [1]) None.

Lemma rx_solver u xt f : u = u_sys \/ u = u_ran -> (xt = None \/ exists i, xt = Some [i]) -> solver_for (rxm u xt) (rxst u xt f).
Proof.
  intros Hu Hx.
  constructor.
  - constructor; try reflexivity.
    + intros b n Hb. do 2 (destruct b as [|b]; [cbn in Hb; injection Hb as <-; split; [lia|]; eexists; split; reflexivity|]). destruct b; discriminate.
    + cbn. intros n Hn. destruct n as [|[|n]]; try lia; tauto.
  - split; [reflexivity|]. split.
    + intros n v Hv. destruct n as [|n]; [cbn in Hv; injection Hv as <-; reflexivity|]. destruct n; discriminate.
    + intros b v N Hv HN. destruct b as [|[|b]]; cbn in Hv, HN; try (destruct b; discriminate); injection Hv as <-; injection HN as <-; [|reflexivity].
      destruct Hu as [-> | ->]; cbn; [|reflexivity]. split; [reflexivity|]. split; [reflexivity|]. eexists; split; [reflexivity|lia].
  - reflexivity.
  - unfold rxst. destruct Hu as [-> | ->]; reflexivity.
  - constructor; try reflexivity.
    + split; reflexivity.
    + intros b n Hb. destruct b as [|[|b]]; cbn in Hb; try (destruct b; discriminate); injection Hb as <-; (split; [lia|]; eexists; split; reflexivity).
    + cbn. intros n Hn. destruct n as [|[|n]]; try lia; tauto.
    + repeat constructor; cbn; intuition congruence.
    + intros n p Hp. destruct n as [|n]; cbn in Hp; [|destruct n; discriminate]; injection Hp as <-; cbn [fst snd];
        (split; [lia|]); intros s [-> | ->]; cbn; repeat split; try lia; discriminate.
    + eexists; reflexivity.
    + cbn. intros l H. destruct Hx as [->|(i & ->)]; cbn in H; repeat (destruct H as [H|H]; [try discriminate; injection H as <-; reflexivity|]); destruct H.
    + cbn. intros l [H|[H|[]]]; discriminate.
  - discriminate.
  - cbn. repeat constructor; cbn; intuition congruence.
  - intros n p s Hp Hs. exists 1%nat. destruct n as [|n]; cbn in Hp; [|destruct n; discriminate]; injection Hp as <-; cbn in Hs;
      destruct Hs as [-> | ->]; repeat split; lia.
  - exists rxps. repeat split.
  - reflexivity.
  - cbn. rewrite app_length. reflexivity.
  - split; [reflexivity|]. cbn. intros r Hr. repeat (destruct Hr as [<-|Hr]; [reflexivity|]). destruct Hr.
Qed.

(** A sensor function that multiplies its gain by the scan position (1 if it is not given). *)
Definition scan_model : smodel nat := fun X a c xt al t =>
  let g := match xt with Some (i :: _) => i | _ => 1 end in
  match X, a with x :: _, [a0; a1] => Ok (map (fun v => a0 + a1 * g * v) x, Some [map (fun _ => a1 * g) x; map (fun _ => 1) x; map (fun v => g * v) x]) | _, _ => Raise IndexError end.

Lemma rx_functions u xt f : u = u_sys \/ u = u_ran -> f = lin_model \/ f = scan_model -> functions_ok (rxm u xt) (rxst u xt f).
Proof.
  intros Hu Hf. split.
  - intros s b r Hb. cbn in Hb. destruct s as [|[|s]]; cbn in Hb; try (destruct s; discriminate); injection Hb as <-; eexists r, _; (split; reflexivity).
  - intros n p s name ps ms N g b X a c xt' al t Hp Hs Hn Hps Hms HN Hg Hb LX HX La Hc _ _ _.
    cbn in Hps. injection Hps as <-.
    destruct X as [|x0 X0]; [exfalso; cbn in LX; subst ms; destruct s as [|[|s]]; try discriminate; destruct s; discriminate|].
    assert (L0 : length x0 = N) by (apply HX; left; reflexivity).
    destruct n as [|n]; cbn in Hp; [|destruct n; discriminate]; injection Hp as <-; cbn in HN; injection HN as <-; cbn in Hs;
      destruct Hs as [-> | ->]; cbn in Hn; injection Hn as <-; cbn in Hms; injection Hms as <-; cbn in Hg; injection Hg as <-; cbn in Hb; injection Hb as <-.
    + exists x0, None, x0. eexists. split; [reflexivity|]. split; [auto|]. split; [reflexivity|]. split; [auto|]. split; [rewrite map_length; auto|].
      exists 0%nat, u. split; [reflexivity|]. split; [reflexivity|]. destruct Hu as [-> | ->]; exact I.
    + destruct a as [|a0 [|a1 [|? ?]]]; try discriminate. destruct Hf as [-> | ->].
      * eexists _, _, _, _. split; [reflexivity|]. split; [rewrite map_length; auto|]. split; [reflexivity|]. split; [rewrite map_length; auto|]. split; [rewrite !map_length; auto|].
        split; [reflexivity|]. split; [cbn; lia|]. split; [reflexivity|].
        intros col [<-|[<-|[<-|[]]]]; rewrite ?map_length; auto.
      * eexists _, _, _, _. split; [reflexivity|]. split; [rewrite map_length; auto|]. split; [reflexivity|]. split; [rewrite map_length; auto|]. split; [rewrite !map_length; auto|].
        split; [reflexivity|]. split; [cbn; lia|]. split; [reflexivity|].
        intros col [<-|[<-|[<-|[]]]]; rewrite ?map_length; auto.
Qed.

Lemma scan_deriv X c a r J dX da i N : scan_model X a c None None None = Ok (r, J) -> length X = 1%nat -> length dX = length X -> length da = length a -> (forall col, In col X -> length col = N) ->
  (forall col, In col dX -> length col = N) -> (i < N)%nat ->
  derivable_pt_lim (fun h => nth i (output scan_model (cols_add X h dX) (vadd a (vscale h da)) c) 0) 0 (jac_row J dX da i).
Proof.
  intros E L1 L La H1 H2 Hi. destruct X as [|x [|? X]]; try discriminate. destruct a as [|a0 [|a1 [|? ?]]]; try discriminate. injection E as <- <-.
  destruct dX as [|e [|? dX]]; try discriminate. destruct da as [|d0 [|d1 [|? ?]]]; try discriminate.
  assert (Lx : length x = N) by (apply H1; left; auto). assert (Le : length e = N) by (apply H2; left; auto).
  pose proof (lin_deriv [x] c [a0; a1] _ _ [e] [d0; d1] i N eq_refl eq_refl eq_refl eq_refl H1 H2 Hi) as D.
  eapply derivable_val; [|eapply derivable_ext; [|exact D]].
  - cbn [jac_row map app inner]. rewrite !GNTerms.nth_map0 by lia. ring.
  - intros h. unfold output, cols_add, lin_model, scan_model. cbn [combine map fst snd vadd vscale].
    assert (Lv : length (vadd x (vscale h e)) = N) by (rewrite GNMain.vadd_len; rewrite ?GNMain.vscale_len; congruence).
    change (map (fun a2 : R => h * a2) e) with (vscale h e). rewrite !GNTerms.nth_map0 by lia. ring.
Qed.

Lemma rx_derivatives u xt f : u = u_sys \/ u = u_ran -> (xt = None \/ exists i, xt = Some [i]) -> f = lin_model \/ f = scan_model -> derivatives_correct (rxm u xt) (rxst u xt f).
Proof.
  intros Hu Hx Hf e n p s name ps g b X c N a r J EO Hp Hs Hn Hps Hg Hb HN HX Ha Hc Ef.
  pose proof (rx_solver u xt f Hu Hx) as SF. pose proof (rx_functions u xt f Hu Hf) as FO.
  destruct (GNResidual.residual_ok _ _ SF FO (g_xyza nat (rxst u xt f)) (sf_xyza _ _ SF)) as (e' & ks & EO' & EV' & _).
  assert (EX : exists X', covariates e s (n + 1) X' /\ forall col N, In col X' -> nth_error (Nm (m_idx R nat (rxm u xt))) n = Some N -> length col = N).
  { destruct (EvalProofs.covariates_ex e' _ s (n + 1) EV') as (X' & HX' & L').
    exists X'. split.
    - unfold covariates in *. rewrite (eo_idx _ _ _ _ EO). rewrite (eo_idx _ _ _ _ EO') in HX'.
      destruct (eo_values _ _ _ _ EO) as (r0 & E0 & ->). destruct (eo_values _ _ _ _ EO') as (r1 & E1 & E2). rewrite E2 in HX'. assert (r1 = r0) by congruence. subst. exact HX'.
    - intros col N' Hc' HN'. rewrite (eo_idx _ _ _ _ EO') in L'. apply (L' col N' Hc'). replace (n + 1 - 1)%nat with n by lia. auto. }
  destruct EX as (X' & HX' & LX').
  assert (X' = X).
  { clear - HX HX'. unfold covariates in *. revert X' HX'. induction HX; intros X' HX'; inversion HX'; subst; auto.
    f_equal; auto. eapply MuProofs.is_block_fun; eauto. }
  subst X'. assert (LX : forall col, In col X -> length col = N) by (intros; eauto). clear LX' HX' EO' EV'.
  assert (LX1 : length X = 1%nat).
  { apply GNResidual.Forall2_len in HX. rewrite <- HX, (eo_idx _ _ _ _ EO). destruct n as [|n]; cbn in Hp; [|destruct n; discriminate]; injection Hp as <-; destruct Hs as [-> | ->]; reflexivity. }
  assert (Hfs : g = ref_model \/ g = lin_model \/ g = scan_model) by (destruct s as [|[|s]]; cbn in Hg; try (destruct s; discriminate); injection Hg as <-; intuition).
  assert (b = default_adj) by (destruct s as [|[|s]]; cbn in Hb; try (destruct s; discriminate); injection Hb as <-; auto). subst b.
  assert (Lr : length r = N).
  { destruct X as [|x [|? ?]]; try discriminate. specialize (LX x (or_introl eq_refl)). destruct Hfs as [-> |[-> | ->]]; cbn in Ef.
    - injection Ef as <- _. auto.
    - destruct a as [|a0 [|a1 [|? ?]]]; try discriminate. injection Ef as <- _. rewrite map_length. auto.
    - destruct a as [|a0 [|a1 [|? ?]]]; try discriminate. injection Ef as <- _. rewrite map_length. auto. }
  split; [|apply adj_deriv; auto].
  intros dX da i L1 L2 L3 Hi. destruct Hfs as [-> |[-> | ->]].
  - eapply ref_deriv; eauto.
  - eapply lin_deriv; eauto.
  - eapply scan_deriv; eauto.
Qed.

Ltac rlazy := lazy -[Rplus Rmult Rdiv Rinv Ropp Rminus IZR].

(** The refuted form of C26: correct derivatives, a direction, and an entry of the product that is not
    the derivative of that entry of the residual. *)
Definition wrong_slope (m : mobj R nat) (st : solver nat) : Prop :=
  solver_for m st /\ functions_ok m st /\ derivatives_correct m st /\
  exists x dx Jx i, unknowns_vec st x /\ calc_Px nat st x false = Ok dx /\ calc_prod_JPx nat st x false = Ok Jx /\
    (i < n_vars st + n_ks st)%nat /\ exists slope, derivable_pt_lim (residual_along st dx i) 0 slope /\ slope <> nth i Jx 0.

Theorem C26_reference_systematic_refuted : wrong_slope (rxm u_sys None) (rxst u_sys None lin_model).
Proof.
  split; [apply rx_solver; auto|]. split; [apply rx_functions; auto|]. split; [apply rx_derivatives; auto|].
  exists [0; 0; 1; 0; 0], [0; 0; 1; 0; 0].
  assert (EP : exists dx, calc_Px nat (rxst u_sys None lin_model) [0; 0; 1; 0; 0] false = Ok dx /\ dx = [0; 0; 1; 0; 0]).
  { eexists. split; [reflexivity|]. cbn. repeat (apply (f_equal2 cons); [ring|]); reflexivity. }
  destruct EP as (dx & EP & ->).
  assert (EJ : exists Jx, calc_prod_JPx nat (rxst u_sys None lin_model) [0; 0; 1; 0; 0] false = Ok Jx /\ nth 3 Jx 0 = 0).
  { unfold calc_prod_JPx. rewrite EP. eexists. split; [rlazy; reflexivity|]. cbn [nth]. unfold Rdiv. ring. }
  destruct EJ as (Jx & EJ & E3).
  exists Jx, 3%nat. split; [reflexivity|]. split; [auto|]. split; [auto|]. split; [apply Nat.ltb_lt; vm_compute; reflexivity|].
  exists (-1). split; [|rewrite E3; lra].
  apply (derivable_ext (fun h => 1 - h)).
  - intros h. unfold residual_along. cbn [rxst gn_init g_xyza vscale map vadd]. 
    match goal with |- _ = match ?c with _ => _ end => assert (EC : exists f, c = Ok f /\ nth 3 f 0 = 1 - h) end.
    { eexists. split; [rlazy; reflexivity|]. cbn [nth]. field. }
    destruct EC as (f & -> & ->). reflexivity.
  - apply (derivable_val _ _ (0 - 1)); [ring|]. apply (derivable_pt_lim_minus (fun _ => 1) id); [apply derivable_pt_lim_const|apply derivable_pt_lim_id].
Qed.
Print Assumptions C26_reference_systematic_refuted.

(** C26 fails for a sensor function of the scan position: the match-up of B is at scan position 5; the
    product uses it, the residual is evaluated without it. *)
Theorem C26_indices_refuted : wrong_slope (rxm u_ran (Some [5])) (rxst u_ran (Some [5]) scan_model).
Proof.
  split; [apply rx_solver; [auto|right; eexists; reflexivity]|]. split; [apply rx_functions; auto|]. split; [apply rx_derivatives; [auto|right; eexists; reflexivity|auto]|].
  exists [0; 1; 0; 0], [0; 1; 0; 0].
  assert (EP : exists dx, calc_Px nat (rxst u_ran (Some [5]) scan_model) [0; 1; 0; 0] false = Ok dx /\ dx = [0; 1; 0; 0]).
  { eexists. split; [reflexivity|]. cbn. repeat (apply (f_equal2 cons); [ring|]); reflexivity. }
  destruct EP as (dx & EP & ->).
  assert (EJ : exists Jx, calc_prod_JPx nat (rxst u_ran (Some [5]) scan_model) [0; 1; 0; 0] false = Ok Jx /\ nth 2 Jx 0 = 5).
  { unfold calc_prod_JPx. rewrite EP. eexists. split; [rlazy; reflexivity|]. cbn [nth]. field. }
  destruct EJ as (Jx & EJ & E3).
  exists Jx, 2%nat. split; [reflexivity|]. split; [auto|]. split; [auto|]. split; [apply Nat.ltb_lt; vm_compute; reflexivity|].
  exists 1. split; [|rewrite E3; lra].
  apply (derivable_ext (fun h => 1 + h)).
  - intros h. unfold residual_along. cbn [rxst gn_init g_xyza vscale map vadd].
    match goal with |- _ = match ?c with _ => _ end => assert (EC : exists f, c = Ok f /\ nth 2 f 0 = 1 + h) end.
    { eexists. split; [rlazy; reflexivity|]. cbn [nth]. field. }
    destruct EC as (f & -> & ->). reflexivity.
  - apply (derivable_val _ _ (0 + 1)); [ring|]. apply (derivable_pt_lim_plus (fun _ => 1) id); [apply derivable_pt_lim_const|apply derivable_pt_lim_id].
Qed.
Print Assumptions C26_indices_refuted.
End Concrete.
