(** * Histories of HarmonisationVis.  Proofs only. *)
From Coq Require Import Reals.
From Verif Require Import Base BaseLemmas ReaderModel UncModel MuModel TransformModel EvalModel HistModel VisModel VisSpec TransformProofs2.
Open Scope nat_scope.

Lemma kdiff_ok {T} (s : vis T) L2 L1 : length L2 = length (m_ks R T (v_m T s)) -> length L1 = length (m_ks R T (v_m T s)) ->
  kdiff T s L2 L1 = Ok (map (fun i => nth i L2 0 - nth i L1 0 - nth i (m_ks R T (v_m T s)) 0)%R (seq 0 (length (m_ks R T (v_m T s))))).
Proof.
  intros H2 H1. unfold kdiff. set (ks := m_ks R T (v_m T s)) in *. rewrite bop_eq by congruence. cbn [bind].
  assert (Lz : length (zip2 Rminus L2 L1) = length ks) by (rewrite zip2_length by congruence; exact H2).
  rewrite bop_eq by exact Lz. f_equal. apply (nth_ext _ _ 0%R 0%R).
  - rewrite zip2_length by exact Lz. rewrite Lz, map_length, seq_length. reflexivity.
  - intros n Hn. rewrite zip2_length in Hn by exact Lz. rewrite Lz in Hn. rewrite zip2_nth by lia. rewrite zip2_nth by (congruence || lia).
    rewrite (nth_indep (map _ _) 0%R ((fun i => nth i L2 0 - nth i L1 0 - nth i ks 0)%R 0)) by (rewrite map_length, seq_length; lia).
    rewrite (map_nth (fun i => nth i L2 0 - nth i L1 0 - nth i ks 0)%R), seq_nth by lia. reflexivity.
Qed.

Section Vis.
Context {T : Type} (hpar : list R) (hsens : list string) (nominal2 : res (list R)).
Notation mobj := (mobj R T).
Notation vis := (vis T).

Lemma set_ps_back (m : mobj) old : m_ps R T m = Some old -> set_ps T (set_ps T m (Some hsens) (m_ops R T m)) (Some old) (m_ops R T m) = m.
Proof. destruct m. cbn. intros ->. reflexivity. Qed.
Lemma set_a_back (sd : sdat T) : set_a T (set_a T sd hpar) (sd_a T sd) = sd.
Proof. destruct sd. reflexivity. Qed.

Section Good.
Variables (m : mobj) (sd : sdat T) (H1 H2 : list R) (old : list string).
Hypothesis Hps : m_ps R T m = Some old.
Hypothesis HE : adjusted_with m sd hpar hsens = Ok (H1, H2).

Lemma L1_step s : v_m T s = m -> v_sd T s = sd -> exists s' v,
  get_L1_harm T hpar hsens s = (s', Arr v) /\ v_m T s' = m /\ v_sd T s' = sd /\ v_kk T s' = v_kk T s /\ v_kn T s' = v_kn T s /\
  (v_L1 T s = None -> v = H1 /\ v_L1 T s' = Some H1 /\ v_L2 T s' = Some H2) /\ (forall x, v_L1 T s = Some x -> v = x /\ s' = s).
Proof.
  intros Em Es. unfold get_L1_harm. destruct (v_L1 T s) as [x|] eqn:E1.
  - exists s, x. do 5 (split; [auto|]). split; [discriminate|]. intros y Hy. injection Hy as ->. auto.
  - rewrite Em, Es, Hps. unfold adjusted_with in HE. unfold set_a at 1. rewrite HE. eexists. eexists. split; [reflexivity|]. cbn [v_m v_sd v_kk v_kn v_L1 v_L2].
    split; [apply (set_ps_back m old Hps)|]. split; [apply set_a_back|]. do 2 (split; [auto|]). split; [auto|discriminate].
Qed.
Lemma L2_step s : v_m T s = m -> v_sd T s = sd -> exists s' r,
  get_L2_harm T s = (s', r) /\ v_m T s' = m /\ v_sd T s' = sd /\ v_kk T s' = v_kk T s /\ v_kn T s' = v_kn T s /\ (forall x, v_L2 T s = Some x -> r = Arr x /\ s' = s).
Proof.
  intros Em Es. unfold get_L2_harm. destruct (v_L2 T s) as [x|] eqn:E2.
  - exists s, (Arr x). do 5 (split; [auto|]). intros y Hy. injection Hy as ->. auto.
  - rewrite Em, Es. destruct (evaluate_adjusted_measurand T m sd SelAll) as [L|e]; eexists; eexists; (split; [reflexivity|]); cbn [v_m v_sd v_kk v_kn]; do 4 (split; [auto|]); discriminate.
Qed.

(** No call changes the data object. *)
Lemma call_keeps s c : v_m T s = m -> v_sd T s = sd -> v_m T (fst (do_call T hpar hsens nominal2 s c)) = m /\ v_sd T (fst (do_call T hpar hsens nominal2 s c)) = sd.
Proof.
  intros Em Es. destruct c; cbn [do_call].
  - destruct (L1_step s Em Es) as (s' & v & -> & A & B & _). auto.
  - destruct (L2_step s Em Es) as (s' & v & -> & A & B & _). auto.
  - unfold get_kres_harm_harm. destruct (v_kk T s); [auto|]. destruct (L2_step s Em Es) as (s1 & r & -> & A & B & _). destruct r as [L2| |]; [|auto|auto].
    destruct (L1_step s1 A B) as (s2 & v & -> & A2 & B2 & _). destruct (kdiff T s2 L2 v); cbn [fst v_m v_sd]; auto.
  - unfold get_kres_nom_harm. destruct (v_kn T s); [auto|]. destruct nominal2 as [N2|]; [|auto]. destruct (L1_step s Em Es) as (s1 & v & -> & A & B & _).
    destruct (kdiff T s1 N2 v); cbn [fst v_m v_sd]; auto.
Qed.
Lemma calls_keep cs : forall s, v_m T s = m -> v_sd T s = sd -> v_m T (fst (calls T hpar hsens nominal2 s cs)) = m /\ v_sd T (fst (calls T hpar hsens nominal2 s cs)) = sd.
Proof.
  induction cs as [|c cs IH]; intros s Em Es; cbn [calls]; [auto|]. destruct (do_call T hpar hsens nominal2 s c) as (s1, r) eqn:E.
  destruct (call_keeps s c Em Es) as (A & B). rewrite E in A, B. cbn [fst] in A, B. specialize (IH s1 A B). destruct (calls T hpar hsens nominal2 s1 cs). exact IH.
Qed.

(** The caches hold harmonised quantities. *)
Definition good (s : vis) : Prop :=
  v_m T s = m /\ v_sd T s = sd /\ v_L1 T s = Some H1 /\ v_L2 T s = Some H2 /\
  (forall v, v_kk T s = Some v -> harmonised_answer H1 H2 (m_ks R T m) nominal2 CKhh (Arr v)) /\
  (forall v, v_kn T s = Some v -> harmonised_answer H1 H2 (m_ks R T m) nominal2 CKnh (Arr v)).
Lemma good_call s c : good s -> good (fst (do_call T hpar hsens nominal2 s c)) /\ harmonised_answer H1 H2 (m_ks R T m) nominal2 c (snd (do_call T hpar hsens nominal2 s c)).
Proof.
  intros G. pose proof G as (Em & Es & E1 & E2 & Gk & Gn). destruct c; cbn [do_call].
  - unfold get_L1_harm. rewrite E1. cbn [fst snd]. split; [exact G|reflexivity].
  - unfold get_L2_harm. rewrite E2. cbn [fst snd]. split; [exact G|reflexivity].
  - unfold get_kres_harm_harm. destruct (v_kk T s) as [k|] eqn:Ek; [split; [exact G|apply Gk; auto]|]. unfold get_L2_harm. rewrite E2. unfold get_L1_harm. rewrite E1.
    pose proof (kdiff_ok s H2 H1) as K. rewrite Em in K. destruct (kdiff T s H2 H1) as [k|] eqn:EK; cbn [fst snd].
    + assert (A : harmonised_answer H1 H2 (m_ks R T m) nominal2 CKhh (Arr k)). { intros L2 L1. pose proof (K L2 L1). congruence. }
      split; [|exact A]. do 4 (split; [auto|]). cbn [v_kk v_kn]. split; [|exact Gn]. intros v Hv. injection Hv as <-. exact A.
    + split; [exact G|]. intros L2 L1. pose proof (K L2 L1). congruence.
  - unfold get_kres_nom_harm. destruct (v_kn T s) as [k|] eqn:Ek; [split; [exact G|apply Gn; auto]|].
    destruct (nominal2) as [N2|e] eqn:EN.
    2:{ cbn [fst snd]. split; [exact G|]. intros N HN. congruence. }
    unfold get_L1_harm. rewrite E1. rewrite <- EN in *.
    pose proof (kdiff_ok s N2 H1) as K. rewrite Em in K. destruct (kdiff T s N2 H1) as [k|] eqn:EK; cbn [fst snd].
    + assert (A : harmonised_answer H1 H2 (m_ks R T m) nominal2 CKnh (Arr k)). { intros N HN L2 L1. rewrite EN in HN. injection HN as <-. pose proof (K L2 L1). congruence. }
      split; [|exact A]. do 4 (split; [auto|]). cbn [v_kk v_kn]. split; [exact Gk|]. intros v Hv. injection Hv as <-. exact A.
    + split; [exact G|]. intros N HN L2 L1. rewrite EN in HN. injection HN as <-. pose proof (K L2 L1). congruence.
Qed.
Lemma good_calls cs : forall s, good s -> Forall2 (harmonised_answer H1 H2 (m_ks R T m) nominal2) cs (snd (calls T hpar hsens nominal2 s cs)).
Proof.
  induction cs as [|c cs IH]; intros s G; cbn [calls]; [constructor|]. destruct (good_call s c G) as (G1 & A). destruct (do_call T hpar hsens nominal2 s c) as (s1, r).
  cbn [fst snd] in *. specialize (IH s1 G1). destruct (calls T hpar hsens nominal2 s1 cs). cbn [snd] in *. constructor; auto.
Qed.
Theorem first_L1 cs : Forall2 (harmonised_answer H1 H2 (m_ks R T m) nominal2) (CL1 :: cs) (snd (calls T hpar hsens nominal2 (new_vis T m sd) (CL1 :: cs))).
Proof.
  cbn [calls do_call]. destruct (L1_step (new_vis T m sd) eq_refl eq_refl) as (s & v & -> & A & B & C & D & E & _). destruct (E eq_refl) as (-> & F1 & F2).
  assert (G : good s). { split; [exact A|]. split; [exact B|]. split; [exact F1|]. split; [exact F2|]. split; [rewrite C|rewrite D]; intros v Hv; discriminate. }
  pose proof (good_calls cs s G) as R. destruct (calls T hpar hsens nominal2 s cs). cbn [snd] in *. constructor; [reflexivity|exact R].
Qed.
End Good.

(** On a new object the method for sensor 2 and the harmonised K residual use the nominal parameters. *)
Theorem fresh_L2 (m : mobj) sd N1 N2 : evaluate_adjusted_measurand T m sd SelAll = Ok (N1, N2) ->
  snd (get_L2_harm T (new_vis T m sd)) = Arr N2 /\ snd (get_L1_harm T hpar hsens (fst (get_L2_harm T (new_vis T m sd)))) = Arr N1.
Proof. intros E. unfold get_L2_harm. cbn [v_L2 new_vis v_m v_sd]. rewrite E. split; reflexivity. Qed.
Theorem fresh_kres (m : mobj) sd N1 N2 : evaluate_adjusted_measurand T m sd SelAll = Ok (N1, N2) ->
  residual N2 N1 (m_ks R T m) (snd (get_kres_harm_harm T hpar hsens (new_vis T m sd))).
Proof.
  intros E L2 L1. unfold get_kres_harm_harm. cbn [v_kk new_vis]. unfold get_L2_harm. cbn [v_L2 new_vis v_m v_sd]. rewrite E. cbn [fst snd]. unfold get_L1_harm. cbn [v_L1].
  rewrite kdiff_ok by auto. reflexivity.
Qed.
End Vis.
