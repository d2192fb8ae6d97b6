(** * Proofs for C148: the registered AVHRR sensor data describe converted files. *)
From Coq Require Import Reals Lra.
From Verif Require Import Base BaseLemmas ReaderModel ReaderSpec ReaderProofs ReaderMain UncModel UncSpec SensorModel EvalModel CheckModel CheckSpec CheckProofs AvModel AvSpec AvProofs7 IOModel IOSpec InstModel FullModel FullSpec ConvModel ConvSpec ConvSpec2 SdModel SdSpec SdProofs2 GNSpec.
Open Scope nat_scope.

Lemma rows_len X N c : hd_error X = Some c -> length c = N -> length (rows_of X) = N /\ forall r, In r (rows_of X) -> length r = length X.
Proof.
  intros Hc HN. destruct X as [|c' X]; [discriminate|]. injection Hc as ->. unfold rows_of. cbn [hd]. split; [rewrite map_length, seq_length; exact HN|].
  intros r Hr. apply in_map_iff in Hr. destruct Hr as (i & <- & _). apply map_length.
Qed.
Lemma cols_len w J : length (cols_of w J) = w /\ forall c, In c (cols_of w J) -> length c = length J.
Proof. unfold cols_of. split; [rewrite map_length, seq_length; reflexivity|]. intros c Hc. apply in_map_iff in Hc. destruct Hc as (j & <- & _). apply map_length. Qed.

Section D.
Context {T : Type}.
Lemma ref_evaluates p c kmax (P : Prop) : P -> evaluates (mkSentry R R (smodel T) amodel p c (ref_function (T := T)) None None) 1 kmax P.
Proof.
  intros HP N X a xt al t LX HX La _ _ _. cbn [s_model s_const]. destruct X as [|x [|]]; try discriminate LX.
  destruct (rows_len [x] N x eq_refl (HX x (or_introl eq_refl))) as (L & HR). unfold ref_function, column_ref.
  assert (Q : exists r, mapM (fun x => get x 0) (rows_of [x]) = Ok r).
  { apply mapM_ok_ex. intros r Hr. specialize (HR r Hr). destruct r as [|y r]; [discriminate|]. exists y. reflexivity. }
  destruct Q as (r & Er). rewrite Er. cbn [bind]. exists r, None. split; [reflexivity|]. split; [|exact HP]. rewrite (mapM_length _ _ _ Er). exact L.
Qed.
Lemma model_3_ok k x p : k = A3 \/ k = A3_scaled -> length x = 4 -> length p = 3 -> exists r, avhrr_row k x p = Ok r.
Proof.
  intros Hk Hx Hp. destruct x as [|x0 [|x1 [|x2 [|x3 [|]]]]]; try discriminate Hx. destruct p as [|p0 [|p1 [|p2 [|]]]]; try discriminate Hp.
  destruct Hk as [-> | ->]; eexists; reflexivity.
Qed.
Lemma avhrr_evaluates k p kmax P : k = A3 \/ k = A3_scaled -> length p = 3 -> kmax = 4 -> evaluates (mkSentry R R (smodel T) amodel p [] (avhrr_function (T := T) k) None None) 4 kmax P.
Proof.
  intros Hk Lp -> N X a xt al t LX HX La _ _ _. cbn [s_model s_const s_param] in *. destruct X as [|x X]; [discriminate LX|].
  destruct (rows_len (x :: X) N x eq_refl (HX x (or_introl eq_refl))) as (L & HR). unfold avhrr_function, avhrr_call.
  replace (avhrr_args k =? 6) with true by (destruct Hk as [-> | ->]; reflexivity). unfold vectorised.
  assert (Q : exists r, mapM (fun x => avhrr_row k x a) (rows_of (x :: X)) = Ok r) by (apply mapM_ok_ex; intros r Hr; apply model_3_ok; auto; [rewrite (HR r Hr); exact LX|congruence]).
  destruct Q as (r & Er). rewrite Er. cbn [bind fst snd]. do 2 eexists. split; [reflexivity|]. pose proof (mapM_length _ _ _ Er) as Lr. split; [rewrite map_length; congruence|].
  assert (W : avhrr_vars k = 4) by (destruct Hk as [-> | ->]; reflexivity). rewrite W, La, Lp. destruct (cols_len (4 + 3) (map snd r)) as (C1 & C2). split; [reflexivity|]. split; [lia|]. split; [exact C1|].
  intros col Hc. rewrite (C2 col Hc), map_length. congruence.
Qed.

Lemma avhrr_keys k : NoDup (map fst (dict_of (avhrr_table (T := T) k))).
Proof. cbn. repeat (constructor; [cbn [In]; intuition discriminate|]). constructor. Qed.
Lemma refs_in k s : In s avhrr_refs -> In (s, g_entry (ref_entry (T := T))) (dict_of (avhrr_table k)).
Proof. intros H. unfold dict_of, avhrr_table. rewrite map_app, !map_map. apply in_or_app. left. cbn [fst snd]. apply (in_map (fun x => (x, g_entry (ref_entry (T := T))))) in H. exact H. Qed.
Lemma sensors_in k s : In s avhrr_sensors -> In (s, g_entry (avhrr_entry (T := T) k (repeat 0%R (avhrr_declared_params k)))) (dict_of (avhrr_table k)).
Proof. intros H. unfold dict_of, avhrr_table. rewrite map_app, !map_map. apply in_or_app. right. cbn [fst snd]. apply (in_map (fun x => (x, g_entry (avhrr_entry (T := T) k (repeat 0%R (avhrr_declared_params k)))))) in H. exact H. Qed.
Lemma refs_not s : In s avhrr_refs -> ~ In s avhrr_sensors.
Proof. cbn [In avhrr_refs avhrr_sensors]. intuition (subst; discriminate). Qed.
Lemma key_fun {A} (d : list (string * A)) k x y : NoDup (map fst d) -> In (k, x) d -> In (k, y) d -> x = y.
Proof.
  induction d as [|(k', v) d IH]; [intros _ []|]. cbn [map fst]. intros H [A1|A1] [B1|B1]; inversion H as [|? ? N1 N2]; subst.
  - congruence.
  - exfalso. apply N1. injection A1 as -> _. apply (in_map fst) in B1. exact B1.
  - exfalso. apply N1. injection B1 as -> _. apply (in_map fst) in A1. exact A1.
  - auto.
Qed.

Section Files.
Context (torad : option string -> list fl -> res (list fl)) (f32 : R -> R) (trunc : R -> Z) (nanV : R).
Hypothesis F0 : f32 0%R = 0%R.
Lemma new_atsr n s : In n atsr_numbers -> Some s = get_new_name n -> In s avhrr_refs.
Proof. cbn [In atsr_numbers]. intuition (subst; cbn in H0; injection H0 as ->; cbn; tauto). Qed.
Lemma new_avhrr n s : In n avhrr_numbers -> Some s = get_new_name n -> In s avhrr_sensors.
Proof. cbn [In avhrr_numbers]. intros H E. repeat (destruct H as [<- |H]; [cbn in E; injection E as ->; cbn; tauto|]). destruct H. Qed.

Theorem converted_brought four g : avhrr_converted torad f32 trunc nanV four g -> exists (ref : bool) n1 n2 M t1, let m2 := if four then 4 else 5 in
  brought g n1 n2 (m1_of ref m2) m2 M t1 /\ (ref = true -> t1 = [1%Z]) /\ In n1 (if ref then avhrr_refs else avhrr_sensors) /\ In n2 avhrr_sensors.
Proof.
  intros (f & k1 & k2 & band & bt & ref_bt & ref & files & j & o & G & HR & (P1 & P2) & E & Hj & Hev & EG).
  destruct (conversion_ex torad f k1 k2 band bt ref_bt G) as (ref' & idx & files' & HR' & HK & _). 
  destruct (av_brought torad f32 trunc nanV f k1 k2 band bt ref_bt ref idx files G HR HK E j o F0 Hj) as (g' & t1 & EG' & B & Ht). rewrite EG in EG'. injection EG' as <-. rewrite Hev in B.
  exists ref, (o_s1 o), (o_s2 o), (length idx), t1. cbv zeta. split; [exact B|]. split; [exact Ht|].
  destruct (ConvProofs15.av_parts torad f k1 k2 band bt ref_bt ref idx files G HR HK E j o Hj) as (HH & _). destruct HH. split; [|exact (new_avhrr _ _ P2 h_s2)]. destruct ref; [exact (new_atsr _ _ P1 h_s1)|exact (new_avhrr _ _ P1 h_s1)].
Qed.

Theorem converted_agree four gs : (forall g, In g gs -> avhrr_converted torad f32 trunc nanV four g) -> agree gs.
Proof.
  intros H f f' sd sd' s m m' Hf Hf' Hs Hs' Hm Hm'. destruct (converted_brought four f (H f Hf)) as (ref & n1 & n2 & M & t1 & B & _ & A1 & A2). destruct (converted_brought four f' (H f' Hf')) as (ref' & n1' & n2' & M' & t1' & B' & _ & A1' & A2'). cbv zeta in *.
  apply (br_name _ _ _ _ _ _ _ B) in Hs. apply (br_name _ _ _ _ _ _ _ B') in Hs'. apply (br_m _ _ _ _ _ _ _ B) in Hm. apply (br_m _ _ _ _ _ _ _ B') in Hm'. subst m m'.
  assert (Q : forall (sd : side) (ref : bool) (n1 n2 : string), In n1 (if ref then avhrr_refs else avhrr_sensors) -> In n2 avhrr_sensors ->
     let s := match sd with Side1 => n1 | Side2 => n2 end in let m := match sd with Side1 => m1_of ref (if four then 4 else 5) | Side2 => if four then 4 else 5 end in
     (In s avhrr_refs /\ m = 1) \/ (In s avhrr_sensors /\ m = if four then 4 else 5)) by (intros [|] [|] ? ? ? ?; cbn; auto).
  pose proof (Q sd ref n1 n2 A1 A2) as Q1. pose proof (Q sd' ref' n1' n2' A1' A2') as Q2. cbv zeta in *. rewrite <- Hs in Q1. rewrite <- Hs' in Q2.
  destruct Q1 as [(X1 & ->)|(X1 & ->)], Q2 as [(X2 & ->)|(X2 & ->)]; auto; exfalso; eapply refs_not; eauto.
Qed.

Theorem converted_describes k gs : k = A3 \/ k = A3_scaled -> (forall g, In g gs -> avhrr_converted torad f32 trunc nanV true g) -> describes (dict_of (avhrr_table (T := T) k)) gs.
Proof.
  intros Hk H. constructor.
  - apply avhrr_keys.
  - intros f sd s Hf Hs. destruct (converted_brought true f (H f Hf)) as (ref & n1 & n2 & M & t1 & B & _ & A1 & A2). apply (br_name _ _ _ _ _ _ _ B) in Hs.
    assert (Q : In s avhrr_refs \/ In s avhrr_sensors) by (subst s; destruct sd, ref; auto). destruct Q as [Q|Q]; eexists; (split; [first [apply refs_in; exact Q|apply sensors_in; exact Q]|left; reflexivity]).
  - intros f sd s e m kmax Hf Hs He Hm (Kex & Kle). destruct (converted_brought true f (H f Hf)) as (ref & n1 & n2 & M & t1 & B & Ht & A1 & A2). cbv zeta in *.
    apply (br_name _ _ _ _ _ _ _ B) in Hs. apply (br_m _ _ _ _ _ _ _ B) in Hm.
    assert (K4 : kmax = 4).
    { destruct Kex as (f' & sd' & Hf' & S'). destruct (converted_brought true f' (H f' Hf')) as (ref' & n1' & n2' & M' & t1' & B' & _). cbv zeta in *. pose proof (br_m _ _ _ _ _ _ _ B' sd' kmax S') as Ek.
      pose proof (Kle f' Side2 4 Hf' (br_m' _ _ _ _ _ _ _ B' Side2)). destruct sd', ref'; cbn in Ek; lia. }
    assert (Q : (In s avhrr_refs /\ m = 1 /\ first_independent f sd) \/ (In s avhrr_sensors /\ m = 4)).
    { destruct sd; [|right; subst; auto]. destruct ref; [left|right; subst; auto]. split; [subst; auto|]. split; [exact Hm|]. exists t1, 1%Z. split; [apply B|]. rewrite (Ht eq_refl). auto. }
    destruct Q as [(X & -> & FI)|(X & ->)].
    + assert (e = g_entry (ref_entry (T := T))) by (eapply key_fun; [apply (avhrr_keys k)|exact He|apply refs_in; exact X]). subst e. apply ref_evaluates. exact FI.
    + assert (e = g_entry (avhrr_entry (T := T) k (repeat 0%R (avhrr_declared_params k)))) by (eapply key_fun; [apply (avhrr_keys k)|exact He|apply sensors_in; exact X]). subst e. apply avhrr_evaluates; auto. rewrite repeat_length. destruct Hk as [-> | ->]; reflexivity.
Qed.
End Files.
End D.
