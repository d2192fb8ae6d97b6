(** * Proofs for C150: six of the eight registered AVHRR models cannot be used with converted files. *)
From Coq Require Import Reals Lra Permutation.
From Verif Require Import Base BaseLemmas ReaderModel ReaderSpec ReaderProofs ReaderMain UncModel UncSpec SensorModel SensorSpec MuModel SampleSpec TransformModel TransformSpec EvalModel EvalSpec GNModel LsmrModel EivModel EivSpec CheckModel CheckSpec CheckProofs AvModel AvSpec IOModel IOSpec IOProofs3 InstModel InstProofs3 PCModel PCSpec FullModel FullSpec FullProofs2 FullProofs3 FullProofs4 FullProofs5 FullProofs6 ConvModel ConvSpec ConvSpec2 SdModel SdSpec SdProofs2 SdProofs3 SdProofs4 GNSpec.
Open Scope nat_scope.

Section Swap.
Context {T : Type} (f32 : R -> R) (h : string -> smodel T -> smodel T).
Notation entry := (sentry R R (smodel T) amodel).
Definition swap_entry (p : string * entry) : string * entry :=
  (fst p, mkSentry R R (smodel T) amodel (s_param _ _ _ _ (snd p)) (s_const _ _ _ _ (snd p)) (h (fst p) (s_model _ _ _ _ (snd p))) (s_adj _ _ _ _ (snd p)) (s_sadj _ _ _ _ (snd p))).
Definition swap (d : list (string * entry)) : list (string * entry) := map swap_entry d.
Lemma swap_keys d : map fst (swap d) = map fst d.
Proof. unfold swap. rewrite map_map. reflexivity. Qed.
Lemma swap_lookup s d : lookup s (swap d) = option_map (fun e => snd (swap_entry (s, e))) (lookup s d).
Proof.
  induction d as [|(k, e) d IH]; [reflexivity|]. change (swap ((k, e) :: d)) with (swap_entry (k, e) :: swap d). cbn [lookup]. unfold swap_entry at 1. cbn [fst snd].
  destruct (String.eqb k s) eqn:E; [apply String.eqb_eq in E; subst; reflexivity|exact IH].
Qed.
Lemma swap_filter d names : filter (fun kv => mem String.eqb (fst kv) names) (swap d) = swap (filter (fun kv => mem String.eqb (fst kv) names) d).
Proof. unfold swap. induction d as [|p d IH]; [reflexivity|]. cbn [map filter]. change (fst (swap_entry p)) with (fst p). destruct (mem String.eqb (fst p) names); cbn [map]; [f_equal|]; apply IH. Qed.
Lemma extract_swap d names e : extract_sensor_data R R (smodel T) amodel f32 default_adj d names = Ok e ->
  exists e', extract_sensor_data R R (smodel T) amodel f32 default_adj (swap d) names = Ok e' /\ SensorModel.e_a _ _ _ _ e' = SensorModel.e_a _ _ _ _ e /\ e_const _ _ _ _ e' = e_const _ _ _ _ e /\ e_const_sensor _ _ _ _ e' = e_const_sensor _ _ _ _ e /\
    e_param_sensor _ _ _ _ e' = e_param_sensor _ _ _ _ e /\ e_adj _ _ _ _ e' = e_adj _ _ _ _ e /\ length (e_model _ _ _ _ e') = length (e_model _ _ _ _ e) /\
    forall i s f, nth_error names i = Some s -> nth_error (e_model _ _ _ _ e) i = Some f -> nth_error (e_model _ _ _ _ e') i = Some (h s f) /\ exists en, lookup s d = Some en /\ f = s_model _ _ _ _ en.
Proof.
  unfold extract_sensor_data. intros H. destruct (mapM _ names) as [ma|] eqn:Em in H; cbn [bind] in H; [|discriminate].
  assert (Q : exists ma', mapM (fun s => match lookup s (swap d) with None => Raise KeyError | Some e => do a <- adjustment R R (smodel T) amodel default_adj e;; Ok (s_model R R (smodel T) amodel e, a) end) names = Ok ma' /\
     map snd ma' = map snd ma /\ length ma' = length ma /\ forall i s f, nth_error names i = Some s -> nth_error (map fst ma) i = Some f -> nth_error (map fst ma') i = Some (h s f) /\ exists en, lookup s d = Some en /\ f = s_model _ _ _ _ en).
  { clear H e. revert ma Em. induction names as [|s names IH]; intros ma Em.
    - cbn in Em. injection Em as <-. exists []. split; [reflexivity|]. split; [reflexivity|]. split; [reflexivity|]. intros [|i]; discriminate.
    - cbn [mapM] in Em |- *. destruct (lookup s d) as [en|] eqn:El; [|discriminate]. destruct (adjustment R R (smodel T) amodel default_adj en) as [b|] eqn:Ea; cbn [bind] in Em; [|discriminate].
      destruct (mapM _ names) as [ma0|] eqn:Em0 in Em; [|discriminate]. injection Em as <-. destruct (IH ma0 Em0) as (ma' & I1 & I2 & I3 & I4).
      rewrite swap_lookup, El. cbn [option_map swap_entry fst snd]. change (adjustment R R (smodel T) amodel default_adj (mkSentry R R (smodel T) amodel (s_param _ _ _ _ en) (s_const _ _ _ _ en) (h s (s_model _ _ _ _ en)) (s_adj _ _ _ _ en) (s_sadj _ _ _ _ en))) with (adjustment R R (smodel T) amodel default_adj en).
      rewrite Ea. cbn [bind]. rewrite I1. cbn [s_model]. eexists. split; [reflexivity|]. cbn [map snd fst length]. split; [rewrite I2; reflexivity|]. split; [rewrite I3; reflexivity|].
      intros [|i] s' f Hs Hf; cbn [nth_error map fst] in Hs, Hf |- *; [injection Hs as <-; injection Hf as <-; split; [reflexivity|exists en; auto]|]. apply I4; assumption. }
  destruct Q as (ma' & Q1 & Q2 & Q3 & Q4). rewrite Q1. cbn [bind]. injection H as <-.
  assert (MINE : filter (fun kv => mem String.eqb (fst kv) names) (swap d) = swap (filter (fun kv => mem String.eqb (fst kv) names) d)).
  { apply swap_filter. }
  eexists. split; [reflexivity|]. cbn [SensorModel.e_a e_const e_const_sensor e_param_sensor e_adj e_model]. rewrite MINE. set (mine := filter _ d).
  assert (FM : forall B (g : string * entry -> list B), (forall p, g (swap_entry p) = g p) -> flat_map g (swap mine) = flat_map g mine) by (intros B g Hg; unfold swap; induction mine as [|p l IH]; [reflexivity|]; cbn [map flat_map]; rewrite Hg, IH; reflexivity).
  rewrite !FM by reflexivity. do 4 (split; [reflexivity|]). split; [exact Q2|]. split; [rewrite !map_length; exact Q3|]. exact Q4.
Qed.
End Swap.

Section Six.
Context {T : Type} (torad : option string -> list fl -> res (list fl)) (nanV : R) (zeroT : T) (f32 i32 : R -> R) (trunc : R -> Z) (todate : R -> T) (isfill : R -> bool) (ord : list string -> list string) (ordn : list nat -> list nat).
Context (F0 : f32 0 = 0%R).
(** A function of the right shape in place of those of the sensors that are not references. *)
Definition stub : smodel T := fun X a _ _ _ _ => Ok (hd [] X, Some (repeat (hd [] X) (length X + length a))).
Definition stubbed (s : string) (f : smodel T) : smodel T := if mem String.eqb s avhrr_refs then f else stub.
Definition registered_dict (k : avhrr) : list (string * sentry R R (smodel T) amodel) := dict_of (avhrr_table k).
Lemma mem_in s l : mem String.eqb s l = true <-> In s l.
Proof. unfold mem. split; [intros H; apply existsb_exists in H; destruct H as (x & Hx & E); apply String.eqb_eq in E; subst; exact Hx|intros H; apply existsb_exists; exists s; split; [exact H|apply String.eqb_refl]]. Qed.
Lemma swap_in h (d : list (string * sentry R R (smodel T) amodel)) s e : In (s, e) (swap h d) -> exists e0, In (s, e0) d /\ e = mkSentry R R (smodel T) amodel (s_param _ _ _ _ e0) (s_const _ _ _ _ e0) (h s (s_model _ _ _ _ e0)) (s_adj _ _ _ _ e0) (s_sadj _ _ _ _ e0).
Proof. intros H. apply in_map_iff in H. destruct H as ((s0 & e0) & E & H). unfold swap_entry in E. cbn [fst snd] in E. injection E as <- <-. exists e0. auto. Qed.
Lemma in_swap h (d : list (string * sentry R R (smodel T) amodel)) s e0 : In (s, e0) d -> In (s, mkSentry R R (smodel T) amodel (s_param _ _ _ _ e0) (s_const _ _ _ _ e0) (h s (s_model _ _ _ _ e0)) (s_adj _ _ _ _ e0) (s_sadj _ _ _ _ e0)) (swap h d).
Proof. intros H. apply (in_map (swap_entry h)) in H. exact H. Qed.
Lemma declared_pos k : 1 <= avhrr_declared_params k.
Proof. destruct k; cbn; lia. Qed.
Lemma stub_evaluates s0 p c ad sa kk kmax P : ~ In s0 avhrr_refs -> 1 <= length p -> kk = kmax -> 1 <= kk -> forall f, evaluates (mkSentry R R (smodel T) amodel p c (stubbed s0 f) ad sa) kk kmax P.
Proof.
  intros HS LP -> K1 f N X a xt al t LX HX La _ _ _. cbn [s_model s_const s_param] in *. unfold stubbed. destruct (mem String.eqb s0 avhrr_refs) eqn:E; [apply mem_in in E; contradiction|].
  unfold stub. do 2 eexists. split; [reflexivity|]. destruct X as [|x X]; [cbn in LX; lia|]. cbn [hd]. split; [apply HX; left; reflexivity|]. split; [reflexivity|]. split; [exact LP|]. split; [rewrite repeat_length, LX, La; reflexivity|].
  intros col Hc. apply repeat_spec in Hc. subst col. apply HX. left. reflexivity.
Qed.
Theorem swapped_describes four k gs : (forall g, In g gs -> avhrr_converted torad f32 trunc nanV four g) -> describes (swap stubbed (registered_dict k)) gs.
Proof.
  intros H. assert (ND : NoDup (map fst (swap stubbed (registered_dict k)))) by (rewrite swap_keys; apply avhrr_keys). constructor.
  - exact ND.
  - intros f sd s Hf Hs. destruct (converted_brought torad f32 trunc nanV F0 four f (H f Hf)) as (ref & n1 & n2 & M & t1 & B & _ & A1 & A2). apply (br_name _ _ _ _ _ _ _ B) in Hs.
    assert (Q : In s avhrr_refs \/ In s avhrr_sensors) by (subst s; destruct sd, ref; auto). destruct Q as [Q|Q]; eexists; (split; [apply in_swap; first [apply refs_in; exact Q|apply sensors_in; exact Q]|left; reflexivity]).
  - intros f sd s e m kmax Hf Hs He Hm (Kex & Kle). destruct (converted_brought torad f32 trunc nanV F0 four f (H f Hf)) as (ref & n1 & n2 & M & t1 & B & Ht & A1 & A2). cbv zeta in *.
    apply (br_name _ _ _ _ _ _ _ B) in Hs. apply (br_m _ _ _ _ _ _ _ B) in Hm. set (w := if four then 4 else 5) in *.
    assert (W : 1 <= w) by (unfold w; destruct four; lia).
    assert (K4 : kmax = w).
    { destruct Kex as (f' & sd' & Hf' & S'). destruct (converted_brought torad f32 trunc nanV F0 four f' (H f' Hf')) as (ref' & n1' & n2' & M' & t1' & B' & _). cbv zeta in *. fold w in B'. pose proof (br_m _ _ _ _ _ _ _ B' sd' kmax S') as Ek.
      pose proof (Kle f' Side2 w Hf' (br_m' _ _ _ _ _ _ _ B' Side2)). destruct sd', ref'; cbn in Ek; lia. }
    assert (Q : (In s avhrr_refs /\ m = 1 /\ first_independent f sd) \/ (In s avhrr_sensors /\ m = w)).
    { destruct sd; [|right; subst; auto]. destruct ref; [left|right; subst; auto]. split; [subst; auto|]. split; [exact Hm|]. exists t1, 1%Z. split; [apply B|]. rewrite (Ht eq_refl). auto. }
    destruct (swap_in _ _ _ _ He) as (e0 & I0 & ->). destruct Q as [(X & -> & FI)|(X & ->)].
    + assert (e0 = g_entry (ref_entry (T := T))) by (eapply key_fun; [apply (avhrr_keys k)|exact I0|apply refs_in; exact X]). subst e0. cbn [g_entry ref_entry reg s_param s_const s_model s_adj s_sadj]. unfold stubbed. rewrite (proj2 (mem_in s _) X). apply ref_evaluates. exact FI.
    + assert (e0 = g_entry (avhrr_entry (T := T) k (repeat 0%R (avhrr_declared_params k)))) by (eapply key_fun; [apply (avhrr_keys k)|exact I0|apply sensors_in; exact X]). subst e0. apply stub_evaluates; auto.
      * intros Y. exact (refs_not _ Y X).
      * cbn. rewrite repeat_length. apply declared_pos.
Qed.

Lemma six_raising k p c ad sa : k <> A3 -> k <> A3_scaled -> raising (s_model R R (smodel T) amodel (mkSentry R R (smodel T) amodel p c (avhrr_function (T := T) k) ad sa)).
Proof. intros K1 K2 X a c' xt al t. cbn [s_model]. unfold avhrr_function. rewrite (avhrr_not_callable k _ a K1 K2). reflexivity. Qed.
Context (cholesky : list (list R) -> res (list (list R))) (tolA tolB eps tol : R) (xs : list vec).
Theorem six_raise : (forall l, Permutation (ordn l) l) -> cholesky_total cholesky -> (0 <= tolA)%R ->
  forall k four gs, k <> A3 -> k <> A3_scaled -> gs <> [] -> (forall g, In g gs -> avhrr_converted torad f32 trunc nanV four g) -> (forall g, In g gs -> FullSpec.usable g) ->
  (exists f M, In f gs /\ size f "M" M /\ 1 <= M) ->
  exists m sd, open_matchup nanV zeroT f32 i32 todate isfill ord ordn (registered_dict k) gs = Ok (m, sd) /\
  forall save a V, length a = length (sd_a T sd) -> spd V (length a) -> eiv_from cholesky tolA tolB eps tol xs m sd save (a, V) = Raise TypeError.
Proof.
  intros PM CT HA k four gs K1 K2 Hne CV US (f0 & M0 & Hf0 & HM0 & HM1). pose proof (converted_agree torad f32 trunc nanV F0 four gs CV) as AG.
  pose proof (swapped_describes four k gs CV) as DE.
  destruct (opened_parts nanV zeroT f32 i32 todate isfill ord ordn PM gs Hne US AG) as (ufs & mu & uncs & ws & us & kk & P).
  assert (SN : forall i s, nth_error (sensors (mu_idx R T mu)) i = Some s -> In s avhrr_refs \/ In s avhrr_sensors).
  { intros i s Hi. destruct (r_sensor nanV zeroT f32 i32 todate isfill ord ordn gs ufs mu uncs ws us kk P US i s Hi) as (f & sd & Hf & Hs).
    destruct (converted_brought torad f32 trunc nanV F0 four f (CV f Hf)) as (ref & n1 & n2 & M & t1 & B & _ & A1 & A2). apply (br_name _ _ _ _ _ _ _ B) in Hs. subst s; destruct sd, ref; auto. }
  destruct (extract_total f32 default_adj (registered_dict k) (sensors (mu_idx R T mu))) as (e & EX & L1 & L2 & EA).
  { intros s Hs. apply In_nth_error in Hs. destruct Hs as (i & Hi). destruct (SN i s Hi) as [Q|Q]; [apply (refs_in (T := T) k) in Q|apply (sensors_in (T := T) k) in Q];
      apply (lookup_nodup _ _ _ (avhrr_keys k)) in Q; eexists; eexists; (split; [exact Q|reflexivity]). }
  destruct (extract_swap f32 stubbed _ _ _ EX) as (e' & EX' & D1 & D2 & D3 & D4 & D5 & D6 & D7).
  pose (m := the_obj mu uncs ws us kk (e_param_sensor R R (smodel T) amodel e)).
  assert (RD : FullSpec.ready m (the_sd e')).
  { unfold m. rewrite <- D4. eapply (r_ready nanV zeroT f32 i32 todate isfill ord ordn gs ufs mu uncs ws us kk P US _ DE e' EX').
    - rewrite D6. exact L1.
    - rewrite D5. exact L2.
    - intros i s Hi. destruct (EA i s Hi) as (en & b & B1 & B2 & B3). eexists. exists b. split; [rewrite swap_lookup, B1; reflexivity|]. split; [exact B2|]. rewrite D5. exact B3. }
  exists m, (the_sd e). split.
  { unfold open_matchup. rewrite (pa_open _ _ _ _ _ _ _ _ _ _ _ _ _ _ _ P). cbn [bind o_unc o_w o_u o_mu o_unck]. rewrite !entries_some. cbn [bind]. unfold sensor_dict, registered_dict in *. rewrite EX. reflexivity. }
  intros save a V La SV. apply (raising_run cholesky tolA tolB eps tol xs m (the_sd e) (the_sd e') save a V RD); auto.
  - unfold lower, the_sd. cbn [sd_a sd_c sd_cs sd_adj sd_model]. do 5 (split; [congruence|]). intros i f f' Hf Hf'.
    assert (Hi : i < length (sensors (mu_idx R T mu))) by (rewrite <- L1; apply nth_error_Some; congruence). destruct (nth_error (sensors (mu_idx R T mu)) i) as [s|] eqn:Es; [|apply nth_error_None in Es; lia].
    destruct (D7 i s f Es Hf) as (G1 & en & G2 & ->). rewrite Hf' in G1. injection G1 as ->. unfold stubbed. destruct (mem String.eqb s avhrr_refs) eqn:Em; [left; reflexivity|right].
    destruct (SN i s Es) as [Q|Q]; [apply mem_in in Q; congruence|]. apply (sensors_in (T := T) k) in Q. apply (lookup_nodup _ _ _ (avhrr_keys k)) in Q. unfold registered_dict in G2. rewrite G2 in Q. injection Q as ->. apply six_raising; assumption.
  - cbn [m the_obj m_idx]. intros p Hp. apply In_nth_error in Hp. destruct Hp as (n & Hp). destruct (r_pair nanV zeroT f32 i32 todate isfill ord ordn gs ufs mu uncs ws us kk P US n p Hp) as (uf & f & _ & Hf & _ & _ & _ & Q).
    destruct (Q Side2) as (Q1 & _ & Q3). destruct (converted_brought torad f32 trunc nanV F0 four f (CV f (nth_error_In _ _ Hf))) as (ref & n1 & n2 & M & t1 & B & _ & _ & A2). apply (br_name _ _ _ _ _ _ _ B) in Q3. cbv beta iota in Q3. rewrite Q3 in Q1. cbn [sidx] in Q1.
    assert (Hi : snd p < length (e_model R R (smodel T) amodel e)) by (rewrite L1; apply nth_error_Some; congruence). destruct (nth_error (e_model R R (smodel T) amodel e) (snd p)) as [g|] eqn:Eg; [|apply nth_error_None in Eg; lia].
    exists (snd p), g. split; [right; reflexivity|]. split; [exact Eg|]. destruct (D7 _ _ _ Q1 Eg) as (_ & en & G2 & ->). apply (sensors_in (T := T) k) in A2. apply (lookup_nodup _ _ _ (avhrr_keys k)) in A2. unfold registered_dict in G2. rewrite G2 in A2. injection A2 as ->. apply six_raising; assumption.
  - exists M0. split; [|exact HM1]. cbn [m the_obj m_idx]. rewrite (io_Nm _ _ (pa_io _ _ _ _ _ _ _ _ _ _ _ _ _ _ _ P)), map_map. apply In_nth_error in Hf0. destruct Hf0 as (i & Hi).
    assert (i < length ufs) by (rewrite (pa_len _ _ _ _ _ _ _ _ _ _ _ _ _ _ _ P); apply nth_error_Some; congruence).
    destruct (nth_error ufs i) as [uf|] eqn:Eu; [|apply nth_error_None in Eu; lia]. destruct (pa_view _ _ _ _ _ _ _ _ _ _ _ _ _ _ _ P i uf Eu) as (f' & Hf' & V' & _). rewrite Hi in Hf'. injection Hf' as <-.
    apply in_map_iff. exists uf. split; [|eapply nth_error_In; exact Eu]. eapply size_fun; [apply (us_wf _ (US f0 (nth_error_In _ _ Hi)))|apply (IOProofs3.vw_M _ _ V')|exact HM0].
Qed.
End Six.
