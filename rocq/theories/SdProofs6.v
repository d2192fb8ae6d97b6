(** * Proofs for C151: converted microwave files and the registered microwave sensor data. *)
From Coq Require Import Reals Lra Permutation.
From Verif Require Import Base BaseLemmas ReaderModel ReaderSpec ReaderProofs ReaderMain UncModel UncSpec UncProofs SensorModel SensorSpec MuModel TransformModel EvalModel EvalSpec GNModel WModel WSpec WProofs WProofs2 WProofs3 WProofs4 CheckModel CheckSpec CheckProofs AvModel AvProofs5 IOModel IOSpec IOProofs IOProofs3 IOProofs4 InstModel FullModel FullSpec FullProofs2 FullProofs3 FullProofs4 FullProofs5 ConvModel ConvSpec ConvProofs ConvProofs2 ConvProofs4 ConvProofs5 ConvProofs6 ConvProofs10 SdModel SdSpec SdProofs SdProofs2 SdProofs5.
Open Scope nat_scope.

Lemma mw_filled times r1 r2 a1 a2 mv : mw_variables times times (8 / 3) r1 r2 mw_weights a1 a2 = Ok mv -> exists ws,
  w_nnz R mv = map (fun w => length (c_indices R w)) ws /\ w_row R mv = map (c_indptr R) ws /\ w_col R mv = concat (map (c_indices R) ws) /\ forall w, In w ws -> filled w.
Proof.
  intros H. assert (Hws : exists k v, nth_error mw_weights k = Some v /\ v <> 0%R) by (exists 0, (/ 16)%R; split; [reflexivity|lra]). assert (Hdt : (1 / 100 < 8 / 3)%R) by lra.
  assert (GF : forall x W u, gen_w times (8 / 3) (KF x) (Some mw_weights) None = Ok (W, u) -> (wf_csr W /\ c_nrows R W = length times /\ last_column_used W) /\ filled W).
  { intros x W u E. destruct (gen_columns times (8/3)%R x mw_weights W u Hdt Hws E) as (F & C & N & _). split; [auto|]. eapply (gen_filled times (8/3)%R (KF x) (Some mw_weights) None mw_weights (/ 16)%R W u); [reflexivity|reflexivity|lra|exact E]. }
  unfold mw_variables in H. destruct (get r2 0) as [x|]; cbn [bind] in H; [|discriminate]. destruct (gen_w _ _ (KF x) _ _) as [(w2, u20)|] eqn:G2 in H; cbn [bind] in H; [|discriminate].
  destruct (get r2 1) as [y1|]; cbn [bind] in H; [|discriminate]. destruct (get r2 2) as [y2|]; cbn [bind] in H; [|discriminate]. 
  match type of H with bind ?p _ = _ => assert (Q : forall ws us, p = Ok (ws, us) -> ws <> [] /\ forall w, In w ws -> (wf_csr w /\ c_nrows R w = length times /\ last_column_used w) /\ filled w) end.
  { intros ws us E. destruct (length r1 =? 1); [injection E as <- <-; split; [discriminate|intros w [<- |[]]; eapply GF; exact G2]|].
    destruct (get r1 0) as [z|]; cbn [bind] in E; [|discriminate]. destruct (gen_w _ _ (KF z) _ _) as [(w1, u10)|] eqn:G1 in E; cbn [bind] in E; [|discriminate].
    destruct (get r1 1) as [z1|]; cbn [bind] in E; [|discriminate]. destruct (get r1 2) as [z2|]; cbn [bind] in E; [|discriminate]. injection E as <- <-. split; [discriminate|]. intros w [<- |[<- |[]]]; eapply GF; eassumption. }
  match type of H with bind ?p _ = _ => destruct p as [(ws, us)|] eqn:Ep; cbn [bind] in H; [|discriminate] end. destruct (Q ws us eq_refl) as (NE & Q'). clear Q Ep.
  destruct (return_w_matrix_variables _ _ _ _ _ _ ws us) as [mv0|] eqn:Em in H; cbn [bind] in H; [|discriminate]. destruct (use_tables a1 a2) as [(((? & ?) & ?) & ?)|] in H; cbn [bind] in H; [|discriminate]. injection H as <-.
  exists ws. cbn [w_nnz w_row w_col]. assert (HH : forall w, In w ws -> wf_csr w /\ c_nrows R w = length times /\ last_column_used w) by (intros w Hi; apply (Q' w Hi)).
  rewrite (pack_mv _ _ _ _ _ _ _ _ NE HH Em). cbn [w_nnz w_row w_col]. do 3 (split; [reflexivity|]). intros w Hi. apply (Q' w Hi).
Qed.

(** A good microwave file with two match-ups. *)
Definition mw_input (f : ncfile) (p : mdata) (a : side -> instrument) : Prop :=
  base_file f p /\ (forall sd, mw_name (a sd) (p_name p sd)) /\ a Side2 <> Ref /\ 2 <= p_M p /\ (forall sd, p_m p sd = mw_covariates (a sd)) /\ mw_good p a.
Theorem mw_usable ft trunc f p a : mw_input f p a -> exists g, mw_file ft trunc f = Ok g /\ usable g /\ rows_filled g /\ size g "M" (p_M p) /\ (forall sd, file_sensor g sd (p_name p sd)) /\ forall sd, size g ("m" ++ IOSpec.snum sd) (p_m p sd).
Proof.
  intros (Hb & Hn & Hr & HM & Hm & Hg). destruct (mw_accepted' ft trunc f p a Hb (Hn Side1) (Hn Side2) Hr ltac:(lia) Hm) as (g & mv & E & HF & RP & HC).
  destruct (mw_result ft trunc f p a Hb (Hn Side1) (Hn Side2) Hr ltac:(lia) Hm) as (g' & mv' & ws & us & E' & HF' & _ & _ & _ & _ & r1 & r2 & EV). assert (g' = g) by congruence. subst g'.
  destruct (mw_filled _ _ _ _ _ _ EV) as (ws' & Q1 & Q2 & Q3 & Q4). destruct (has_filled g _ _ ws' HF' Q1 Q2 Q3 Q4) as (PO & RF).
  exists g. split; [exact E|]. split; [|split; [exact RF|split; [exact (hf_M _ _ _ HF)|split; [exact (hf_names _ _ _ HF)|exact (hf_m _ _ _ HF)]]]].
  constructor.
  - apply HF.
  - apply HC. exact Hg.
  - auto.
  - intros sd l M _ _ SM. rewrite (size_fun _ _ _ _ (hf_wf _ _ _ HF) SM (hf_M _ _ _ HF)). exact HM.
  - intros sd k Sk. rewrite (size_fun _ _ _ _ (hf_wf _ _ _ HF) Sk (hf_m _ _ _ HF sd)). cbn [mw_converted p_m]. rewrite Hm. destruct (a sd); cbn; lia.
Qed.

Lemma mw_name_one a a' n : mw_name a n -> mw_name a' n -> a = a'.
Proof. destruct a, a'; cbn; intuition (subst; congruence). Qed.

(** ** Extraction of sensor data *)
Lemma extract_missing {V C F A} (g : V -> V) (dadj : A) (d : list (string * sentry V C F A)) names :
  (forall s, In s names -> lookup s d = None \/ exists en b, lookup s d = Some en /\ SensorModel.adjustment V C F A dadj en = Ok b) -> (exists s, In s names /\ lookup s d = None) ->
  extract_sensor_data V C F A g dadj d names = Raise KeyError.
Proof.
  intros H (s & Hs & Ls). unfold extract_sensor_data.
  assert (Q : mapM (fun s => match lookup s d with None => Raise KeyError | Some e => do a <- SensorModel.adjustment V C F A dadj e;; Ok (s_model V C F A e, a) end) names = Raise KeyError); [|rewrite Q; reflexivity].
  revert Hs H. induction names as [|n names IH]; intros Hs H; [destruct Hs|]. cbn [mapM]. destruct (H n (or_introl eq_refl)) as [L|(en & b & L & B)]; rewrite L; [reflexivity|]. rewrite B. cbn [bind].
  destruct Hs as [<- |Hs]; [congruence|]. rewrite IH; [reflexivity|exact Hs|intros x Hx; apply H; right; exact Hx].
Qed.

Section Mw.
Context {T : Type} (nanV : R) (zeroT : T) (f32 i32 : R -> R) (todate : R -> T) (isfill : R -> bool) (ord : list string -> list string) (ordn : list nat -> list nat).
Context (toint : R -> Z) (ft : R -> R) (trunc : R -> Z).
Lemma mw_lookup a s : mw_name a s -> if mem String.eqb s ["ma"; "mb"]%string then lookup s (dict_of (T := T) (mw_table toint)) = None
  else exists en b, lookup s (dict_of (mw_table toint)) = Some en /\ SensorModel.adjustment R R (smodel T) amodel default_adj en = Ok b.
Proof.
  destruct a; cbn [mw_name In]; intros H; [subst s; do 2 eexists; split; reflexivity| |]; repeat (destruct H as [<- |H]; [first [reflexivity|do 2 eexists; split; reflexivity]|]); destruct H.
Qed.
Theorem mw_registered : (forall l, Permutation (ordn l) l) -> forall l : list (ncfile * mdata * (side -> instrument)), l <> [] -> (forall f p a, In (f, p, a) l -> mw_input f p a) ->
  exists gs, mapM (fun x => mw_file ft trunc (fst (fst x))) l = Ok gs /\ (forall g, In g gs -> check g = Ok []) /\
  ((exists f p a sd, In (f, p, a) l /\ In (p_name p sd) ["ma"; "mb"]%string) -> open_matchup nanV zeroT f32 i32 todate isfill ord ordn (dict_of (T := T) (mw_table toint)) gs = Raise KeyError) /\
  ((forall f p a sd, In (f, p, a) l -> ~ In (p_name p sd) ["ma"; "mb"]%string) -> exists m sd, open_matchup nanV zeroT f32 i32 todate isfill ord ordn (dict_of (T := T) (mw_table toint)) gs = Ok (m, sd)).
Proof.
  intros PM l Hne H.
  destruct (mapM_rel (fun x => mw_file ft trunc (fst (fst x))) (fun x g => usable g /\ (forall sd, file_sensor g sd (p_name (snd (fst x)) sd)) /\ forall sd, size g ("m" ++ IOSpec.snum sd) (p_m (snd (fst x)) sd)) l) as (gs & E & L & N).
  { intros ((f & p) & a) Hi. cbn [fst snd]. destruct (mw_usable ft trunc f p a (H f p a Hi)) as (g & E & U & _ & _ & N & M). exists g. auto. }
  exists gs. split; [exact E|].
  assert (EACH : forall g, In g gs -> exists f p a, In (f, p, a) l /\ usable g /\ (forall sd, file_sensor g sd (p_name p sd)) /\ forall sd, size g ("m" ++ IOSpec.snum sd) (p_m p sd)).
  { intros g Hi. apply In_nth_error in Hi. destruct Hi as (i & Hi). destruct (nth_error l i) as [((f & p) & a)|] eqn:El; [|exfalso; apply nth_error_None in El; assert (i < length gs) by (apply nth_error_Some; congruence); lia].
    destruct (N i _ El) as (g' & Hg' & Q). rewrite Hi in Hg'. injection Hg' as <-. exists f, p, a. split; [eapply nth_error_In; exact El|exact Q]. }
  assert (US : forall g, In g gs -> usable g) by (intros g Hi; destruct (EACH g Hi) as (f & p & a & _ & U & _); exact U).
  split; [intros g Hi; apply (us_check _ (US g Hi))|].
  assert (NE : gs <> []) by (intros ->; destruct l; [congruence|discriminate L]).
  assert (AG : agree gs).
  { intros g g' sd sd' s m m' Hi Hi' S1 S2 M1 M2. destruct (EACH g Hi) as (f & p & a & Hl & U & FS & SZ). destruct (EACH g' Hi') as (f' & p' & a' & Hl' & U' & FS' & SZ').
    rewrite (size_fun _ _ _ _ (us_wf _ U) M1 (SZ sd)), (size_fun _ _ _ _ (us_wf _ U') M2 (SZ' sd')).
    pose proof (sensor_fun _ _ _ _ (us_wf _ U) S1 (FS sd)) as Q1. pose proof (sensor_fun _ _ _ _ (us_wf _ U') S2 (FS' sd')) as Q2. destruct (H _ _ _ Hl) as (_ & HN & _ & _ & HM & _). destruct (H _ _ _ Hl') as (_ & HN' & _ & _ & HM' & _).
    rewrite HM, HM'. f_equal. apply (mw_name_one _ _ (p_name p sd)); [apply HN|]. rewrite <- Q1, Q2. apply HN'. }
  destruct (opened_parts nanV zeroT f32 i32 todate isfill ord ordn PM gs NE US AG) as (ufs & mu & uncs & ws & us & kk & P).
  assert (SN : forall i s, nth_error (sensors (mu_idx R T mu)) i = Some s -> exists f p a sd, In (f, p, a) l /\ s = p_name p sd).
  { intros i s Hi. destruct (r_sensor nanV zeroT f32 i32 todate isfill ord ordn gs ufs mu uncs ws us kk P US i s Hi) as (g & sd & Hg & Hs).
    destruct (EACH g Hg) as (f & p & a & Hl & U & FS & _). exists f, p, a, sd. split; [exact Hl|]. exact (sensor_fun _ _ _ _ (us_wf _ U) Hs (FS sd)). }
  assert (OP : open_matchup nanV zeroT f32 i32 todate isfill ord ordn (dict_of (T := T) (mw_table toint)) gs = match extract_sensor_data R R (smodel T) amodel f32 default_adj (dict_of (mw_table toint)) (sensors (mu_idx R T mu)) with
     | Ok e => Ok (the_obj mu uncs ws us kk (e_param_sensor R R (smodel T) amodel e), the_sd e) | Raise x => Raise x end).
  { unfold open_matchup. rewrite (pa_open _ _ _ _ _ _ _ _ _ _ _ _ _ _ _ P). cbn [bind o_unc o_w o_u o_mu o_unck]. rewrite !entries_some. cbn [bind]. unfold sensor_dict in *. destruct (extract_sensor_data _ _ _ _ _ _ _ _); reflexivity. }
  split.
  - intros (f & p & a & sd & Hl & HMB). rewrite OP. rewrite extract_missing; [reflexivity| |].
    + intros s Hs. apply In_nth_error in Hs. destruct Hs as (i & Hi). destruct (SN i s Hi) as (f1 & p1 & a1 & sd1 & Hl1 & ->). destruct (H _ _ _ Hl1) as (_ & HN & _). pose proof (mw_lookup _ _ (HN sd1)) as Q.
      destruct (mem String.eqb (p_name p1 sd1) _); [left; exact Q|right; exact Q].
    + exists (p_name p sd). split.
      * apply In_nth_error in Hl. destruct Hl as (n & Hl). destruct (N n _ Hl) as (g & Hg & U & FS & _). cbn [fst snd] in FS.
        assert (LI : length (Im (mu_idx R T mu)) = length gs). { rewrite (io_Imlen _ _ (pa_io _ _ _ _ _ _ _ _ _ _ _ _ _ _ _ P)), map_length. apply (pa_len _ _ _ _ _ _ _ _ _ _ _ _ _ _ _ P). }
        destruct (nth_error (Im (mu_idx R T mu)) n) as [pr|] eqn:Ep; [|exfalso; apply nth_error_None in Ep; assert (n < length gs) by (apply nth_error_Some; congruence); lia].
        destruct (r_pair nanV zeroT f32 i32 todate isfill ord ordn gs ufs mu uncs ws us kk P US n pr Ep) as (uf & g' & _ & Hg' & _ & _ & _ & Q). rewrite Hg in Hg'. injection Hg' as <-. destruct (Q sd) as (Q1 & _ & Q3).
        rewrite (sensor_fun _ _ _ _ (us_wf _ U) Q3 (FS sd)) in Q1. eapply nth_error_In; exact Q1.
      * destruct (H _ _ _ Hl) as (_ & HN & _). pose proof (mw_lookup _ _ (HN sd)) as Q. rewrite (proj2 (mem_in _ _) HMB) in Q. exact Q.
  - intros HNO. destruct (extract_total f32 default_adj (dict_of (T := T) (mw_table toint)) (sensors (mu_idx R T mu))) as (e & EX & _).
    { intros s Hs. apply In_nth_error in Hs. destruct Hs as (i & Hi). destruct (SN i s Hi) as (f1 & p1 & a1 & sd1 & Hl1 & ->). destruct (H _ _ _ Hl1) as (_ & HN & _). pose proof (mw_lookup _ _ (HN sd1)) as Q.
      destruct (mem String.eqb (p_name p1 sd1) _) eqn:Em; [apply mem_in in Em; exfalso; exact (HNO _ _ _ sd1 Hl1 Em)|exact Q]. }
    rewrite OP. unfold sensor_dict in *. rewrite EX. eauto.
Qed.
End Mw.
