(** Proofs for C117: the opened object has everything the later steps need. *)
From Coq Require Import Reals Permutation Lra.
From Verif Require Import Base BaseLemmas ReaderModel ReaderSpec ReaderProofs ReaderMain UncModel UncSpec UncProofs UncProofs2 UncProofs3 UnckModel SensorModel SensorSpec SensorProofs MuModel SampleSpec
  TransformModel TransformSpec EvalModel EvalSpec GNModel GNSpec
  CheckModel CheckSpec CheckProofs CheckProofs2 CheckProofs3 CheckProofs4 CheckProofs5 IOModel IOSpec IOProofs IOProofs2 IOProofs3 IOProofs4
  FullModel FullSpec FullProofs FullProofs2 FullProofs3 FullProofs4.
Open Scope nat_scope.

Lemma labelled_count {B} s l (v : list B) : length l = length v -> length (labelled s l v) = n_params l s.
Proof.
  unfold labelled, n_params. revert v. induction l as [|x l IH]; intros [|y v] H; try discriminate; [reflexivity|]. cbn [combine filter fst]. rewrite (String.eqb_sym s x).
  destruct (String.eqb x s); cbn [map snd length]; rewrite (IH v) by (cbn in H; lia); reflexivity.
Qed.

Section Extract.
Context {V C F A : Type} (g : V -> V) (dadj : A).
Lemma extract_total (sd : list (string * sentry V C F A)) names :
  (forall s, In s names -> exists en b, lookup s sd = Some en /\ SensorModel.adjustment V C F A dadj en = Ok b) ->
  exists e, extract_sensor_data V C F A g dadj sd names = Ok e /\ length (e_model V C F A e) = length names /\ length (e_adj V C F A e) = length names /\
    forall i s, nth_error names i = Some s -> exists en b, lookup s sd = Some en /\ SensorModel.adjustment V C F A dadj en = Ok b /\ nth_error (e_adj V C F A e) i = Some b.
Proof.
  intros H. unfold extract_sensor_data.
  destruct (mapM_rel (fun s => match lookup s sd with None => Raise KeyError | Some e => do a <- SensorModel.adjustment V C F A dadj e;; Ok (s_model V C F A e, a) end)
     (fun s p => exists en, lookup s sd = Some en /\ SensorModel.adjustment V C F A dadj en = Ok (snd p)) names) as (ma & E & L & N).
  { intros s Hs. destruct (H s Hs) as (en & b & E1 & E2). rewrite E1, E2. cbn [bind]. eexists. split; [reflexivity|]. exists en. auto. }
  rewrite E. cbn [bind]. eexists. split; [reflexivity|]. cbn [e_model e_adj]. rewrite !map_length. split; [exact L|]. split; [exact L|].
  intros i s Hs. destruct (N i s Hs) as (p & Hp & en & Q1 & Q2). exists en, (snd p). rewrite nth_error_map', Hp. auto.
Qed.
End Extract.

Section Ready.
Context {T : Type} (nanV : R) (zeroT : T) (f32 i32 : R -> R) (todate : R -> T) (isfill : R -> bool) (ord : list string -> list string) (ordn : list nat -> list nat).
Context (fs : list ncfile) (ufs : list (ufile R)) (mu : matchup R T) (uncs : list (unc R)) (ws : list (csr R)) (us : list (list R)) (k : list (list R)).
Context (P : parts nanV zeroT f32 i32 todate isfill ord ordn fs ufs mu uncs ws us k) (US : forall f, In f fs -> usable f).
Let ds := map (uf_d R) ufs.
Let ix := mu_idx R T mu.
Let IO : idx_ok ds ix := pa_io _ _ _ _ _ _ _ _ _ _ _ _ _ _ _ P.
Let GF : good_files ds := pa_good _ _ _ _ _ _ _ _ _ _ _ _ _ _ _ P.

Lemma r_view i uf : nth_error ufs i = Some uf -> exists f, nth_error fs i = Some f /\ usable f /\ wf_nc f /\ acceptable f /\ view f uf.
Proof.
  intros H. destruct (pa_view _ _ _ _ _ _ _ _ _ _ _ _ _ _ _ P i uf H) as (f & Hf & V & _). exists f. pose proof (US f (nth_error_In _ _ Hf)) as U.
  destruct (usable_acceptable f U). auto.
Qed.
Lemma r_pos d sd : In d ds -> 1 <= sm d sd.
Proof.
  intros H. apply in_map_iff in H. destruct H as (uf & <- & Hi). apply In_nth_error in Hi. destruct Hi as (i & Hi). destruct (r_view i uf Hi) as (f & _ & U & _ & _ & V).
  apply (us_cov _ U sd). apply (vw_m _ _ V).
Qed.
Lemma r_ds n d : nth_error ds n = Some d -> exists uf, nth_error ufs n = Some uf /\ d = uf_d R uf.
Proof. unfold ds. rewrite nth_error_map'. destruct (nth_error ufs n); [intros [= <-]; eauto|discriminate]. Qed.
Lemma r_pair n p : nth_error (Im ix) n = Some p -> exists uf f, nth_error ufs n = Some uf /\ nth_error fs n = Some f /\ usable f /\ wf_nc f /\ view f uf /\
  forall sd, nth_error (sensors ix) (sidx p sd) = Some (sname (uf_d R uf) sd) /\ nth_error (sensor_ms ix) (sidx p sd) = Some (sm (uf_d R uf) sd) /\ file_sensor f sd (sname (uf_d R uf) sd).
Proof.
  intros H. destruct (pair_file ds ix IO n p H) as (d & Hd & Hs). destruct (r_ds n d Hd) as (uf & Hu & ->). destruct (r_view n uf Hu) as (f & Hf & U & W & _ & V).
  exists uf, f. do 5 (split; [assumption|]). intros sd. split; [apply Hs|]. split; [|apply (vw_s _ _ V)]. exact (pair_ms ds ix IO GF n p _ sd H Hd).
Qed.
Lemma r_block b u : nth_error uncs b = Some u -> exists s n c uf f sd ty,
  nth_error (n_sensor ix) b = Some s /\ nth_error (n_mu ix) b = Some n /\ nth_error (n_cov ix) b = Some c /\ nth_error (sensors ix) s = Some (sname (uf_d R uf) sd) /\
  1 <= n /\ nth_error ufs (n - 1) = Some uf /\ nth_error fs (n - 1) = Some f /\ usable f /\ wf_nc f /\ acceptable f /\ view f uf /\ 1 <= c <= sm (uf_d R uf) sd /\
  nth_error (stypes (uf_u R uf) sd) (c - 1) = Some ty /\ as_declared uf sd c ty (u_kind R u) (map Some ws) (map Some us) /\ nth_error (N_var ix) b = Some (d_M R (uf_d R uf)).
Proof.
  intros H. destruct (ix_lens ds ix IO) as (L1 & L2 & L3 & L4).
  destruct (nth_error (blocks (Im ix) (sensor_ms ix)) b) as [[[s n] c]|] eqn:E.
  2: { apply nth_error_None in E. assert (b < length uncs) by (apply nth_error_Some; congruence). rewrite (pa_ulen _ _ _ _ _ _ _ _ _ _ _ _ _ _ _ P) in H0. fold ix in H0. lia. }
  destruct (ix_block_of ds ix IO b _ E) as (B1 & B2 & B3 & _). cbn [fst snd] in B1, B2, B3.
  pose proof E as E'. rewrite <- (idx_ok_block_idxs _ _ IO) in E'.
  destruct (pa_block _ _ _ _ _ _ _ _ _ _ _ _ _ _ _ P b s n c E') as (name & uf & sd & ty & u' & Q1 & Q2 & Q3 & Q4 & Q5 & Q6 & Q7 & Q8). rewrite H in Q7. injection Q7 as <-.
  destruct (r_view _ uf Q3) as (f & Hf & U & W & A & V). destruct (ix_series ds ix IO b n B2) as (_ & d & D1 & _ & D3). destruct (r_ds _ _ D1) as (uf' & Hu' & ->). rewrite Q3 in Hu'. injection Hu' as <-.
  exists s, n, c, uf, f, sd, ty. subst name. repeat (split; [assumption|]). assumption.
Qed.
Lemma w_nonzero mv w W : open_w_matrix R mv w = Ok W -> w <> 0.
Proof.
  intros H ->. unfold open_w_matrix in H. cbn [Nat.sub] in H. destruct (get (cumul 0 (w_nnz R mv)) 0) as [lo|]; cbn [bind] in H; [|discriminate].
  destruct (get (w_row R mv) 0); cbn [bind] in H; [|discriminate]. unfold slice in H. rewrite Nat.sub_diag in H. cbn in H. discriminate.
Qed.
Lemma column_len (r : list (list R)) c col : ReaderSpec.is_column r c col -> length col = length r.
Proof. intros (H & _). exact H. Qed.

Section Obj.
Context (ps : list string).
Definition the_obj : mobj R T :=
  mkMobj R T ix (Some ps) (Some ix) (Some ps) (mu_values R T mu) (mu_ks R T mu) uncs k ws us
             (Some (mu_time1 R T mu)) (Some (mu_time2 R T mu)) (mu_across1 R T mu) (mu_across2 R T mu) (mu_along1 R T mu) (mu_along2 R T mu)
             (Some (mu_add_names R T mu, mu_add R T mu)).
Notation m := the_obj.

Lemma r_sums : list_sum (Nm ix) = list_sum (map (d_M R) ds).
Proof. rewrite (io_Nm _ _ IO). reflexivity. Qed.
Lemma r_mu : omu 0%R nanV zeroT f32 i32 todate isfill ord ds = Ok mu.
Proof. exact (pa_mu _ _ _ _ _ _ _ _ _ _ _ _ _ _ _ P). Qed.
Lemma r_wf : wf_mobj m.
Proof.
  destruct (ix_lens ds ix IO) as (L1 & L2 & L3 & L4). pose proof (readable_good _ GF) as (_ & RD & _).
  destruct (omu_opened 0%R nanV zeroT f32 i32 todate isfill ord ds mu RD r_mu) as (OP & _).
  destruct (series_lengths 0%R nanV zeroT f32 i32 todate isfill ord ds mu RD r_mu) as (S1 & S2 & S3).
  constructor; cbn [m_idx the_obj m_unc m_unck m_values m_ks].
  - rewrite (io_Nm _ _ IO). apply (io_cNm _ _ IO).
  - apply (io_idx _ _ IO).
  - exact L1.
  - rewrite (pa_ulen _ _ _ _ _ _ _ _ _ _ _ _ _ _ _ P). exact L2.
  - rewrite (pa_klen _ _ _ _ _ _ _ _ _ _ _ _ _ _ _ P), (io_Nm _ _ IO). unfold ds. rewrite !map_length. symmetry. apply (pa_len _ _ _ _ _ _ _ _ _ _ _ _ _ _ _ P).
  - intros b n H. destruct (ix_series ds ix IO b n H) as (H1 & d & H2 & H3 & H4). split; [exact H1|]. exists (d_M R d). auto.
  - apply (ix_all ds ix IO GF r_pos).
  - destruct (op_vals _ _ _ _ _ _ _ _ _ OP) as (bs & -> & Hl & _). rewrite concat_length. fold ix in Hl. rewrite Hl. reflexivity.
  - rewrite r_sums. exact S1.
Qed.
Lemma r_k n u : nth_error k n = Some u -> nth_error (Nm ix) n = Some (length u) /\ forall x, In x u -> (0 < x)%R.
Proof.
  intros H. destruct (pa_k _ _ _ _ _ _ _ _ _ _ _ _ _ _ _ P n u H) as (f & Hf & K). pose proof (US f (nth_error_In _ _ Hf)) as U. destruct (usable_acceptable f U) as (W & A).
  assert (LT : n < length ufs) by (rewrite (pa_len _ _ _ _ _ _ _ _ _ _ _ _ _ _ _ P); apply nth_error_Some; congruence).
  destruct (nth_error ufs n) as [uf|] eqn:Eu; [|apply nth_error_None in Eu; lia]. destruct (r_view n uf Eu) as (f' & Hf' & _ & _ & _ & V). rewrite Hf in Hf'. injection Hf' as <-.
  destruct (kr_positive f W A u _ K (vw_M _ _ V)) as (K1 & K2). split; [|exact K2]. rewrite (io_Nm _ _ IO), nth_error_map'. unfold ds. rewrite nth_error_map', Eu. cbn. rewrite K1. reflexivity.
Qed.
Lemma r_sysi u : In u uncs -> systematic u -> exists j, u_sysi R u = Some j /\ 1 <= j.
Proof.
  intros Hi Hs. destruct (numbering_opened 0%R ordn ufs ix _ _ _ GF (pa_idx _ _ _ _ _ _ _ _ _ _ _ _ _ _ _ P) (pa_unc _ _ _ _ _ _ _ _ _ _ _ _ _ _ _ P)) as (_ & _ & n & N1 & _).
  apply In_nth_error in Hi. destruct Hi as (b & Hb). apply (proj2 (nth_some _ _ _)) in Hb. destruct (proj1 (N1 b u Hb) Hs) as (j & J1 & J2 & _). eauto.
Qed.
Lemma r_mats uf f sd c (wi ui : nat) : usable f -> wf_nc f -> acceptable f -> view f uf ->
  (exists mv w uj W U, umat R (uf_u R uf) = Some mv /\ nth_error (swuse mv sd) (c - 1) = Some w /\ open_w_matrix R mv w = Ok W /\ nth_error (map Some ws) wi = Some (Some W) /\
      nth_error (suuse mv sd) (c - 1) = Some uj /\ open_u_matrix R mv uj = Ok U /\ nth_error (map Some us) ui = Some (Some U)) ->
  exists w uv, nth_error ws wi = Some w /\ nth_error us ui = Some uv /\ csr_shape w (d_M R (uf_d R uf)) (length uv) /\
    exists mv wn, umat R (uf_u R uf) = Some mv /\ open_w_matrix R mv wn = Ok w.
Proof.
  intros U W A V (mv & w & uj & Wm & Um & Q1 & Q2 & Q3 & Q4 & Q5 & Q6 & Q7). apply (proj1 (nth_some _ _ _)) in Q4. apply (proj1 (nth_some _ _ _)) in Q7. exists Wm, Um. split; [exact Q4|]. split; [exact Q7|].
  split; [|eauto]. exact (accepted_csr f uf W A V mv sd (c - 1) w uj Wm Um (us_rows _ U) Q1 Q2 Q5 (w_nonzero _ _ _ Q3) Q3 Q6).
Qed.
Lemma r_shapes : shapes_ok m.
Proof.
  split; [|split]; cbn [m_idx the_obj m_unc m_unck m_ws m_us].
  - rewrite (io_Imlen _ _ IO), (io_Nm _ _ IO), map_length. reflexivity.
  - intros n u H. apply (r_k n u H).
  - intros b u N Hb HN. destruct (r_block b u Hb) as (s & n & c & uf & f & sd & ty & _ & _ & _ & _ & _ & _ & _ & U & W & A & V & Hc & Ht & D & EN). rewrite HN in EN. injection EN as ->.
    destruct (vw_ur _ _ V sd) as (rr & _ & R2 & R3). destruct (vw_us _ _ V sd) as (sr & _ & S2 & S3).
    pose proof (r_sysi u (nth_error_In _ _ Hb)) as SY. unfold systematic in SY. unfold as_declared in D. destruct (u_kind R u) as [r|r sy|wi ui|wi ui sy].
    + destruct D as (_ & r' & D1 & D2). rewrite R2 in D1. injection D1 as <-. rewrite (column_len _ _ _ D2). apply R3.
    + destruct D as (_ & (r' & D1 & D2) & (s' & D3 & D4)). rewrite R2 in D1. injection D1 as <-. rewrite S2 in D3. injection D3 as <-. rewrite (column_len _ _ _ D2), (column_len _ _ _ D4).
      split; [apply R3|]. split; [apply S3|]. apply SY. exact Logic.I.
    + destruct D as (_ & D). destruct (r_mats uf f sd c wi ui U W A V D) as (w & uv & Q1 & Q2 & Q3 & _). eauto.
    + destruct D as (_ & D & _). destruct (r_mats uf f sd c wi ui U W A V D) as (w & uv & Q1 & Q2 & Q3 & _). split; [eauto|]. apply SY. exact Logic.I.
Qed.
Lemma r_num : well_numbered m.
Proof.
  destruct (numbering_opened 0%R ordn ufs ix _ _ _ GF (pa_idx _ _ _ _ _ _ _ _ _ _ _ _ _ _ _ P) (pa_unc _ _ _ _ _ _ _ _ _ _ _ _ _ _ _ P)) as (_ & _ & n & N1 & _ & N3).
  split; cbn [m_idx the_obj m_unc].
  - intros j u Hi Hs (j' & Ej' & Hj). apply In_nth_error in Hi. destruct Hi as (b & Hb). apply (proj2 (nth_some _ _ _)) in Hb. destruct (proj1 (N1 b u Hb) Hs) as (j1 & J1 & J2). rewrite Ej' in J1. injection J1 as <-.
    destruct (N3 j) as (b' & u' & Hb' & Hu'); [lia|]. exists b', u'. split; [apply nth_some; exact Hb'|]. split; [|exact Hu'].
    destruct (N1 b' u' Hb') as (_ & Q). unfold has_systematic, systematic in *. destruct (u_kind R u') eqn:E; auto; assert (X : u_sysi R u' = None) by (apply Q; tauto); congruence.
  - intros b s Hb. destruct (ix_lens ds ix IO) as (L1 & L2 & L3 & L4). assert (LT : b < length uncs) by (rewrite (pa_ulen _ _ _ _ _ _ _ _ _ _ _ _ _ _ _ P); apply nth_error_Some; fold ix; congruence).
    destruct (nth_error uncs b) as [u|] eqn:Eu; [|apply nth_error_None in Eu; lia]. destruct (r_block b u Eu) as (s' & n' & c & uf & f & sd & ty & B1 & _ & _ & B4 & _). rewrite Hb in B1. injection B1 as <-.
    apply nth_error_Some. congruence.
Qed.
Lemma ncols_positive mv w W : open_w_matrix R mv w = Ok W -> 1 <= c_ncols R W.
Proof.
  unfold open_w_matrix. destruct (get (cumul 0 (w_nnz R mv)) (w - 1)); cbn [bind]; [|discriminate]. destruct (get (cumul 0 (w_nnz R mv)) w); cbn [bind]; [|discriminate].
  destruct (get (w_row R mv) (w - 1)); cbn [bind]; [|discriminate]. destruct (pymax _) as [mx|]; cbn [bind]; [|discriminate]. unfold csr_new. destruct (_ && _); [|discriminate]. intros [= <-]. cbn. lia.
Qed.
Lemma r_u u ui uv : In u (m_unc R T m) -> u_of (u_kind R u) = Some ui -> nth_error (m_us R T m) ui = Some uv -> uv <> [].
Proof.
  intros Hu Hk Hv. cbn [the_obj m_unc m_us] in Hu, Hv. apply In_nth_error in Hu. destruct Hu as (b & Hb).
  destruct (r_block b u Hb) as (s & n & c & uf & f & sd & ty & _ & _ & _ & _ & _ & _ & Hf & U & W & A & V & Hc & Ht & D & _).
  assert (Q : exists wi, exists w' uv', nth_error ws wi = Some w' /\ nth_error us ui = Some uv' /\ csr_shape w' (d_M R (uf_d R uf)) (length uv') /\ exists mv wn, umat R (uf_u R uf) = Some mv /\ open_w_matrix R mv wn = Ok w').
  { unfold as_declared in D. destruct (u_kind R u) as [r|r sy|wi ui'|wi ui' sy]; try discriminate; cbn in Hk; injection Hk as ->; exists wi.
    - destruct D as (_ & D). exact (r_mats uf f sd c wi ui U W A V D).
    - destruct D as (_ & D & _). exact (r_mats uf f sd c wi ui U W A V D). }
  destruct Q as (wi & w' & uv' & _ & Q2 & (_ & Q3 & _) & mv & wn & _ & Q4). rewrite Hv in Q2. injection Q2 as <-. pose proof (ncols_positive _ _ _ Q4) as Q. rewrite Q3 in Q. intros ->. cbn in Q. lia.
Qed.
Lemma r_positive : (forall u x, In u (m_unck R T m) -> In x u -> (0 < x)%R) /\ (forall u x, In u (m_us R T m) -> In x u -> (0 < x)%R) /\
      forall u r x, In u (m_unc R T m) -> u_kind R u = UK1 R r \/ (exists s, u_kind R u = UK2 R r s) -> In x r -> (0 < x)%R.
Proof.
  cbn [the_obj m_unck m_us m_unc]. split; [|split].
  - intros u x Hu Hx. apply In_nth_error in Hu. destruct Hu as (i & Hi). exact (proj2 (r_k i u Hi) x Hx).
  - intros u x Hu Hx. apply In_nth_error in Hu. destruct Hu as (i & Hi). destruct (pa_us _ _ _ _ _ _ _ _ _ _ _ _ _ _ _ P i u Hi) as (uf & mv & j & H1 & H2 & H3).
    apply In_nth_error in H1. destruct H1 as (n & Hn). destruct (r_view n uf Hn) as (f & _ & _ & W & A & V). exact (u_positive f uf W A V mv j u H2 H3 x Hx).
  - intros u r x Hu Hk Hx. apply In_nth_error in Hu. destruct Hu as (b & Hb). destruct (r_block b u Hb) as (s & n & c & uf & f & sd & ty & _ & _ & _ & _ & _ & _ & _ & U & W & A & V & Hc & Ht & D & _).
    unfold as_declared in D. destruct Hk as [Hk|(s' & Hk)]; rewrite Hk in D.
    + destruct D as (-> & r' & D1 & D2). exact (ur_positive f uf W A V sd c r' r 1 (proj1 Hc) Ht (or_introl eq_refl) D1 D2 x Hx).
    + destruct D as (-> & (r' & D1 & D2) & _). exact (ur_positive f uf W A V sd c r' r 2 (proj1 Hc) Ht (or_intror eq_refl) D1 D2 x Hx).
Qed.
End Obj.

Section Sens.
Context (dict : sensor_dict) (DE : describes dict fs) (e : extracted R R (smodel T) amodel)
  (EX : extract_sensor_data R R (smodel T) amodel f32 default_adj dict (sensors ix) = Ok e)
  (EL1 : length (e_model R R (smodel T) amodel e) = length (sensors ix)) (EL2 : length (e_adj R R (smodel T) amodel e) = length (sensors ix))
  (EA : forall i s, nth_error (sensors ix) i = Some s -> exists en b, lookup s dict = Some en /\ SensorModel.adjustment R R (smodel T) amodel default_adj en = Ok b /\ nth_error (e_adj R R (smodel T) amodel e) i = Some b).
Notation m := (the_obj (e_param_sensor R R (smodel T) amodel e)).
Definition the_sd : sdat T := mkSdat T (SensorModel.e_a R R (smodel T) amodel e) (e_const R R (smodel T) amodel e) (e_const_sensor R R (smodel T) amodel e)
             (e_model R R (smodel T) amodel e) (e_adj R R (smodel T) amodel e).

Lemma r_sensor s name : nth_error (sensors ix) s = Some name -> exists f sd, In f fs /\ file_sensor f sd name.
Proof.
  intros H. apply nth_error_In in H. apply (io_sens _ _ IO) in H. destruct H as (d & sd & Hd & <-). apply in_map_iff in Hd. destruct Hd as (uf & <- & Hi). apply In_nth_error in Hi. destruct Hi as (i & Hi).
  destruct (r_view i uf Hi) as (f & Hf & _ & _ & _ & V). exists f, sd. split; [eapply nth_error_In; exact Hf|apply (vw_s _ _ V)].
Qed.
Lemma r_adj s b : nth_error (e_adj R R (smodel T) amodel e) s = Some b -> forall r, exists r' B, b r = Ok (r', B) /\ length r' = length r /\ length B = length r.
Proof.
  intros H r. assert (LT : s < length (sensors ix)) by (rewrite <- EL2; apply nth_error_Some; congruence). destruct (nth_error (sensors ix) s) as [name|] eqn:En; [|apply nth_error_None in En; lia].
  destruct (EA s name En) as (en & b' & L & A & Hb). rewrite H in Hb. injection Hb as <-. destruct (r_sensor s name En) as (f & sd & Hf & Hs). destruct (de_entry _ _ DE f sd name Hf Hs) as (e0 & I0 & AD).
  apply (lookup_nodup _ _ _ (de_keys _ _ DE)) in I0. rewrite L in I0. injection I0 as <-. unfold SensorModel.adjustment in A. destruct AD as [AD|(b0 & B1 & B2)].
  - rewrite AD in A. injection A as <-. exists r, (map (fun _ => 1%R) r). rewrite map_length. auto.
  - destruct (s_adj _ _ _ _ en); [rewrite B1 in A; injection A as <-; exact (B2 r)|]. injection A as <-. exists r, (map (fun _ => 1%R) r). rewrite map_length. auto.
Qed.
Lemma r_times l : In (Some l) [m_time1 R T m; m_time2 R T m] -> length l = list_sum (Nm ix).
Proof.
  pose proof (readable_good _ GF) as (_ & RD & _). destruct (series_lengths 0%R nanV zeroT f32 i32 todate isfill ord ds mu RD r_mu) as (S1 & S2 & S3). rewrite r_sums.
  cbn [the_obj m_time1 m_time2]. intros [H|[H|[]]]; injection H as <-; assumption.
Qed.
Lemma r_opts l : In (Some l) [m_across1 R T m; m_across2 R T m; m_along1 R T m; m_along2 R T m] -> length l = list_sum (Nm ix).
Proof.
  pose proof (readable_good _ GF) as (_ & RD & _). destruct (optional_indices 0%R nanV zeroT f32 i32 todate isfill ord ds mu RD r_mu) as (S1 & S2 & S3 & S4). rewrite r_sums.
  cbn [the_obj m_across1 m_across2 m_along1 m_along2]. intros [H|[H|[H|[H|[]]]]]; rewrite H in *; cbn [optional_ok] in *; tauto.
Qed.
Lemma r_ev : evaluable m the_sd.
Proof.
  destruct r_wf with (ps := e_param_sensor R R (smodel T) amodel e) as [W1 W2 W3 W4 W5 W6 W7 W8 W9]. destruct (ix_lens ds ix IO) as (L1 & L2 & L3 & L4).
  constructor; auto.
  - exact (proj1 (r_shapes (e_param_sensor R R (smodel T) amodel e))).
  - apply (io_nodup _ _ IO).
  - cbn [the_obj m_idx the_sd sd_model sd_adj]. intros n p Hp. split; [exact (pair_ne ds ix IO GF n p Hp)|]. intros s Hs. destruct (side_of_pair p s Hs) as (sd & Es).
    destruct (r_pair n p Hp) as (uf & f & _ & _ & _ & _ & _ & Q). destruct (Q sd) as (Q1 & _). rewrite <- Es in Q1. assert (s < length (sensors ix)) by (apply nth_error_Some; congruence).
    rewrite EL1, EL2. do 3 (split; [assumption|]). destruct (ix_covs ds ix IO GF r_pos n p s Hp Hs) as (ms & _ & M1 & M2). intros Z. rewrite Z in M2. destruct ms; [lia|discriminate].
  - exists (e_param_sensor R R (smodel T) amodel e). reflexivity.
  - exact r_opts.
  - exact r_times.
Qed.
Lemma r_most : most_covariates fs (last (n_cov ix) 0).
Proof.
  destruct (ix_ncov ds ix IO GF r_pos) as (d & sd & Hd & E & MX). rewrite E. split.
  - apply In_nth_error in Hd. destruct Hd as (i & Hi). destruct (r_ds i d Hi) as (uf & Hu & ->). destruct (r_view i uf Hu) as (f & Hf & _ & _ & _ & V). exists f, sd. split; [eapply nth_error_In; exact Hf|apply (vw_m _ _ V)].
  - intros f sd' k' Hf Hk. apply In_nth_error in Hf. destruct Hf as (i & Hi). assert (LT : i < length ufs) by (rewrite (pa_len _ _ _ _ _ _ _ _ _ _ _ _ _ _ _ P); apply nth_error_Some; congruence).
    destruct (nth_error ufs i) as [uf|] eqn:Eu; [|apply nth_error_None in Eu; lia]. destruct (r_view i uf Eu) as (f' & Hf' & _ & W & _ & V). rewrite Hi in Hf'. injection Hf' as <-.
    rewrite (size_fun _ _ _ _ W Hk (vw_m _ _ V sd')). apply MX. apply (nth_error_In _ i). unfold ds. rewrite nth_error_map', Eu. reflexivity.
Qed.
Lemma r_first n p s uf f sd : nth_error (Im ix) n = Some p -> s = sidx p sd -> nth_error ufs n = Some uf -> wf_nc f -> view f uf -> first_independent f sd ->
  exists b0 u, hd_error (blocks_of ix s (n + 1)) = Some b0 /\ nth_error uncs b0 = Some u /\ match u_kind R u with UK1 _ _ => True | UK2 _ _ _ => True | _ => False end.
Proof.
  intros Hp Hs Hu W V (l & t & D & Ht & T12). assert (Hs' : s = fst p \/ s = snd p) by (rewrite Hs; destruct sd; cbn; auto).
  destruct (ix_covs ds ix IO GF r_pos n p s Hp Hs') as (ms & _ & M1 & M2). destruct ms as [|ms]; [lia|]. destruct (blocks_of ix s (n + 1)) as [|b0 bl] eqn:Eb; [discriminate|]. cbn [map seq] in M2. injection M2 as M2 _.
  assert (I0 : In b0 (blocks_of ix s (n + 1))) by (rewrite Eb; left; reflexivity). unfold blocks_of in I0. apply filter_In in I0. destruct I0 as (I0 & I1). apply in_seq in I0. apply andb_prop in I1. destruct I1 as (I1 & I2).
  apply Nat.eqb_eq in I1. apply Nat.eqb_eq in I2. destruct (ix_lens ds ix IO) as (L1 & L2 & L3 & L4).
  assert (LT : b0 < length uncs) by (rewrite (pa_ulen _ _ _ _ _ _ _ _ _ _ _ _ _ _ _ P); fold ix; lia). destruct (nth_error uncs b0) as [u|] eqn:Eu; [|apply nth_error_None in Eu; lia].
  exists b0, u. split; [reflexivity|]. split; [exact Eu|].
  destruct (r_block b0 u Eu) as (s' & n' & c & uf' & f' & sd' & ty & B1 & B2 & B3 & B4 & B5 & B6 & _ & _ & _ & _ & _ & B7 & B8 & B9 & _).
  rewrite (nth_nth_error _ _ 0 _ B1) in I1. rewrite (nth_nth_error _ _ 0 _ B2) in I2. rewrite (nth_nth_error _ _ 0 _ B3) in M2. subst s' n' c. replace (n + 1 - 1) with n in B6 by lia. rewrite Hu in B6. injection B6 as <-.
  assert (sd' = sd).
  { destruct (r_pair n p Hp) as (uf2 & f2 & U2 & _ & _ & _ & _ & Q). rewrite Hu in U2. injection U2 as <-. destruct (Q sd) as (Q1 & _). rewrite <- Hs, B4 in Q1.
    assert (DS : d_s1 R (uf_d R uf) <> d_s2 R (uf_d R uf)) by (apply GF; apply in_map; eapply nth_error_In; exact Hu). injection Q1 as Q1. destruct sd, sd'; cbn [sname] in Q1; congruence. }
  subst sd'. destruct (vw_t _ _ V sd) as (ts & Dt & Et & _). pose proof (data_unique _ _ _ _ W Dt D) as X. injection X as ->. rewrite Et in B8. cbn [Nat.sub] in B8. rewrite nth_error_map', Ht in B8. cbn in B8. injection B8 as <-.
  unfold as_declared in B9. destruct (u_kind R u); auto; destruct B9 as (B9 & _); lia.
Qed.
Lemma r_model n p s name ps ms N f X a xt al t :
    nth_error (Im ix) n = Some p -> s = fst p \/ s = snd p -> nth_error (sensors ix) s = Some name -> m_ps R T m = Some ps ->
    nth_error (sensor_ms ix) s = Some ms -> nth_error (sd_model T the_sd) s = Some f ->
    length X = ms -> (forall col, In col X -> length col = N) -> length a = n_params ps name ->
    rows_are N xt -> rows_are N al -> rows_are N t ->
    exists r J, f X a (labelled name (sd_cs T the_sd) (sd_c T the_sd)) xt al t = Ok (r, J) /\ length r = N /\
      match J with
      | None => exists b0 u, hd_error (blocks_of ix s (n + 1)) = Some b0 /\ nth_error uncs b0 = Some u /\
                  match u_kind R u with UK1 _ _ => True | UK2 _ _ _ => True | _ => False end
      | Some cols => ms = solver_ncov m /\ 1 <= n_params ps name /\ length cols = ms + n_params ps name /\ forall col, In col cols -> length col = N
      end.
Proof.
  intros Hp Hs Hn Hps Hms Hf HX HXl Ha Hxt Hal Ht.
  cbn [the_sd sd_model sd_adj sd_c sd_cs the_obj m_idx m_ps] in *. injection Hps as <-.
  destruct (side_of_pair p s Hs) as (sd & Es). destruct (r_pair n p Hp) as (uf & fl & Hu & Hfl & U & W & V & Q). destruct (Q sd) as (Q1 & Q2 & Q3). rewrite <- Es in Q1, Q2. rewrite Hn in Q1. injection Q1 as ->. rewrite Hms in Q2. injection Q2 as ->.
  destruct (params_attributed f32 default_adj dict (sensors ix) e (de_keys _ _ DE) EX) as (PL & _ & PA). destruct (PA s _ Hn) as (en & L & A1 & A2 & A3). rewrite Hf in A3. injection A3 as ->. rewrite A2.
  rewrite <- (labelled_count _ _ (SensorModel.e_a R R (smodel T) amodel e) PL), A1, map_length in Ha.
  destruct (de_entry _ _ DE fl sd _ (nth_error_In _ _ Hfl) Q3) as (e0 & I0 & _). pose proof I0 as I1. apply (lookup_nodup _ _ _ (de_keys _ _ DE)) in I1. rewrite L in I1. injection I1 as <-.
  destruct (de_model _ _ DE fl sd _ en _ _ (nth_error_In _ _ Hfl) Q3 I0 (vw_m _ _ V sd) r_most N X a xt al t HX HXl Ha Hxt Hal Ht) as (r & J & R1 & R2 & R3).
  exists r, J. do 2 (split; [assumption|]).
  destruct J as [cols|].
  - destruct R3 as (R3 & R4 & R5 & R6). rewrite <- (labelled_count _ _ (SensorModel.e_a R R (smodel T) amodel e) PL), A1, map_length. auto.
  - exact (r_first n p s uf fl sd Hp Es Hu W V R3).
Qed.
Lemma r_ready : ready m the_sd.
Proof.
  constructor.
  - apply r_wf.
  - apply r_shapes.
  - reflexivity.
  - apply r_ev.
  - cbn [the_obj m_idx]. intros Z. pose proof (io_Imlen _ _ IO) as Q. rewrite Z in Q. destruct GF as (G & _). apply G. apply length_zero_iff_nil. symmetry. exact Q.
  - apply (ix_blocks_nodup ds ix IO GF).
  - intros n p s Hp Hs. exact (ix_covs ds ix IO GF r_pos n p s Hp Hs).
  - exists (e_param_sensor R R (smodel T) amodel e). split; [reflexivity|]. split; [reflexivity|]. exact (proj1 (params_attributed f32 default_adj dict (sensors ix) e (de_keys _ _ DE) EX)).
  - intros s b r H. exact (r_adj s b H r).
  - exact r_model.
  - apply r_num.
  - apply r_u.
  - apply r_positive.
Qed.
Lemma r_wrows : (forall f, In f fs -> rows_filled f) -> w_rows m.
Proof.
  intros RF b u wi w i Hb Hk Hw Hi. cbn [the_obj m_unc m_ws] in Hb, Hw.
  destruct (r_block b u Hb) as (s & n & c & uf & f & sd & ty & _ & _ & _ & _ & _ & _ & Hf & U & W & A & V & Hc & Ht & D & _).
  assert (Q : exists w' uv ui, nth_error ws wi = Some w' /\ nth_error us ui = Some uv /\ csr_shape w' (d_M R (uf_d R uf)) (length uv) /\ exists mv wn, umat R (uf_u R uf) = Some mv /\ open_w_matrix R mv wn = Ok w').
  { unfold as_declared in D. destruct (u_kind R u) as [r|r sy|wi' ui|wi' ui sy]; try discriminate; cbn in Hk; injection Hk as ->.
    - destruct D as (_ & D). destruct (r_mats uf f sd c wi ui U W A V D) as (w' & uv & Q). exists w', uv, ui. exact Q.
    - destruct D as (_ & D & _). destruct (r_mats uf f sd c wi ui U W A V D) as (w' & uv & Q). exists w', uv, ui. exact Q. }
  destruct Q as (w' & uv & ui & Q1 & Q2 & Q3 & mv & wn & Q4 & Q5). rewrite Hw in Q1. injection Q1 as <-.
  apply (accepted_rows f uf W A V mv wn w i (RF f (nth_error_In _ _ Hf)) Q4 Q5); [|exact Hi]. destruct Q3 as (S1 & S2 & S3). rewrite S1, S2. split; [exact S1|]. split; [exact S2|exact S3].
Qed.
Lemma r_complete : (forall f, In f fs -> rows_filled f) -> complete_mobj m.
Proof.
  intros RF. constructor.
  - eexists. split; [reflexivity|]. apply r_times. left. reflexivity.
  - eexists. split; [reflexivity|]. apply r_times. right. left. reflexivity.
  - intros o l Ho El. apply r_opts. rewrite <- El. exact Ho.
  - intros n u H. exact (proj1 (r_k n u H)).
  - intros b u N Hb HN. pose proof (proj2 (proj2 (r_shapes (e_param_sensor R R (smodel T) amodel e))) b u N Hb HN) as SH. pose proof (r_wrows RF b u) as WR.
    assert (G : forall wi ui, w_of (u_kind R u) = Some wi -> (exists w uv, nth_error (m_ws R T m) wi = Some w /\ nth_error (m_us R T m) ui = Some uv /\ csr_shape w N (length uv)) ->
              exists w uv, nth_error (m_ws R T m) wi = Some w /\ good_w w N /\ nth_error (m_us R T m) ui = Some uv).
    { intros wi ui Ew (w & uv & G1 & G2 & (G3 & G4 & G5 & G6 & G7 & G8)). exists w, uv. split; [exact G1|]. split; [|exact G2]. split; [exact G5|]. split; [|rewrite G4; exact G8].
      intros i p q Hp Hq. assert (Hi : i + 1 < length (c_indptr R w)) by (apply nth_error_Some; congruence). destruct (WR wi w i Hb Ew G1) as (p' & q' & lo & hi & P1 & P2 & P3 & _); [lia|].
      rewrite Hp in P1. injection P1 as <-. rewrite Hq in P2. injection P2 as <-. exact P3. }
    destruct (u_kind R u) as [r|r sy|wi ui|wi ui sy]; [exact SH|apply SH|apply (G wi ui eq_refl SH)|apply (G wi ui eq_refl (proj1 SH))].
Qed.
End Sens.
End Ready.

Section Main.
Context {T : Type} (nanV : R) (zeroT : T) (f32 i32 : R -> R) (todate : R -> T) (isfill : R -> bool) (ord : list string -> list string) (ordn : list nat -> list nat).

Theorem open_ready : (forall l, Permutation (ordn l) l) -> forall dict fs, fs <> [] -> (forall f, In f fs -> usable f) -> agree fs -> describes dict fs ->
  exists m sd, open_matchup nanV zeroT f32 i32 todate isfill ord ordn dict fs = Ok (m, sd) /\ ready (T := T) m sd /\
    (forall f M, In f fs -> size f "M" M -> In M (Nm (m_idx R T m))) /\
    ((forall f, In f fs -> rows_filled f) -> complete_mobj m /\ w_rows m).
Proof.
  intros PM dict fs Hne US AG DE. destruct (opened_parts nanV zeroT f32 i32 todate isfill ord ordn PM fs Hne US AG) as (ufs & mu & uncs & ws & us & k & P).
  destruct (extract_total f32 default_adj dict (sensors (mu_idx R T mu))) as (e & EX & L1 & L2 & EA).
  { intros s Hs. apply In_nth_error in Hs. destruct Hs as (i & Hi). destruct (r_sensor nanV zeroT f32 i32 todate isfill ord ordn fs ufs mu uncs ws us k P US i s Hi) as (f & sd & Hf & Hfs).
    destruct (de_entry _ _ DE f sd s Hf Hfs) as (en & I0 & AD). apply (lookup_nodup _ _ _ (de_keys _ _ DE)) in I0. exists en. unfold SensorModel.adjustment. destruct AD as [-> |(b & B1 & B2)]; [eauto|].
    destruct (s_adj _ _ _ _ en); [rewrite B1|]; eauto. }
  exists (the_obj mu uncs ws us k (e_param_sensor R R (smodel T) amodel e)), (the_sd e). split; [|split; [|split]].
  - unfold open_matchup. rewrite (pa_open _ _ _ _ _ _ _ _ _ _ _ _ _ _ _ P). cbn [bind o_unc o_w o_u o_mu o_unck]. rewrite !entries_some. cbn [bind]. unfold sensor_dict in *. rewrite EX. reflexivity.
  - exact (r_ready nanV zeroT f32 i32 todate isfill ord ordn fs ufs mu uncs ws us k P US dict DE e EX L1 L2 EA).
  - intros f M Hf HM. cbn [the_obj m_idx]. rewrite (io_Nm _ _ (pa_io _ _ _ _ _ _ _ _ _ _ _ _ _ _ _ P)), map_map. apply In_nth_error in Hf. destruct Hf as (i & Hi).
    assert (i < length ufs) by (rewrite (pa_len _ _ _ _ _ _ _ _ _ _ _ _ _ _ _ P); apply nth_error_Some; congruence).
    destruct (nth_error ufs i) as [uf|] eqn:Eu; [|apply nth_error_None in Eu; lia]. destruct (pa_view _ _ _ _ _ _ _ _ _ _ _ _ _ _ _ P i uf Eu) as (f' & Hf' & V & _). rewrite Hi in Hf'. injection Hf' as <-.
    apply in_map_iff. exists uf. split; [|eapply nth_error_In; exact Eu]. eapply size_fun; [apply (us_wf _ (US f (nth_error_In _ _ Hi)))|apply (vw_M _ _ V)|exact HM].
  - intros RF. split; [eapply r_complete; eassumption|eapply r_wrows; eassumption].
Qed.
End Main.
