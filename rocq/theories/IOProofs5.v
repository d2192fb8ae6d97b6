(** * Proofs for C107, C109: written files are read back. *)
From Coq Require Import Reals Lra.
From Verif Require Import Base BaseLemmas ReaderModel ReaderSpec ReaderProofs ReaderMain UncModel UncSpec UncProofs UncProofs2 UncProofs3 UnckModel SimModel CheckModel CheckSpec CheckProofs CheckProofs2 CheckProofs3 CheckProofs4 CheckProofs5 IOModel IOSpec IOProofs IOProofs2 IOProofs3 IOProofs4.
Open Scope nat_scope.

Section W.
Context (f4 : R -> R) (trunc : R -> Z).
Notation file_of := (file_of f4 trunc).
Definition uf_of (p : mdata) : ufile R :=
  mkUfile R (mkDataset R (p_M p) (p_m p Side1) (p_m p Side2) (p_name p Side1) (p_name p Side2) (p_X p Side1) (p_X p Side2) (p_K p) (p_time p Side1) (p_time p Side2) (m_vars (file_of p)))
    (mkUncvars R (map Z.to_nat (p_type p Side1)) (map Z.to_nat (p_type p Side2)) (Some (p_Ur p Side1)) (Some (p_Ur p Side2)) (Some (p_Us p Side1)) (Some (p_Us p Side2)) None).

Lemma no_matvars p : well_shaped p -> to_matvars (file_of p) = Ok None.
Proof.
  intros Hw. unfold to_matvars. replace (subset _ (names (file_of p))) with false; [reflexivity|]. symmetry. apply Bool.not_true_iff_false. intros H.
  rewrite subset_in in H. specialize (H "w_matrix_use1"%string (or_introl eq_refl)). apply present_in in H. eapply file_now; [exact Hw| |exact H]. cbn; tauto.
Qed.
Lemma to_ufile_file p : well_shaped p -> to_ufile (file_of p) = Ok (uf_of p).
Proof. intros Hw. unfold to_ufile, to_unc. rewrite (no_matvars p Hw). reflexivity. Qed.
Lemma sided sd p : sm (uf_d R (uf_of p)) sd = p_m p sd /\ sname (uf_d R (uf_of p)) sd = p_name p sd /\ sX (uf_d R (uf_of p)) sd = p_X p sd /\ side_time (uf_d R (uf_of p)) sd = p_time p sd /\
  stypes (uf_u R (uf_of p)) sd = map Z.to_nat (p_type p sd) /\ sUr (uf_u R (uf_of p)) sd = Some (p_Ur p sd) /\ sUs (uf_u R (uf_of p)) sd = Some (p_Us p sd).
Proof. destruct sd; repeat split. Qed.
Lemma wf_uf p : well_shaped p -> wf_dataset (uf_d R (uf_of p)).
Proof.
  intros Hw. pose proof (file_wf f4 trunc p Hw) as Hf. destruct Hw as (Hs & HK & _). destruct (Hs Side1) as ((A1 & C1) & _ & _ & _ & A5). destruct (Hs Side2) as ((B1 & D1') & _ & _ & _ & B5).
  unfold wf_dataset. cbn [uf_d uf_of d_X1 d_X2 d_K d_time1 d_time2 d_vars d_M d_m1 d_m2]. do 7 (split; [solve [auto]|]). intros n v Hv. apply m_vars_len in Hv; [|exact Hf]. eapply size_fun; [exact Hf|exact Hv|]. cbn; tauto.
Qed.
Lemma valid_uf p : well_shaped p -> simple_types p -> valid_file (uf_of p).
Proof.
  intros Hw Ht sd. destruct (sided sd p) as (E1 & E2 & E3 & E4 & E5 & E6 & E7). rewrite E5, map_length, E1. destruct Hw as (Hs & _). destruct (Hs sd) as (_ & MR & MS & L & _).
  split; [exact L|]. split; [discriminate|]. intros cov ty Hc E. rewrite nth_error_map in E. destruct (nth_error (p_type p sd) (cov - 1)) as [t|] eqn:Et; [|discriminate]. cbn in E. injection E as <-.
  destruct (Ht sd t (nth_error_In _ _ Et)) as [-> | ->]; unfold valid_decl; cbn [Z.to_nat Pos.to_nat Pos.iter_op Nat.add]; rewrite E6, E7, E1.
  - exists (p_Ur p sd). split; [reflexivity|exact MR].
  - split; [exists (p_Ur p sd); split; [reflexivity|exact MR]|exists (p_Us p sd); split; [reflexivity|exact MS]].
Qed.
Lemma add_lookup p v l : well_shaped p -> In v (p_more p) -> ad_dtype v = "f8"%string -> ad_dim v = ["M"]%string -> ad_data v = D1 l -> lookup (ad_name v) (m_vars (file_of p)) = Some l.
Proof.
  intros Hw Hv Et Ed El. pose proof (file_wf f4 trunc p Hw) as (_ & NV & _). apply lookup_nodup; [apply m_vars_nodup; exact NV|]. apply m_vars_in.
  exists (add_var f4 trunc v). split; [cbn [nc_vars IOProofs.file_of]; apply in_app_iff; right; apply in_map; exact Hv|]. split; [reflexivity|]. split; [exact Ed|]. split.
  - destruct Hw as (_ & _ & _ & _ & _ & HA). destruct (HA v Hv) as (Hn & _). intros Hi. apply Hn. unfold format_names. cbn in Hi |- *. tauto.
  - left. cbn. rewrite Et, El. reflexivity.
Qed.

Context {T : Type} (nanV : R) (zeroT : T) (f32 i32 : R -> R) (todate : R -> T) (isfill : R -> bool) (ord : list string -> list string) (ordn : list nat -> list nat).
Notation open_files := (open_files nanV zeroT f32 i32 todate isfill ord ordn).
Notation write := (write_input_file f4 trunc).

Lemma written_all ps w : (forall p, In p ps -> well_shaped p) -> mapM (fun p => write (args_of p w)) ps = Ok (map file_of ps).
Proof.
  induction ps as [|p ps IH]; intros H; [reflexivity|]. cbn [mapM map]. rewrite written by (apply H; left; auto). cbn [bind]. rewrite IH by (intros; apply H; right; auto). reflexivity.
Qed.
Lemma read_all ps : (forall p, In p ps -> well_shaped p) -> mapM to_ufile (map file_of ps) = Ok (map uf_of ps).
Proof.
  induction ps as [|p ps IH]; intros H; [reflexivity|]. cbn [mapM map]. rewrite to_ufile_file by (apply H; left; auto). cbn [bind]. rewrite IH by (intros; apply H; right; auto). reflexivity.
Qed.
Lemma good_set ps : match_set ps -> good_files (map (uf_d R) (map uf_of ps)).
Proof.
  intros (Hne & Hw & Ha). split; [destruct ps; [congruence|discriminate]|]. split.
  - intros d d' sd sd' Hd Hd' En. rewrite map_map in Hd, Hd'. apply in_map_iff in Hd. destruct Hd as (p & <- & Hp). apply in_map_iff in Hd'. destruct Hd' as (p' & <- & Hp').
    destruct (sided sd p) as (E1 & E2 & _). destruct (sided sd' p') as (F1 & F2 & _). rewrite E1, F1. apply Ha; [auto|auto|congruence].
  - intros d Hd. rewrite map_map in Hd. apply in_map_iff in Hd. destruct Hd as (p & <- & Hp). split; [apply wf_uf; apply Hw; auto|exact (proj2 (Hw p Hp))].
Qed.
Lemma before_rows ps n : before (map (uf_d R) (map uf_of ps)) n = rows_before ps n.
Proof. unfold before, rows_before. rewrite !firstn_map, !map_map. reflexivity. Qed.

Lemma is_column_unique (rows : list (list R)) cov a b : ReaderSpec.is_column rows cov a -> ReaderSpec.is_column rows cov b -> a = b.
Proof.
  intros (L & E) (L' & E'). apply nth_error_ext. intros i. destruct (nth_error rows i) as [r|] eqn:Er; [rewrite (E _ _ Er), (E' _ _ Er); reflexivity|].
  apply nth_error_None in Er. rewrite !(proj2 (nth_error_None _ _)) by lia. reflexivity.
Qed.

Theorem round_trip : (forall l x, In x (ordn l) <-> In x l) -> (forall l x, In x (ord l) <-> In x l) -> forall ps w, match_set ps -> (forall p, In p ps -> simple_types p) ->
  exists fs o, mapM (fun p => write (args_of p w)) ps = Ok fs /\ open_files fs = Ok o /\
  forall n p, 1 <= n -> nth_error ps (n - 1) = Some p ->
    (forall sd cov, 1 <= cov <= p_m p sd ->
       (exists col, ReaderSpec.is_column (p_X p sd) cov col /\ getVariableData R T (o_mu o) cov (p_name p sd) (Some n) = Ok (map f32 col)) /\
       exists b k u, nth_error (get_block_idxs (mu_idx R T (o_mu o))) b = Some (k, n, cov) /\ nth_error (sensors (mu_idx R T (o_mu o))) k = Some (p_name p sd) /\
         nth_error (o_unc o) b = Some (Some u) /\ unc_given p sd cov u) /\
    (forall r, r < p_M p -> nth_error (mu_ks R T (o_mu o)) (rows_before ps n + r) = nth_error (p_K p) r) /\
    (forall sd, getSensorTime R T (o_mu o) (Z.of_nat n) (p_name p sd) = Ok (Some (map todate (p_time p sd)))) /\
    (exists k, nth_error (o_unck o) (n - 1) = Some k /\ unck (p_Kr p) (p_Ks p) = Ok k) /\
    (forall v l, In v (p_more p) -> ad_dtype v = "f8"%string -> ad_dim v = ["M"]%string -> ad_data v = D1 l ->
       ~ In (ad_name v) ["across_track_index1"; "across_track_index2"; "along_track_index1"; "along_track_index2"]%string ->
       getAdditionalData R T (o_mu o) (ad_name v) (Some (Z.of_nat n)) = Ok (map (fun x => if isfill x then nanV else x) l)).
Proof.
  intros Hordn Hord ps w Hm Ht. pose proof Hm as (_ & Hw & _). assert (Hw' : forall p, In p ps -> well_shaped p) by (intros; apply Hw; auto).
  pose proof (good_set ps Hm) as HG.
  destruct (open_ok nanV zeroT f32 i32 todate isfill ord ordn Hordn (map file_of ps) (map uf_of ps) (read_all ps Hw') HG) as (o & Eo & Emu & HK & HU).
  { intros uf Hi. apply in_map_iff in Hi. destruct Hi as (p & <- & Hp). apply valid_uf; auto. }
  { intros f Hi. apply in_map_iff in Hi. destruct Hi as (p & <- & Hp). exists (p_Kr p), (p_Ks p). split; [reflexivity|]. split; [reflexivity|]. destruct (Hw' p Hp) as (_ & _ & A & B & _). congruence. }
  exists (map file_of ps), o. split; [apply written_all; auto|]. split; [exact Eo|].
  intros n p Hn Hp. pose proof (nth_error_In _ _ Hp) as Hi.
  assert (Huf : nth_error (map uf_of ps) (n - 1) = Some (uf_of p)) by (rewrite nth_error_map, Hp; reflexivity).
  assert (Hd : nth_error (map (uf_d R) (map uf_of ps)) (n - 1) = Some (uf_d R (uf_of p))) by (rewrite nth_error_map, Huf; reflexivity).
  pose proof (proj1 (proj2 (readable_good _ HG))) as HRd.
  split; [|split; [|split; [|split]]].
  - intros sd cov Hc. destruct (sided sd p) as (E1 & E2 & E3 & E4 & E5 & E6 & E7). split.
    + destruct (columns_returned 0%R nanV zeroT f32 i32 todate isfill ord _ HG) as (mu & Emu' & HC & _).
      assert (mu = o_mu o) by (unfold omu in Emu'; rewrite Emu' in Emu; injection Emu; auto). subst mu.
      destruct (HC (p_name p sd) n cov (uf_d R (uf_of p)) sd) as (col & C1 & C2). { split; [exact Hn|]. split; [exact Hd|]. rewrite E1, E2. auto. }
      exists col. rewrite E3 in C1. auto.
    + destruct (HU n (uf_of p) sd cov Hn Huf) as (b & k & ty & u & B1 & B2 & B3 & B4 & B5); [rewrite E1; exact Hc|].
      exists b, k, u. rewrite E2 in B2. do 3 (split; [assumption|]). unfold unc_given. rewrite E5, nth_error_map in B3. destruct (nth_error (p_type p sd) (cov - 1)) as [t|] eqn:Et; [|discriminate]. cbn in B3. injection B3 as <-.
      destruct (Hw' p Hi) as (Hs & _). destruct (Hs sd) as (_ & MR & MS & _).
      destruct (column_ex _ _ _ (cov - 1) MR ltac:(lia)) as (ur & C1). destruct (column_ex _ _ _ (cov - 1) MS ltac:(lia)) as (us & C2). replace (cov - 1 + 1) with cov in C1, C2 by lia.
      exists t, ur, us. do 3 (split; [auto|]). unfold as_declared in B5. rewrite E6, E7 in B5.
      destruct (Ht p Hi sd t (nth_error_In _ _ Et)) as [-> | ->]; destruct (u_kind R u) as [uR|uR uS|wi ui|wi ui uS]; destruct B5 as (Q & B5); try discriminate Q.
      * left. split; [reflexivity|]. destruct B5 as (r & Er & Cr). injection Er as <-. f_equal. eapply is_column_unique; eauto.
      * right. split; [reflexivity|]. destruct B5 as ((r & Er & Cr) & (s & Es & Cs)). injection Er as <-. injection Es as <-. f_equal; eapply is_column_unique; eauto.
  - intros r Hr. destruct (series_aligned 0%R nanV zeroT f32 i32 todate isfill ord _ (o_mu o) n _ r HRd Emu Hn Hd Hr) as (_ & _ & Q & _). rewrite before_rows in Q. exact Q.
  - intros sd. destruct (accessor_time 0%R nanV zeroT f32 i32 todate isfill ord _ (o_mu o) n _ HRd Emu Hn Hd) as (Q & _). specialize (Q sd). destruct (sided sd p) as (_ & E2 & _ & E4 & _). rewrite E2, E4 in Q. exact Q.
  - assert (Hf : nth_error (map file_of ps) (n - 1) = Some (file_of p)) by (rewrite nth_error_map, Hp; reflexivity). destruct (HK _ _ Hf) as (k & Ek & kr & ks & F1 & F2 & F3).
    exists k. split; [exact Ek|]. assert (kr = p_Kr p) by (injection F1; auto). assert (ks = p_Ks p) by (injection F2; auto). subst. exact F3.
  - intros v l Hv Et Ed El Hn4. pose proof (add_lookup p v l (Hw' p Hi) Hv Et Ed El) as HL.
    destruct (additional_data 0%R nanV zeroT f32 i32 todate isfill ord _ (o_mu o) (ad_name v) n _ HRd Emu Hord Hn Hd) as (Q & _ & Q').
    assert (HL' : lookup (ad_name v) (d_vars R (uf_d R (uf_of p))) = Some l) by exact HL. rewrite HL' in Q. apply Q. apply Q'. split.
    + destruct (Hw' p Hi) as (_ & _ & _ & _ & _ & HA). destruct (HA v Hv) as (Hnf & _). intros H. unfold STANDARD_VARIABLE_NAMES in H. cbn in H.
      unfold format_names in Hnf. cbn in Hnf, Hn4. tauto.
    + exists (uf_d R (uf_of p)). split; [rewrite map_map; apply in_map_iff; exists p; auto|]. apply lookup_in in HL'. change (ad_name v) with (fst (ad_name v, l)). apply in_map. exact HL'.
Qed.

(** ** W matrices *)
Lemma foldM_each {S A} (g : S -> A -> res S) l : forall s s', foldM g l s = Ok s' -> forall x, In x l -> exists s1 s2, g s1 x = Ok s2.
Proof.
  induction l as [|a l IH]; intros s s' H x Hx; [destruct Hx|]. cbn [foldM] in H. destruct (g s a) as [s1|] eqn:E; [|discriminate]. cbn [bind] in H.
  destruct Hx as [<-|Hx]; [eauto|eapply IH; eauto].
Qed.
Lemma w_dropped p w : well_shaped p -> write (args_of p w) = write (args_of p None).
Proof. reflexivity. Qed.
Lemma structured_unopened p sd col : well_shaped p -> nth_error (p_type p sd) col = Some 3%Z \/ nth_error (p_type p sd) col = Some 4%Z -> forall o, open_files [file_of p] <> Ok o.
Proof.
  intros Hw Ht o H. unfold IOModel.open_files in H. cbn [mapM] in H. rewrite (to_ufile_file p Hw) in H. cbn [bind] in H.
  match type of H with bind ?x _ = _ => destruct x as [mu|] eqn:Emu; cbn [bind] in H; [|discriminate] end.
  match type of H with bind ?x _ = _ => destruct x as [u|] eqn:Eu; cbn [bind] in H; [|discriminate] end. clear H.
  unfold open_unc, open_matrix_idxs in Eu. cbn [map enumerate length seq combine flat_map umat uf_u uf_of snd app] in Eu.
  match type of Eu with bind ?x _ = _ => destruct x as [st|] eqn:Es; [|discriminate] end. clear Eu.
  destruct (foldM_each _ _ _ _ Es (0, uf_of p)) as (s1 & s2 & E1); [cbn; auto|]. clear Es.
  destruct (get (Im (mu_idx R T mu)) 0) as [pr|]; [|discriminate]. cbn [bind] in E1.
  destruct (foldM_each _ _ _ _ E1 (match sd with Side1 => (0, fst pr) | Side2 => (1, snd pr) end)) as (s3 & s4 & E2); [destruct sd; cbn; auto|]. clear E1.
  assert (E3 : exists ns x y, (let side := match sd with Side1 => 0 | Side2 => 1 end in foldM (read_unc R 0%R (mu_idx R T mu) [] [] 0 (uf_of p) side ns) (enumerate (unc_rows R (uf_u R (uf_of p)) side)) x) = Ok y) by (destruct sd; eauto).
  destruct E3 as (ns & x & y & E3). cbv zeta in E3. clear E2.
  set (ty := map Z.to_nat (p_type p sd)) in *.
  assert (ER : unc_rows R (uf_u R (uf_of p)) (match sd with Side1 => 0 | Side2 => 1 end) = zip3' ty (repeat 0 (length ty)) (repeat 0 (length ty))) by (destruct sd; reflexivity).
  rewrite ER in E3.
  assert (Hlt : col < length ty). { unfold ty. rewrite map_length. apply nth_error_Some. destruct Ht as [-> | ->]; discriminate. }
  assert (Hn : exists t, (t = 3 \/ t = 4) /\ nth_error (zip3' ty (repeat 0 (length ty)) (repeat 0 (length ty))) col = Some (t, 0, 0)).
  { unfold zip3'. destruct Ht as [Ht|Ht]; [exists 3|exists 4]; (split; [auto|]); rewrite !UncProofs2.nth_error_combine; unfold ty at 1; rewrite nth_error_map, Ht; cbn; rewrite nth_error_repeat by exact Hlt; reflexivity. }
  destruct Hn as (t & Ht' & Hn).
  destruct (foldM_each _ _ _ _ E3 (col, (t, 0, 0))) as (s5 & s6 & E4). { apply in_enumerate. exact Hn. }
  unfold read_unc in E4. destruct (index eqb3 _ _); [|discriminate]. cbn [bind] in E4. destruct Ht' as [-> | ->]; discriminate.
Qed.
Lemma structured_rejected p sd cov : well_shaped p -> 1 <= cov -> nth_error (p_type p sd) (cov - 1) = Some 3%Z \/ nth_error (p_type p sd) (cov - 1) = Some 4%Z -> check (file_of p) <> Ok [].
Proof.
  intros Hw Hc Ht H. apply accepted in H; [|exact Hw]. destruct H as (_ & _ & H). pose proof Hw as (Hs & _). destruct (Hs sd) as (_ & MR & MS & L & _).
  assert (Hl : cov - 1 < p_m p sd). { rewrite <- L. apply nth_error_Some. destruct Ht as [-> | ->]; discriminate. }
  destruct (column_ex _ _ _ (cov - 1) MR Hl) as (ur & C1). destruct (column_ex _ _ _ (cov - 1) MS Hl) as (us & C2). replace (cov - 1 + 1) with cov in C1, C2 by lia.
  destruct Ht as [Ht|Ht]; destruct (H sd cov _ ur us Hc Ht C1 C2) as (_ & [(Q & _)|(Q & _)]); discriminate.
Qed.
End W.
