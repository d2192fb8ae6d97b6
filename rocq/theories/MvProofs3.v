(** * Proofs for C138 and C139. *)
From Coq Require Import Reals Lra Lia.
From Verif Require Import Base BaseLemmas ReaderModel ReaderSpec ReaderProofs ReaderMain UncModel MuModel TransformModel EvalModel HistModel SimModel VisModel VisSpec VisProofs MvModel MvSpec MvProofs.
Open Scope nat_scope.

Section Compare.
Context {T : Type} (zeroV nanV : R) (zeroT : T) (f32 i32 : R -> R) (todate : R -> T) (isfill : R -> bool).
Notation omu := (omu zeroV nanV zeroT f32 i32 todate isfill).
Notation file := (dataset R).
Variables (ord : list string -> list string) (ds : list file) (m : matchup R T).
Hypothesis (Hr : readable ds) (Eo : omu ord ds = Ok m).
Variables (n : nat) (m1 diff u : list R * list R).
Notation ix := (mu_idx R T m).
Notation six := (return_simulation_idx ix n).
Lemma op_ix3 : idx_ok ds ix.
Proof. exact (op_idx _ _ _ _ _ _ _ _ _ (proj1 (omu_opened _ _ _ _ _ _ _ ord ds m Hr Eo))). Qed.
Lemma sim_cNm k : k <= length ds -> nth_error (cNm six) k = Some (n * k).
Proof.
  intros Hk. cbn [return_simulation_idx cNm]. rewrite (io_Nm _ _ op_ix3), map_map.
  rewrite cumul_nth by (rewrite map_length; auto). cbn [plus]. f_equal. clear - Hk.
  revert k Hk. generalize ds. intros l. induction l as [|d l IH]; intros [|k] Hk; cbn in *; try lia.
  rewrite IH by lia. lia.
Qed.
Lemma sim_cNm_end k : length ds < k -> nth_error (cNm six) k = None.
Proof. intros Hk. apply nth_error_None. cbn [return_simulation_idx cNm]. rewrite cumul_length, map_length, (io_Nm _ _ op_ix3), map_length. lia. Qed.
Definition names (l : list file) : list string := flat_map (fun d => [d_s1 R d; d_s2 R d]) l.
Lemma in_names s l : In s (names l) <-> exists d sd, In d l /\ sname d sd = s.
Proof.
  unfold names. rewrite in_flat_map. split.
  - intros (d & Hd & [E|[E|[]]]); [exists d, Side1|exists d, Side2]; auto.
  - intros (d & sd & Hd & E). exists d. split; auto. destruct sd; cbn in E |- *; auto.
Qed.
Lemma forallb_in (l k : list string) : forallb (fun s => existsb (String.eqb s) k) l = true <-> incl l k.
Proof.
  rewrite forallb_forall. split; intros H s Hs.
  - specialize (H s Hs). apply existsb_exists in H as (x & Hx & E). apply String.eqb_eq in E. congruence.
  - apply existsb_exists. exists s. split; [apply H; auto|apply String.eqb_refl].
Qed.
Lemma done_iff k : let plotted := names (firstn k ds) in
  forallb (fun s => existsb (String.eqb s) plotted) (sensors six) && forallb (fun s => existsb (String.eqb s) (sensors six)) plotted = true
  <-> all_sensors_in ds (firstn k ds).
Proof.
  cbv zeta. rewrite andb_true_iff, !forallb_in. cbn [return_simulation_idx sensors]. split.
  - intros (H1 & _) d sd Hd. apply in_names. apply H1. apply (io_sens _ _ op_ix3). eauto.
  - intros H. split.
    + intros s Hs. apply (io_sens _ _ op_ix3) in Hs as (d & sd & Hd & <-). apply in_names. destruct (H d sd Hd) as (d' & sd' & A & B). eauto.
    + intros s Hs. apply in_names in Hs as (d & sd & Hd & <-). apply (io_sens _ _ op_ix3). exists d, sd. split; auto.
      rewrite <- (firstn_skipn k ds). apply in_app_iff. auto.
Qed.
Lemma firstn_next k (d : file) : nth_error ds k = Some d -> firstn (S k) ds = firstn k ds ++ [d].
Proof. revert k. generalize ds. intros l. induction l as [|x l IH]; intros [|k] H; cbn in *; try discriminate; [congruence|]. rewrite IH; auto. Qed.
Lemma compare_plots_app k l d : compare_plots n m1 diff u k (l ++ [d]) = compare_plots n m1 diff u k l ++ compare_plots n m1 diff u (k + length l) [d].
Proof.
  revert k. induction l as [|x l IH]; intros k; cbn [app compare_plots length]; [rewrite Nat.add_0_r; reflexivity|].
  rewrite IH. cbn [app]. replace (S k + length l) with (k + S (length l)) by lia. reflexivity.
Qed.
Lemma names_app l k : names (l ++ k) = names l ++ names k.
Proof. apply flat_map_app. Qed.
Lemma slice_part (A : Type) k (l : list A) : slice (n * k) (n * (k + 1)) l = part n k l.
Proof. unfold slice, part. replace (n * (k + 1) - n * k) with n by lia. reflexivity. Qed.
Lemma compare_from fuel : forall k, k <= length ds -> length ds - k < fuel ->
  (forall i, i < k -> ~ all_sensors_in ds (firstn i ds)) ->
  exists j, j <= length ds /\ compare_loop fuel six m1 diff u k (names (firstn k ds)) (compare_plots n m1 diff u 0 (firstn k ds)) =
    Ok (compare_plots n m1 diff u 0 (firstn j ds)) /\ all_sensors_in ds (firstn j ds) /\ forall i, i < j -> ~ all_sensors_in ds (firstn i ds).
Proof.
  induction fuel as [|fuel IH]; intros k Hk Hf Hno; [lia|]. cbn [compare_loop].
  pose proof (done_iff k) as Hd. cbv zeta in Hd. destruct (_ && _) eqn:Ed.
  - exists k. split; [auto|]. split; [reflexivity|]. split; [apply Hd; reflexivity|auto].
  - assert (Hn : ~ all_sensors_in ds (firstn k ds)) by (intros Ha; apply Hd in Ha; discriminate).
    assert (Hlt : k < length ds).
    { destruct (Nat.lt_ge_cases k (length ds)); auto. exfalso. apply Hn. rewrite firstn_all2 by auto. intros d sd Hin. exists d, sd. auto. }
    destruct (nth_error ds k) as [d|] eqn:Ek; [|apply nth_error_None in Ek; lia].
    rewrite (proj2 (get_ok _ _ _) (sim_cNm k Hk)). cbn [bind]. rewrite (proj2 (get_ok _ _ _) (sim_cNm (k + 1) ltac:(lia))). cbn [bind].
    destruct (io_Im _ _ op_ix3 k d Ek) as (a & b & E1 & E2 & E3). cbn [return_simulation_idx Im sensors]. rewrite (proj2 (get_ok _ _ _) E1). cbn [bind fst snd].
    rewrite (proj2 (get_ok _ _ _) E2). cbn [bind]. rewrite (proj2 (get_ok _ _ _) E3). cbn [bind].
    assert (Hno' : forall i, i < S k -> ~ all_sensors_in ds (firstn i ds)) by (intros i Hi; destruct (Nat.eq_dec i k) as [-> | ]; [auto|apply Hno; lia]).
    destruct (IH (S k) ltac:(lia) ltac:(lia) Hno') as (j & Hj & Ej & Hall & Hmin). exists j. split; [auto|]. split; [|auto].
    rewrite (firstn_next k d Ek) in Ej. rewrite names_app, compare_plots_app in Ej. rewrite firstn_length_le in Ej by lia. cbn [plus] in Ej.
    rewrite <- Ej. rewrite !slice_part. replace (k + 1) with (S k) by lia. reflexivity.
Qed.
Theorem compare_ok : exists j, j <= length ds /\ compare_calibration six m1 diff u = Ok (compare_plots n m1 diff u 0 (firstn j ds)) /\
  all_sensors_in ds (firstn j ds) /\ forall i, i < j -> ~ all_sensors_in ds (firstn i ds).
Proof.
  unfold compare_calibration. apply (compare_from (length (cNm six) + 1) 0); [lia| |lia].
  cbn [return_simulation_idx cNm]. rewrite cumul_length, map_length, (io_Nm _ _ op_ix3), map_length. lia.
Qed.
End Compare.

(** C139 *)
Theorem first_kres {T} (par : list R) labels nominal2 (m : mobj R T) sd N1 N2 cs : evaluate_adjusted_measurand T m sd SelAll = Ok (N1, N2) ->
  Forall2 (harmonised_answer N1 N2 (m_ks R T m) nominal2) (CKhh :: cs) (snd (calls T par labels nominal2 (new_vis T m sd) (CKhh :: cs))).
Proof.
  intros E. cbn [calls do_call].
  assert (S1 : exists s r, get_kres_harm_harm T par labels (new_vis T m sd) = (s, r) /\ good nominal2 m sd N1 N2 s /\ harmonised_answer N1 N2 (m_ks R T m) nominal2 CKhh r).
  { unfold get_kres_harm_harm. cbn [v_kk new_vis]. unfold get_L2_harm. cbn [v_L2 new_vis v_m v_sd]. rewrite E. cbn [fst snd v_kk v_kn]. unfold get_L1_harm. cbn [v_L1].
    match goal with |- context [kdiff T ?s N2 N1] => pose proof (kdiff_ok s N2 N1) as K; cbn [v_m] in K; destruct (kdiff T s N2 N1) as [k|] eqn:EK end.
    - cbn [v_m v_sd v_L1 v_L2 v_kn].
      assert (A : harmonised_answer N1 N2 (m_ks R T m) nominal2 CKhh (Arr k)) by (intros L2 L1; pose proof (K L2 L1) as K'; congruence).
      do 2 eexists. split; [reflexivity|]. split; [|exact A]. unfold good. cbn [v_m v_sd v_L1 v_L2 v_kk v_kn].
      do 4 (split; [reflexivity|]). split; [intros v [= <-]; exact A|]. intros v Hv. discriminate.
    - do 2 eexists. split; [reflexivity|]. split; [|intros L2 L1; pose proof (K L2 L1) as K'; discriminate].
      unfold good. cbn [v_m v_sd v_L1 v_L2 v_kk v_kn]. do 4 (split; [reflexivity|]). split; intros v Hv; discriminate. }
  destruct S1 as (s & r & -> & G & A). pose proof (good_calls par labels nominal2 m sd N1 N2 cs s G) as Rr.
  destruct (calls T par labels nominal2 s cs) as [s2 rs]. cbn [snd] in *. constructor; auto.
Qed.
