(** * Proofs for C154-C156: the covariance from separate jobs, runs from a saved solver. *)
From Coq Require Import Reals Lra FunctionalExtensionality.
From Verif Require Import Base BaseLemmas ReaderModel UncModel SensorModel SensorSpec MuModel TransformModel EvalModel EvalSpec HistModel GNModel PCModel PCSpec LsmrModel MinresModel EivModel EivSpec EivProofs EivProofs2 EivProofs3
  SampleSpec TransformSpec OpModel OpSpec OpProofs FullModel FullSpec FullProofs6 SaveModel SaveSpec SaveProofs HpcModel HpcSpec HpcProofs GNSpec GNResidual.
Open Scope nat_scope.

Lemma lookup_In {E} n (l : list (string * E)) e : lookup n l = Some e -> In (n, e) l.
Proof. induction l as [|[k x] l IH]; [discriminate|]. cbn [lookup]. destruct (String.eqb k n) eqn:Q; [apply String.eqb_eq in Q; intros E1; left; congruence|right; auto]. Qed.
Lemma extract_models {V C F A} (g : V -> V) (dadj : A) sd names e f : extract_sensor_data V C F A g dadj sd names = Ok e -> In f (e_model V C F A e) -> exists n en, In (n, en) sd /\ f = s_model V C F A en.
Proof.
  unfold extract_sensor_data. destruct (mapM _ names) as [ma|] eqn:EM; cbn [bind]; [|discriminate]. intros [= <-] Hf. cbn [e_model] in Hf. apply in_map_iff in Hf. destruct Hf as (p & <- & Hp).
  apply In_nth_error in Hp. destruct Hp as (i & Hi). destruct (nth_error names i) as [n|] eqn:Hn.
  2:{ apply nth_error_None in Hn. pose proof (mapM_length _ _ _ EM) as L. assert (i < length ma) by (apply nth_error_Some; congruence). lia. }
  destruct (mapM_nth _ _ _ _ _ EM Hn) as (q & Eq & Hq). assert (q = p) by congruence. subst q. destruct (lookup n sd) as [en|] eqn:El; [|discriminate].
  destruct (SensorModel.adjustment _ _ _ _ _ en); cbn [bind] in Eq; [|discriminate]. injection Eq as <-. exists n, en. split; [apply lookup_In; exact El|reflexivity].
Qed.
Lemma opened_ignores {T} nanV (zeroT : T) f32 i32 todate isfill ord ordn dict fs (m : mobj R T) sd : dict_ignores_times dict ->
  open_matchup nanV zeroT f32 i32 todate isfill ord ordn dict fs = Ok (m, sd) -> ignores_times sd.
Proof.
  intros D. unfold FullModel.open_matchup. intros E. repeat (match type of E with bind ?x _ = _ => destruct x as [?|] eqn:?; cbn [bind] in E; [|discriminate] end).
  injection E as _ <-. intros s f X p c xt al t Hf. cbn [sd_model] in Hf. apply nth_error_In in Hf.
  match goal with Q : extract_sensor_data _ _ _ _ _ _ _ _ = Ok _ |- _ => destruct (extract_models _ _ _ _ _ _ Q Hf) as (n & en & Hn & ->) end. eapply D; eassumption.
Qed.

Section Matrix.
Context {T : Type} (eps : R) (xr : list vec) (st : solver T).
Lemma seq_nth' k n : k < n -> nth_error (seq 0 n) k = Some k.
Proof. intros H. rewrite (nth_error_nth' _ 0) by (rewrite seq_length; lia). rewrite seq_nth by lia. reflexivity. Qed.
Lemma matrix_entries c : cov_matrix T eps xr st = Ok c -> let n := n_a_of T st in
  exists v, (forall i j, i < n -> j < n -> cov_element T eps xr st i j = Ok (v i j)) /\ c = map (fun i => map (fun j => half_sum (v i j) (v j i)) (seq 0 n)) (seq 0 n).
Proof.
  unfold cov_matrix. set (n := n_a_of T st). cbv zeta. destruct (mapM _ (seq 0 n)) as [V|] eqn:EV; cbn [bind]; [|discriminate]. intros [= <-].
  exists (fun i j => nth j (nth i V []) None). split; [|reflexivity]. intros i j Hi Hj. destruct (mapM_nth _ _ _ _ _ EV (seq_nth' i n Hi)) as (row & Q2 & Q1). rewrite (nth_error_nth _ _ _ Q1).
  destruct (mapM_nth _ _ _ _ _ Q2 (seq_nth' j n Hj)) as (x & P2 & P1). rewrite (nth_error_nth _ _ _ P1). exact P2.
Qed.
End Matrix.

Lemma combined n (v : nat -> nat -> option R) w files : n <= 10 -> (forall i j, i < n -> j < n -> v i j = Some (w i j)) -> element_files n w files ->
  exists M, combine_elements files = Ok M /\ map (fun i => map (fun j => half_sum (v i j) (v j i)) (seq 0 n)) (seq 0 n) = map (map (@Some R)) M.
Proof.
  intros Hn Hv Hf. destruct (elements_combined n w files Hn Hf) as (M & EM & LM & HM). exists M. split; [exact EM|].
  apply nth_error_ext. intros i. destruct (Nat.lt_ge_cases i n) as [Hi|Hi].
  - destruct (HM i Hi) as (row & R1 & R2 & R3). rewrite (map_nth_error _ _ _ (seq_nth' i n Hi)), (map_nth_error _ _ _ R1). f_equal.
    apply nth_error_ext. intros j. destruct (Nat.lt_ge_cases j n) as [Hj|Hj].
    + rewrite (map_nth_error _ _ _ (seq_nth' j n Hj)), (map_nth_error _ _ _ (R3 j Hj)), !Hv by auto. reflexivity.
    + transitivity (@None (option R)); [|symmetry]; apply nth_error_None; rewrite map_length, ?seq_length; lia.
  - transitivity (@None (list (option R))); [|symmetry]; apply nth_error_None; rewrite map_length, ?seq_length; lia.
Qed.

Section Jobs.
Context {T : Type}.
Variables (cholesky : list (list R) -> res (list (list R))) (tolA tolB eps tol : R) (xs : list vec) (f4 : R -> R).
Notation eiv_from := (eiv_from cholesky tolA tolB eps tol xs).
Notation run_saving := (run_saving cholesky tolA tolB eps tol xs f4).
Notation covariance_job := (covariance_job eps xs).

Lemma jobs (m : mobj R T) sd a V : ready m sd -> cholesky_total cholesky -> (0 <= tolA)%R -> (exists N, In N (Nm (m_idx R T m)) /\ 1 <= N) ->
  length a = length (sd_a T sd) -> spd V (length a) -> ignores_times sd ->
  match run_saving m sd (a, V) with
  | Raise e => eiv_from m sd false (a, V) = Raise e
  | Ok (h, sv) => exists h0 d L, eiv_from m sd false (a, V) = Ok h0 /\ same_but_covariance h h0 /\ tn_run T m = Ok d /\ cholesky V = Ok L /\ cholesky_factor L V (length a) /\
      let st := with_xyza T (start sd d a L) (e_xyza (h_result h)) in
      (forall i j, covariance_job m sd sv i j = cov_element T eps xs (rounded f4 st) i j) /\
      (stored_exactly f4 st -> exists v, (forall i j, i < length a -> j < length a -> covariance_job m sd sv i j = Ok (v i j)) /\
        e_cov (h_result h0) = map (fun i => map (fun j => half_sum (v i j) (v j i)) (seq 0 (length a))) (seq 0 (length a)))
  end.
Proof.
  intros RD CT HA HN La SV IG.
  destruct (eiv_from_outcome cholesky tolA tolB eps tol xs m sd true a V RD CT HA HN La SV) as (d & L & Ed & EL & CF & SF & FO & NV & E1).
  destruct (eiv_from_outcome cholesky tolA tolB eps tol xs m sd false a V RD CT HA HN La SV) as (d' & L' & Ed' & EL' & _ & _ & _ & _ & E2).
  assert (d' = d) by congruence. assert (L' = L) by congruence. subst d' L'. unfold HpcModel.run_saving. rewrite E1, E2. cbn [negb].
  pose proof (run_covariance m (start sd d a L) SF FO tolA tolB eps xs HA NV tol) as RC.
  destruct (eiv_run T tolA tolB eps xs (start sd d a L) tol false) as [r|e]; cbn [bind]; [|rewrite RC; reflexivity].
  destruct RC as (Hu & c & Ec & RC). rewrite Ed. cbn [bind snd]. rewrite EL. cbn [bind fst h_result].
  rewrite RC. eexists. exists d, L. split; [reflexivity|]. split; [constructor; cbn [h_sensors h_idx h_result set_cov e_a e_cost e_dof e_values e_ks e_sys e_iter e_conv e_log e_xyza]; repeat split|].
  split; [reflexivity|]. split; [reflexivity|]. split; [exact CF|]. cbn zeta. set (st := with_xyza T (start sd d a L) (e_xyza r)).
  change (mkSolver T d (set_parameters sd a) (sd_cs T sd) (e_xyza r) L) with st.
  assert (SS : same_sensors (g_sd T st) sd) by (split; [symmetry; exact La|]; repeat split).
  destruct (reopen_rounded f4 m st sd Ed SS) as (W & _). change (g_ocs T st) with (sd_cs T sd) in W.
  assert (J : forall i j, covariance_job m sd (gn_save T f4 st) i j = cov_element T eps xs (rounded f4 st) i j).
  { intros i j. unfold HpcModel.covariance_job. apply element_twin; [exact W|]. exact IG. }
  split; [exact J|]. intros SE. rewrite (rounded_exact f4 st SE) in J. destruct (matrix_entries eps xs st c Ec) as (v & V1 & V2). change (n_a_of T st) with (length a) in V1, V2.
  exists v. split; [intros i j Hi Hj; rewrite J; auto|]. exact V2.
Qed.

(** ** Runs from a saved solver *)
Notation run_reopening := (run_reopening cholesky tolA tolB eps tol xs).
(** The parameters of the preconditioner are not used. *)
Lemma reopening_ignores (m : mobj R T) sd sv save a a' V : length a = length a' -> ignores_times sd -> run_reopening m sd sv save (a, V) = run_reopening m sd sv save (a', V).
Proof.
  intros L IG. unfold HpcModel.run_reopening. destruct (cholesky V) as [S|]; cbn [bind]; [|reflexivity]. cbn [g_m gn_reopen gn_open gn_init m_ps m_oidx]. destruct (sv_ps sv); cbn [bind]; [|reflexivity].
  set (s1 := mkSolver T _ _ _ _ S) at 1. set (s2 := mkSolver T _ _ _ _ S). assert (W : twin s2 s1) by (constructor; try reflexivity; exact L).
  assert (E : eiv_run T tolA tolB eps xs s1 tol (negb save) = eiv_run T tolA tolB eps xs s2 tol (negb save)) by (apply erun_twin; [exact W|exact IG|reflexivity]). rewrite E. reflexivity.
Qed.

Lemma reopening_initial (m : mobj R T) sd V : ready m sd -> spd V (length (sd_a T sd)) -> cholesky_total cholesky -> ignores_times sd ->
  ks_normal m ->
  exists sv, initial_job f4 m sd = Ok sv /\ forall save,
  (forall d, tn_run T m = Ok d -> stored_exactly f4 (gn_init T d sd (sd_cs T sd))) ->
  run_reopening m sd sv save (sd_a T sd, V) = eiv_from m sd save (sd_a T sd, V).
Proof.
  intros RD SV CT IG HK. destruct (run_dims m sd RD) as (d & Ed & Eo & Ep & _). unfold initial_job. rewrite Ed. cbn [bind]. eexists. split; [reflexivity|]. intros save SE. specialize (SE d eq_refl).
  destruct (CT V _ SV) as (L & EL & FL). unfold HpcModel.run_reopening, FullModel.eiv_from. rewrite Ed, EL. cbn [bind].
  assert (SF : solver_for m (start sd d (sd_a T sd) L)) by (apply start_solver; auto; apply FL).
  set (st0 := gn_init T d sd (sd_cs T sd)) in *.
  assert (SS : same_sensors (g_sd T st0) (set_parameters sd (sd_a T sd))) by (repeat split).
  destruct (reopen_twin f4 m st0 _ Ed SE SS) as (W & K). change (g_ocs T st0) with (sd_cs T sd) in W, K. set (o := gn_reopen T (gn_save T f4 st0) m (set_parameters sd (sd_a T sd)) (sd_cs T sd)) in *.
  assert (Ks : m_ks R T m = m_ks R T d).
  { apply (ks_fixed m (start sd d (sd_a T sd) L) SF). intros i Hi. apply HK. rewrite (wf_ks _ (rd_wf _ _ RD)). rewrite <- (nks_m m _ SF). exact Hi. }
  cbn [g_m]. rewrite (tw_ps _ _ W), (tw_oidx _ _ W). cbn [st0 gn_init g_m]. destruct (m_ps R T d); cbn [bind]; [|reflexivity]. fold st0.
  change (mkSolver T d _ (sd_cs T sd) (m_values R T d ++ sd_a T sd) L) with (start sd d (sd_a T sd) L).
  set (s1 := mkSolver T _ _ _ _ L). set (s2 := start sd d (sd_a T sd) L) in *. assert (W' : twin s2 s1) by (destruct W; constructor; cbn [s1 s2 g_m g_sd g_ocs g_xyza g_S start] in *; auto).
  assert (E : eiv_run T tolA tolB eps xs s1 tol (negb save) = eiv_run T tolA tolB eps xs s2 tol (negb save)).
  { apply erun_twin; [exact W'|exact IG|]. cbn [s1 g_m]. rewrite K, Ks. reflexivity. }
  rewrite E. reflexivity.
Qed.
End Jobs.
