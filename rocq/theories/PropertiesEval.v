(** Property theorems C20, C21, C55 (evaluation of sensor functions and of K; histories).
    Vocabulary: EvalSpec.v, SensorSpec.v.  Model: EvalModel.v, HistModel.v. *)
From Coq Require Import Reals Lra Sorted.
From Verif Require Import Base BaseLemmas ReaderModel UncModel MuModel SensorSpec SampleSpec TransformModel TransformSpec EvalModel EvalSpec EvalProofs EvalMain HistModel HistProofs PropertiesTransform.
Open Scope nat_scope.

Section Props.
Context {T : Type}.
Notation mobj := (mobj R T).

(** C20, objects opened with their sensor data: transforming and reversing keep the labels and the
    data, and no history at all loses the labels. *)
Theorem C20_labels_kept_by_transform_partial : forall (os : list (op T)) (m : mobj) ps sd h',
  (forall o, In o os -> o = OpRun T \/ o = OpReverse T) -> exec_all T (opened_with T m ps sd) os = Ok h' ->
  m_ps R T (h_m T h') = Some ps /\ h_sd T h' = sd.
Proof. exact labels_kept. Qed.

Theorem C20_labels_never_lost_partial : forall (os : list (op T)) (m : mobj) ps sd h',
  exec_all T (opened_with T m ps sd) os = Ok h' -> m_ps R T (h_m T h') <> None.
Proof. intros os m ps sd h'. apply labels_never_lost; discriminate. Qed.

(** C20, objects that get their sensor data after opening: the labels are gone after run and reverse. *)
Theorem C20_labels_lost_refuted : forall (m d r : mobj) ps sd,
  tn_run T (set_ps T m (Some ps) None) = Ok d -> tn_reverse T d = Ok r ->
  exists h', exec_all T (opened_without T m) [OpSet T ps sd; OpRun T; OpReverse T] = Ok h' /\ h_m T h' = r /\ m_ps R T r = None.
Proof. exact labels_lost. Qed.

(** C21 *)
Theorem C21_measurand_per_matchup : forall (m : mobj) (sd : sdat T) l,
  evaluable m sd -> models_total m sd -> selection m l -> exists c0 c1,
  evaluate_measurand T m sd (SelList l) = Ok (c0, c1) /\ length c0 = n_matchups m l /\ length c1 = n_matchups m l /\
  forall k n side, nth_error l k = Some n -> side < 2 ->
    exists s X a c xt al t f r J, side_input m sd n side s X a c xt al t /\ nth_error (sd_model T sd) s = Some f /\
      f X a c xt al t = Ok (r, J) /\ series_rows m l k (if side =? 0 then c0 else c1) = r.
Proof. intros m sd l Ev Mt. exact (measurand_rows m sd Ev Mt l). Qed.

(** With row-by-row sensor functions, row i of a series depends on row i of its covariates only. *)
Theorem C21_row_depends_on_its_matchup : forall (m : mobj) (sd : sdat T) l g,
  evaluable m sd -> models_total m sd -> selection m l ->
  (forall s f, nth_error (sd_model T sd) s = Some f -> rowwise f (g s)) ->
  exists c0 c1, evaluate_measurand T m sd (SelList l) = Ok (c0, c1) /\
  forall k n side i x, nth_error l k = Some n -> side < 2 -> nth_error (series_rows m l k (if side =? 0 then c0 else c1)) i = Some x ->
    exists s X a c xt al t, side_input m sd n side s X a c xt al t /\
      x = g s (map (fun col => nth i col 0%R) X) a c (at_row i xt) (at_row i al) (at_row i t).
Proof.
  intros m sd l g Ev Mt Hl Hg. destruct (measurand_rows m sd Ev Mt l Hl) as (c0 & c1 & E & _ & _ & H).
  exists c0, c1. split; [exact E|]. intros k n side i x Hk Hs Hx.
  destruct (H k n side Hk Hs) as (s & X & a & c & xt & al & t & f & r & J & I & F & Er & Es). rewrite Es in Hx.
  exists s, X, a, c, xt, al, t. split; [exact I|]. eapply (Hg s f F); eauto.
Qed.

Theorem C21_K_is_difference : forall (m : mobj) (sd : sdat T) l s,
  evaluable m sd -> models_total m sd -> selection m l -> sel_list (m_idx R T m) s = l -> exists ks,
  evaluate_K T m sd s = Ok ks /\ length ks = n_matchups m l /\
  forall k n, nth_error l k = Some n -> exists b1 b2, adjusted_side m sd n 0 b1 /\ adjusted_side m sd n 1 b2 /\
    series_rows m l k ks = map (fun p => fst p - snd p)%R (combine b2 b1).
Proof. intros m sd l s Ev Mt. exact (K_rows m sd Ev Mt l s). Qed.

(** The default argument selects every series. *)
Theorem C21_default_selects_all : forall (m : mobj) (sd : sdat T), evaluable m sd ->
  sel_list (m_idx R T m) SelAll = seq 1 (length (Nm (m_idx R T m))) /\ selection m (sel_list (m_idx R T m) SelAll).
Proof. intros m sd Ev. destruct (all_selected m sd Ev) as (A & B). split; auto. Qed.

(** C55: asking for the derivatives always fails. *)
Theorem C55_derivatives_refuted : forall (m : mobj) p, nth_error (Im (m_idx R T m)) 0 = Some p ->
  fst p < length (sensor_ms (m_idx R T m)) -> derivative_arrays T m = Raise KeyError.
Proof.
  intros m p Hp Hl. unfold derivative_arrays. destruct (Im (m_idx R T m)) as [|p' l]; [discriminate|]. cbn in Hp. injection Hp as ->.
  cbn [mapM]. destruct (nth_error (sensor_ms (m_idx R T m)) (fst p)) as [x|] eqn:E; [|apply nth_error_None in E; lia].
  rewrite (proj2 (get_ok _ _ _) E). reflexivity.
Qed.
End Props.
Print Assumptions C20_labels_kept_by_transform_partial.
Print Assumptions C20_labels_never_lost_partial.
Print Assumptions C20_labels_lost_refuted.
Print Assumptions C21_measurand_per_matchup.
Print Assumptions C21_row_depends_on_its_matchup.
Print Assumptions C21_K_is_difference.
Print Assumptions C21_default_selects_all.
Print Assumptions C55_derivatives_refuted.

(** ** The object of PropertiesTransform with sensor functions: A is the reference, B and C linear. *)
Section Concrete.
Local Open Scope R_scope.
Definition ref_model : smodel nat := fun X a c xt al t =>
  match X with x :: _ => Ok (x, None) | [] => Raise IndexError end.
Definition lin_model : smodel nat := fun X a c xt al t =>
  match X, a with x :: _, [a0; a1] => Ok (map (fun v => a0 + a1 * v) x, Some [map (fun _ => a1) x; map (fun _ => 1) x; x]) | _, _ => Raise IndexError end.
Definition exps : list string := ["C"; "B"; "B"; "C"]%string.
Definition exsd : sdat nat :=
  mkSdat nat [10; 20; 30; 40] [] [] [ref_model; lin_model; lin_model] [default_adj; default_adj; default_adj].
Definition exm : mobj R nat := set_ps nat txm (Some exps) (Some exps).
Example exm_evaluable : evaluable exm exsd.
Proof.
  constructor; try reflexivity.
  - split; reflexivity.
  - intros b n Hb. destruct b as [|[|[|[|b]]]]; cbn in Hb; try (destruct b; discriminate); injection Hb as <-; (split; [lia|]; eexists; split; reflexivity).
  - cbn. intros n Hn. destruct n as [|[|[|n]]]; try lia; tauto.
  - repeat constructor; cbn; intuition congruence.
  - intros n p Hp. destruct n as [|[|n]]; cbn in Hp; try (destruct n; discriminate); injection Hp as <-; cbn [fst snd];
      (split; [lia|]); intros s [-> | ->]; cbn; repeat split; try lia; discriminate.
  - eexists; reflexivity.
  - cbn. intros l H. intuition discriminate.
  - cbn. intros l [H|[H|[]]]; injection H as <-; reflexivity.
Qed.
Example exm_labels : labelled "B"%string exps (sd_a nat exsd) = [20; 30] /\ labelled "C"%string exps (sd_a nat exsd) = [10; 40].
Proof. split; reflexivity. Qed.
Example exm_models : models_total exm exsd.
Proof.
  split.
  - intros n side s X a c xt al t N f I F HN.
    pose proof (si_n _ _ _ _ _ _ _ _ _ _ _ I) as Hn1. pose proof (si_X _ _ _ _ _ _ _ _ _ _ _ I) as HX. destruct (si_sensor _ _ _ _ _ _ _ _ _ _ _ I) as (p & Hp & Hs).
    destruct (si_a _ _ _ _ _ _ _ _ _ _ _ I) as (name & ps & Hname & Hps & Ha & _). cbn in Hps. injection Hps as <-.
    assert (LX : forall x, In x X -> length x = N).
    { destruct (covariates_ex exm exsd s n exm_evaluable) as (X' & HX' & L'). intros x Hx. apply (L' x N); auto.
      assert (EX : X' = X); [|congruence]. clear - HX HX'. unfold covariates in *. revert X' HX'. induction HX; intros X' HX'; inversion HX'; subst; auto.
      f_equal; auto. eapply MuProofs.is_block_fun; eauto. }
    destruct n as [|[|[|n]]]; [lia| | |destruct n; discriminate]; cbn in Hp.
    all: injection Hp as <-; destruct (Nat.eqb side 0); cbn in Hs; subst s; cbn in F; injection F as <-; cbn in Hname; injection Hname as <-;
      unfold covariates in HX; cbn in HX; (destruct X as [|x0 X0]; [inversion HX|]); cbn in HN; injection HN as <-.
    all: subst a; eexists _, _; (split; [reflexivity|]); rewrite ?map_length; apply LX; left; reflexivity.
  - intros s b r Hb. destruct s as [|[|[|s]]]; cbn in Hb; try (destruct s; discriminate); injection Hb as <-; exists r; eexists; split; reflexivity.
Qed.
Example exm_K : exists ks, evaluate_K nat exm exsd SelAll = Ok ks /\
  ks = [20 + 30 * 3 - 1; 20 + 30 * 4 - 2; 10 + 40 * 7 - (20 + 30 * 5); 10 + 40 * 8 - (20 + 30 * 6)].
Proof. eexists. split; [vm_compute; reflexivity|]. repeat f_equal. Qed.

(** Outside C21: a selection that is not in increasing order puts the series of different lengths
    into each other's rows (or fails); here the second series' results come first. *)
Theorem C21_unordered_selection_not_kept : exists ks,
  evaluate_K nat exm exsd (SelList [2; 1]%nat) = Ok ks /\
  ks = [10 + 40 * 7 - (20 + 30 * 5); 10 + 40 * 8 - (20 + 30 * 6); 20 + 30 * 3 - 1; 20 + 30 * 4 - 2].
Proof. eexists. split; [vm_compute; reflexivity|]. repeat f_equal. Qed.

(** C20, concretely: the evaluation after run and reverse raises KeyError although the evaluation
    before them succeeds. *)
Theorem C20_late_sensor_data_refuted : exists h1 h2 ks,
  exec_all nat (opened_without nat txm) [OpSet nat exps exsd] = Ok h1 /\
  evaluate_K nat (h_m nat h1) (h_sd nat h1) SelAll = Ok ks /\
  exec_all nat h1 [OpRun nat; OpReverse nat] = Ok h2 /\
  evaluate_K nat (h_m nat h2) (h_sd nat h2) SelAll = Raise KeyError.
Proof.
  eexists _, _, _. split; [reflexivity|]. split; [vm_compute; reflexivity|]. split; [vm_compute; reflexivity|]. vm_compute. reflexivity.
Qed.
(** Sensor data set after opening with other sensor data: after run and reverse the old labels select
    among the new parameters. *)
Definition exps2 : list string := ["B"; "B"; "C"; "C"]%string.
Definition exsd2 : sdat nat :=
  mkSdat nat [20; 30; 10; 40] [] [] [ref_model; lin_model; lin_model] [default_adj; default_adj; default_adj].
Theorem C20_replaced_sensor_data_refuted : exists h1 h2,
  exec_all nat (opened_with nat txm exps exsd) [OpSet nat exps2 exsd2] = Ok h1 /\
  labelled "B"%string exps2 (sd_a nat (h_sd nat h1)) = [20; 30] /\ m_ps R nat (h_m nat h1) = Some exps2 /\
  exec_all nat h1 [OpRun nat; OpReverse nat] = Ok h2 /\
  m_ps R nat (h_m nat h2) = Some exps /\ labelled "B"%string exps (sd_a nat (h_sd nat h2)) = [30; 10].
Proof.
  eexists _, _. split; [reflexivity|]. split; [reflexivity|]. split; [reflexivity|]. split; [vm_compute; reflexivity|]. split; reflexivity.
Qed.
End Concrete.
