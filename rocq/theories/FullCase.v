(** Files written by the writer are usable (C118), and an example for C117-C119. *)
From Coq Require Import Reals Lra Permutation QArith.
From Verif Require Import Base BaseLemmas ReaderModel ReaderSpec UncModel SensorModel SensorSpec MuModel SampleModel SampleSpec
  TransformModel TransformSpec EvalModel EvalSpec GNModel PCModel PCSpec LsmrModel EivModel EivSpec CheckModel CheckSpec CheckProofs IOModel IOSpec IOProofs IOProofs2 IOProofs3 IOProofs5 FullModel FullSpec PropertiesCheck GNSpec.
Open Scope nat_scope.

Section Written.
Variables (f4 : R -> R) (trunc : R -> Z).
Notation file_of := (file_of f4 trunc).
Lemma written_usable p : well_shaped p -> good_values p -> (forall sd, 1 <= p_m p sd) -> usable (file_of p).
Proof.
  intros H G C. pose proof (file_wf f4 trunc p H) as Hw. constructor.
  - exact Hw.
  - apply accepted; assumption.
  - intros ((v & Hv & En & _) & _). exfalso. apply (file_now f4 trunc p "w_matrix_nnz" H); [cbn; tauto|exists v; auto].
  - intros sd l M HD Hi _. pose proof (data_unique _ _ _ _ Hw HD (d_type f4 trunc p sd)) as Q. injection Q as ->. exfalso.
    destruct G as (_ & _ & G). apply In_nth_error in Hi. destruct Hi as (i & Hi).
    destruct H as (Hs & _). destruct (Hs sd) as (_ & M1 & M2 & L & _). assert (Li : i < p_m p sd) by (rewrite <- L; apply nth_error_Some; congruence).
    assert (COL : forall rows : list (list R), IOSpec.matrix rows (p_M p) (p_m p sd) -> exists c, ReaderSpec.is_column rows (i + 1) c).
    { intros rows (R1 & R2). exists (map (fun r => nth i r 0%R) rows). split; [apply map_length|]. intros k r Hr. rewrite nth_error_map', Hr. cbn [option_map]. replace (i + 1 - 1) with i by lia.
      symmetry. apply nth_error_nth'. rewrite (R2 r (nth_error_In _ _ Hr)). exact Li. }
    destruct (COL _ M1) as (c1 & C1). destruct (COL _ M2) as (c2 & C2). destruct (G sd (i + 1) 4%Z c1 c2) as (_ & [(E & _)|(E & _)]); auto; try lia. replace (i + 1 - 1) with i by lia. exact Hi.
  - intros sd k Hk. rewrite (size_fun _ _ _ _ Hw Hk (d_m f4 trunc p sd)). apply C.
Qed.
Lemma written_filled p : well_shaped p -> rows_filled (file_of p).
Proof. intros H nnz rows col k r i x q (v & Hv & En & _). exfalso. apply (file_now f4 trunc p "w_matrix_nnz" H); [cbn; tauto|exists v; auto]. Qed.
Lemma written_sensor p sd s : file_sensor (file_of p) sd s -> s = p_name p sd.
Proof. intros H. unfold file_sensor, IOProofs.file_of, attrs_of in H. cbn [nc_attrs] in H. destruct H as [H|[H|[]]]; destruct sd; cbn in H; congruence. Qed.
Lemma written_agree ps : match_set ps -> agree (map file_of ps).
Proof.
  intros (_ & W & AG) f f' sd sd' s m m' Hf Hf' Hs Hs' Hm Hm'. apply in_map_iff in Hf, Hf'. destruct Hf as (p & <- & Hp), Hf' as (p' & <- & Hp'). apply written_sensor in Hs, Hs'.
  rewrite (size_fun _ _ _ _ (file_wf f4 trunc p (proj1 (W p Hp))) Hm (d_m f4 trunc p sd)), (size_fun _ _ _ _ (file_wf f4 trunc p' (proj1 (W p' Hp'))) Hm' (d_m f4 trunc p' sd')). apply AG; auto. congruence.
Qed.
Lemma written_some p : well_shaped p -> good_values p -> (forall sd, 1 <= p_m p sd) -> 1 <= p_M p.
Proof.
  intros (Hs & _) (_ & _ & G) C. destruct (Hs Side1) as (_ & (U1 & U2) & (V1 & V2) & L & _). specialize (C Side1). destruct (p_type p Side1) as [|t ts] eqn:Et; [cbn in L; lia|].
  assert (COL : forall rows : list (list R), length rows = p_M p -> (forall r, In r rows -> length r = p_m p Side1) -> ReaderSpec.is_column rows 1 (map (fun r => nth 0 r 0%R) rows)).
  { intros rows R1 R2. split; [apply map_length|]. intros k r Hr. rewrite nth_error_map', Hr. cbn [option_map]. symmetry. apply nth_error_nth'. rewrite (R2 r (nth_error_In _ _ Hr)). cbn. lia. }
  destruct (G Side1 1 t _ _ (le_n 1) ltac:(rewrite Et; reflexivity) (COL _ U1 U2) (COL _ V1 V2)) as (N & _). lia.
Qed.
End Written.

(** ** Examples: a reference A and a sensor B with an unknown offset *)
Section Example.
Local Open Scope R_scope.
Definition ex_ref : smodel nat := fun X a c xt al t => match X with [x] => Ok (x, None) | _ => Raise IndexError end.
Definition ex_off : smodel nat := fun X a c xt al t => match X, a with [x], [a0] => Ok (map (fun v => a0 + v) x, Some [map (fun _ => 1) x; map (fun _ => 1) x]) | _, _ => Raise IndexError end.
Definition exdict (r o : string) : sensor_dict (T := nat) := [(r, mkSentry R R (smodel nat) amodel [] [] ex_ref None None); (o, mkSentry R R (smodel nat) amodel [1] [] ex_off None None)].
Lemma exdict_describes r o fs : r <> o -> (forall f sd s, In f fs -> file_sensor f sd s -> s = r \/ s = o) -> (forall f sd k, In f fs -> size f ("m" ++ snum sd) k -> k = 1%nat) ->
  (forall f sd, In f fs -> file_sensor f sd r -> first_independent f sd) -> describes (exdict r o) fs.
Proof.
  intros N HS HM HF. constructor.
  - cbn. repeat constructor; cbn; intuition congruence.
  - intros f sd s Hf Hs. destruct (HS f sd s Hf Hs) as [E|E]; subst s; eexists; (split; [cbn; eauto|left; reflexivity]).
  - intros f sd s e k kmax Hf Hs He Hk (Km & _). rewrite (HM f sd k Hf Hk). assert (K1 : kmax = 1%nat) by (destruct Km as (f' & sd' & A & B); exact (HM f' sd' kmax A B)). rewrite K1.
    destruct He as [He|[He|[]]]; injection He as E1 <-; intros n X a xt al t LX CX La _ _ _; destruct X as [|x [|]]; try discriminate; cbn [s_param s_model s_const] in *.
    + subst s. exists x, None. split; [reflexivity|]. split; [apply CX; left; reflexivity|apply (HF f sd Hf Hs)].
    + destruct a as [|a0 [|]]; try discriminate. do 2 eexists. split; [reflexivity|]. rewrite map_length. split; [apply CX; left; reflexivity|]. split; [reflexivity|]. split; [cbn; lia|]. split; [reflexivity|].
      intros col [<-|[<-|[]]]; rewrite map_length; apply CX; left; reflexivity.
Qed.

(** Ten match-ups. *)
Definition exq : mdata := mkData 10 (fun _ => 1%nat) (fun sd => match sd with Side1 => "A" | Side2 => "B" end)%string
  (fun sd => match sd with Side1 => repeat [2] 10 | Side2 => repeat [5] 10 end) (fun _ => repeat [1] 10) (fun _ => repeat [0] 10) (fun _ => [1%Z]) (fun _ => repeat 0 10)
  (repeat 3 10) (repeat 1 10) (repeat 0 10) [].
Lemma mat_repeat (x : R) n : IOSpec.matrix (repeat [x] n) n 1.
Proof. split; [apply repeat_length|]. intros r Hr. apply repeat_spec in Hr. subst r. reflexivity. Qed.
Lemma exq_shaped : well_shaped exq.
Proof.
  split; [|split; [reflexivity|split; [reflexivity|split; [reflexivity|split; [constructor|intros v []]]]]].
  intros sd. split; [destruct sd; apply (mat_repeat _ 10)|]. split; [apply (mat_repeat _ 10)|]. split; [apply (mat_repeat _ 10)|]. split; reflexivity.
Qed.
Lemma nth_rep (x y : R) n i : nth_error (repeat x n) i = Some y -> y = x.
Proof. intros H. apply nth_error_In in H. apply repeat_spec in H. exact H. Qed.
Lemma col_repeat (x : R) n c : ReaderSpec.is_column (repeat [x] n) 1 c -> c = repeat x n.
Proof.
  intros (L & H). rewrite repeat_length in L. apply (nth_ext _ _ x x); [rewrite repeat_length; exact L|]. intros i Hi. rewrite nth_repeat.
  destruct (nth_error (repeat [x] n) i) as [r|] eqn:E; [|apply nth_error_None in E; rewrite repeat_length in E; lia]. specialize (H i r E). apply nth_error_In, repeat_spec in E. subst r. cbn in H. apply nth_error_nth. exact H.
Qed.
Lemma exq_values : good_values exq.
Proof.
  split; [discriminate|]. split.
  - intros i r s H1 H2. cbn [exq p_Kr p_Ks] in *. apply nth_rep in H1, H2. subst. lra.
  - intros sd cov ty ur us Hc Ht C1 C2. cbn [exq p_type p_Ur p_Us p_M] in *. split; [discriminate|]. destruct cov as [|[|cov]]; [lia| |destruct cov; discriminate]. injection Ht as <-. apply col_repeat in C1, C2. subst.
    left. split; [reflexivity|]. split; apply Forall_forall; intros x Hx; apply repeat_spec in Hx; subst; [lra|reflexivity].
Qed.
Definition exqf : ncfile := file_of (fun x => x) (fun _ => 0%Z) exq.
Lemma exqf_files : (forall f, In f [exqf] -> usable f) /\ (forall f, In f [exqf] -> rows_filled f) /\ agree [exqf] /\ describes (exdict "A" "B") [exqf] /\ size exqf "M" 10.
Proof.
  split; [|split; [|split; [|split]]].
  - intros f [<-|[]]. apply written_usable; [apply exq_shaped|apply exq_values|intros sd; apply le_n].
  - intros f [<-|[]]. apply written_filled. apply exq_shaped.
  - apply (written_agree (fun x => x) (fun _ => 0%Z) [exq]). split; [discriminate|]. split.
    + intros p [<-|[]]. split; [apply exq_shaped|discriminate].
    + intros p p' sd sd' [<-|[]] [<-|[]] _. reflexivity.
  - pose proof (file_wf (fun x => x) (fun _ => 0%Z) exq exq_shaped) as Hw. apply exdict_describes; [discriminate| | |].
    + intros f sd s [<-|[]] Hs. apply written_sensor in Hs. subst s. destruct sd; cbn; auto.
    + intros f sd k [<-|[]] Hk. exact (size_fun _ _ _ _ Hw Hk (d_m (fun x => x) (fun _ => 0%Z) exq sd)).
    + intros f sd [<-|[]] _. exists [1%Z], 1%Z. split; [apply (d_type (fun x => x) (fun _ => 0%Z) exq sd)|]. split; [reflexivity|left; reflexivity].
  - cbn. tauto.
Qed.
(** A file with a W matrix and one match-up, A is the sensor with the offset. *)
Lemma exw_files : let f := exfile 3 [[0; 1]]%Z in (forall g, In g [f] -> usable g) /\ (forall g, In g [f] -> rows_filled g) /\ agree [f] /\ describes (exdict "B" "A") [f] /\ size f "M" 1.
Proof.
  cbv zeta. set (f := exfile 3 [[0; 1]]%Z). pose proof (exfile_wf 3 0 1) as Hw. fold f in Hw.
  assert (HM : forall sd k, size f ("m" ++ snum sd) k -> k = 1%nat). { intros sd k Hk. destruct sd; apply (size_fun _ _ _ _ Hw Hk); unfold size; cbn; tauto. }
  assert (HR : forall rows, data f "w_matrix_row" (IArr2 rows) -> rows = [[0; 1]]%Z). { intros rows D. pose proof (data_unique _ _ _ (IArr2 [[0; 1]]%Z) Hw D ltac:(hasvar)) as Q. injection Q as ->. reflexivity. }
  assert (HN : forall l, data f "w_matrix_nnz" (IArr1 l) -> l = [1%Z]). { intros l D. pose proof (data_unique _ _ _ (IArr1 [1%Z]) Hw D ltac:(hasvar)) as Q. injection Q as ->. reflexivity. }
  assert (HC : forall l, data f "w_matrix_col" (IArr1 l) -> l = [0%Z]). { intros l D. pose proof (data_unique _ _ _ (IArr1 [0%Z]) Hw D ltac:(hasvar)) as Q. injection Q as ->. reflexivity. }
  split; [|split; [|split; [|split]]].
  - intros g [<-|[]]. constructor.
    + exact Hw.
    + exact C44_example.
    + intros _. split.
      * intros nnz rows k r n D1 D2 Er En. rewrite (HR _ D2) in Er. rewrite (HN _ D1) in En. destruct k as [|k]; [|destruct k; discriminate]. injection Er as <-. injection En as <-. split; [reflexivity|cbn; lia].
      * intros rows r i p q D Hr Hp Hq. rewrite (HR _ D) in Hr. destruct Hr as [<-|[]]. destruct i as [|[|i]]; [injection Hp as <-; injection Hq as <-; lia|discriminate|destruct i; discriminate].
    + intros sd l M D Hi _. exfalso. destruct sd; [pose proof (data_unique _ _ _ (IArr1 [3%Z]) Hw D ltac:(hasvar)) as Q|pose proof (data_unique _ _ _ (IArr1 [1%Z]) Hw D ltac:(hasvar)) as Q]; injection Q as ->; cbn in Hi; lia.
    + intros sd k Hk. rewrite (HM sd k Hk). lia.
  - intros g [<-|[]] nnz rows col k r i p q D1 D2 D3 Er Hp Hq. rewrite (HR _ D2) in Er. destruct k as [|k]; [|destruct k; discriminate]. injection Er as <-.
    destruct i as [|[|i]]; [injection Hp as <-; injection Hq as <-|discriminate|destruct i; discriminate]. split; [lia|]. rewrite (HC _ D3). cbn. intros lo hi [= <-] [= <-]. lia.
  - intros g g' sd sd' s k k' [<-|[]] [<-|[]] _ _ Hk Hk'. rewrite (HM _ _ Hk), (HM _ _ Hk'). reflexivity.
  - apply exdict_describes; [discriminate| |intros g sd k [<-|[]]; apply HM|].
    + intros g sd s [<-|[]] Hs. unfold file_sensor in Hs. cbn in Hs. destruct Hs as [H|[H|[]]]; destruct sd; cbn in H; try discriminate; injection H as <-; auto.
    + intros g sd [<-|[]] Hs. assert (sd = Side2) by (unfold file_sensor in Hs; cbn in Hs; destruct Hs as [H|[H|[]]]; destruct sd; cbn in H; try discriminate; reflexivity). subst sd.
      exists [1%Z], 1%Z. split; [hasvar|]. split; [reflexivity|left; reflexivity].
  - cbn. tauto.
Qed.
(** The sample of one match-up determines the offset. *)
Ltac rlz := lazy -[Rplus Rmult Rdiv Rinv Ropp Rminus IZR sqrt].
Lemma exq_determined m sd s d a (st : solver nat) k Ja :
  open_matchup (T := nat) 0 O (fun x => x) (fun x => x) (fun _ => O) (fun _ => false) (fun l => l) (fun l => l) (exdict "A" "B") [exqf] = Ok (m, sd) ->
  length a = length (sd_a nat sd) -> sample2ind R nat 0 O rms_u (fun _ l k => firstn k l) m (1 # 10)%Q 100000%Z = Ok s -> tn_run nat s = Ok d ->
  g_m nat st = d -> g_sd nat st = sd -> g_xyza nat st = m_values R nat d ++ a -> pc_kJ nat st = Ok (k, Ja) -> independent_columns Ja (list_sum (Nm (m_idx R nat s))).
Proof.
  intros E1 La E2 E3 E4 E5 E6 E7. revert E1. rlz. intros [= <- <-]. destruct a as [|p [|]]; try discriminate La. revert E2. rlz. intros [= <-]. revert E3. rlz. intros [= <-].
  destruct st as [gm gs go gx gS]. cbn [g_m g_sd g_xyza] in *. subst gm gs gx. revert E7. rlz. intros [= _ <-]. split.
  - intros col [<-|[]]. reflexivity.
  - intros x Lx H. destruct x as [|y [|]]; try discriminate Lx. specialize (H 0%nat (le_n 1)). unfold row_dot in H. cbn in H. f_equal.
    assert (Q : sqrt (1 * 1 + 0 * 0) = 1) by (replace (1 * 1 + 0 * 0) with 1 by ring; apply sqrt_1). rewrite Q in H. lra.
Qed.
End Example.
