(** * Measurement functions of the instruments: C40-C42, C69-C71. *)
From Coq Require Import Reals Lra.
From Verif Require Import Base BaseLemmas InstModel InstSpec InstProofs InstProofs2 InstProofs3.
Open Scope R_scope.

(** ** C40 *)
(** For every array of match-ups: derivatives with respect to all covariates, to a0, and for the models
    without scaling to all parameters. *)
Theorem C40_avhrr_derivatives : forall k rows p, (forall x, In x rows -> avhrr_defined k x) -> length p = avhrr_params k ->
  derivatives (avhrr_row k) (avhrr_vars k) (avhrr_params k) (fun c => (c < avhrr_vars k)%nat \/ unscaled k \/ c = avhrr_vars k) rows p.
Proof. intros k rows p H Hp. apply rowwise. intros x Hx. apply avhrr_derivatives; auto. Qed.
Print Assumptions C40_avhrr_derivatives.
Example C40_example : forall x, In x [[900; 700; 500; 100]; [901; 702; 503; 104]] -> avhrr_defined A3 x.
Proof. intros x [<-|[<-|[]]]; split; cbn; auto; lra. Qed.

(** ** C69 *)
(** In the scaled models the derivative with respect to a1 is 1000 times too large. *)
Theorem C69_scaled_parameter_refuted : forall k x p, ~ unscaled k -> avhrr_defined k x -> length p = avhrr_params k -> nth 3 x 0 <> 0 -> nth 0 x 0 <> nth 2 x 0 ->
  exists r j, avhrr_row k x p = Ok (r, j) /\ nth (avhrr_vars k + 1) j 0 <> 0 /\
    partial (fun q => value (avhrr_row k x q)) p 1 (nth (avhrr_vars k + 1) j 0 / 1000) /\ ~ column_ok (avhrr_row k) (avhrr_vars k) x p j (avhrr_vars k + 1).
Proof. exact scaled_parameter. Qed.
Print Assumptions C69_scaled_parameter_refuted.
Example C69_example : ~ unscaled A37_2 /\ avhrr_defined A37_2 [900; 700; 500; 100] /\ nth 3 [900; 700; 500; 100] 0 <> 0 /\ nth 0 [900; 700; 500; 100] 0 <> nth 2 [900; 700; 500; 100] 0.
Proof. split; [intros [H|[H|H]]; discriminate|]. split; [split; cbn; auto; lra|]. cbn. split; lra. Qed.

(** ** C41 *)
Theorem C41_hirs_derivatives : forall c rows p, (forall x, In x rows -> hirs_defined c x) -> length p = 3%nat ->
  derivatives (hirs_3 c) 5 3 (fun k => k <> 3%nat) rows p.
Proof. intros c rows p H Hp. apply rowwise. intros x Hx. apply hirs_derivatives; auto. Qed.
Print Assumptions C41_hirs_derivatives.
Example C41_example : hirs_defined [66900; 1 / 10; 999 / 1000] [900; 700; 500; 285; 0].
Proof. repeat split; cbn; lra. Qed.

(** ** C70 *)
(** The derivative with respect to the temperature of the target is twice what it should be. *)
Theorem C70_hirs_temperature_refuted : forall c x p, hirs_defined c x -> length p = 3%nat -> nth 2 c 0 <> 0 -> nth 2 x 0 <> nth 0 x 0 -> e_ict + nth 1 p 0 <> 0 ->
  exists r j, hirs_3 c x p = Ok (r, j) /\ nth 3 j 0 <> 0 /\ partial (fun y => value (hirs_3 c y p)) x 3 (nth 3 j 0 / 2) /\ ~ column_ok (hirs_3 c) 5 x p j 3.
Proof. exact hirs_temperature. Qed.
(** The reference sensor's measurand is the first row of its data, not the first column (the radiances). *)
Theorem C70_hirs_reference_refuted : exists rows : list (list R), length rows = 3%nat /\ column_ref rows = Ok [1; 2; 3] /\ hirs_ref rows = Ok [1].
Proof. exists [[1]; [2]; [3]]. repeat split. Qed.
Print Assumptions C70_hirs_temperature_refuted.
Print Assumptions C70_hirs_reference_refuted.
Example C70_example : e_ict + nth 1 [0; 0; 0] 0 <> 0.
Proof. cbn. unfold e_ict. lra. Qed.

(** ** C42 *)
(** With respect to the local oscillator temperature and the polarisation parameter: always. *)
Theorem C42_always_partial : forall ant i g w1 w2 w3 w4 w5 v a b dTw, nth_error ant i = Some g -> g <> 0 -> forall x p, length x = 9%nat -> length p = 3%nat ->
  derivatives_at (mw_3 (mw_const ant w1 w2 w3 w4 w5 v a b dTw) (Z.of_nat i)) 9 3 (fun k => k = 8%nat \/ k = 10%nat) x p.
Proof. intros ant i g w1 w2 w3 w4 w5 v a b dTw Hg H0. exact (mw_always ant i g w1 w2 w3 w4 w5 v a b dTw Hg H0). Qed.
(** At parameters 0 also with respect to the space counts and the nonlinearity. *)
Theorem C42_nominal_partial : forall ant i g w1 w2 w3 w4 w5 v a b dTw, nth_error ant i = Some g -> g <> 0 -> forall x, length x = 9%nat -> nth 0 x 0 <> nth 1 x 0 ->
  derivatives_at (mw_3 (mw_const ant w1 w2 w3 w4 w5 v a b dTw) (Z.of_nat i)) 9 3 (fun k => k = 0%nat \/ k = 8%nat \/ k = 9%nat \/ k = 10%nat) x [0; 0; 0].
Proof. intros ant i g w1 w2 w3 w4 w5 v a b dTw Hg H0. exact (mw_nominal ant i g w1 w2 w3 w4 w5 v a b dTw Hg H0). Qed.
(** With respect to the target counts: wrong sign. *)
Theorem C42_target_counts_refuted : forall ant i g w1 w2 w3 w4 w5 v a b dTw, nth_error ant i = Some g -> g <> 0 ->
  let f := mw_3 (mw_const ant w1 w2 w3 w4 w5 v a b dTw) (Z.of_nat i) in
  forall x, length x = 9%nat -> nth 0 x 0 <> nth 1 x 0 -> v <> 0 -> nth 7 x 0 <> nth 0 x 0 ->
  planck v (target_T w1 w2 w3 w4 w5 a b dTw (nth 2 x 0) (nth 3 x 0) (nth 4 x 0) (nth 5 x 0) (nth 6 x 0)) <> planck v (a + b * TCMB) ->
  exists r j, f x [0; 0; 0] = Ok (r, j) /\ nth 1 j 0 <> 0 /\
    partial (fun y => value (f y [0; 0; 0])) x 1 (- nth 1 j 0) /\ ~ column_ok f 9 x [0; 0; 0] j 1.
Proof. intros ant i g w1 w2 w3 w4 w5 v a b dTw Hg H0. exact (mw_bad_cict ant i g w1 w2 w3 w4 w5 v a b dTw Hg H0). Qed.
(** With respect to the Earth counts: a factor 2 CE - CICT - CS too many. *)
Theorem C42_earth_counts_refuted : forall ant i g w1 w2 w3 w4 w5 v a b dTw, nth_error ant i = Some g -> g <> 0 ->
  let f := mw_3 (mw_const ant w1 w2 w3 w4 w5 v a b dTw) (Z.of_nat i) in
  forall x, length x = 9%nat -> nth 0 x 0 <> nth 1 x 0 -> v <> 0 -> 2 * nth 7 x 0 - nth 1 x 0 - nth 0 x 0 <> 1 ->
  planck v (target_T w1 w2 w3 w4 w5 a b dTw (nth 2 x 0) (nth 3 x 0) (nth 4 x 0) (nth 5 x 0) (nth 6 x 0)) <> planck v (a + b * TCMB) ->
  exists r j d, f x [0; 0; 0] = Ok (r, j) /\ d <> 0 /\ nth 7 j 0 = d * (2 * nth 7 x 0 - nth 1 x 0 - nth 0 x 0) /\
    partial (fun y => value (f y [0; 0; 0])) x 7 d /\ ~ column_ok f 9 x [0; 0; 0] j 7.
Proof. intros ant i g w1 w2 w3 w4 w5 v a b dTw Hg H0. exact (mw_bad_ce ant i g w1 w2 w3 w4 w5 v a b dTw Hg H0). Qed.
(** With respect to the temperatures of the target: twice too large. *)
Theorem C42_target_temperature_refuted : forall ant i g w1 w2 w3 w4 w5 v a b dTw, nth_error ant i = Some g -> g <> 0 ->
  let f := mw_3 (mw_const ant w1 w2 w3 w4 w5 v a b dTw) (Z.of_nat i) in
  forall x, length x = 9%nat -> nth 0 x 0 <> nth 1 x 0 -> v <> 0 -> b <> 0 -> w1 <> 0 -> w1 + w2 + w3 + w4 + w5 <> 0 -> nth 7 x 0 <> nth 0 x 0 ->
  target_T w1 w2 w3 w4 w5 a b dTw (nth 2 x 0) (nth 3 x 0) (nth 4 x 0) (nth 5 x 0) (nth 6 x 0) <> 0 ->
  exists r j, f x [0; 0; 0] = Ok (r, j) /\ nth 2 j 0 <> 0 /\
    partial (fun y => value (f y [0; 0; 0])) x 2 (nth 2 j 0 / 2) /\ ~ column_ok f 9 x [0; 0; 0] j 2.
Proof. intros ant i g w1 w2 w3 w4 w5 v a b dTw Hg H0. exact (mw_bad_tict ant i g w1 w2 w3 w4 w5 v a b dTw Hg H0). Qed.
Print Assumptions C42_always_partial.
Print Assumptions C42_nominal_partial.
Print Assumptions C42_target_counts_refuted.
Print Assumptions C42_earth_counts_refuted.
Print Assumptions C42_target_temperature_refuted.
(** The hypotheses hold e.g. for a 183 GHz channel, target at 280 K, and counts 1000, 2000, 1800. *)
Example C42_example : forall x, x = [1000; 2000; 280; 280; 280; 280; 280; 1800; 290] ->
  length x = 9%nat /\ nth 0 x 0 <> nth 1 x 0 /\ nth 7 x 0 <> nth 0 x 0 /\ 2 * nth 7 x 0 - nth 1 x 0 - nth 0 x 0 <> 1 /\
  target_T 1 1 1 0 1 0 1 0 (nth 2 x 0) (nth 3 x 0) (nth 4 x 0) (nth 5 x 0) (nth 6 x 0) <> 0 /\
  planck 183 (target_T 1 1 1 0 1 0 1 0 (nth 2 x 0) (nth 3 x 0) (nth 4 x 0) (nth 5 x 0) (nth 6 x 0)) <> planck 183 (0 + 1 * TCMB).
Proof.
  intros x ->. cbn [nth]. split; [reflexivity|]. do 3 (split; [lra|]). unfold target_T. split; [lra|].
  intros E. apply planck_inj in E; unfold TCMB in *; lra.
Qed.

(** ** C71 *)
(** The solver and the evaluation of the measurand pass six arguments: six of the eight AVHRR models cannot be called. *)
Theorem C71_calls_refuted : forall k rows p, k <> A3 -> k <> A3_scaled -> avhrr_call k rows p = Raise TypeError.
Proof. exact avhrr_not_callable. Qed.
(** The 3.7 um models are registered with one parameter more than they use: a derivative column is missing. *)
Theorem C71_parameters_refuted : forall k x p r j, (k = A37_2 \/ k = A37_3 \/ k = A37_2_scaled \/ k = A37_3_scaled) -> avhrr_row k x p = Ok (r, j) ->
  S (length j) = (avhrr_vars k + avhrr_declared_params k)%nat.
Proof. intros k x p r j Hk E. rewrite (avhrr_columns _ _ _ _ _ E), avhrr_declared_wrong by auto. lia. Qed.
Theorem C71_others_partial : forall k rows p, k = A3 \/ k = A3_scaled -> avhrr_call k rows p = vectorised (avhrr_row k) rows p /\
  forall x r j, avhrr_row k x p = Ok (r, j) -> length j = (avhrr_vars k + avhrr_declared_params k)%nat.
Proof. intros k rows p Hk. split; [apply avhrr_callable; auto|]. intros x r j E. rewrite (avhrr_columns _ _ _ _ _ E), avhrr_declared_right; tauto. Qed.
Print Assumptions C71_calls_refuted.
Print Assumptions C71_parameters_refuted.
Print Assumptions C71_others_partial.
Example C71_example : exists r j, avhrr_row A37_2 [900; 700; 500; 100] [0; 0] = Ok (r, j).
Proof. do 2 eexists. reflexivity. Qed.
