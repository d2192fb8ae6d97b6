(** Properties C180-C186: match-ups, sensors and the reader of match-up datasets of the Fortran
    demonstration program. *)
From Verif Require Import Base FoModel FoSpec FrModel FrSpec FrProofs FrProofs2 FrProofs3.
From Coq Require Import QArith Qabs Sorting.Sorted Lqa.
Open Scope nat_scope.
Open Scope list_scope.

(** ** C180: the match-ups are numbered through, whatever is added *)
Theorem C180_match_ups : forall capacity qs, good_registry (registry_after capacity qs).
Proof. exact good_after. Qed.
Print Assumptions C180_match_ups.

Theorem C180_partition : forall rg x, good_registry rg ->
  (1 <= x <= Z.of_nat (total (map mu_m (rg_matchups rg))))%Z <->
  exists! k, k < length (rg_matchups rg) /\
    exists a b, nth_error (rg_start rg) k = Some a /\ nth_error (rg_final rg) k = Some b /\ (a <= x <= b)%Z.
Proof.
  intros rg x (_ & H & _). pose proof (numbered_partition _ _ _ H x) as P. rewrite map_length in P. exact P.
Qed.
Print Assumptions C180_partition.

(** A dataset is added exactly when there is room and its pair is valid and new. *)
Theorem C180_added : forall rg i j m ri rj, good_registry rg ->
  (acceptable rg i j -> exists mu rg', add_matchup rg i j m ri rj = (rg', S (length (rg_matchups rg))) /\
     rg_matchups rg' = rg_matchups rg ++ [mu] /\
     mu_i mu = i /\ mu_j mu = j /\ mu_m mu = m /\ mu_ri mu = ri /\ mu_rj mu = rj) /\
  (~ acceptable rg i j -> add_matchup rg i j m ri rj = (rg, 0)).
Proof.
  intros rg i j m ri rj Hg. split; [|apply add_matchup_no].
  intro Ha. destruct (add_matchup_yes rg i j m ri rj Hg Ha) as (mu & A & B & C & D & E & F).
  exists mu. eexists. split; [exact F|]. repeat split; assumption.
Qed.
Print Assumptions C180_added.

Example C180_example :
  let rg := registry_after 3 [mkRequest 1 2 10 3 3; mkRequest 2 1 7 3 3; mkRequest 1 2 5 3 3;
                              mkRequest 0 1 5 3 3; mkRequest 1 3 4 3 2; mkRequest 2 3 6 3 2; mkRequest 3 4 9 2 2] in
  (rg_start rg, rg_final rg) = ([1; 11; 15], [10; 14; 20])%Z /\
  map (fun mu => (mu_i mu, mu_j mu)) (rg_matchups rg) = [(1, 2); (1, 3); (2, 3)]%Z.
Proof. vm_compute. split; reflexivity. Qed.

(** ** C181: the sensors: parameters numbered through, neutral configuration, prior covariances *)
Theorem C181_parameters : forall capacity qs, let ss := sensors_after capacity qs in
  length (ss_sensors ss) <= capacity /\ numbered (map se_n (ss_sensors ss)) (ss_start ss) (ss_final ss).
Proof. exact sensors_numbered. Qed.
Print Assumptions C181_parameters.

Theorem C181_neutral : forall ss id n r y x u, length (ss_sensors ss) < ss_capacity ss ->
  exists se, ss_sensors (fst (add_sensor ss id n r 0 y x u)) = ss_sensors ss ++ [se] /\
    length (se_y se) = 2 * n /\
    forall k, k < n -> nth_error (se_y se) (2 * k) = Some 0%Q /\ nth_error (se_y se) (2 * k + 1) = Some 1%Q.
Proof.
  intros ss id n r y x u H. unfold add_sensor. apply Nat.ltb_lt in H. rewrite H. cbn [fst ss_sensors].
  eexists. split; [reflexivity|]. cbn [se_y]. split; [apply neutral_length|]. intros k Hk. now apply neutral_nth.
Qed.
Print Assumptions C181_neutral.

(** With prior uncertainties u the prior covariance is diagonal, u^2 where u is positive and 0 (not
    constrained) elsewhere, and the inverse is diagonal with 1/u^2 and 0. *)
Theorem C181_prior : forall ss id n r o y x u, length (ss_sensors ss) < ss_capacity ss ->
  exists se, ss_sensors (fst (add_sensor ss id n r o y x (Some u))) = ss_sensors ss ++ [se] /\
    forall a b v, nth_error u a = Some v -> b < length u ->
      (a <> b -> at2 (se_prior_c se) a b 0 /\ at2 (se_prior_ci se) a b 0) /\
      (a = b -> (0 < v)%Q -> exists c d, at2 (se_prior_c se) a b c /\ at2 (se_prior_ci se) a b d /\
                               (c == v * v)%Q /\ (c * d == 1)%Q) /\
      (a = b -> (v <= 0)%Q -> at2 (se_prior_c se) a b 0 /\ at2 (se_prior_ci se) a b 0).
Proof.
  intros ss id n r o y x u H. unfold add_sensor. apply Nat.ltb_lt in H. rewrite H. cbn [fst ss_sensors].
  eexists. split; [reflexivity|]. cbn [se_prior_c se_prior_ci]. intros a b v Hv Hb.
  destruct (prior_at u a b v Hv Hb) as (P1 & P2 & P3). split; [exact P1|]. split; [|exact P3].
  intros E P. destruct (P2 E P) as [A B]. exists (v * v)%Q, (1 / (v * v))%Q.
  split; [exact A|]. split; [exact B|]. split; [reflexivity|]. field. intro Z. rewrite Z in P. now apply Qlt_irrefl in P.
Qed.
Print Assumptions C181_prior.

Example C181_example :
  let ss := sensors_after 2 [mkSensorRequest 1 3 4 0 [] None None;
                             mkSensorRequest 2 2 3 2 [5; 7; 9] (Some [1; 2]) (Some [2; 0]);
                             mkSensorRequest 3 2 3 0 [] None None]%Q in
  (ss_start ss, ss_final ss) = ([1; 4], [3; 5])%Z /\
  map se_y (ss_sensors ss) = [[0; 1; 0; 1; 0; 1]; [5; 7]]%Q /\
  map se_prior_c (ss_sensors ss) = [[[0; 0; 0]; [0; 0; 0]; [0; 0; 0]]; [[4; 0]; [0; 0]]]%Q.
Proof. vm_compute. repeat split; reflexivity. Qed.

(** ** C182: reading a dataset stores every s-th record, as one new match-up *)
Theorem C182_records : forall big jb ss rg st ds i j s rg' st',
  good_registry rg -> shaped ds ->
  read_matchup_dataset big jb ss rg st ds i j s = Ok (rg', st') ->
  acceptable rg i j /\ good_registry rg' /\
  exists mu ri rj, rg_matchups rg' = rg_matchups rg ++ [mu] /\ mu_i mu = i /\ mu_j mu = j /\
    get_sensor_r ss i = Ok ri /\ get_sensor_r ss j = Ok rj /\
    records_of big jb i j s ds ri rj mu.
Proof.
  intros big jb ss rg st ds i j s rg' st' Hg Hs E.
  destruct (read_records _ _ _ _ _ _ _ _ _ _ _ Hg Hs E)
    as (A & B & _ & mu & ri & rj & E1 & E2 & E3 & E4 & E5 & _ & _ & R).
  split; [exact A|]. split; [exact B|]. exists mu, ri, rj. repeat (split; [assumption|]). exact R.
Qed.
Print Assumptions C182_records.

(** ** C183: every telemetry column gets the matrices of its uncertainty type *)
Theorem C183_covariances : forall big jb ss rg st ds i j s rg' st' base vs mats,
  good_registry rg -> shaped ds -> all_columns jb i -> all_columns jb j -> has_matrices ds base vs mats ->
  read_matchup_dataset big jb ss rg st ds i j s = Ok (rg', st') ->
  exists mu ri rj, rg_matchups rg' = rg_matchups rg ++ [mu] /\
    get_sensor_r ss i = Ok ri /\ get_sensor_r ss j = Ok rj /\
    covariances_of big (jb_common jb) s vs mats st' (dv_1 ds) (dv_M ds) ri (mu_ui mu) (mu_ic mu) (mu_iv mu) (mu_iw mu) /\
    covariances_of big (jb_common jb) s vs mats st' (dv_2 ds) (dv_M ds) rj (mu_uj mu) (mu_jc mu) (mu_jv mu) (mu_jw mu).
Proof.
  intros until mats. intros Hg Hs Hi Hj Hm E.
  destruct (read_ok _ _ _ _ _ _ _ _ _ _ _ _ _ _ Hg Hs Hi Hj Hm E)
    as (_ & _ & _ & _ & mu & ri & rj & E1 & _ & _ & E4 & E5 & _ & _ & _ & C1 & C2).
  exists mu, ri, rj. repeat (split; [assumption|]). exact C2.
Qed.
Print Assumptions C183_covariances.

(** The indices of the match-ups read before keep their meaning. *)
Theorem C183_kept : forall big jb ss rg st ds i j s rg' st' base vs mats,
  good_registry rg -> shaped ds -> all_columns jb i -> all_columns jb j -> has_matrices ds base vs mats ->
  read_matchup_dataset big jb ss rg st ds i j s = Ok (rg', st') ->
  (forall k x, refers (st_b st) k x -> refers (st_b st') k x) /\
  (forall k x, refers (st_d st) k x -> refers (st_d st') k x) /\
  (forall k x, refers (st_v st) k x -> refers (st_v st') k x) /\
  (forall k x, refers (st_w st) k x -> refers (st_w st') k x).
Proof.
  intros until mats. intros Hg Hs Hi Hj Hm E.
  destruct (read_ok _ _ _ _ _ _ _ _ _ _ _ _ _ _ Hg Hs Hi Hj Hm E)
    as (_ & _ & _ & (_ & [x1 B] & [x2 D] & [x3 V] & [x4 W]) & _).
  rewrite B, D, V, W. repeat split; intros; now apply refers_app.
Qed.
Print Assumptions C183_kept.

(** A dataset with five records, two and one telemetry columns, a U and a W matrix. *)
Definition f (l : list Z) : list fnum := map (fun z => Fin (inject_Z z)) l.
Definition ex_vs : list (list fnum) := [f [1; 2; 3; 4; 5; 6; 7]%Z].
Definition ex_mats : list (list srow) :=
  [[[(1, Fin 1); (2, Fin 1); (3, Fin 1)]; [(2, Fin 1); (3, Fin 1); (4, Fin 1)]; [(3, Fin 2)];
    [(4, Fin 2); (6, Fin 3)]; [(7, Fin 3)]]]%Z.
Definition ex_side_1 : side_vars :=
  mkSide [f [1; 2; 3; 4; 5]%Z; f [10; 20; 30; 40; 50]%Z] (Some [f [1; 2; 1; 2; 3]%Z; f [9; 9; 9; 9; 9]%Z]) None
    (Some [1; 3]%Z) [0; 1]%Z [0; 1]%Z (f [100; 101; 102; 103; 104]%Z) (Some [7; 8; 9; 10; 11]%Z).
Definition ex_side_2 : side_vars :=
  mkSide [f [6; 7; 8; 9; 10]%Z] (Some [f [1; 1; 1; 1; 1]%Z]) (Some [f [2; 2; 3; 3; 4]%Z])
    (Some [2]%Z) [0]%Z [0]%Z (f [100; 101; 102; 103; 105]%Z) None.
Definition ex_ds : dataset :=
  mkDataset 5 ex_side_1 ex_side_2 1 1 [7] (concat ex_vs) (map stored ex_mats) (map (row_pointers 0) ex_mats)
    (concat (map (col_indices 0) ex_mats)) (concat (map elements ex_mats))
    (Some (f [0; 1; 2; 3; 4]%Z)) (Some (f [1; 1; 2; 2; 3]%Z)) (Some (f [1; 2; 3; 4; 5]%Z)).
Definition ex_sensors : sensors :=
  sensors_after 3 [mkSensorRequest 1 3 2 0 [] None None; mkSensorRequest 2 3 1 0 [] None None].
Definition ex_job : job := mkJob true [false; false] [].

Example ex_shaped : shaped ex_ds.
Proof.
  assert (G : forall (l : list (list fnum)) n, forallb (fun c => length c =? n) l = true -> forall c, In c l -> length c = n).
  { intros l n E c Hc. rewrite forallb_forall in E. apply Nat.eqb_eq. now apply E. }
  split; [|split; [|split; [|split]]]; try reflexivity.
  - split; [now apply G|]. split; [split; [reflexivity|now apply G]|]. split; [exact I|]. repeat split.
  - split; [now apply G|]. split; [split; [reflexivity|now apply G]|]. split; [split; [reflexivity|now apply G]|]. repeat split.
Qed.
Example ex_has_matrices : has_matrices ex_ds 0 ex_vs ex_mats.
Proof.
  do 8 (split; [reflexivity|]). split; [|now left].
  intros rows [<- |[]]. split; [reflexivity|]. split; [|split; [|discriminate]].
  - intros r Hr. left. cbn in Hr. decompose [or] Hr; subst; try tauto; cbn; repeat constructor.
  - cbn. intros c v Hc. decompose [or] Hc; try tauto;
      match goal with h : (_, _) = _ |- _ => injection h as <- _; lia end.
Qed.
Example C182_example :
  match read_matchup_dataset 1000 ex_job ex_sensors (matchup_initialize 4) (matrices_initialize 4) ex_ds 1 2 2 with
  | Ok (rg, st) =>
      match rg_matchups rg with
      | [mu] => mu_m mu = 3 /\ mu_qi mu = [f [1; 3; 5]%Z; f [10; 30; 50]%Z] /\ mu_qj mu = [f [6; 8; 10]%Z] /\
                mu_hj mu = f [0; 2; 4]%Z /\ mu_vhj mu = f [2; 13; 34]%Z /\
                (mu_ui mu, mu_uj mu, mu_ic mu, mu_jc mu, mu_iv mu, mu_iw mu) = ([1; 3], [2], [1; 0], [1], [0; 1], [0; 1])%Z /\
                mu_pi mu = [7; 9; 11]%Z /\ mu_pj mu = [0; 0; 0]%Z
      | _ => False
      end /\ st_d st = [f [1; 1; 9]%Z] /\ st_b st = [(f [1; 1; 1]%Z, f [2; 3; 4]%Z)] /\
      st_v st = [f [1; 4; 9; 16; 25; 36; 49]%Z] /\
      st_w st = [mkBanded 3 7 [1; 4; 5; 6] [1; 3; 7] [Fin 1; Fin 1; Fin 1; Fin 2; Fin 3]]%Z
  | Raise _ => False
  end.
Proof. vm_compute. repeat split; reflexivity. Qed.

(** ** C184: with a selection of telemetry columns, the matrices are those of the selected columns *)
Definition ex_select : job := mkJob true [true; false] [[2]%Z; []].
Definition ex_one : sensors :=
  sensors_after 3 [mkSensorRequest 1 3 1 0 [] None None; mkSensorRequest 2 3 1 0 [] None None].
(** The selected column has structured uncertainties, but the type of column 1 decides: the column
    is marked as structured and gets no matrices of that kind. *)
Theorem C184_selection_refuted :
  ~ (forall big jb ss rg st ds i j s rg' st' base vs mats cols,
       good_registry rg -> shaped ds -> has_matrices ds base vs mats ->
       fget (jb_select jb) i = Ok true -> fget (jb_columns jb) i = Ok cols ->
       read_matchup_dataset big jb ss rg st ds i j s = Ok (rg', st') ->
       exists mu ri, rg_matchups rg' = rg_matchups rg ++ [mu] /\ get_sensor_r ss i = Ok ri /\
         forall l c ty, l < ri -> nth_error cols l = Some (Z.of_nat c + 1)%Z -> c < sv_m (dv_1 ds) ->
           nth_error (or_default (sv_types (dv_1 ds)) (repeat 1%Z (sv_m (dv_1 ds)))) c = Some ty ->
           exists a b v w, nth_error (mu_ui mu) l = Some a /\ nth_error (mu_ic mu) l = Some b /\
             nth_error (mu_iv mu) l = Some v /\ nth_error (mu_iw mu) l = Some w /\
             covariance_of big (jb_common jb) s vs mats st' (dv_1 ds) (dv_M ds) c ty a b v w).
Proof.
  intro H.
  destruct (read_matchup_dataset 1000 ex_select ex_one (matchup_initialize 4) (matrices_initialize 4) ex_ds 1 2 2)
    as [[rg st]|] eqn:E; [|vm_compute in E; discriminate].
  destruct (H 1000%Q ex_select ex_one _ _ ex_ds 1%Z 2%Z 2 rg st 0%Z ex_vs ex_mats [2]%Z (good_initial 4) ex_shaped
              ex_has_matrices eq_refl eq_refl E)
    as (mu & ri & Em & Er & K).
  vm_compute in Er. injection Er as <-.
  destruct (K 0 1 3%Z ltac:(lia) eq_refl ltac:(cbn; lia) eq_refl) as (a & b & v & w & _ & _ & E3 & _ & C).
  destruct C as (_ & _ & _ & C). destruct (C (or_introl eq_refl)) as (_ & u & x & d & y & k & rows & A).
  destruct A as (_ & _ & _ & (q & Eq & _) & _).
  vm_compute in E. injection E as <- <-. cbn in Em. injection Em as <-. cbn in E3. injection E3 as <-. lia.
Qed.
Print Assumptions C184_selection_refuted.

(** ** C185: values whose squares are not finite are refused *)
Theorem C185_refused_partial : forall big jb ss rg st ds i j s r,
  read_matchup_dataset big jb ss rg st ds i j s = Ok r ->
  all_representable big (sv_X (dv_1 ds)) /\ all_representable big (sv_X (dv_2 ds)) /\
  (forall x, sv_Ur (dv_1 ds) = Some x -> all_representable big x) /\
  (forall x, sv_Us (dv_1 ds) = Some x -> all_representable big x) /\
  (forall x, sv_Us (dv_2 ds) = Some x -> jb_common jb = false -> all_representable big x) /\
  (forall x c v, sv_Ur (dv_2 ds) = Some x -> In c x -> In v c -> exists q, v = Fin q) /\
  (forall x c v, sv_Us (dv_2 ds) = Some x -> In c x -> In v c -> exists q, v = Fin q) /\
  (forall x v, dv_K ds = Some x -> In v x -> representable big v) /\
  (forall x v, dv_Kr ds = Some x -> In v x -> representable big v /\ ~ exists q, v = Fin q /\ (q == 0)%Q) /\
  (forall x v, dv_Ks ds = Some x -> In v x -> representable big v).
Proof. exact read_checked. Qed.
Print Assumptions C185_refused_partial.

(** The check of Ur2 is made on Ur1 (and that of Us2 on Us1): an infinite variance is stored. *)
Definition huge_ds : dataset :=
  mkDataset 1 (mkSide [f [1]%Z] (Some [f [1]%Z]) None None [] [] (f [0]%Z) None)
    (mkSide [f [1]%Z] (Some [f [2000]%Z]) None None [] [] (f [0]%Z) None)
    0 0 [] [] [] [] [] [] None None None.
Theorem C185_refused_refuted :
  ~ (forall big jb ss rg st ds i j s r x,
       read_matchup_dataset big jb ss rg st ds i j s = Ok r -> sv_Ur (dv_2 ds) = Some x -> all_representable big x).
Proof.
  intro H.
  destruct (read_matchup_dataset 1000 (mkJob true [false; false] []) ex_one (matchup_initialize 4)
              (matrices_initialize 4) huge_ds 1 2 1) as [r|] eqn:E; [|vm_compute in E; discriminate].
  destruct (H _ _ _ _ _ _ _ _ _ _ _ E eq_refl _ _ (or_introl eq_refl) (or_introl eq_refl)) as (q & Eq & Hq).
  injection Eq as <-. apply Hq. reflexivity.
Qed.
Print Assumptions C185_refused_refuted.
Theorem C185_infinite_variance_refuted :
  match read_matchup_dataset 1000 (mkJob true [false; false] []) ex_one (matchup_initialize 4)
          (matrices_initialize 4) huge_ds 1 2 1 with
  | Ok (rg, st) => st_d st = [f [1]%Z; [Inf]]
  | Raise _ => False
  end.
Proof. vm_compute. reflexivity. Qed.
Print Assumptions C185_infinite_variance_refuted.

(** ** C186: a second dataset of a pair of sensors is refused *)
Theorem C186_second_time : forall big jb ss rg st ds i j s rg' st',
  good_registry rg -> In (i, j) (map (fun mu => (mu_i mu, mu_j mu)) (rg_matchups rg)) ->
  read_matchup_dataset big jb ss rg st ds i j s <> Ok (rg', st').
Proof.
  intros big jb ss rg st ds i j s rg' st' Hg Hin E. unfold read_matchup_dataset in E. cbv zeta in E.
  stepn E ri Eri. stepn E rj Erj. stepn E c1 Ec1. stepn E c2 Ec2. stepn E act Eact.
  rewrite add_matchup_no in E; [discriminate|]. intros (_ & _ & N). now apply N.
Qed.
Print Assumptions C186_second_time.
