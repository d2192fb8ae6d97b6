(** Properties C187-C189: a whole job, the correlations of the parameter dataset, and the residuals
    dataset of the Fortran demonstration program. *)
From Verif Require Import Base FoModel FoSpec FrModel FrSpec FrProofs PropertiesFr FdModel FdSpec FdProofs.
From Coq Require Import QArith Qabs Reals.
From Coq Require Lra.
Open Scope nat_scope.
Open Scope list_scope.

(** ** C187: a whole job *)
(** If reading succeeds, the datasets read are those of the job, in order, each with the records
    and sensors of its entry, whether or not covariance matrices are kept. *)
Theorem C187_records : forall big jb enable ss es rg st rg' st',
  good_registry rg -> (forall e, In e es -> shaped (en_ds e)) ->
  read_job big jb enable ss rg st es = Ok (rg', st') ->
  good_registry rg' /\ exists mus, rg_matchups rg' = rg_matchups rg ++ mus /\ Forall2 (read_as big jb ss) es mus.
Proof. exact read_job_records. Qed.
Print Assumptions C187_records.

(** If they are kept, at the end each telemetry column of each dataset still refers to its own. *)
Theorem C187_matrices : forall big jb ss es rg st rg' st',
  good_registry rg -> (forall e, In e es -> shaped (en_ds e) /\ well_stored jb e) ->
  read_job big jb true ss rg st es = Ok (rg', st') ->
  exists mus, rg_matchups rg' = rg_matchups rg ++ mus /\ Forall2 (matrices_in big jb ss st') es mus.
Proof.
  intros big jb ss es rg st rg' st' Hg He E. exact (proj2 (read_job_matrices big jb ss es rg st rg' st' Hg He E)).
Qed.
Print Assumptions C187_matrices.

Definition ex_three : sensors :=
  sensors_after 3 [mkSensorRequest 1 3 2 0 [] None None; mkSensorRequest 2 3 1 0 [] None None;
                   mkSensorRequest 3 3 1 0 [] None None].
Definition ex_entries : list entry := [mkEntry ex_ds 1 2 2; mkEntry ex_ds 1 3 1].
Definition ex_job3 : job := mkJob true [false; false; false] [].
Example C187_example :
  (forall e, In e ex_entries -> shaped (en_ds e) /\ well_stored ex_job3 e) /\
  match read_job 1000 ex_job3 true ex_three (matchup_initialize 4) (matrices_initialize 9) ex_entries with
  | Ok (rg, st) =>
      rg_start rg = [1; 4]%Z /\ rg_final rg = [3; 8]%Z /\
      map mu_ic (rg_matchups rg) = [[1; 0]; [2; 0]]%Z /\ map mu_jc (rg_matchups rg) = [[1]; [2]]%Z /\
      map mu_iw (rg_matchups rg) = [[0; 1]; [0; 2]]%Z /\ length (st_d st) = 2 /\ length (st_w st) = 2
  | Raise _ => False
  end.
Proof.
  split.
  - intros e [<-|[<-|[]]]; (split; [exact ex_shaped|]); (split; [reflexivity|]); (split; [reflexivity|]);
      exists 0%Z, ex_vs, ex_mats; exact ex_has_matrices.
  - vm_compute. repeat split; reflexivity.
Qed.

(** The demonstration has nine parameters, as many as the names written. *)
Theorem C187_parameters : forall capacity y1 y2 y3, 4 <= capacity ->
  parameter_count (demo_sensors capacity y1 y2 y3) = 9.
Proof.
  intros [|[|[|[|c]]]] y1 y2 y3 H; try lia. reflexivity.
Qed.
Print Assumptions C187_parameters.

(** ** C188: the correlations and uncertainties of the parameter dataset *)
Theorem C188_recovers : forall (xc : nat -> nat -> R) n i j, 1 <= i <= n -> 1 <= j <= n ->
  (0 < xc i i)%R -> (0 < xc j j)%R ->
  exists r ui uj, correlations n xc i j = Ok r /\ get (uncertainties n xc) (i - 1) = Ok ui /\
    get (uncertainties n xc) (j - 1) = Ok uj /\ (ui * ui = xc i i)%R /\ (0 < ui)%R /\ (r * ui * uj = xc i j)%R.
Proof. exact correlation_recovers. Qed.
Print Assumptions C188_recovers.

Theorem C188_diagonal : forall (xc : nat -> nat -> R) n i, 1 <= i <= n -> (0 < xc i i)%R ->
  correlations n xc i i = Ok 1%R.
Proof. exact correlation_unit. Qed.
Print Assumptions C188_diagonal.

Theorem C188_symmetric : forall (xc : nat -> nat -> R) n i j, 1 <= i <= n -> 1 <= j <= n ->
  xc i j = xc j i -> correlations n xc i j = correlations n xc j i.
Proof. exact correlation_symmetric. Qed.
Print Assumptions C188_symmetric.

(** Of a covariance matrix (whose elements satisfy this inequality) the correlations are in [-1, 1]. *)
Theorem C188_bounded : forall (xc : nat -> nat -> R) n i j, 1 <= i <= n -> 1 <= j <= n ->
  (0 < xc i i)%R -> (0 < xc j j)%R -> (xc i j * xc i j <= xc i i * xc j j)%R ->
  exists r, correlations n xc i j = Ok r /\ (Rabs r <= 1)%R.
Proof. exact correlation_bounded. Qed.
Print Assumptions C188_bounded.

Example C188_example : let xc := fun i j => (if Nat.eqb i j then 4 else 2)%R in
  correlations 2 xc 1 2 = Ok (2 / 4)%R /\ (xc 1%nat 2%nat * xc 1%nat 2%nat <= xc 1%nat 1%nat * xc 2%nat 2%nat)%R.
Proof.
  split; [|cbn; Lra.lra]. rewrite correlations_at by lia. cbn [Nat.eqb]. rewrite sqrt_square by Lra.lra. reflexivity.
Qed.

(** ** C189: the times of a residuals dataset *)
Theorem C189_near : forall t x k, nth_error t k = Some x -> (Qabs x < inject_Z (2 ^ 31))%Q ->
  exists y, nth_error (times_written t) k = Some y /\ (Qabs (y - x) <= 64)%Q.
Proof.
  intros t x k Ht Hx. exists (single x). split; [unfold times_written; now rewrite nth_error_map, Ht|].
  now apply single_near.
Qed.
Print Assumptions C189_near.

(** Whole seconds during the first 194 days after the reference time are written exactly. *)
Theorem C189_small : forall t z k, nth_error t k = Some (inject_Z z) -> (Z.abs z < 2 ^ 24)%Z ->
  exists y, nth_error (times_written t) k = Some y /\ (y == inject_Z z)%Q.
Proof.
  intros t z k Ht Hz. exists (single (inject_Z z)). split; [unfold times_written; now rewrite nth_error_map, Ht|].
  now apply single_whole.
Qed.
Print Assumptions C189_small.

(** Times are written in single precision: times a minute apart become equal. *)
Theorem C189_times_refuted :
  ~ (forall t k l x y x' y', nth_error t k = Some x -> nth_error t l = Some y ->
       nth_error (times_written t) k = Some x' -> nth_error (times_written t) l = Some y' ->
       (x < y)%Q -> (x' < y')%Q).
Proof.
  intro H. specialize (H [1500000000 # 1; 1500000060 # 1] 0 1 _ _ _ _ eq_refl eq_refl eq_refl eq_refl eq_refl).
  vm_compute in H. discriminate H.
Qed.
Print Assumptions C189_times_refuted.
