(** Property theorems C01-C04, C10, C11 (reader layout, values, accessors).
    Vocabulary: ReaderSpec.v.  Model: ReaderModel.v. *)
From Verif Require Import Base ReaderModel ReaderSpec ReaderProofs ReaderMain.

Section Props.
Context {V T : Type} (zeroV nanV : V) (zeroT : T) (f32 i32 : V -> V) (todate : V -> T)
        (isfill : V -> bool) (ord : list string -> list string).
Notation openMatchUp := (openMatchUp V T zeroV nanV zeroT f32 i32 todate isfill ord).
Notation getVariableData := (getVariableData V T).

(** C01 *)
Theorem C01_columns_returned : forall ds, good_files ds ->
  exists mu, openMatchUp ds = Ok mu /\
   (forall sensor n cov d sd, file_has ds sensor n cov d sd ->
      exists col, is_column (sX d sd) cov col /\
        getVariableData mu cov sensor (Some n) = Ok (map f32 col)) /\
   (forall sensor n cov, (forall d sd, ~ file_has ds sensor n cov d sd) ->
      getVariableData mu cov sensor (Some n) = Raise ValueError).
Proof. exact (columns_returned zeroV nanV zeroT f32 i32 todate isfill ord). Qed.

(** C02 *)
Theorem C02_layout : forall ds, good_files ds ->
  exists ix, get_idx V ds = Ok ix /\
    let nb := length (n_sensor ix) in
    length (n_mu ix) = nb /\ length (n_cov ix) = nb /\ length (N_var ix) = nb /\
    length (idxs ix) = nb + 1 /\
    nth_error (idxs ix) 0 = Some 0 /\
    (forall b s n c, nth_error (n_sensor ix) b = Some s -> nth_error (n_mu ix) b = Some n ->
        nth_error (n_cov ix) b = Some c ->
        exists name d sd lo, nth_error (sensors ix) s = Some name /\ file_has ds name n c d sd /\
          nth_error (N_var ix) b = Some (d_M V d) /\
          nth_error (idxs ix) b = Some lo /\ nth_error (idxs ix) (b + 1) = Some (lo + d_M V d)) /\
    (forall name n c d sd, file_has ds name n c d sd ->
        exists! b, exists s, nth_error (n_sensor ix) b = Some s /\ nth_error (sensors ix) s = Some name /\
          nth_error (n_mu ix) b = Some n /\ nth_error (n_cov ix) b = Some c).
Proof. exact layout. Qed.

Theorem C02_every_position_in_one_block : forall ds mu p, good_files ds -> openMatchUp ds = Ok mu ->
  p < length (mu_values V T mu) ->
  exists! b, exists lo hi, nth_error (idxs (mu_idx V T mu)) b = Some lo /\
     nth_error (idxs (mu_idx V T mu)) (b + 1) = Some hi /\ lo <= p < hi.
Proof. exact (every_position_in_one_block zeroV nanV zeroT f32 i32 todate isfill ord). Qed.

(** C03.  [before ds n] is the number of match-ups in the files before file n. *)
Theorem C03_series_aligned : forall ds mu n d r, readable ds -> openMatchUp ds = Ok mu ->
  1 <= n -> nth_error ds (n - 1) = Some d -> r < d_M V d ->
  nth_error (cNm (mu_idx V T mu)) (n - 1) = Some (before ds n) /\
  nth_error (cNm (mu_idx V T mu)) n = Some (before ds n + d_M V d) /\
  nth_error (mu_ks V T mu) (before ds n + r) = nth_error (d_K V d) r /\
  nth_error (mu_time1 V T mu) (before ds n + r) = option_map todate (nth_error (d_time1 V d) r) /\
  nth_error (mu_time2 V T mu) (before ds n + r) = option_map todate (nth_error (d_time2 V d) r).
Proof. exact (series_aligned zeroV nanV zeroT f32 i32 todate isfill ord). Qed.

Theorem C03_series_lengths : forall ds mu, readable ds -> openMatchUp ds = Ok mu ->
  length (mu_ks V T mu) = list_sum (map (d_M V) ds) /\
  length (mu_time1 V T mu) = list_sum (map (d_M V) ds) /\
  length (mu_time2 V T mu) = list_sum (map (d_M V) ds).
Proof. exact (series_lengths zeroV nanV zeroT f32 i32 todate isfill ord). Qed.

Theorem C03_optional_indices : forall ds mu, readable ds -> openMatchUp ds = Ok mu ->
  optional_ok nanV i32 "across_track_index1" ds (mu_across1 V T mu) /\
  optional_ok nanV i32 "across_track_index2" ds (mu_across2 V T mu) /\
  optional_ok nanV i32 "along_track_index1" ds (mu_along1 V T mu) /\
  optional_ok nanV i32 "along_track_index2" ds (mu_along2 V T mu).
Proof. exact (optional_indices zeroV nanV zeroT f32 i32 todate isfill ord). Qed.

Theorem C03_additional_data : forall ds mu name n d,
  readable ds -> openMatchUp ds = Ok mu -> (forall l x, In x (ord l) <-> In x l) ->
  1 <= n -> nth_error ds (n - 1) = Some d ->
  (In name (mu_add_names V T mu) ->
   getAdditionalData V T mu name (Some (Z.of_nat n)) =
   Ok (match lookup name (d_vars V d) with
       | Some v => map (fun x => if isfill x then nanV else x) v
       | None => repeat nanV (d_M V d)
       end)) /\
  (~ In name (mu_add_names V T mu) -> getAdditionalData V T mu name (Some (Z.of_nat n)) = Raise ValueError) /\
  (In name (mu_add_names V T mu) <->
     ~ In name STANDARD_VARIABLE_NAMES /\ exists d', In d' ds /\ In name (map fst (d_vars V d'))).
Proof. exact (additional_data zeroV nanV zeroT f32 i32 todate isfill ord). Qed.

(** C04: what opening does when covariate counts disagree between files. *)
Theorem C04_opens_iff : forall ds, ds <> [] -> readable ds ->
  (enough_covariates ds -> exists mu, openMatchUp ds = Ok mu) /\
  (~ enough_covariates ds -> openMatchUp ds = Raise IndexError).
Proof. exact (opens_iff zeroV nanV zeroT f32 i32 todate isfill ord). Qed.

Theorem C04_nothing_invented : forall ds mu sensor n cov x,
  readable ds -> openMatchUp ds = Ok mu ->
  getVariableData mu cov sensor (Some n) = Ok x ->
  exists d sd col, file_has_first ds sensor n cov d sd /\ is_column (sX d sd) cov col /\ x = map f32 col.
Proof. exact (nothing_invented zeroV nanV zeroT f32 i32 todate isfill ord). Qed.

(** Partial: columns within the count of the sensor's first file are kept; "no column is dropped"
    itself is refuted below. *)
Theorem C04_columns_kept_partial : forall ds mu sensor n cov d sd,
  readable ds -> openMatchUp ds = Ok mu -> file_has_first ds sensor n cov d sd ->
  exists col, is_column (sX d sd) cov col /\
    getVariableData mu cov sensor (Some n) = Ok (map f32 col).
Proof. exact (columns_first zeroV nanV zeroT f32 i32 todate isfill ord). Qed.

(** C10 *)
Theorem C10_accessor_time : forall ds mu n d, readable ds -> openMatchUp ds = Ok mu ->
  1 <= n -> nth_error ds (n - 1) = Some d ->
  (forall sd, getSensorTime V T mu (Z.of_nat n) (sname d sd) = Ok (Some (map todate (side_time d sd)))) /\
  (forall s, (forall sd, s <> sname d sd) -> getSensorTime V T mu (Z.of_nat n) s = Raise IndexError).
Proof. exact (accessor_time zeroV nanV zeroT f32 i32 todate isfill ord). Qed.

Theorem C10_accessor_track : forall ds mu n d, readable ds -> openMatchUp ds = Ok mu ->
  1 <= n -> nth_error ds (n - 1) = Some d ->
  (forall sd, getSensorAcrossTrackIndex V T mu (Z.of_nat n) (sname d sd)
              = Ok (optional_slice nanV i32 (side_across sd) ds d)) /\
  (forall sd, getSensorAlongTrackIndex V T mu (Z.of_nat n) (sname d sd)
              = Ok (optional_slice nanV i32 (side_along sd) ds d)) /\
  (forall s, (forall sd, s <> sname d sd) ->
     getSensorAcrossTrackIndex V T mu (Z.of_nat n) s = Raise IndexError /\
     getSensorAlongTrackIndex V T mu (Z.of_nat n) s = Raise IndexError).
Proof. exact (accessor_track zeroV nanV zeroT f32 i32 todate isfill ord). Qed.

Theorem C10_accessor_range : forall B (x1 x2 : option (list B)) ds mu n s,
  readable ds -> openMatchUp ds = Ok mu ->
  length ds < n -> getSensorX x1 x2 (mu_idx V T mu) (Z.of_nat n) s = Raise IndexError.
Proof. exact (fun B x1 x2 => accessor_range zeroV nanV zeroT f32 i32 todate isfill x1 x2 ord). Qed.

(** C11 *)
Theorem C11_extremes_with_number_partial : forall ds mu agg sensor n cov d sd,
  good_files ds -> openMatchUp ds = Ok mu -> file_has ds sensor n cov d sd ->
  exists col, is_column (sX d sd) cov col /\
  getVariableDataAgg V T agg mu cov sensor (Some n) =
    match agg (map f32 col) with
    | Ok v => Ok (Some v) | Raise ValueError => Ok None | Raise e => Raise e
    end.
Proof. exact (extremes_with_number zeroV nanV zeroT f32 i32 todate isfill ord). Qed.

(** Without a match-up number the answer is always None, whatever the data. *)
Theorem C11_extremes_default_always_none : forall agg (mu : matchup V T) cov s,
  getVariableDataAgg V T agg mu cov s None = Ok None.
Proof. exact extremes_default_none. Qed.
End Props.

Print Assumptions C01_columns_returned.
Print Assumptions C02_layout.
Print Assumptions C02_every_position_in_one_block.
Print Assumptions C03_series_aligned.
Print Assumptions C03_series_lengths.
Print Assumptions C03_optional_indices.
Print Assumptions C03_additional_data.
Print Assumptions C04_opens_iff.
Print Assumptions C04_nothing_invented.
Print Assumptions C04_columns_kept_partial.
Print Assumptions C10_accessor_time.
Print Assumptions C10_accessor_track.
Print Assumptions C10_accessor_range.
Print Assumptions C11_extremes_with_number_partial.
Print Assumptions C11_extremes_default_always_none.

(** ** Concrete cases *)
Section Concrete.
Open Scope string_scope.
(* three files A-B, B-C, A-C with 1, 2 and 3 covariates for A, B, C and 2, 1, 0 match-ups *)
Definition exAB : dataset nat :=
  mkDataset nat 2 1 2 "A" "B" [[10]; [11]] [[20; 21]; [22; 23]] [1; 2] [100; 101] [110; 111]
            [("across_track_index1", [7; 8]); ("extra", [5; 6])].
Definition exBC : dataset nat :=
  mkDataset nat 1 2 3 "B" "C" [[30; 31]] [[40; 41; 42]] [3] [102] [112] [].
Definition exAC : dataset nat := mkDataset nat 0 1 3 "A" "C" [] [] [] [] [] [].
Definition exds := [exAB; exBC; exAC].
Definition exopen := openMatchUp nat nat 0 999 0 (fun x => x) (fun x => x) (fun x => x) (Nat.eqb 6) (fun l => l).

Example exds_good : good_files exds.
Proof.
  split; [discriminate|]. split.
  - intros d d' sd sd' [<-|[<-|[<-|[]]]] [<-|[<-|[<-|[]]]]; destruct sd, sd'; cbn; congruence.
  - intros d [<-|[<-|[<-|[]]]]; (split; [|discriminate]); unfold wf_dataset; cbn;
      repeat split; try reflexivity; intros; repeat (destruct H as [H|H]; [inversion H; subst; reflexivity|]); destruct H.
Qed.
Example exds_readable : readable exds.
Proof. exact (proj2 (proj2 exds_good)). Qed.
Example exds_file_has : file_has exds "C" 2 3 exBC Side2.
Proof. unfold file_has; cbn. repeat split; auto; lia. Qed.
Example exds_data :
  match exopen exds with
  | Ok mu => (getVariableData nat nat mu 3 "C" (Some 2), getVariableData nat nat mu 2 "B" (Some 1),
              mu_values nat nat mu, mu_across1 nat nat mu,
              getSensorAcrossTrackIndex nat nat mu 2 "B", getAdditionalData nat nat mu "extra" (Some 1%Z))
  | Raise e => (Raise e, Raise e, [], None, Raise e, Raise e)
  end
  = (Ok [42], Ok [21; 23], [10; 11; 20; 22; 30; 40; 21; 23; 31; 41; 42], Some [7; 8; 999],
     Ok (Some [999]), Ok [5; 999]).
Proof. vm_compute. reflexivity. Qed.

(** C04 refuted: sensor A has 1 covariate in file 1 and 2 in file 2: the second column of file 2
    is silently dropped (opening succeeds, the column cannot be retrieved). *)
Definition exA1 : dataset nat := mkDataset nat 1 1 1 "A" "B" [[10]] [[20]] [1] [0] [0] [].
Definition exA2 : dataset nat := mkDataset nat 1 2 1 "A" "C" [[30; 31]] [[40]] [1] [0] [0] [].
Theorem C04_no_column_dropped_refuted :
  exists ds mu d, readable ds /\ exopen ds = Ok mu /\ file_has ds "A" 2 2 d Side1 /\
    getVariableData nat nat mu 2 "A" (Some 2) = Raise ValueError.
Proof.
  exists [exA1; exA2]. eexists. exists exA2. split; [|split; [vm_compute; reflexivity|split]].
  - intros d [<-|[<-|[]]]; (split; [|discriminate]); unfold wf_dataset; cbn;
      repeat split; try reflexivity; intros; repeat (destruct H as [H|H]; [inversion H; subst; reflexivity|]); destruct H.
  - unfold file_has; cbn; repeat split; auto; lia.
  - vm_compute. reflexivity.
Qed.

(** C04 refuted also for a file matching a sensor with itself: the data of side 1 are
    overwritten by side 2 and the second block stays zero. *)
Definition exSelf : dataset nat := mkDataset nat 1 1 1 "A" "A" [[10]] [[20]] [1] [0] [0] [].
Theorem C04_self_matchup_refuted :
  exists mu, exopen [exSelf] = Ok mu /\ mu_values nat nat mu = [20; 0] /\
    getVariableData nat nat mu 1 "A" (Some 1) = Ok [20].
Proof. eexists. split; [vm_compute; reflexivity|]. split; reflexivity. Qed.

(** C11 refuted: data are there, yet the default-argument maximum is None. *)
Definition natmax (l : list nat) : res nat := pymax l.
Theorem C11_extremes_over_all_matchups_refuted :
  exists ds mu, good_files ds /\ exopen ds = Ok mu /\
    getVariableData nat nat mu 1 "A" (Some 1) = Ok [10; 11] /\
    getVariableDataAgg nat nat natmax mu 1 "A" None = Ok None.
Proof.
  exists exds. eexists. split; [exact exds_good|]. split; [vm_compute; reflexivity|].
  split; vm_compute; reflexivity.
Qed.
End Concrete.
Print Assumptions C04_no_column_dropped_refuted.
Print Assumptions C04_self_matchup_refuted.
Print Assumptions C11_extremes_over_all_matchups_refuted.
