(** Properties C193-C195: the thermometers and scan positions of the microwave sounders, and the descriptions of the registered sensors. *)
From Coq Require Import String Reals.
From Coq Require Lra.
From Verif Require Import Base UncModel SensorModel ReaderModel InstModel SdModel SdSpec2 SdProofs8 SdProofs9.
Open Scope string_scope.
Open Scope nat_scope.
Open Scope list_scope.

(** ** C193: the weights of the thermometers *)
(** What a registered sensor's function returns for covariates X, parameters a and across-track indices xt. *)
Notation answer r X a xt al t := (s_model _ _ _ _ (g_entry r) X a (s_const _ _ _ _ (g_entry r)) xt al t).
(** For MHS the measurand and the derivatives depend on the five temperatures only through their mean with the weights 2, 1, 1, 1, 1. *)
Theorem C193_mhs : forall (T : Type) (toint : R -> Z) X Y a l al t, length X = 9 -> length Y = 9 ->
  (forall k, In k [0; 1; 7; 8] -> nth k X [] = nth k Y []) -> (forall i, mhs_mean X i = mhs_mean Y i) ->
  answer (mhs_entry (T := T) toint) X a (Some l) al t = answer (mhs_entry (T := T) toint) Y a (Some l) al t.
Proof. intros T toint X Y a l al t. apply mhs_mean_only. Qed.
(** For AMSU-B, five temperatures with seven registered weights 1, 1, 1, 1, 1, 0, 1: the last five weights are used, and the fourth
    temperature, of weight 1, has no influence. *)
Theorem C193_amsub_refuted : forall (T : Type) (toint : R -> Z) X col a l al t, length X = 9 ->
  answer (amsub_entry (T := T) toint) (upd 5 col X) a (Some l) al t = answer (amsub_entry (T := T) toint) X a (Some l) al t.
Proof. intros T toint X col a l al t. apply amsub_fourth. Qed.
(** Without across-track indices there is no measurand. *)
Theorem C193_indices : forall (T : Type) (toint : R -> Z) X a al t,
  answer (mhs_entry (T := T) toint) X a None al t = Raise TypeError /\ answer (amsub_entry (T := T) toint) X a None al t = Raise TypeError.
Proof. split; reflexivity. Qed.
Print Assumptions C193_mhs.
Print Assumptions C193_amsub_refuted.
Print Assumptions C193_indices.
Definition ex_columns (t1 t2 : R) : list (list R) := [[100]; [200]; [t1]; [t2]; [280]; [280]; [280]; [150]; [300]]%R.
Example C193_example : length (ex_columns 280 282) = 9 /\ length (ex_columns 281 280) = 9 /\
  (forall k, In k [0; 1; 7; 8] -> nth k (ex_columns 280 282) [] = nth k (ex_columns 281 280) []) /\
  (forall i, mhs_mean (ex_columns 280 282) i = mhs_mean (ex_columns 281 280) i) /\ ex_columns 280 282 <> ex_columns 281 280.
Proof.
  split; [reflexivity|]. split; [reflexivity|]. split; [|split].
  - intros k [<-|[<-|[<-|[<-|[]]]]]; reflexivity.
  - intros i. unfold mhs_mean, ex_columns. cbn [nth]. destruct i as [|i]; [cbn [nth]; Lra.lra|]. cbn [nth]. destruct i; Lra.lra.
  - unfold ex_columns. intros E. injection E. intros. Lra.lra.
Qed.

(** ** C194: the descriptions of the registered sensors *)
(** Every registered sensor has one label and one name for each of its variables, and the names differ. *)
Theorem C194_described : forall (T : Type) (toint : R -> Z) s (r : registered (T := T)),
  (forall k, In (s, r) (avhrr_table k) -> described r) /\ (In (s, r) sim3_table -> described r) /\
  (In (s, r) test_table -> described r) /\ (In (s, r) (mw_table toint) -> described r) /\
  (forall pyfloat lines t, hirs_table pyfloat lines = Ok t -> In (s, r) t -> described r).
Proof. intros T toint s r. apply all_described. Qed.
Print Assumptions C194_described.
(** A sensor has one entry in each table. *)
Theorem C194_once : forall (T : Type) (toint : R -> Z),
  (forall k, NoDup (map fst (avhrr_table (T := T) k))) /\ NoDup (map fst (sim3_table (T := T))) /\
  NoDup (map fst (test_table (T := T))) /\ NoDup (map fst (mw_table (T := T) toint)) /\
  (forall pyfloat lines t, hirs_table (T := T) pyfloat lines = Ok t -> NoDup (map fst t)).
Proof. intros T toint. apply all_once. Qed.
Print Assumptions C194_once.

(** ** C195: mirrored scan positions *)
(** The function takes positions 1, ..., 90: the scan angles of i and 91 - i are opposite, and all antenna corrections registered are 1.
    For AMSU-B mirrored positions give the same measurand and derivatives; for MHS if they are not the first and the last. *)
Theorem C195_amsub : forall (T : Type) (toint : R -> Z) x a l l' al t, x <> [] ->
  (1 <= toint l <= 90)%Z -> toint l' = (91 - toint l)%Z ->
  answer (amsub_entry (T := T) toint) (one_row x) a (Some [l']) al t = answer (amsub_entry (T := T) toint) (one_row x) a (Some [l]) al t.
Proof.
  intros T toint x a l l' al t N I E. apply (mirror toint [1; 1; 1; 1; 1; 0; 1]%R x a l l' al t N E).
  destruct (Z.eq_dec (toint l) 1) as [->|?]; [change (91 - 1)%Z with 90%Z; rewrite gain_90, gain by lia; reflexivity|].
  destruct (Z.eq_dec (toint l) 90) as [->|?]; [change (91 - 90)%Z with 1%Z; rewrite gain_90, gain by lia; reflexivity|].
  rewrite !gain by lia. reflexivity.
Qed.
Theorem C195_mhs_partial : forall (T : Type) (toint : R -> Z) x a l l' al t, x <> [] ->
  (2 <= toint l <= 89)%Z -> toint l' = (91 - toint l)%Z ->
  answer (mhs_entry (T := T) toint) (one_row x) a (Some [l']) al t = answer (mhs_entry (T := T) toint) (one_row x) a (Some [l]) al t.
Proof.
  intros T toint x a l l' al t N I E. apply (mirror toint [2; 1; 1; 1; 1]%R x a l l' al t N E). rewrite !gain by lia. reflexivity.
Qed.
(** At the last position of MHS the weight 2 of the first thermometer is taken for the antenna correction: the measurand is the mean of
    that at the first position and of the brightness temperature of the cosmic background. *)
Theorem C195_edge_refuted : forall (T : Type) (toint : R -> Z) x a1 a2 a3 l l' al t, length x = 9 -> toint l = 1%Z -> toint l' = 90%Z ->
  exists m j m' j', answer (mhs_entry (T := T) toint) (one_row x) [a1; a2; a3] (Some [l]) al t = Ok ([m], j) /\
    answer (mhs_entry (T := T) toint) (one_row x) [a1; a2; a3] (Some [l']) al t = Ok ([m'], j') /\ m' = ((m + background) / 2)%R.
Proof. intros T toint x a1 a2 a3 l l' al t. apply edge. Qed.
Print Assumptions C195_amsub.
Print Assumptions C195_mhs_partial.
Print Assumptions C195_edge_refuted.
Example C195_example : exists toint : R -> Z, toint 1%R = 1%Z /\ toint 90%R = 90%Z /\ toint 2%R = 2%Z /\ toint 89%R = 89%Z.
Proof.
  exists (fun r => (up r - 1)%Z).
  assert (G : forall z, (up (IZR z) - 1)%Z = z).
  { intros z. assert (E : (z + 1)%Z = up (IZR z)); [|lia]. apply tech_up; rewrite plus_IZR; Lra.lra. }
  repeat split; apply G.
Qed.
