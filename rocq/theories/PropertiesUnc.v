(** Property theorems C05-C09 (uncertainties, W matrices, sensor data).
    Vocabulary: UncSpec.v, SensorSpec.v, ReaderSpec.v.  Models: UncModel.v, UnckModel.v, SensorModel.v. *)
From Coq Require Import Lra.
From Verif Require Import Base ReaderModel ReaderSpec UncModel UncSpec UncProofs UncProofs2 UncProofs3
  UnckModel UnckProofs SensorModel SensorSpec SensorProofs.

Open Scope nat_scope.
Section Props.
Context {V : Type} (zeroV : V) (ord : list nat -> list nat).

(** C05: blocks b of the opened object, with their sensor (n_sensor) and covariate (n_cov). *)
Theorem C05_systematic_numbering : forall fs ix uncs ws us,
  good_files (map (uf_d V) fs) -> get_idx V (map (uf_d V) fs) = Ok ix ->
  open_unc V zeroV ord fs ix = Ok (uncs, ws, us) ->
  length uncs = length (n_sensor ix) /\
  (forall b o, nth_error uncs b = Some o -> exists u, o = Some u) /\
  exists n,
   (forall b u, nth_error uncs b = Some (Some u) ->
       (systematic u -> exists k, u_sysi V u = Some k /\ 1 <= k <= n) /\
       (~ systematic u -> u_sysi V u = None)) /\
   (forall b b' u u' k k' s s' c c',
      nth_error uncs b = Some (Some u) -> nth_error uncs b' = Some (Some u') ->
      u_sysi V u = Some k -> u_sysi V u' = Some k' ->
      nth_error (n_sensor ix) b = Some s -> nth_error (n_sensor ix) b' = Some s' ->
      nth_error (n_cov ix) b = Some c -> nth_error (n_cov ix) b' = Some c' ->
      (k = k' <-> (s = s' /\ c = c'))) /\
   (forall k, 1 <= k <= n -> exists b u, nth_error uncs b = Some (Some u) /\ u_sysi V u = Some k).
Proof. exact (numbering_opened zeroV ord). Qed.

(** C06: [ord] is the (arbitrary) iteration order of a Python set. *)
Theorem C06_uncertainty_attached_partial : (forall l x, In x (ord l) <-> In x l) -> forall fs ix,
  good_files (map (uf_d V) fs) -> (forall f, In f fs -> valid_file f) ->
  get_idx V (map (uf_d V) fs) = Ok ix ->
  exists uncs ws us, open_unc V zeroV ord fs ix = Ok (uncs, ws, us) /\
    length uncs = length (n_sensor ix) /\
    forall b s n c, nth_error (get_block_idxs ix) b = Some (s, n, c) ->
      exists name f sd ty u,
        nth_error (sensors ix) s = Some name /\ 1 <= n /\ nth_error fs (n - 1) = Some f /\
        sname (uf_d V f) sd = name /\ 1 <= c <= sm (uf_d V f) sd /\
        nth_error (stypes (uf_u V f) sd) (c - 1) = Some ty /\
        nth_error uncs b = Some (Some u) /\ as_declared f sd c ty (u_kind V u) ws us.
Proof. exact (unc_attached zeroV ord). Qed.

(** C07 *)
Theorem C07_w_matrix_roundtrip : forall ws uvs wu1 wu2 uu1 uu2 r,
  ws <> [] -> (forall w, In w ws -> wf_csr w /\ c_nrows V w = r /\ last_column_used w) ->
  exists mv, return_w_matrix_variables V zeroV wu1 wu2 uu1 uu2 ws uvs = Ok mv /\
    wuse1 V mv = wu1 /\ wuse2 V mv = wu2 /\ uuse1 V mv = uu1 /\ uuse2 V mv = uu2 /\
    (forall i w, nth_error ws i = Some w -> open_w_matrix V mv (i + 1) = Ok w) /\
    (forall i u, nth_error uvs i = Some u -> open_u_matrix V mv (i + 1) = Ok u).
Proof. exact (codec_roundtrip zeroV). Qed.

(** Without the last-column condition: the matrix comes back cut after its last used column. *)
Theorem C07_trailing_columns_lost : forall ws uvs wu1 wu2 uu1 uu2 r,
  ws <> [] -> (forall w, In w ws -> wf_csr w /\ c_nrows V w = r /\ c_data V w <> []) ->
  exists mv, return_w_matrix_variables V zeroV wu1 wu2 uu1 uu2 ws uvs = Ok mv /\
    wuse1 V mv = wu1 /\ wuse2 V mv = wu2 /\ uuse1 V mv = uu1 /\ uuse2 V mv = uu2 /\
    (forall i w, nth_error ws i = Some w ->
       open_w_matrix V mv (i + 1) =
       Ok (mkCsr V (c_data V w) (c_indices V w) (c_indptr V w) (c_nrows V w)
                 (list_max (c_indices V w) + 1))) /\
    (forall i u, nth_error uvs i = Some u -> open_u_matrix V mv (i + 1) = Ok u).
Proof. exact (open_w_general zeroV). Qed.
End Props.

(** C08 *)
Theorem C08_unck_valid : forall kr ks, length kr = length ks ->
  exists u, unck kr ks = Ok u /\ length u = length kr /\
  forall i r s, nth_error kr i = Some r -> nth_error ks i = Some s ->
    exists x, nth_error u i = Some x /\ (0 <= x /\ x * x = r * r + s * s /\
      Rabs r <= x /\ Rabs s <= x /\ (x <> 0 <-> r <> 0 \/ s <> 0))%R.
Proof. exact unck_valid. Qed.

(** C09 *)
Section C09.
Context {V C F A : Type} (f32 : V -> V) (default_adj : A).

Theorem C09_parameters_attributed : forall (sd : sdict V C F A) sensors e,
  NoDup (map fst sd) -> extract_sensor_data V C F A f32 default_adj sd sensors = Ok e ->
  length (e_param_sensor V C F A e) = length (e_a V C F A e) /\
  length (e_const_sensor V C F A e) = length (e_const V C F A e) /\
  forall i s, nth_error sensors i = Some s ->
    exists en, lookup s sd = Some en /\
      labelled s (e_param_sensor V C F A e) (e_a V C F A e) = map f32 (s_param V C F A en) /\
      labelled s (e_const_sensor V C F A e) (e_const V C F A e) = s_const V C F A en /\
      nth_error (e_model V C F A e) i = Some (s_model V C F A en).
Proof. exact (params_attributed f32 default_adj). Qed.

Theorem C09_succeeds_without_adjustment_entry : forall (sd : sdict V C F A) sensors,
  (forall s, In s sensors -> exists en, lookup s sd = Some en /\ s_adj V C F A en = None) ->
  exists e, extract_sensor_data V C F A f32 default_adj sd sensors = Ok e /\
    e_adj V C F A e = map (fun _ => default_adj) sensors.
Proof. exact (extract_succeeds f32 default_adj). Qed.
End C09.

Print Assumptions C05_systematic_numbering.
Print Assumptions C06_uncertainty_attached_partial.
Print Assumptions C07_w_matrix_roundtrip.
Print Assumptions C07_trailing_columns_lost.
Print Assumptions C08_unck_valid.
Print Assumptions C09_parameters_attributed.
Print Assumptions C09_succeeds_without_adjustment_entry.

(** ** Concrete cases *)
Section Concrete.
Open Scope string_scope.
(* file 1: A-B, 2 match-ups; A: 2 covariates of types 3 and 4, B: 1 of type 2; file 2: B-C,
   1 match-up, types 2 and 1 *)
Definition exd1 : dataset nat :=
  mkDataset nat 2 2 1 "A" "B" [[10; 11]; [12; 13]] [[20]; [21]] [1; 2] [0; 0] [0; 0] [].
Definition exd2 : dataset nat := mkDataset nat 1 1 1 "B" "C" [[30]] [[40]] [3] [0] [0] [].
(* W1: 2x3, rows {0,1} and {1,2}; W2: 2x2 identity *)
Definition exW1 : csr nat := mkCsr nat [5; 5; 5; 5] [0; 1; 1; 2] [0; 2; 4] 2 3.
Definition exW2 : csr nat := mkCsr nat [1; 1] [0; 1] [0; 1; 2] 2 2.
Definition exmv : matvars nat :=
  match return_w_matrix_variables nat 0 [2; 1] [0] [1; 2] [0] [exW1; exW2] [[7; 8]; [70; 80; 90]] with
  | Ok mv => mv
  | Raise _ => mkMatvars nat [] [] [] [] [] [] [] [] [] []
  end.
Definition exu1 : uncvars nat :=
  mkUncvars nat [3; 4] [2] (Some [[0; 0]; [0; 0]]) (Some [[61]; [62]])
            (Some [[0; 3]; [0; 4]]) (Some [[71]; [72]]) (Some exmv).
Definition exu2 : uncvars nat :=
  mkUncvars nat [2] [1] (Some [[63]]) (Some [[64]]) (Some [[73]]) None None.
Definition exfs := [mkUfile nat exd1 exu1; mkUfile nat exd2 exu2].

Example exfs_good : good_files (map (uf_d nat) exfs).
Proof.
  split; [discriminate|]. split.
  - intros d d' sd sd' [<-|[<-|[]]] [<-|[<-|[]]]; destruct sd, sd'; cbn; congruence.
  - intros d [<-|[<-|[]]]; (split; [|discriminate]); unfold wf_dataset; cbn;
      repeat split; try reflexivity; intros; repeat (destruct H as [H|H]; [inversion H; subst; reflexivity|]); destruct H.
Qed.

Ltac shaped_tac := eexists; split; [reflexivity|]; split; [reflexivity|];
  cbn; intros r Hr; repeat (destruct Hr as [<-|Hr]; [reflexivity|]); destruct Hr.
Ltac mats_tac := eexists _, _, _, _, _; split; [reflexivity|]; split; [reflexivity|]; split; [discriminate|];
  split; [vm_compute; reflexivity|]; split; [reflexivity|]; split; [discriminate|]; vm_compute; reflexivity.
Example exfs_valid : forall f, In f exfs -> valid_file f.
Proof.
  intros f [<-|[<-|[]]] sd; (split; [destruct sd; reflexivity|]); split.
  - cbn. intros mv E. injection E as <-. destruct sd; vm_compute; auto.
  - intros cov ty Hc. destruct sd; destruct cov as [|[|[|cov]]]; try lia; cbn; intros E; try discriminate;
      try (destruct cov; discriminate); injection E as <-; unfold valid_decl; cbn [umat uf_u ur1 sUr sUs uf_d].
    + mats_tac.
    + split; [mats_tac|]. split; [shaped_tac|cbn; lia].
    + split; shaped_tac.
  - cbn. discriminate.
  - intros cov ty Hc. destruct sd; destruct cov as [|[|cov]]; try lia; cbn; intros E; try discriminate;
      try (destruct cov; discriminate); injection E as <-; unfold valid_decl; cbn [umat uf_u ur1 sUr sUs uf_d].
    + split; shaped_tac.
    + shaped_tac.
Qed.

(** What is opened: types in block order, systematic numbers, and the matrices. *)
Example exfs_opened :
  match get_idx nat (map (uf_d nat) exfs) with
  | Ok ix => match open_unc nat 0 (fun l => l) exfs ix with
             | Ok (uncs, ws, us) => (uncs, ws, us)
             | Raise _ => ([], [], [])
             end
  | Raise _ => ([], [], [])
  end =
  ([Some (mkUnc nat (UK3 nat 0 0) None); Some (mkUnc nat (UK2 nat [61; 62] [71; 72]) (Some 1));
    Some (mkUnc nat (UK2 nat [63] [73]) (Some 1)); Some (mkUnc nat (UK1 nat [64]) None);
    Some (mkUnc nat (UK4 nat 1 1 4) (Some 2))],
   [Some exW2; Some exW1], [Some [7; 8]; Some [70; 80; 90]]).
Proof. vm_compute. reflexivity. Qed.

Example ex_codec_hyp : forall w, In w [exW1; exW2] -> wf_csr w /\ c_nrows nat w = 2 /\ last_column_used w.
Proof.
  intros w [<-|[<-|[]]]; unfold wf_csr, last_column_used; cbn; repeat split; auto; intros; lia.
Qed.

(** C06 refuted for a type 4 covariate in a file with one match-up: the file declares everything it
    should, but the systematic component is read from row index 1, which does not exist. *)
Definition ex4 : ufile nat :=
  mkUfile nat (mkDataset nat 1 1 1 "A" "B" [[10]] [[20]] [1] [0] [0] [])
    (mkUncvars nat [4] [1] (Some [[1]]) (Some [[1]]) (Some [[9]]) (Some [[9]])
       (Some (mkMatvars nat [1] [0] [1] [0] [1] [[0; 1]] [0] [1] [1] [5]))).
Theorem C06_single_matchup_type4_refuted :
  exists f ix, good_files [uf_d nat f] /\ get_idx nat [uf_d nat f] = Ok ix /\
    stypes (uf_u nat f) Side1 = [4] /\ sUs (uf_u nat f) Side1 = Some [[9]] /\
    (exists mv W U, umat nat (uf_u nat f) = Some mv /\ open_w_matrix nat mv 1 = Ok W /\ open_u_matrix nat mv 1 = Ok U) /\
    open_unc nat 0 (fun l => l) [f] ix = Raise IndexError.
Proof.
  exists ex4. eexists. split.
  { split; [discriminate|]. split.
    - intros d d' sd sd' [<-|[]] [<-|[]]; destruct sd, sd'; cbn; congruence.
    - intros d [<-|[]]; (split; [|discriminate]); unfold wf_dataset; cbn;
      repeat split; try reflexivity; intros; repeat (destruct H as [H|H]; [inversion H; subst; reflexivity|]); destruct H. }
  split; [vm_compute; reflexivity|]. split; [reflexivity|]. split; [reflexivity|].
  split; [eexists _, _, _; split; [reflexivity|]; split; vm_compute; reflexivity|].
  vm_compute. reflexivity.
Qed.

(** C07: a W matrix all of whose weights are zero is written but cannot be read back. *)
Theorem C07_empty_matrix_unreadable :
  exists (w : csr nat) mv, wf_csr w /\
    return_w_matrix_variables nat 0 [1] [0] [1] [0] [w] [[5]] = Ok mv /\
    open_w_matrix nat mv 1 = Raise ValueError.
Proof.
  exists (mkCsr nat [] [] [0; 0] 1 1). eexists. split; [repeat split|].
  split; [vm_compute; reflexivity|]. vm_compute. reflexivity.
Qed.

(** C08 on a non-trivial value: Kr = 3, Ks = -4 gives 5. *)
Example ex_unck : unck [3%R] [(-4)%R] = Ok [5%R].
Proof.
  unfold unck. cbn. do 2 f_equal. replace (3 * 3 + -4 * -4)%R with (5 * 5)%R by lra. apply sqrt_square. lra.
Qed.

(** C09: two iteration orders of the same dictionary with an extra sensor. *)
Definition exsA := mkSentry nat nat nat nat [1; 2] [100] 7 None None.
Definition exsB := mkSentry nat nat nat nat [3] [] 8 None None.
Definition exsX := mkSentry nat nat nat nat [9; 9] [9] 9 None None.
Example ex_sensor :
  match extract_sensor_data nat nat nat nat (fun x => x) 0 [("B", exsB); ("X", exsX); ("A", exsA)] ["A"; "B"] with
  | Ok e => (e_a _ _ _ _ e, e_param_sensor _ _ _ _ e, e_model _ _ _ _ e)
  | Raise _ => ([], [], [])
  end = ([3; 1; 2], ["B"; "A"; "A"], [7; 8]).
Proof. reflexivity. Qed.

(** C09 refuted for adjustment models: with the key the code looks for, opening fails; with the key
    the code reads, the sensor's adjustment model (5) is silently replaced by the default (0). *)
Theorem C09_adjustment_model_refuted :
  extract_sensor_data nat nat nat nat (fun x => x) 0
     [("A", mkSentry nat nat nat nat [1] [] 7 (Some 5) None)] ["A"] = Raise KeyError /\
  exists e, extract_sensor_data nat nat nat nat (fun x => x) 0
     [("A", mkSentry nat nat nat nat [1] [] 7 None (Some 5))] ["A"] = Ok e /\ e_adj _ _ _ _ e = [0].
Proof. split; [reflexivity|]. eexists; split; reflexivity. Qed.
End Concrete.
Print Assumptions C06_single_matchup_type4_refuted.
Print Assumptions C07_empty_matrix_unreadable.
Print Assumptions C09_adjustment_model_refuted.
