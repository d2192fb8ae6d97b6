(** * Proofs for C140-C146: appending the W matrices. *)
From Coq Require Import Reals Lra.
From Verif Require Import Base BaseLemmas ReaderModel ReaderSpec ReaderMain UncModel UncSpec UncProofs SimModel CheckModel CheckSpec CheckProofs CheckProofs2 CheckProofs3 CheckProofs4 CheckProofs5 IOModel IOSpec IOProofs IOProofs2 ConvModel ConvSpec ConvProofs.
Open Scope nat_scope.

Definition w_dims (mv : matvars R) : list (string * nat) :=
  [("w_matrix_count", length (w_nnz R mv)); ("w_matrix_row_count", length (hd [] (w_row R mv))); ("w_matrix_nnz_sum", list_sum (w_nnz R mv));
   ("u_matrix_count", length (u_row_count R mv)); ("u_matrix_row_count_sum", list_sum (u_row_count R mv))]%string.
Definition w_vars (ty : string) (mv : matvars R) : list ncvar :=
  [mkVar "w_matrix_nnz" ["w_matrix_count"] "int32" (int1 (w_nnz R mv)); mkVar "w_matrix_row" ["w_matrix_count"; "w_matrix_row_count"] "int32" (IArr2 (map (map Z.of_nat) (w_row R mv)));
   mkVar "w_matrix_col" ["w_matrix_nnz_sum"] "int32" (int1 (w_col R mv)); mkVar "w_matrix_val" ["w_matrix_nnz_sum"] ty (Arr1 (w_val R mv));
   mkVar "w_matrix_use1" ["m1"] "int32" (int1 (wuse1 R mv)); mkVar "w_matrix_use2" ["m2"] "int32" (int1 (wuse2 R mv));
   mkVar "u_matrix_row_count" ["u_matrix_count"] "int32" (int1 (u_row_count R mv)); mkVar "u_matrix_val" ["u_matrix_row_count_sum"] ty (Arr1 (u_val R mv));
   mkVar "u_matrix_use1" ["m1"] "int32" (int1 (uuse1 R mv)); mkVar "u_matrix_use2" ["m2"] "int32" (int1 (uuse2 R mv))]%string.
Definition appended (ty : string) (f : ncfile) (mv : matvars R) : ncfile := mkNc (nc_dims f ++ w_dims mv) (nc_vars f ++ w_vars ty mv) (nc_attrs f).
Lemma smv_id mv : smv (fun x => x) mv = mv.
Proof. unfold smv. rewrite !map_id. destruct mv; reflexivity. Qed.
Definition float_name (ty : string) : Prop := In ty float_types.

Lemma inside_app n a b : inside n a = false -> inside n b = false -> inside n (a ++ b) = false.
Proof. rewrite !inside_out, in_app_iff. tauto. Qed.
Lemma new_var_ok ds vs at_ n dims ty sh a sz : inside n (map v_name vs) = false -> mapM (fun x => match lookup x ds with Some k => Ok k | None => Raise ValueError end) dims = Ok sz -> sz = sh ->
  new_var (mkNc ds vs at_) n dims ty sh a = Ok (mkNc ds (vs ++ [mkVar n dims ty a]) at_).
Proof.
  intros H1 H2 H3. unfold new_var, names. cbn [nc_dims nc_vars nc_attrs]. rewrite H1, H2. cbn [bind]. replace (eqln sz sh) with true by (symmetry; apply eqln_eq; auto). reflexivity.
Qed.

(** Consistent lengths. *)
Definition sized (p : mdata) (mv : matvars R) : Prop :=
  length (w_row R mv) = length (w_nnz R mv) /\ length (w_col R mv) = list_sum (w_nnz R mv) /\ length (w_val R mv) = list_sum (w_nnz R mv) /\ length (u_val R mv) = list_sum (u_row_count R mv) /\
  length (wuse1 R mv) = p_m p Side1 /\ length (wuse2 R mv) = p_m p Side2 /\ length (uuse1 R mv) = p_m p Side1 /\ length (uuse2 R mv) = p_m p Side2 /\
  forall l, In l (w_row R mv) -> length l = length (hd [] (w_row R mv)).

Section A.
Context (f32 : R -> R) (trunc : R -> Z).
Definition fmt (ft ty : string) (g : R -> R) : Prop := (ft = "f8"%string /\ ty = "float64"%string /\ g = (fun x => x)) \/ (ft = "f4"%string /\ ty = "float32"%string /\ g = f32).
Lemma fmt_stored ft ty g l : fmt ft ty g -> stored f32 trunc ft (D1 l) = (ty, Arr1 (map g l)).
Proof. intros [(-> & -> & ->)|(-> & -> & ->)]; cbn; [rewrite map_id|]; reflexivity. Qed.

Lemma new_dim_ok ds vs at_ n k : ~ In n (map fst ds) -> new_dim (mkNc ds vs at_) n k = Ok (mkNc (ds ++ [(n, k)]) vs at_).
Proof. intros H. unfold new_dim. cbn [nc_dims nc_vars nc_attrs]. rewrite (proj2 (inside_out _ _) H). reflexivity. Qed.

Lemma append_ok ft ty g f p mv : fmt ft ty g -> base_file f p -> sized p mv -> append_W f32 trunc ft f mv = Ok (appended ty f (smv g mv)).
Proof.
  intros Hft Hb (L1 & L2 & L3 & L4 & L5 & L6 & L7 & L8 & _).
  assert (NI : forall n, In n w_names -> inside n (map v_name (nc_vars f)) = false).
  { intros n Hn. apply inside_out. intros Hi. apply (bf_now _ _ Hb n Hn). apply present_in. exact Hi. }
  assert (ND : forall n, In n w_dim_names -> ~ In n (map fst (nc_dims f))).
  { intros n Hn Hi. apply in_map_iff in Hi. destruct Hi as ((n' & k) & E & Hi). cbn in E. subst n'. apply (bf_nod _ _ Hb n k Hn Hi). }
  pose proof (bf_wf _ _ Hb) as (N1 & _). pose proof (bf_m _ _ Hb Side1) as M1. pose proof (bf_m _ _ Hb Side2) as M2. unfold size in M1, M2. cbn [snum append] in M1, M2.
  unfold append_W, appended, smv. destruct f as [ds vs at_]. cbn [nc_dims nc_vars nc_attrs] in *.
  assert (NDP : NoDup (map fst (ds ++ w_dims mv))).
  { rewrite map_app. apply NoDup_app'; [exact N1|cbn; repeat constructor; cbn; intuition discriminate|]. intros n H1 H2. apply (ND n); [cbn in H2; cbn; tauto|exact H1]. }
  assert (LK : forall d k, In (d, k) (ds ++ w_dims mv) -> lookup d (ds ++ w_dims mv) = Some k) by (intros d k H; apply lookup_nodup; assumption).
  Local Ltac nd ND := rewrite new_dim_ok; [|rewrite ?map_app, ?in_app_iff; cbn; intros HH; match type of HH with context [In ?x _] => apply (ND x); [cbn; tauto|]; intuition discriminate end]; cbn [bind]; rewrite <- ?app_assoc; cbn [app].
  nd ND. nd ND. nd ND. nd ND. nd ND.
  rewrite !(fmt_stored _ _ _ _ Hft).
  change (ds ++ [_; _; _; _; _]) with (ds ++ w_dims mv).
  assert (NI' : forall n l, In n w_names -> inside n (map v_name l) = false -> inside n (map v_name (vs ++ l)) = false) by (intros n l Hn Hl; rewrite map_app; apply inside_app; auto).
  assert (LR : forall (l : list R) k, length l = k -> length (map g l) = k) by (intros; rewrite map_length; auto).
  assert (K1 : forall d k, In (d, k) (ds ++ w_dims mv) -> mapM (fun x => match lookup x (ds ++ w_dims mv) with Some k => Ok k | None => Raise ValueError end) [d] = Ok [k]) by (intros d k H; cbn [mapM]; rewrite (LK _ _ H); reflexivity).
  assert (IM1 : In ("m1"%string, p_m p Side1) (ds ++ w_dims mv)) by (apply in_app_iff; auto). assert (IM2 : In ("m2"%string, p_m p Side2) (ds ++ w_dims mv)) by (apply in_app_iff; auto).
  assert (WD : forall d k, In (d, k) (w_dims mv) -> In (d, k) (ds ++ w_dims mv)) by (intros; apply in_app_iff; auto).
  rewrite new_var_ok with (sz := [length (w_nnz R mv)]); [|apply NI; cbn; tauto|apply K1, WD; cbn; tauto|reflexivity]. cbn [bind].
  rewrite new_var_ok with (sz := [length (w_nnz R mv); length (hd [] (w_row R mv))]); [|apply NI'; [cbn; tauto|reflexivity]|cbn [mapM]; rewrite (LK "w_matrix_count"%string (length (w_nnz R mv))), (LK "w_matrix_row_count"%string (length (hd [] (w_row R mv)))) by (apply WD; cbn; tauto); reflexivity|rewrite L1; reflexivity]. cbn [bind]. rewrite <- ?app_assoc; cbn [app].
  Local Ltac nv NI' K1 WD v := rewrite new_var_ok with (sz := [v]); [|apply NI'; [cbn; tauto|reflexivity]|apply K1; first [assumption|apply WD; cbn; tauto]|rewrite ?map_length; congruence]; cbn [bind]; rewrite <- ?app_assoc; cbn [app].
  nv NI' K1 WD (list_sum (w_nnz R mv)). nv NI' K1 WD (list_sum (w_nnz R mv)). nv NI' K1 WD (p_m p Side1). nv NI' K1 WD (p_m p Side2). nv NI' K1 WD (length (u_row_count R mv)).
  nv NI' K1 WD (list_sum (u_row_count R mv)). nv NI' K1 WD (p_m p Side1). nv NI' K1 WD (p_m p Side2). reflexivity.
Qed.

Lemma appended_has ty f p mv : float_name ty -> base_file f p -> sized p mv -> has_file (appended ty f mv) p mv.
Proof.
  intros Hty Hb HS. pose proof HS as (L1 & L2 & L3 & L4 & L5 & L6 & L7 & L8 & L9).
  assert (MONO : forall n a, data f n a -> data (appended ty f mv) n a) by (intros n a (v & Hv & E); exists v; split; [cbn [appended nc_vars]; apply in_app_iff; auto|exact E]).
  assert (MONOD : forall n d t, declared f n d t -> declared (appended ty f mv) n d t) by (intros n d t (v & Hv & E); exists v; split; [cbn [appended nc_vars]; apply in_app_iff; auto|exact E]).
  assert (WD : forall v, In v (w_vars ty mv) -> In v (nc_vars (appended ty f mv))) by (intros v Hv; cbn [appended nc_vars]; apply in_app_iff; auto).
  assert (SZ : forall d k, In (d, k) (w_dims mv) -> size (appended ty f mv) d k) by (intros d k H; unfold size; cbn [appended nc_dims]; apply in_app_iff; auto).
  assert (SB : forall d k, size f d k -> size (appended ty f mv) d k) by (intros d k H; unfold size; cbn [appended nc_dims]; apply in_app_iff; auto).
  pose proof (bf_m _ _ Hb Side1) as SM1. pose proof (bf_m _ _ Hb Side2) as SM2. apply SB in SM1, SM2. cbn [snum append] in SM1, SM2.
  assert (DW : forall n a, In (n, a) (map (fun v => (v_name v, v_data v)) (w_vars ty mv)) -> data (appended ty f mv) n a).
  { intros n a H. apply in_map_iff in H. destruct H as (v & E & Hv). injection E as <- <-. exists v. auto. }
  constructor.
  - destruct (bf_wf _ _ Hb) as (N1 & N2 & N3 & N4). split; [|split; [|split]].
    + cbn [appended nc_dims]. rewrite map_app. apply NoDup_app'; [exact N1|cbn; repeat constructor; cbn; intuition discriminate|].
      intros n H1 H2. apply in_map_iff in H1. destruct H1 as ((n' & k) & E & Hi). cbn in E. subst n'. apply (bf_nod _ _ Hb n k); [cbn in H2; cbn; tauto|exact Hi].
    + cbn [appended nc_vars]. rewrite map_app. apply NoDup_app'; [exact N2|cbn; repeat constructor; cbn; intuition discriminate|].
      intros n H1 H2. apply (bf_now _ _ Hb n); [cbn in H2; cbn; tauto|]. apply present_in. exact H1.
    + exact N3.
    + intros v Hv. cbn [appended nc_vars] in Hv. apply in_app_iff in Hv. destruct Hv as [Hv|Hv].
      * specialize (N4 v Hv). unfold fits in *. destruct (v_data v).
        -- destruct N4 as (? & d & ? & ?). split; [auto|]. exists d; auto.
        -- destruct N4 as (? & d & e & k & ? & ? & ? & ?). split; [auto|]. exists d, e, k; auto.
        -- destruct N4 as (? & d & ? & ?). split; [auto|]. exists d; auto.
        -- destruct N4 as (? & d & e & k & ? & ? & ? & ?). split; [auto|]. exists d, e, k; auto.
        -- exact N4.
      * unfold fits. cbn in Hv.
        repeat (destruct Hv as [<- |Hv]; [cbn [v_data v_dims v_dtype int1]; first [
           split; [reflexivity|]; eexists; split; [reflexivity|]; rewrite ?map_length, ?L5, ?L6, ?L7, ?L8; assumption
          |
           split; [reflexivity|]; eexists; split; [reflexivity|]; apply SZ; rewrite ?map_length, ?L2, ?L3, ?L4, ?L5, ?L6, ?L7, ?L8; cbn; tauto
          |split; [exact Hty|]; eexists; split; [reflexivity|]; apply SZ; rewrite ?map_length, ?L2, ?L3, ?L4, ?L5, ?L6, ?L7, ?L8; cbn; tauto
          |split; [reflexivity|]; eexists _, _, _; split; [reflexivity|]; rewrite map_length, L1; split; [apply SZ; cbn; tauto|]; split; [apply SZ; cbn; tauto|];
           intros r Hr; apply in_map_iff in Hr; destruct Hr as (r' & <- & Hr); rewrite map_length; apply L9; exact Hr]|]).
        destruct Hv.
  - pose proof (bf_req _ _ Hb) as (R1 & R2 & R3 & R4 & R5 & R6 & R7 & R8 & R9 & R10 & R11 & R12 & R13). unfold required. repeat apply conj; apply MONOD; assumption.
  - assert (DD : forall n dm tys, (exists t, In t tys /\ In (n, dm, t) (map (fun v => (v_name v, v_dims v, v_dtype v)) (w_vars ty mv))) -> declared (appended ty f mv) n dm tys).
    { intros n dm tys (t & Ht & H). apply in_map_iff in H. destruct H as (v & E & Hv). injection E as <- <- <-. exists v. auto. }
    unfold w_variables. repeat apply conj; apply DD; (first [exists "int32"%string; split; [cbn; tauto|cbn; tauto]|exists ty; split; [exact Hty|cbn; tauto]]).
  - apply SB. apply Hb.
  - intros sd. apply SB. apply Hb.
  - exact (bf_names _ _ Hb).
  - intros sd. apply MONO. apply Hb.
  - intros sd. apply MONO. apply Hb.
  - intros sd. apply MONO. apply Hb.
  - intros sd. apply MONO. apply Hb.
  - intros sd. apply MONO. apply Hb.
  - apply MONO. apply Hb.
  - apply MONO. apply Hb.
  - apply MONO. apply Hb.
  - apply DW. cbn. tauto.
  - apply DW. cbn. tauto.
  - apply DW. cbn. tauto.
  - apply DW. cbn. tauto.
  - intros [|]; apply DW; cbn; tauto.
  - intros [|]; apply DW; cbn; tauto.
  - apply DW. cbn. tauto.
  - apply DW. cbn. tauto.
Qed.
End A.
