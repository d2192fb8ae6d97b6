(** * Proofs for C140: files of MW_add_W_matrices.py. *)
From Coq Require Import Reals Lra.
From Verif Require Import Base BaseLemmas ReaderModel ReaderSpec ReaderMain UncModel UncSpec UncProofs SimModel GNModel WModel WSpec WProofs WProofs2 WProofs3 WProofs4 CheckModel CheckSpec CheckProofs CheckProofs2 CheckProofs3 CheckProofs4 CheckProofs5 IOModel IOSpec IOProofs IOProofs2 ConvModel ConvSpec ConvProofs ConvProofs2 ConvProofs3.
Open Scope nat_scope.

(** ** Replacing the data of a variable *)
Section Set_.
Context (f : ncfile) (n : string) (a : arr) (v : ncvar).
Hypothesis Hw : wf_nc f.
Hypothesis Hv : In v (nc_vars f).
Hypothesis Hn : v_name v = n.
Hypothesis Hf : fits f (mkVar (v_name v) (v_dims v) (v_dtype v) a).
Notation g := (set_var f n a).
Let upd_ (w : ncvar) := if String.eqb (v_name w) n then mkVar (v_name w) (v_dims w) (v_dtype w) a else w.
Lemma set_in w : In w (nc_vars g) <-> (In w (nc_vars f) /\ v_name w <> n) \/ w = mkVar (v_name v) (v_dims v) (v_dtype v) a.
Proof.
  cbn [set_var nc_vars]. rewrite in_map_iff. split.
  - intros (w' & E & H). destruct (String.eqb_spec (v_name w') n) as [En|En]; subst w.
    + right. assert (w' = v) by (apply (var_unique f); auto; congruence). subst w'. reflexivity.
    + left. auto.
  - intros [(H & Hne)| ->].
    + exists w. split; [|exact H]. destruct (String.eqb_spec (v_name w) n); [congruence|reflexivity].
    + exists v. split; [|exact Hv]. destruct (String.eqb_spec (v_name v) n); [reflexivity|congruence].
Qed.
Lemma set_names : map v_name (nc_vars g) = map v_name (nc_vars f).
Proof. cbn [set_var nc_vars]. rewrite map_map. apply map_ext. intros w. destruct (String.eqb (v_name w) n); reflexivity. Qed.
Lemma set_wf : wf_nc g.
Proof.
  destruct Hw as (N1 & N2 & N3 & N4). split; [exact N1|]. split; [rewrite set_names; exact N2|]. split; [exact N3|].
  intros w H. apply set_in in H. destruct H as [(H & _)| ->]; [exact (N4 w H)|exact Hf].
Qed.
Lemma set_data : data g n a.
Proof. eexists. split; [apply set_in; right; reflexivity|]. split; [exact Hn|reflexivity]. Qed.
Lemma set_other m b : m <> n -> data f m b -> data g m b.
Proof. intros Hm (w & H & E & D). exists w. split; [apply set_in; left; split; [exact H|congruence]|auto]. Qed.
Lemma set_decl m d t : declared f m d t -> declared g m d t.
Proof.
  intros (w & H & E & D & T). destruct (string_dec (v_name w) n) as [En|En].
  - assert (w = v) by (apply (var_unique f); auto; congruence). subst w. eexists. split; [apply set_in; right; reflexivity|]. cbn. auto.
  - exists w. split; [apply set_in; auto|auto].
Qed.
Lemma set_present m : present g m -> present f m.
Proof. rewrite !present_in. unfold names. rewrite set_names. auto. Qed.
Lemma set_req : required f -> required g.
Proof. intros (R1 & R2 & R3 & R4 & R5 & R6 & R7 & R8 & R9 & R10 & R11 & R12 & R13). unfold required. repeat apply conj; apply set_decl; assumption. Qed.
End Set_.

Definition with_types (p : mdata) (sd : side) (t : list Z) : mdata :=
  mkData (p_M p) (p_m p) (p_name p) (p_X p) (p_Ur p) (p_Us p) (fun x => match sd, x with Side1, Side1 => t | Side2, Side2 => t | _, _ => p_type p x end) (p_time p) (p_K p) (p_Kr p) (p_Ks p) (p_more p).
Definition with_ur (p : mdata) (sd : side) (t : list (list R)) : mdata :=
  mkData (p_M p) (p_m p) (p_name p) (p_X p) (fun x => match sd, x with Side1, Side1 => t | Side2, Side2 => t | _, _ => p_Ur p x end) (p_Us p) (p_type p) (p_time p) (p_K p) (p_Kr p) (p_Ks p) (p_more p).

Local Ltac ne := let H := fresh in intros H; vm_compute in H; discriminate H.
Lemma set_types_base f p sd t : base_file f p -> length t = p_m p sd -> base_file (set_var f ("uncertainty_type" ++ snum sd) (IArr1 t)) (with_types p sd t).
Proof.
  intros Hb Ht. pose proof (bf_wf _ _ Hb) as Hw. pose proof (bf_req _ _ Hb) as HR.
  assert (D : declared f ("uncertainty_type" ++ snum sd) ["m" ++ snum sd]%string int_types) by (destruct HR as (_ & _ & _ & _ & _ & _ & _ & _ & _ & _ & _ & A & B); destruct sd; [exact A|exact B]).
  destruct D as (v & Hv & En & Ed & Et).
  assert (Hf : fits f (mkVar (v_name v) (v_dims v) (v_dtype v) (IArr1 t))).
  { cbn. split; [destruct Et as [<- |[]]; reflexivity|]. eexists. split; [exact Ed|]. rewrite Ht. apply Hb. }
  pose proof (set_other f _ (IArr1 t) v Hw Hv En) as SO.
  constructor; cbn [with_types p_M p_m p_name p_X p_Ur p_Us p_type p_time p_K p_Kr p_Ks].
  - exact (set_wf f _ _ v Hw Hv En Hf).
  - exact (set_req f _ _ v Hw Hv En HR).
  - intros n Hn H. apply set_present in H. exact (bf_now _ _ Hb n Hn H).
  - exact (bf_nod _ _ Hb).
  - exact (bf_M _ _ Hb).
  - exact (bf_m _ _ Hb).
  - exact (bf_names _ _ Hb).
  - intros x. apply SO; [destruct sd, x; ne|apply Hb].
  - intros x. apply SO; [destruct sd, x; ne|apply Hb].
  - intros x. destruct sd, x; cbn [snum]; first [exact (set_data f _ _ v Hw Hv En)|apply SO; [ne|apply (bf_type _ _ Hb Side1)]|apply SO; [ne|apply (bf_type _ _ Hb Side2)]].
  - intros x. apply SO; [destruct sd, x; ne|apply Hb].
  - intros x. apply SO; [destruct sd, x; ne|apply Hb].
  - apply SO; [destruct sd; ne|apply Hb].
  - apply SO; [destruct sd; ne|apply Hb].
  - apply SO; [destruct sd; ne|apply Hb].
Qed.
Lemma set_ur_base f p sd t : base_file f p -> matrix t (p_M p) (p_m p sd) -> base_file (set_var f ("Ur" ++ snum sd) (Arr2 t)) (with_ur p sd t).
Proof.
  intros Hb (Ht1 & Ht2). pose proof (bf_wf _ _ Hb) as Hw. pose proof (bf_req _ _ Hb) as HR.
  assert (D : declared f ("Ur" ++ snum sd) ["M"; "m" ++ snum sd]%string float_types) by (destruct HR as (_ & _ & A & B & _); destruct sd; [exact A|exact B]).
  destruct D as (v & Hv & En & Ed & Et).
  assert (Hf : fits f (mkVar (v_name v) (v_dims v) (v_dtype v) (Arr2 t))).
  { cbn. split; [exact Et|]. eexists _, _, _. split; [exact Ed|]. split; [rewrite Ht1; apply Hb|]. split; [apply Hb|exact Ht2]. }
  pose proof (set_other f _ (Arr2 t) v Hw Hv En) as SO.
  constructor; cbn [with_ur p_M p_m p_name p_X p_Ur p_Us p_type p_time p_K p_Kr p_Ks].
  - exact (set_wf f _ _ v Hw Hv En Hf).
  - exact (set_req f _ _ v Hw Hv En HR).
  - intros n Hn H. apply set_present in H. exact (bf_now _ _ Hb n Hn H).
  - exact (bf_nod _ _ Hb).
  - exact (bf_M _ _ Hb).
  - exact (bf_m _ _ Hb).
  - exact (bf_names _ _ Hb).
  - intros x. apply SO; [destruct sd, x; ne|apply Hb].
  - intros x. apply SO; [destruct sd, x; ne|apply Hb].
  - intros x. apply SO; [destruct sd, x; ne|apply Hb].
  - intros x. destruct sd, x; cbn [snum]; first [exact (set_data f _ _ v Hw Hv En)|apply SO; [ne|apply (bf_ur _ _ Hb Side1)]|apply SO; [ne|apply (bf_ur _ _ Hb Side2)]].
  - intros x. apply SO; [destruct sd, x; ne|apply Hb].
  - apply SO; [destruct sd; ne|apply Hb].
  - apply SO; [destruct sd; ne|apply Hb].
  - apply SO; [destruct sd; ne|apply Hb].
Qed.

(** ** The matrices *)
Lemma gen_same times dt x y ws W u W' u' : gen_w times dt (KF x) (Some ws) None = Ok (W, u) -> gen_w times dt (KF y) (Some ws) None = Ok (W', u') -> W' = W.
Proof.
  unfold gen_w. intros H H'.
  assert (K : forall z, kernel (KF z) (Some ws) None = kernel (KF 0%R) (Some ws) None) by reflexivity. rewrite (K x) in H. rewrite (K y) in H'.
  destruct (kernel (KF 0%R) (Some ws) None); cbn [bind] in *; [|discriminate]. destruct (column_positions times dt); cbn [bind] in *; [|discriminate].
  destruct (pymax _); cbn [bind] in *; [|discriminate]. destruct (csr_new R _ _ _ _ _); cbn [bind] in *; [|discriminate]. congruence.
Qed.

Lemma packed_same mv ws us W r m1 m2 :
  w_nnz R mv = map (fun w => length (c_indices R w)) ws -> w_row R mv = map (c_indptr R) ws -> w_col R mv = concat (map (c_indices R) ws) -> w_val R mv = concat (map (c_data R) ws) ->
  u_row_count R mv = map (@length R) us -> u_val R mv = concat us ->
  ws <> [] -> (forall w, In w ws -> w = W) -> wf_csr W -> c_nrows R W = r -> last_column_used W -> (forall u, In u us -> length u = c_ncols R W) ->
  length (wuse1 R mv) = m1 -> length (wuse2 R mv) = m2 -> length (uuse1 R mv) = m1 -> length (uuse2 R mv) = m2 -> m1 <> 0 -> m2 <> 0 ->
  (forall x, In x (wuse1 R mv ++ wuse2 R mv) -> x <= length ws) -> (forall k, 1 <= k <= length ws -> In k (wuse1 R mv ++ wuse2 R mv)) ->
  (forall x, In x (uuse1 R mv ++ uuse2 R mv) -> x <= length us) -> (forall k, 1 <= k <= length us -> In k (uuse1 R mv ++ uuse2 R mv)) ->
  (forall i w u, nth_error (wuse1 R mv ++ wuse2 R mv) i = Some w -> nth_error (uuse1 R mv ++ uuse2 R mv) i = Some u -> (w = 0 <-> u = 0)) ->
  packed mv ws us r m1 m2.
Proof.
  intros E1 E2 E3 E4 E5 E6 Hne HW W1 W2 W3 HU. intros. constructor; try assumption.
  - split; [exact Hne|]. intros w Hi. rewrite (HW w Hi). auto.
  - repeat apply conj; assumption.
  - split; assumption.
  - split; assumption.
  - intros i k u W' Hi Hj HW'. assert (u <> 0) by (intros E0; apply (proj2 (H9 i _ _ Hi Hj)) in E0; lia).
    assert (u <= length us) by (apply H7; eapply nth_error_In; eauto).
    destruct (nth_error us (u - 1)) as [U|] eqn:EU; [|apply nth_error_None in EU; lia].
    exists U. split; [reflexivity|]. rewrite (HU U (nth_error_In _ _ EU)), (HW W' (nth_error_In _ _ HW')). reflexivity.
Qed.

Definition table_w (a1 : instrument) : nat := match a1 with Ref => 1 | _ => 2 end.
Definition table_u (a1 : instrument) : nat := match a1 with Ref => 1 | _ => 4 end.
Lemma get3 (r : list R) : 3 <= length r -> exists x0 x1 x2, nth_error r 0 = Some x0 /\ nth_error r 1 = Some x1 /\ nth_error r 2 = Some x2.
Proof. intros H. destruct r as [|x0 [|x1 [|x2 r]]]; cbn in H; try lia. exists x0, x1, x2. auto. Qed.
Lemma repeat_pos (x : R) n : n <> 0 -> (forall y, In y (repeat x n) -> (0 < y)%R) <-> (0 < x)%R.
Proof. intros Hn. split; [intros H; apply H; destruct n; [lia|left; auto]|intros H y Hy; apply repeat_spec in Hy; subst; auto]. Qed.
Lemma concat_pos (us : list (list R)) : (forall x, In x (concat us) -> (0 < x)%R) <-> forall u, In u us -> forall x, In x u -> (0 < x)%R.
Proof. split; [intros H u Hu x Hx; apply H, in_concat; eauto|]. intros H x Hx. apply in_concat in Hx. destruct Hx as (u & Hu & Hx). eauto. Qed.
Definition first3 (r : list R) : Prop := forall c x, c < 3 -> nth_error r c = Some x -> (0 < x)%R.
Lemma first3_iff r x0 x1 x2 : nth_error r 0 = Some x0 -> nth_error r 1 = Some x1 -> nth_error r 2 = Some x2 -> (first3 r <-> (0 < x0 /\ 0 < x1 /\ 0 < x2)%R).
Proof.
  intros A B C. split.
  - intros H. repeat apply conj; [apply (H 0)|apply (H 1)|apply (H 2)]; auto; lia.
  - intros (P0 & P1 & P2) c x Hc Hx. destruct c as [|[|[|c]]]; try lia; congruence.
Qed.

Lemma mw_vars times r1 r2 a1 a2 : times <> [] -> length r1 = mw_covariates a1 -> length r2 = mw_covariates a2 -> a2 <> Ref ->
  exists mv ws us, mw_variables times times (8 / 3) r1 r2 mw_weights a1 a2 = Ok mv /\ packed mv ws us (length times) (mw_covariates a1) (mw_covariates a2) /\
    wuse1 R mv = w_uses 1 a1 /\ wuse2 R mv = w_uses (table_w a1) a2 /\ length (w_val R mv) = list_sum (w_nnz R mv) /\
    ((forall x, In x (u_val R mv) -> (0 < x)%R) <-> (a1 <> Ref -> first3 r1) /\ first3 r2).
Proof.
  intros Ht L1 L2 Ha2. assert (Hws : exists k v, nth_error mw_weights k = Some v /\ v <> 0%R) by (exists 0, (/ 16)%R; split; [reflexivity|lra]).
  assert (Hdt : (1 / 100 < 8 / 3)%R) by lra. assert (Hdt0 : (8 / 3 <> 0)%R) by lra.
  assert (GE : forall x, exists W u, gen_w times (8 / 3) (KF x) (Some mw_weights) None = Ok (W, u)) by (intros x; apply (gen_exists times (8/3)%R (KF x) (Some mw_weights) None mw_weights); [auto|auto|reflexivity|discriminate|exact Logic.I]).
  destruct (get3 r2) as (x0 & x1 & x2 & X0 & X1 & X2); [destruct a2; cbn in L2; [congruence|lia|lia]|].
  destruct (GE x0) as (W & u2 & G2). destruct (gen_columns times (8/3)%R x0 mw_weights W u2 Hdt Hws G2) as (F2 & C2 & N2 & U2 & _).
  assert (HnW : c_ncols R W <> 0) by (destruct C2 as (H1 & H2); specialize (H2 _ H1); lia).
  unfold mw_variables. rewrite (proj2 (get_ok _ _ _) X0). cbn [bind]. rewrite G2. cbn [bind]. rewrite (proj2 (get_ok _ _ _) X1), (proj2 (get_ok _ _ _) X2). cbn [bind].
  rewrite U2, repeat_length. rewrite U2 in G2. clear U2 u2. pose proof (fun x => repeat_pos x _ HnW) as RP.
  assert (PK : forall ws us, ws <> [] -> (forall w, In w ws -> w = W) -> exists mv, return_w_matrix_variables R 0%R [] [] [] [] ws us = Ok mv /\
     mv = mkMatvars R [] [] [] [] (map (fun w => length (c_indices R w)) ws) (map (c_indptr R) ws) (concat (map (c_indices R) ws)) (concat (map (c_data R) ws)) (map (@length R) us) (concat us)).
  { intros ws us Hne Hall. assert (HH : forall w, In w ws -> wf_csr w /\ c_nrows R w = length times /\ last_column_used w) by (intros w Hi; rewrite (Hall w Hi); auto).
    destruct (codec_roundtrip 0%R ws us [] [] [] [] (length times) Hne HH) as (mv & E & _). exists mv. split; [exact E|]. exact (pack_mv _ _ _ _ _ _ _ _ Hne HH E). }
  assert (VL : forall ws : list (csr R), (forall w, In w ws -> w = W) -> length (concat (map (c_data R) ws)) = list_sum (map (fun w => length (c_indices R w)) ws)).
  { intros ws Hall. rewrite concat_length, map_map. f_equal. apply map_ext_in. intros w Hi. rewrite (Hall w Hi). symmetry. apply F2. }
  destruct (length r1 =? 1) eqn:E1.
  - assert (a1 = Ref) by (apply Nat.eqb_eq in E1; destruct a1; cbn in L1; congruence). subst a1. cbn [bind].
    set (ws := [W]). set (us := [repeat x0 (c_ncols R W); repeat x1 (c_ncols R W); repeat x2 (c_ncols R W)]).
    destruct (PK ws us) as (mv & E & Emv); [discriminate|intros w [<- |[]]; reflexivity|]. rewrite E. cbn [bind]. rewrite Emv. unfold use_tables.
    replace (match a2 with Ref => Raise UnboundLocalError | _ => Ok (w_uses 1 Ref, w_uses 1 a2, u_uses 1 Ref, u_uses 1 a2) end) with (Ok (w_uses 1 Ref, w_uses 1 a2, u_uses 1 Ref, u_uses 1 a2)) by (destruct a2; [congruence|reflexivity|reflexivity]).
    cbn [bind]. eexists _, ws, us. split; [reflexivity|]. split; [|split; [reflexivity|split; [reflexivity|split; [apply (VL ws); intros w [<- |[]]; reflexivity|]]]].
    + eapply (packed_same _ ws us W); try reflexivity; auto; cbn [wuse1 wuse2 uuse1 uuse2 w_nnz w_row w_col w_val u_row_count u_val] in *.
      * discriminate.
      * intros w [<- |[]]; reflexivity.
      * intros u [<- |[<- |[<- |[]]]]; apply repeat_length.
      * destruct a2; [congruence|reflexivity|reflexivity].
      * destruct a2; [congruence|reflexivity|reflexivity].
      * discriminate.
      * destruct a2; discriminate.
      * intros x Hx. destruct a2; [congruence| |]; cbn in Hx; cbn; lia.
      * intros k Hk. cbn in Hk. assert (k = 1) by lia. subst k. destruct a2; [congruence|cbn; tauto|cbn; tauto].
      * intros x Hx. destruct a2; [congruence| |]; cbn in Hx; cbn; lia.
      * intros k Hk. cbn in Hk. assert (k = 1 \/ k = 2 \/ k = 3) as [E0|[E0|E0]] by lia; subst k; destruct a2; [congruence|cbn; tauto|cbn; tauto|congruence|cbn; tauto|cbn; tauto|congruence|cbn; tauto|cbn; tauto].
      * intros i w u Hi Hj. destruct a2; [congruence| |]; (do 12 (destruct i as [|i]; [cbn in Hi, Hj; first [discriminate|injection Hi as <-; injection Hj as <-; lia]|])); destruct i; discriminate.
    + cbn [u_val]. unfold us. rewrite concat_pos, (first3_iff _ _ _ _ X0 X1 X2). split.
      * intros H. split; [congruence|]. repeat apply conj; [apply (proj1 (RP x0))|apply (proj1 (RP x1))|apply (proj1 (RP x2))]; apply H; cbn; tauto.
      * intros (_ & P0 & P1 & P2) u [<- |[<- |[<- |[]]]]; apply RP; auto.
  - assert (Ha1 : a1 <> Ref) by (intros ->; cbn in L1; rewrite L1 in E1; discriminate).
    destruct (get3 r1) as (y0 & y1 & y2 & Y0 & Y1 & Y2); [destruct a1; cbn in L1; [congruence|lia|lia]|].
    destruct (GE y0) as (W1 & u1 & G1). pose proof (gen_columns times (8/3)%R y0 mw_weights W1 u1 Hdt Hws G1) as (_ & _ & _ & U1 & _).
    assert (EW : W1 = W) by (eapply gen_same; eauto). subst W1.
    rewrite (proj2 (get_ok _ _ _) Y0). cbn [bind]. rewrite G1. cbn [bind]. rewrite (proj2 (get_ok _ _ _) Y1), (proj2 (get_ok _ _ _) Y2). cbn [bind]. rewrite U1. clear U1 G1 u1.
    set (ws := [W; W]). set (us := [repeat y0 (c_ncols R W); repeat y1 (c_ncols R W); repeat y2 (c_ncols R W); repeat x0 (c_ncols R W); repeat x1 (c_ncols R W); repeat x2 (c_ncols R W)]).
    destruct (PK ws us) as (mv & E & Emv); [discriminate|intros w [<- |[<- |[]]]; reflexivity|]. rewrite E. cbn [bind]. rewrite Emv. unfold use_tables.
    replace (match a1, a2 with _, Ref => Raise UnboundLocalError | Ref, _ => Ok (w_uses 1 a1, w_uses 1 a2, u_uses 1 a1, u_uses 1 a2) | _, _ => Ok (w_uses 1 a1, w_uses 2 a2, u_uses 1 a1, u_uses 4 a2) end)
      with (Ok (w_uses 1 a1, w_uses 2 a2, u_uses 1 a1, u_uses 4 a2)) by (destruct a1; [congruence| |]; (destruct a2; [congruence|reflexivity|reflexivity])).
    cbn [bind]. eexists _, ws, us. split; [reflexivity|]. split; [|split; [reflexivity|split; [destruct a1; [congruence|reflexivity|reflexivity]|split; [apply (VL ws); intros w [<- |[<- |[]]]; reflexivity|]]]].
    + eapply (packed_same _ ws us W); try reflexivity; auto; cbn [wuse1 wuse2 uuse1 uuse2 w_nnz w_row w_col w_val u_row_count u_val] in *.
      * discriminate.
      * intros w [<- |[<- |[]]]; reflexivity.
      * intros u [<- |[<- |[<- |[<- |[<- |[<- |[]]]]]]]; apply repeat_length.
      * destruct a1; reflexivity.
      * destruct a2; reflexivity.
      * destruct a1; reflexivity.
      * destruct a2; reflexivity.
      * destruct a1; discriminate.
      * destruct a2; discriminate.
      * intros x Hx. destruct a1; [congruence| |]; (destruct a2; [congruence| |]); cbn in Hx; cbn; lia.
      * intros k Hk. cbn in Hk. assert (k = 1 \/ k = 2) as [E0|E0] by lia; subst k; destruct a1; try congruence; destruct a2; try congruence; cbn; tauto.
      * intros x Hx. destruct a1; [congruence| |]; (destruct a2; [congruence| |]); cbn in Hx; cbn; lia.
      * intros k Hk. cbn in Hk. assert (k = 1 \/ k = 2 \/ k = 3 \/ k = 4 \/ k = 5 \/ k = 6) as [E0|[E0|[E0|[E0|[E0|E0]]]]] by lia; subst k; destruct a1; try congruence; destruct a2; try congruence; cbn; tauto.
      * intros i w u Hi Hj. destruct a1; [congruence| |]; (destruct a2; [congruence| |]); (do 22 (destruct i as [|i]; [cbn in Hi, Hj; first [discriminate|injection Hi as <-; injection Hj as <-; lia]|])); destruct i; discriminate.
    + cbn [u_val]. unfold us. rewrite concat_pos, (first3_iff _ _ _ _ X0 X1 X2), (first3_iff _ _ _ _ Y0 Y1 Y2). split.
      * intros H. split; [intros _|]; repeat apply conj; [apply (proj1 (RP y0))|apply (proj1 (RP y1))|apply (proj1 (RP y2))|apply (proj1 (RP x0))|apply (proj1 (RP x1))|apply (proj1 (RP x2))]; apply H; cbn; tauto.
      * intros (Q & P0 & P1 & P2). destruct (Q Ha1) as (Q0 & Q1 & Q2). intros u [<- |[<- |[<- |[<- |[<- |[<- |[]]]]]]]; apply RP; auto.
Qed.
