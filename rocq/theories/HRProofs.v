(** * Saving and opening result files.  Proofs only. *)
From Coq Require Import Permutation.
From Verif Require Import Base BaseLemmas ReaderModel ReaderProofs ReaderMain MuModel SampleSpec MuProofs HRModel HRSpec HRText.

Section HR.
Context {V A : Type} (zeroV fillV : V) (str_attr : string -> A).
Notation result := (result V A).
Notation dir := (dir V A).

Lemma lookup_write n m f (d : dir) : lookup m (write V A n f d) = if String.eqb n m then Some f else lookup m d.
Proof.
  induction d as [|[k g] d IH]; cbn [write lookup fst]; [reflexivity|]. destruct (String.eqb_spec k n) as [->|Hk]; cbn [lookup].
  - destruct (String.eqb n m); reflexivity.
  - rewrite IH. destruct (String.eqb_spec k m) as [->|]; [|reflexivity]. destruct (String.eqb_spec n m); congruence.
Qed.
Lemma write_fresh n f (d : dir) : ~ In n (map fst d) -> write V A n f d = d ++ [(n, f)].
Proof.
  induction d as [|[k g] d IH]; cbn [write app map fst]; intros H; [reflexivity|]. destruct (String.eqb_spec k n) as [->|]; [destruct H; left; auto|].
  rewrite IH; auto. intros Hn. apply H. right. auto.
Qed.

(** ** Attributes *)
Lemma lookup_set k v m (l : list (string * A)) : lookup m (set_attr A k v l) = if String.eqb k m then Some v else lookup m l.
Proof.
  induction l as [|[k' v'] l IH]; cbn [set_attr lookup fst]; [reflexivity|]. destruct (String.eqb_spec k' k) as [->|Hk]; cbn [lookup].
  - destruct (String.eqb k m); reflexivity.
  - rewrite IH. destruct (String.eqb_spec k' m) as [->|]; [|reflexivity]. destruct (String.eqb_spec k m); congruence.
Qed.
Lemma lookup_extra m (l : list (string * A)) at0 : (forall k v, In (k, v) l -> k <> m) ->
  lookup m (fold_left (fun l p => set_attr A (fst p) (snd p) l) l at0) = lookup m at0.
Proof.
  revert at0. induction l as [|[k v] l IH]; intros at0 H; cbn [fold_left fst snd]; [reflexivity|]. rewrite IH by (intros; eapply H; right; eauto).
  rewrite lookup_set. destruct (String.eqb_spec k m); [|reflexivity]. exfalso. eapply H; [left; reflexivity|auto].
Qed.
Lemma out_of_ok (r : result) : (forall l, In l (h_sens V A r) -> clean_label l) -> free_attrs (h_attrs V A r) ->
  exists o, out_of V A r = Ok o /\ o_par V A o = h_par V A r /\ o_cov V A o = h_cov V A r /\ read_labels (o_sens V A o) = h_sens V A r /\
    attr A "cost" (o_attrs V A o) = Ok (h_cost V A r) /\ attr A "cost_dof" (o_attrs V A o) = Ok (h_dof V A r) /\ attr A "cost_p_value" (o_attrs V A o) = Ok (h_p V A r).
Proof.
  intros Hl Hf. destruct (labels_roundtrip _ Hl) as (rows & E & E2). unfold out_of. rewrite E. cbn [bind]. eexists. split; [reflexivity|]. cbn [o_par o_cov o_sens o_attrs].
  do 3 (split; [auto|]). unfold attr.
  assert (G : forall m at0, In m ["cost"; "cost_dof"; "cost_p_value"]%string -> lookup m (fold_left (fun l p => set_attr A (fst p) (snd p) l) (h_attrs V A r) at0) = lookup m at0).
  { intros m at0 Hm. apply lookup_extra. intros k v Hk ->. eapply Hf; eauto. }
  rewrite !G by (cbn; auto). auto.
Qed.

(** ** Residual files *)
Definition sname (r : result) (s : nat) : string := nth s (rx_sensors (h_idx V A r)) EmptyString.
Definition pr (r : result) i := nth i (rx_Im (h_idx V A r)) (0, 0).
Definition kblock (r : result) (i : nat) : list V := slice (nth i (rx_cNm (h_idx V A r)) 0) (nth (i + 1) (rx_cNm (h_idx V A r)) 0) (h_ks V A r).
Definition resf (r : result) (X : nat -> option ((nat * list (list V)) * (nat * list (list V)))) (i : nat) : res_file V :=
  mkRes V (sname r (fst (pr r i))) (sname r (snd (pr r i))) (nth i (rx_Nm (h_idx V A r)) 0) (X i) (kblock r i).
Definition rname (out : string) (r : result) (i : nat) : string := res_name out (sname r (fst (pr r i))) (sname r (snd (pr r i))).
Definition wr out (r : result) X (d : dir) i : dir := write V A (rname out r i) (FRes V A (resf r X i)) d.

Lemma nth_err_nth {B} (l : list B) i x d : nth_error l i = Some x -> nth i l d = x.
Proof. revert i. induction l; intros [|i]; cbn; try discriminate; [congruence|auto]. Qed.

Lemma names_at (r : result) i s1 s2 : wf_result r -> series_names (h_idx V A r) i s1 s2 <->
  i < length (rx_Im (h_idx V A r)) /\ s1 = sname r (fst (pr r i)) /\ s2 = sname r (snd (pr r i)).
Proof.
  intros W. unfold series_names, sname, pr. split.
  - intros (p & Hp & H1 & H2). rewrite (nth_err_nth _ _ _ (0, 0) Hp), (nth_err_nth _ _ _ EmptyString H1), (nth_err_nth _ _ _ EmptyString H2).
    split; [apply nth_error_Some; congruence|auto].
  - intros (Hi & -> & ->). exists (nth i (rx_Im (h_idx V A r)) (0, 0)). pose proof (nth_error_nth' _ (0, 0) Hi) as E. split; [exact E|].
    destruct (wr_sensors _ W _ _ E). split; apply nth_error_nth'; auto.
Qed.
Lemma kblock_spec (r : result) i : wf_result r -> i < length (rx_Nm (h_idx V A r)) ->
  is_block (rx_cNm (h_idx V A r)) (h_ks V A r) i (kblock r i) /\ length (kblock r i) = nth i (rx_Nm (h_idx V A r)) 0.
Proof.
  intros W Hi. pose proof (nth_error_nth' _ 0 Hi) as E. destruct (block_exists _ (h_ks V A r) _ _ (wr_ks _ W) E) as (v & Hv & Hl). rewrite <- (wr_cNm _ W) in Hv.
  assert (v = kblock r i) as <-; [|auto]. destruct Hv as (lo & hi & H1 & H2 & _ & ->). unfold kblock. rewrite (nth_err_nth _ _ _ _ H1), (nth_err_nth _ _ _ _ H2). reflexivity.
Qed.

Lemma enum_from {B} (d : B) l k : combine (seq k (length l)) l = map (fun i => (i, nth (i - k) l d)) (seq k (length l)).
Proof.
  revert k. induction l as [|a l IH]; intros k; [reflexivity|]. cbn [length seq combine map]. rewrite Nat.sub_diag. cbn [nth]. f_equal. rewrite IH. apply map_ext_in.
  intros i Hi. apply in_seq in Hi. replace (i - k) with (S (i - S k)) by lia. reflexivity.
Qed.
Lemma enum_seq {B} (d : B) l : enumerate l = map (fun i => (i, nth i l d)) (seq 0 (length l)).
Proof. unfold enumerate. rewrite (enum_from d). apply map_ext. intros i. rewrite Nat.sub_0_r. reflexivity. Qed.

(** One pass of the loop. *)
Lemma step_ok out (r : result) b i d : wf_result r -> i < length (rx_Nm (h_idx V A r)) ->
  (do s1 <- get (rx_sensors (h_idx V A r)) (fst (pr r i));;
   do s2 <- get (rx_sensors (h_idx V A r)) (snd (pr r i));;
   do M <- get (rx_Nm (h_idx V A r)) i;;
   do X <- match h_values V A r with
            | None => Ok None
            | Some values =>
                do x1 <- res_X V A fillV r b values i (fst (pr r i)) M;;
                do x2 <- res_X V A fillV r b values i (snd (pr r i)) M;;
                Ok (Some (x1, x2))
            end;;
   do s <- get (rx_cNm (h_idx V A r)) i;;
   do e <- get (rx_cNm (h_idx V A r)) (i + 1);;
   let k := slice s e (h_ks V A r) in
   if length k =? M then Ok (write V A (res_name out s1 s2) (FRes V A (mkRes V s1 s2 M X k)) d) else Raise ValueError)
  = (do X <- match h_values V A r with
            | None => Ok None
            | Some values =>
                do x1 <- res_X V A fillV r b values i (fst (pr r i)) (nth i (rx_Nm (h_idx V A r)) 0);;
                do x2 <- res_X V A fillV r b values i (snd (pr r i)) (nth i (rx_Nm (h_idx V A r)) 0);;
                Ok (Some (x1, x2))
            end;; Ok (wr out r (fun _ => X) d i)).
Proof.
  intros W Hi. assert (Hi' : i < length (rx_Im (h_idx V A r))) by (rewrite (wr_Im _ W); auto).
  assert (N : series_names (h_idx V A r) i (sname r (fst (pr r i))) (sname r (snd (pr r i)))) by (apply names_at; auto).
  destruct N as (p & Hp & H1 & H2). assert (p = pr r i) as -> by (symmetry; apply nth_err_nth; auto).
  rewrite (proj2 (get_ok _ _ _) H1), (proj2 (get_ok _ _ _) H2). cbn [bind]. rewrite (proj2 (get_ok _ _ _) (nth_error_nth' _ 0 Hi)). cbn [bind].
  destruct (kblock_spec r i W Hi) as ((lo & hi & E1 & E2 & _ & Ek) & El). rewrite (proj2 (get_ok _ _ _) E1), (proj2 (get_ok _ _ _) E2).
  destruct (match h_values V A r with None => _ | Some _ => _ end) as [X|e] eqn:EX; rewrite ?EX; cbn [bind]; [|reflexivity].
  rewrite <- Ek, El, Nat.eqb_refl. reflexivity.
Qed.

Lemma write_loop out (r : result) b l d d' : wf_result r -> (forall i, In i l -> i < length (rx_Nm (h_idx V A r))) ->
  foldM (fun d i =>
   do X <- match h_values V A r with
            | None => Ok None
            | Some values =>
                do x1 <- res_X V A fillV r b values i (fst (pr r i)) (nth i (rx_Nm (h_idx V A r)) 0);;
                do x2 <- res_X V A fillV r b values i (snd (pr r i)) (nth i (rx_Nm (h_idx V A r)) 0);;
                Ok (Some (x1, x2))
            end;; Ok (wr out r (fun _ => X) d i)) l d = Ok d' ->
  exists X, d' = fold_left (wr out r X) l d.
Proof.
  intros W Hl. revert d Hl.
  set (Xof := fun i => match h_values V A r with
            | None => Ok None
            | Some values =>
                do x1 <- res_X V A fillV r b values i (fst (pr r i)) (nth i (rx_Nm (h_idx V A r)) 0);;
                do x2 <- res_X V A fillV r b values i (snd (pr r i)) (nth i (rx_Nm (h_idx V A r)) 0);;
                Ok (Some (x1, x2))
            end).
  intros d Hl H. change (foldM (fun d i => do X <- Xof i;; Ok (wr out r (fun _ => X) d i)) l d = Ok d') in H. clearbody Xof.
  exists (fun i => match Xof i with Ok X => X | Raise _ => None end). revert d H. induction l as [|i l IH]; cbn [foldM fold_left]; intros d H; [congruence|].
  destruct (Xof i) as [X|] eqn:EX; cbn [bind] in H; [|discriminate]. apply IH in H; [|intros; apply Hl; right; auto]. rewrite H. f_equal. unfold wr, resf. rewrite EX. reflexivity.
Qed.

Lemma write_res_inv out (r : result) d d' : wf_result r -> write_res V A fillV out r d = Ok d' ->
  exists X, d' = fold_left (wr out r X) (seq 0 (length (rx_Nm (h_idx V A r)))) d.
Proof.
  intros W H. unfold write_res in H. destruct (rx_blocks (h_idx V A r)) as [b|] eqn:Eb; cbn [bind] in H; [|discriminate].
  rewrite (enum_seq (0, 0)), foldM_map, (wr_Im _ W) in H. cbn [fst snd] in H.
  rewrite (foldM_ext_in _ (fun d i =>
   do X <- match h_values V A r with
            | None => Ok None
            | Some values =>
                do x1 <- res_X V A fillV r b values i (fst (pr r i)) (nth i (rx_Nm (h_idx V A r)) 0);;
                do x2 <- res_X V A fillV r b values i (snd (pr r i)) (nth i (rx_Nm (h_idx V A r)) 0);;
                Ok (Some (x1, x2))
            end;; Ok (wr out r (fun _ => X) d i))) in H.
  2:{ intros s i Hi. apply in_seq in Hi. apply step_ok; [auto|lia]. }
  eapply write_loop; eauto. intros i Hi. apply in_seq in Hi. lia.
Qed.
Lemma write_res_none out (r : result) d : wf_result r -> h_values V A r = None ->
  write_res V A fillV out r d = Ok (fold_left (wr out r (fun _ => None)) (seq 0 (length (rx_Nm (h_idx V A r)))) d).
Proof.
  intros W HV. unfold write_res. destruct (rx_blocks (h_idx V A r)) as [b|] eqn:Eb; [|destruct (wr_blocks _ W); auto]. cbn [bind].
  rewrite (enum_seq (0, 0)), foldM_map, (wr_Im _ W). cbn [fst snd].
  rewrite (foldM_ext_in _ (fun d i => Ok (wr out r (fun _ => None) d i))).
  2:{ intros s i Hi. apply in_seq in Hi. etransitivity; [apply (step_ok out r b i s W); lia|]. rewrite HV. reflexivity. }
  generalize d. induction (seq 0 _) as [|i l IH]; intros d0; cbn [foldM fold_left]; [reflexivity|]. apply IH.
Qed.

Definition pairs_differ (r : result) l := forall i j, In i l -> In j l ->
  (sname r (fst (pr r i)) ++ "_" ++ sname r (snd (pr r i)) = sname r (fst (pr r j)) ++ "_" ++ sname r (snd (pr r j)))%string -> i = j.
Lemma rname_inj out (r : result) i j : wf_result r -> harm_name out -> distinct_pairs r -> i < length (rx_Nm (h_idx V A r)) -> j < length (rx_Nm (h_idx V A r)) ->
  rname out r i = rname out r j -> i = j.
Proof.
  intros W Ho D Hi Hj H. apply res_name_inj in H; auto. rewrite <- (wr_Im _ W) in Hi, Hj.
  eapply D; [apply names_at; auto|apply names_at; auto|exact H].
Qed.
Lemma rname_not_out out (r : result) i : harm_name out -> rname out r i <> out.
Proof.
  intros (_ & N & mid & E) H. apply N. exists ("harm" ++ mid ++ "_")%string, ("_" ++ (sname r (fst (pr r i)) ++ "_" ++ sname r (snd (pr r i))) ++ ".nc")%string.
  rewrite <- H at 1. unfold rname. rewrite (res_name_harm _ _ _ mid E). apply tx_inj. rewrite !tx_app, <- !app_assoc. reflexivity.
Qed.

Lemma lookup_wr out (r : result) X l d m : lookup m (fold_left (wr out r X) l d) =
  match find (fun i => String.eqb (rname out r i) m) (rev l) with Some i => Some (FRes V A (resf r X i)) | None => lookup m d end.
Proof.
  revert d. induction l as [|i l IH] using rev_ind; intros d; [reflexivity|]. rewrite fold_left_app, rev_app_distr. cbn [fold_left app rev find]. unfold wr at 1. rewrite lookup_write.
  destruct (String.eqb (rname out r i) m); [reflexivity|]. apply IH.
Qed.

Theorem saved_files out (r : result) d0 d1 : harm_name out -> wf_result r -> distinct_pairs r -> save V A fillV out true r d0 = Ok d1 ->
  forall i s1 s2, series_names (h_idx V A r) i s1 s2 ->
  exists M X k, lookup (res_name out s1 s2) d1 = Some (FRes V A (mkRes V s1 s2 M X k)) /\
    nth_error (rx_Nm (h_idx V A r)) i = Some M /\ is_block (rx_cNm (h_idx V A r)) (h_ks V A r) i k /\ length k = M.
Proof.
  intros Ho W D H i s1 s2 Hn. unfold save in H. destruct (out_of V A r) as [o|]; cbn [bind] in H; [|discriminate].
  apply write_res_inv in H; auto. destruct H as (X & ->). apply names_at in Hn; auto. destruct Hn as (Hi & -> & ->).
  rewrite (wr_Im _ W) in Hi. rewrite lookup_wr.
  destruct (find _ _) as [j|] eqn:E.
  - apply find_some in E. destruct E as (Hj & E). apply in_rev, in_seq in Hj. apply String.eqb_eq in E.
    change (rname out r j = rname out r i) in E. apply rname_inj in E; auto; [|lia]. subst j.
    destruct (kblock_spec r i W Hi) as (K & Kl).
    exists (nth i (rx_Nm (h_idx V A r)) 0), (X i), (kblock r i). split; [reflexivity|]. split; [apply nth_error_nth'; auto|]. auto.
  - exfalso. eapply find_none in E; [|apply -> in_rev; apply in_seq; split; [apply Nat.le_0_l|exact Hi]]. cbn beta in E. unfold rname in E. rewrite String.eqb_refl in E. discriminate.
Qed.
Theorem files_distinct out (r : result) i j s1 s2 t1 t2 : harm_name out -> wf_result r -> distinct_pairs r ->
  series_names (h_idx V A r) i s1 s2 -> series_names (h_idx V A r) j t1 t2 -> res_name out s1 s2 = res_name out t1 t2 -> i = j.
Proof. intros Ho W D H1 H2 H. apply res_name_inj in H; auto. eapply D; eauto. Qed.

(** ** Opening *)
Lemma fold_wr_fresh out (r : result) X l d : (forall i, In i l -> ~ In (rname out r i) (map fst d)) -> NoDup l ->
  (forall i j, In i l -> In j l -> rname out r i = rname out r j -> i = j) ->
  fold_left (wr out r X) l d = d ++ map (fun i => (rname out r i, FRes V A (resf r X i))) l.
Proof.
  revert d. induction l as [|i l IH]; intros d Hf Hn Hi; cbn [fold_left map]; [rewrite app_nil_r; reflexivity|].
  inversion Hn; subst. unfold wr at 2. rewrite write_fresh by (apply Hf; left; auto). rewrite IH, <- app_assoc; auto.
  - intros j Hj. rewrite map_app, in_app_iff. cbn. intros [H|[H|[]]]; [eapply Hf; [right; exact Hj|auto]|].
    assert (i = j) by (apply Hi; [left; auto|right; auto|auto]). congruence.
  - intros; apply Hi; auto; right; auto.
Qed.

Lemma filter_none {B} (f : B -> bool) l : (forall x, In x l -> f x = false) -> filter f l = [].
Proof. induction l as [|a l IH]; intros H; [reflexivity|]. cbn [filter]. rewrite (H a) by (left; auto). apply IH. intros; apply H; right; auto. Qed.
Lemma filter_all' {B} (f : B -> bool) l : (forall x, In x l -> f x = true) -> filter f l = l.
Proof. induction l as [|a l IH]; intros H; [reflexivity|]. cbn [filter]. rewrite (H a) by (left; auto). f_equal. apply IH. intros; apply H; right; auto. Qed.
Lemma filter_perm {B} (f : B -> bool) l l' : Permutation l l' -> Permutation (filter f l) (filter f l').
Proof.
  induction 1; cbn [filter]; [constructor|destruct (f x); [constructor; auto|auto]| |eapply perm_trans; eauto].
  destruct (f x), (f y); try constructor; apply Permutation_refl.
Qed.

Lemma res_index_none (fs : list (res_file V)) : fs <> [] -> (forall f, In f fs -> rf_X V f = None) ->
  exists Im ss sm, res_index V fs = Ok (mkRidx (map (rf_M V) fs) (cumul 0 (map (rf_M V) fs)) Im ss sm None) /\
    length Im = length fs /\
    forall j f, nth_error fs j = Some f -> exists p, nth_error Im j = Some p /\ nth_error ss (fst p) = Some (rf_s1 V f) /\ nth_error ss (snd p) = Some (rf_s2 V f).
Proof.
  intros Hne Hn. unfold res_index.
  replace (forallb _ fs) with false. 2:{ destruct fs as [|f fs]; [congruence|]. cbn [forallb]. rewrite (Hn f) by (left; auto). reflexivity. }
  set (occ := flat_map _ fs). destruct (fold_left add_sensor occ ([], [])) as (ss, sm) eqn:E.
  apply add_sensor_fold in E as (_ & _ & Hin & _); [|constructor|reflexivity].
  assert (HM : exists Im, mapM (fun f => do a <- index String.eqb (rf_s1 V f) ss;; do b <- index String.eqb (rf_s2 V f) ss;; Ok (a, b)) fs = Ok Im).
  { apply mapM_ok_ex. intros f Hf. destruct (index_in String.eqb String.eqb_eq (rf_s1 V f) ss) as (a & Ea).
    { apply Hin. right. eexists. unfold occ. apply in_flat_map. exists f. split; [auto|]. left. reflexivity. }
    destruct (index_in String.eqb String.eqb_eq (rf_s2 V f) ss) as (b & Eb).
    { apply Hin. right. eexists. unfold occ. apply in_flat_map. exists f. split; [auto|]. right. left. reflexivity. }
    rewrite Ea, Eb. cbn [bind]. eauto. }
  destruct HM as (Im & HM). rewrite HM. cbn [bind]. exists Im, ss, sm. split; [reflexivity|]. split; [eapply mapM_length; eauto|].
  intros j f Hj. destruct (mapM_nth _ _ _ _ _ HM Hj) as (p & Hp & Hi). exists p. split; [auto|].
  destruct (index String.eqb (rf_s1 V f) ss) as [a|] eqn:Ea; cbn [bind] in Hp; [|discriminate].
  destruct (index String.eqb (rf_s2 V f) ss) as [b|] eqn:Eb; cbn [bind] in Hp; [|discriminate]. injection Hp as <-.
  apply (index_ok _ String.eqb_eq) in Ea. apply (index_ok _ String.eqb_eq) in Eb. cbn [fst snd]. intuition.
Qed.

Lemma read_k_ok (fs : list (res_file V)) : (forall f, In f fs -> length (rf_k V f) = rf_M V f) ->
  read_k V zeroV fs (cumul 0 (map (rf_M V) fs)) = Ok (concat (map (rf_k V) fs)).
Proof.
  intros H. change (fill zeroV (cumul 0 (map (rf_M V) fs)) (fun p => Ok (rf_k V (snd p))) fs = Ok (concat (map (rf_k V) fs))).
  apply fill_ok.
  - rewrite (mapM_Ok_map _ (fun p => rf_k V (snd p))) by reflexivity. f_equal. rewrite <- map_map with (f := snd). unfold enumerate. f_equal.
    generalize 0. induction fs as [|f l IH]; intros k; [reflexivity|]. cbn [length seq combine map snd]. f_equal. apply IH. intros; apply H; right; auto.
  - rewrite map_map. apply map_ext_in. auto.
Qed.

Theorem save_open out (r : result) d0 : harm_name out -> wf_result r -> distinct_pairs r -> h_values V A r = None ->
  rx_Nm (h_idx V A r) <> [] -> (forall l, In l (h_sens V A r) -> clean_label l) -> free_attrs (h_attrs V A r) ->
  (forall s, In s (rx_sensors (h_idx V A r)) -> one_line s) -> no_results d0 ->
  exists d1, save V A fillV out true r d0 = Ok d1 /\
    forall listing, Permutation d1 listing -> exists r' order, open_result V A zeroV str_attr listing = Ok r' /\ same_results r r' order.
Proof.
  intros Ho W D HV Hne Hl Hf Hs H0. set (n := length (rx_Nm (h_idx V A r))).
  destruct (out_of_ok r Hl Hf) as (o & Eo & Op & Oc & Os & A1 & A2 & A3).
  set (g := fun i => (rname out r i, FRes V A (resf r (fun _ => None) i))).
  assert (Hline : forall i, i < n -> is_residual (rname out r i) = true).
  { intros i Hi. assert (N : series_names (h_idx V A r) i (sname r (fst (pr r i))) (sname r (snd (pr r i)))) by (apply names_at; auto; rewrite (wr_Im _ W); auto).
    destruct N as (p & _ & N1 & N2). apply saved_residual; auto; apply Hs; eapply nth_error_In; eauto. }
  assert (Hnot : forall i, i < n -> is_output (rname out r i) = false).
  { intros i Hi. destruct (is_output (rname out r i)) eqn:E; [|auto]. exfalso. apply (not_both (rname out r i)). split; [apply output_iff; auto|apply residual_iff; auto]. }
  assert (Hout : is_output out = true) by (apply saved_output; auto).
  assert (Hout' : is_residual out = false). { destruct (is_residual out) eqn:E; [|auto]. exfalso. apply (not_both out). split; [apply output_iff; auto|apply residual_iff; auto]. }
  assert (F0 : forall name, In name (map fst d0) -> is_output name = false /\ is_residual name = false).
  { intros name H. apply in_map_iff in H. destruct H as ((nm & f) & <- & H). destruct (H0 _ _ H) as (G1 & G2). cbn [fst]. split.
    - destruct (is_output nm) eqn:E; [|auto]. destruct G1. apply output_iff. auto.
    - destruct (is_residual nm) eqn:E; [|auto]. destruct G2. apply residual_iff. auto. }
  assert (E1 : save V A fillV out true r d0 = Ok (d0 ++ (out, FOut V A o) :: map g (seq 0 n))).
  { unfold save. rewrite Eo. cbn [bind]. rewrite write_res_none by auto. f_equal. rewrite write_fresh.
    2:{ intros H. apply F0 in H. destruct H. congruence. }
    rewrite fold_wr_fresh; [rewrite <- app_assoc; reflexivity| |apply seq_NoDup|].
    - intros i Hi. apply in_seq in Hi. rewrite map_app, in_app_iff. cbn. intros [H|[H|[]]]; [|symmetry in H; apply rname_not_out in H; auto].
      apply F0 in H. destruct H as (_ & H). rewrite (Hline i) in H; [discriminate|fold n in Hi; lia].
    - intros i j Hi Hj. apply in_seq in Hi. apply in_seq in Hj. apply rname_inj; auto; lia. }
  eexists. split; [exact E1|]. intros listing Hp.
  assert (FO : filter (fun p => is_output (fst p)) (d0 ++ (out, FOut V A o) :: map g (seq 0 n)) = [(out, FOut V A o)]).
  { rewrite filter_app. rewrite filter_none. 2:{ intros x Hx. apply F0. apply in_map. auto. }
    cbn [filter app fst]. rewrite Hout, filter_none; [reflexivity|]. intros x Hx. apply in_map_iff in Hx. destruct Hx as (i & <- & Hi). apply in_seq in Hi. apply Hnot. lia. }
  assert (FR : filter (fun p => is_residual (fst p)) (d0 ++ (out, FOut V A o) :: map g (seq 0 n)) = map g (seq 0 n)).
  { rewrite filter_app. rewrite filter_none. 2:{ intros x Hx. apply F0. apply in_map. auto. }
    cbn [filter app fst]. rewrite Hout', filter_all'; [reflexivity|]. intros x Hx. apply in_map_iff in Hx. destruct Hx as (i & <- & Hi). apply in_seq in Hi. apply Hline. lia. }
  pose proof (filter_perm (fun p => is_output (fst p)) _ _ Hp) as PO. rewrite FO in PO. apply Permutation_length_1_inv in PO.
  pose proof (filter_perm (fun p => is_residual (fst p)) _ _ Hp) as PR. rewrite FR in PR. apply Permutation_sym, Permutation_map_inv in PR. destruct PR as (order & ER & PR).
  assert (Hord : order <> []). { intros ->. apply Permutation_sym, Permutation_nil in PR. destruct (rx_Nm (h_idx V A r)); [auto|discriminate]. }
  assert (Hio : forall i, In i order -> i < n). { intros i Hi. eapply Permutation_in in Hi; [|apply Permutation_sym; exact PR]. apply in_seq in Hi. lia. }
  set (fs := map (resf r (fun _ => None)) order).
  assert (Hres : find_residuals V A listing = Some (map (FRes V A) fs)).
  { unfold find_residuals. rewrite ER. unfold fs. rewrite map_map. unfold g at 1. destruct order as [|i order]; [congruence|]. cbn [map]. do 2 f_equal. rewrite map_map. reflexivity. }
  assert (Hmap : mapM (as_res V A) (map (FRes V A) fs) = Ok fs).
  { clear. induction fs as [|f fs IH]; [reflexivity|]. cbn [map mapM as_res]. rewrite IH. reflexivity. }
  destruct (res_index_none fs) as (Im & ss & sm & EI & LI & HI).
  { unfold fs. destruct order; [congruence|discriminate]. }
  { intros f H. unfold fs in H. apply in_map_iff in H. destruct H as (i & <- & _). reflexivity. }
  assert (Hk : forall f, In f fs -> length (rf_k V f) = rf_M V f).
  { intros f H. unfold fs in H. apply in_map_iff in H. destruct H as (i & <- & Hi). cbn [resf rf_k rf_M]. apply kblock_spec; auto. }
  pose proof (read_k_ok fs Hk) as EK.
  destruct fs as [|f0 fs'] eqn:Efs. { exfalso. apply Hord. unfold fs in Efs. destruct order; [auto|discriminate]. }
  eexists. exists order. split.
  - unfold open_result, find_output. rewrite PO. cbn [bind snd]. unfold open_output. rewrite A1. cbn [bind]. rewrite A2. cbn [bind]. rewrite A3. cbn [bind].
    rewrite Hres. cbn [bind]. unfold open_res. rewrite Hmap. cbn [bind]. change (get (f0 :: fs') 0) with (Ok f0). cbn [bind].
    rewrite EI. cbn [bind rx_blocks rx_cNm]. rewrite EK. cbn [bind]. reflexivity.
  - rewrite <- Efs in *. unfold same_results. cbn [h_par h_sens h_cov h_cost h_dof h_p h_idx rx_Nm rx_cNm rx_Im h_ks]. do 6 (split; [auto|]).
    split; [apply Permutation_sym; exact PR|]. split; [unfold fs; rewrite !map_length; auto|]. split; [rewrite LI; unfold fs; rewrite map_length; auto|].
    intros j i Hj. assert (Hi : i < n) by (apply Hio; eapply nth_error_In; eauto).
    assert (Hfj : nth_error fs j = Some (resf r (fun _ => None) i)) by (unfold fs; rewrite nth_error_map', Hj; reflexivity).
    split; [|split].
    + rewrite nth_error_map', Hfj. cbn [option_map resf rf_M]. symmetry. apply nth_error_nth'. auto.
    + intros s1 s2 Hn. apply names_at in Hn; auto. destruct Hn as (_ & -> & ->). destruct (HI _ _ Hfj) as (p & Q1 & Q2 & Q3).
      exists p. cbn [rx_Im rx_sensors]. auto.
    + intros k Hkb. destruct (kblock_spec r i W Hi) as (K & _). rewrite (is_block_fun _ _ _ _ _ Hkb K).
      assert (B : nth_error (map (rf_k V) fs) j = Some (kblock r i)) by (rewrite nth_error_map', Hfj; reflexivity).
      apply is_block_concat in B. rewrite map_map in B. rewrite (map_ext_in _ (rf_M V)) in B by (exact Hk). exact B.
Qed.
(** Additional attributes of the output file. *)
Lemma set_attr_fresh k v (l : list (string * A)) : ~ In k (map fst l) -> set_attr A k v l = l ++ [(k, v)].
Proof.
  induction l as [|[k' v'] l IH]; cbn [set_attr map fst app]; intros H; [reflexivity|]. destruct (String.eqb_spec k' k) as [->|]; [destruct H; left; auto|]. rewrite IH; [reflexivity|]. intros Hk. apply H. right. auto.
Qed.
Lemma set_attrs_fresh (l : list (string * A)) : forall l0, NoDup (map fst l) -> (forall k, In k (map fst l) -> ~ In k (map fst l0)) ->
  fold_left (fun l p => set_attr A (fst p) (snd p) l) l l0 = l0 ++ l.
Proof.
  induction l as [|[k v] l IH]; intros l0 ND F; cbn [fold_left map fst snd] in *; [rewrite app_nil_r; reflexivity|]. apply NoDup_cons_iff in ND. destruct ND as (N1 & N2).
  rewrite set_attr_fresh by (apply F; left; reflexivity). rewrite IH; [rewrite <- app_assoc; reflexivity|exact N2|].
  intros k' Hk. rewrite map_app, in_app_iff. cbn. intros [H|[H|[]]]; [exact (F k' (or_intror Hk) H)|]. subst k'. exact (N1 Hk).
Qed.
Theorem save_open_output out (r : result) d0 : harm_name out -> (forall l, In l (h_sens V A r) -> clean_label l) -> free_attrs (h_attrs V A r) ->
  NoDup (map fst (h_attrs V A r)) -> (forall k v, In (k, v) (h_attrs V A r) -> ~ exists k', k = ("_" ++ k')%string) -> no_results d0 ->
  exists d1, save V A fillV out false r d0 = Ok d1 /\ forall listing, Permutation d1 listing ->
    open_output_only V A listing = Ok (h_par V A r, h_sens V A r, h_cov V A r, (h_cost V A r, h_dof V A r, h_p V A r), h_attrs V A r).
Proof.
  intros Ho Hl Hf ND NU H0. destruct (out_of_ok r Hl Hf) as (o & Eo & Op & Oc & Os & A1 & A2 & A3).
  assert (Hout : is_output out = true) by (apply saved_output; auto).
  assert (F0 : forall x, In x d0 -> is_output (fst x) = false).
  { intros (nm & f) H. cbn [fst]. destruct (H0 _ _ H) as (G1 & _). destruct (is_output nm) eqn:E; [|auto]. destruct G1. apply output_iff. auto. }
  assert (E1 : save V A fillV out false r d0 = Ok (d0 ++ [(out, FOut V A o)])).
  { unfold save. rewrite Eo. cbn [bind]. rewrite write_fresh; [reflexivity|]. intros H. apply in_map_iff in H. destruct H as (x & E & H). apply F0 in H. congruence. }
  eexists. split; [exact E1|]. intros listing Hp.
  assert (FO : filter (fun p => is_output (fst p)) (d0 ++ [(out, FOut V A o)]) = [(out, FOut V A o)]).
  { rewrite filter_app, filter_none by exact F0. cbn [filter app fst]. rewrite Hout. reflexivity. }
  pose proof (filter_perm (fun p => is_output (fst p)) _ _ Hp) as PO. rewrite FO in PO. apply Permutation_length_1_inv in PO.
  unfold open_output_only, find_output. rewrite PO. cbn [bind snd]. unfold open_output. rewrite A1. cbn [bind]. rewrite A2. cbn [bind]. rewrite A3. cbn [bind]. rewrite Op, Oc, Os. do 2 f_equal.
  unfold out_of in Eo. destruct (write_labels (h_sens V A r)); cbn [bind] in Eo; [|discriminate]. injection Eo as <-. cbn [o_attrs].
  change (set_attr A "cost_p_value" (h_p V A r) (set_attr A "cost_dof" (h_dof V A r) (set_attr A "cost" (h_cost V A r) []))) with [("cost"%string, h_cost V A r); ("cost_dof"%string, h_dof V A r); ("cost_p_value"%string, h_p V A r)].
  rewrite set_attrs_fresh; [|exact ND|].
  2:{ intros k Hk Hin. apply in_map_iff in Hk. destruct Hk as ((k2 & v) & <- & Hk). exact (Hf _ _ Hk Hin). }
  rewrite filter_app. change (filter _ [("cost"%string, h_cost V A r); ("cost_dof"%string, h_dof V A r); ("cost_p_value"%string, h_p V A r)]) with (@nil (string * A)). cbn [app].
  apply filter_all'. intros (k & v) Hk. cbn [fst]. apply andb_true_intro. split.
  - apply negb_true_iff. destruct (mem String.eqb k required_attrs) eqn:E; [|reflexivity]. exfalso. apply (Hf _ _ Hk). unfold mem in E. apply existsb_exists in E. destruct E as (k' & Hin & E). apply String.eqb_eq in E. subst k'. exact Hin.
  - apply negb_true_iff. destruct (underscore k) eqn:E; [|reflexivity]. exfalso. apply (NU _ _ Hk). unfold underscore in E. destruct k as [|c k]; [cbn in E; congruence|]. exists k. cbn [String.append]. f_equal. cbn in E. destruct c as [[] [] [] [] [] [] [] []]; try discriminate; reflexivity.
Qed.

End HR.
