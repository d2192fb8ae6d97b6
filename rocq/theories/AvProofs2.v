(** * Conversion of AVHRR match-up files: dictionaries and W matrices.  Proofs only. *)
From Coq Require Import Reals Lra Sorted.
From Verif Require Import Base BaseLemmas ReaderModel UncModel UncSpec UncProofs TransformModel TransformSpec GNModel HRModel HRText WModel WSpec WProofs WProofs2 WProofs3 WProofs4 CheckProofs AvModel AvSpec AvProofs.
Open Scope nat_scope.

(** ** Dictionaries *)
Lemma lookup_remove n m (d : dict) : lookup m (remove n d) = if String.eqb n m then None else lookup m d.
Proof.
  induction d as [|(k, v) d IH]; cbn [remove filter lookup]; [destruct (String.eqb n m); reflexivity|]. cbn [fst].
  destruct (String.eqb_spec k n) as [->|Hk]; cbn [negb].
  - unfold remove in IH. rewrite IH. destruct (String.eqb_spec n m); reflexivity.
  - cbn [lookup]. unfold remove in IH. rewrite IH. destruct (String.eqb_spec k m) as [->|]; [|reflexivity]. destruct (String.eqb_spec n m); [congruence|reflexivity].
Qed.
Lemma lookup_app' n (a b : dict) : lookup n (a ++ b) = match lookup n a with Some v => Some v | None => lookup n b end.
Proof. induction a as [|(k, v) a IH]; cbn [app lookup]; [reflexivity|]. destruct (String.eqb k n); auto. Qed.
Lemma lookup_put n m v (d : dict) : lookup m (remove n d ++ [(n, v)]) = if String.eqb n m then Some v else lookup m d.
Proof. rewrite lookup_app', lookup_remove. cbn [lookup]. destruct (String.eqb_spec n m); [reflexivity|]. destruct (lookup m d); reflexivity. Qed.
Lemma item_ok n d v : lookup n d = Some v -> item n d = Ok v.
Proof. unfold item. intros ->. reflexivity. Qed.

Lemma two_names (l : list string) a b : NoDup l -> a <> b -> In a l -> (forall n, In n l -> n = a \/ n = b) -> l = [a] \/ l = [a; b] \/ l = [b; a].
Proof.
  intros Hn Hab Ha Hl. destruct l as [|x l]; [destruct Ha|]. inversion Hn as [|? ? Hx Hn']; subst.
  assert (C : forall (y z : string) (q : list string), NoDup (y :: q) -> ~ In z (y :: q) -> (forall n, In n (y :: q) -> n = y \/ n = z) -> q = []).
  { intros y z q Hq Hz Hyz. destruct q as [|w q]; [reflexivity|]. exfalso. inversion Hq as [|? ? Hw _]; subst. destruct (Hyz w) as [->| ->]; [right; left; auto| |]; [apply Hw; left; auto|apply Hz; right; left; auto]. }
  destruct (Hl x (or_introl eq_refl)) as [->| ->].
  - destruct l as [|y l]; [auto|]. right; left. destruct (Hl y) as [->| ->]; [right; left; auto|exfalso; apply Hx; left; auto|]. f_equal. f_equal. apply (C b a); auto. intros n Hi. destruct (Hl n (or_intror Hi)); auto.
  - destruct l as [|y l]; [destruct Ha as [|[]]; congruence|]. right; right. destruct (Hl y) as [->| ->]; [right; left; auto| |exfalso; apply Hx; left; auto]. f_equal. f_equal. apply (C a b); auto. intros n Hi. destruct (Hl n (or_intror Hi)); auto.
Qed.

Lemma bt_rename f band bt ref_bt : bt_variables f band bt ref_bt ->
  exists d cc, rename_bt (a_adds f) = Ok (band, d) /\ (forall m, lookup m d =
    if String.eqb m "BT" then Some bt else if String.eqb m "ref_BT" then ref_bt
    else if String.eqb m ("BT" ++ cc) then None else if String.eqb m ("ref_BT" ++ cc) then None else lookup m (a_adds f)) /\ String.length cc = 2 /\
  (forall n, In n (map fst (a_adds f)) -> contains (tx "BT") (tx n) = true -> n = ("BT" ++ cc)%string \/ n = ("ref_BT" ++ cc)%string).
Proof.
  intros [ND (a & b & x & y & Da & Db & -> & HB & HR & HO)]. set (cc := String a (String b EmptyString)) in *.
  assert (NB : lookup "BT"%string (a_adds f) = None).
  { destruct (lookup "BT" (a_adds f)) eqn:E; [|reflexivity]. exfalso. apply CheckProofs.lookup_iff in E; [|auto]. apply (in_map fst) in E. destruct (HO _ E eq_refl) as [H|H]; discriminate H. }
  assert (NR : lookup "ref_BT"%string (a_adds f) = None).
  { destruct (lookup "ref_BT" (a_adds f)) eqn:E; [|reflexivity]. exfalso. apply CheckProofs.lookup_iff in E; [|auto]. apply (in_map fst) in E. destruct (HO _ E eq_refl) as [H|H]; discriminate H. }
  assert (E2 : but2 ("BT" ++ cc) = "BT"%string /\ but2 ("ref_BT" ++ cc) = "ref_BT"%string) by (split; reflexivity). destruct E2 as (EB & ER).
  assert (I2 : int_of (last2 ("BT" ++ cc)) = Ok (10 * x + y)%Z) by (unfold last2; cbn; rewrite Da, Db; reflexivity).
  assert (I3 : int_of (last2 ("ref_BT" ++ cc)) = Ok (10 * x + y)%Z) by (unfold last2; cbn; rewrite Da, Db; reflexivity).
  assert (NE : ("BT" ++ cc <> "ref_BT" ++ cc)%string) by discriminate.
  assert (ST : forall n, In n (bt_names (a_adds f)) <-> In n (map fst (a_adds f)) /\ contains (tx "BT") (tx n) = true) by (intros n; apply filter_In).
  assert (N1 : NoDup (bt_names (a_adds f))) by (apply NoDup_filter; auto).
  assert (HinB : In ("BT" ++ cc)%string (bt_names (a_adds f))) by (apply ST; split; [apply CheckProofs.lookup_iff in HB; [|auto]; apply (in_map fst) in HB; auto|reflexivity]).
  assert (HinR : In ("ref_BT" ++ cc)%string (bt_names (a_adds f)) <-> ref_bt <> None).
  { rewrite ST. split; [intros (Hi & _) Hn; rewrite <- HR in Hn; apply CheckProofs.lookup_none in Hn; contradiction|]. intros Hn. split; [|reflexivity].
    destruct ref_bt as [v|]; [|congruence]. apply CheckProofs.lookup_iff in HR; [|auto]. apply (in_map fst) in HR; auto. }
  assert (HB' : forall (d' : dict), (forall m, lookup m d' = lookup m (a_adds f)) -> True) by auto. clear HB'.
  unfold rename_bt.
  assert (FIN : forall d0, (forall m, lookup m d0 = if String.eqb "BT" m then Some bt else if String.eqb ("BT" ++ cc) m then None else lookup m (a_adds f)) -> ref_bt = None ->
     forall m, lookup m d0 = if String.eqb m "BT" then Some bt else if String.eqb m "ref_BT" then ref_bt else if String.eqb m ("BT" ++ cc) then None else if String.eqb m ("ref_BT" ++ cc) then None else lookup m (a_adds f)).
  { intros d0 Hd Hr m. rewrite Hd. rewrite (String.eqb_sym "BT" m), (String.eqb_sym ("BT" ++ cc) m). destruct (String.eqb m "BT"); [reflexivity|]. destruct (String.eqb_spec m "ref_BT") as [->|]; [rewrite NR, Hr; destruct (String.eqb _ _); reflexivity|].
    destruct (String.eqb m ("BT" ++ cc)); [reflexivity|]. destruct (String.eqb_spec m ("ref_BT" ++ cc)) as [->|]; [congruence|reflexivity]. }
  destruct (two_names _ _ _ N1 NE HinB (fun n H => let '(conj Hi Hc) := proj1 (ST n) H in HO n Hi Hc)) as [E|[E|E]]; rewrite E in *; cbn [get nth_error bind foldM]; rewrite ?I2, ?I3; cbn [bind].
  - assert (Hr : ref_bt = None). { destruct ref_bt; [|reflexivity]. exfalso. destruct HinR as (_ & H). destruct H as [H|[]]; [congruence|discriminate H]. }
    rewrite (item_ok _ _ _ HB). cbn [bind]. rewrite EB. eexists. exists cc. split; [reflexivity|]. split; [|split; [reflexivity|exact HO]].
    apply FIN; [|auto]. intros m. rewrite lookup_put. rewrite lookup_remove. reflexivity.
  - assert (Hr : ref_bt <> None) by (apply HinR; right; left; reflexivity). destruct ref_bt as [rb|]; [clear Hr|congruence].
    rewrite (item_ok _ _ _ HB). cbn [bind]. rewrite EB. rewrite (item_ok _ _ rb); [|rewrite lookup_put, lookup_remove; exact HR]. cbn [bind]. rewrite ER. eexists. exists cc. split; [reflexivity|]. split; [|split; [reflexivity|exact HO]].
    intros m. rewrite lookup_put, lookup_remove, lookup_put, lookup_remove. rewrite (String.eqb_sym "ref_BT" m), (String.eqb_sym ("ref_BT" ++ cc) m), (String.eqb_sym "BT" m), (String.eqb_sym ("BT" ++ cc) m).
    destruct (String.eqb_spec m "BT") as [->|]; [reflexivity|]. destruct (String.eqb m "ref_BT"); [reflexivity|]. destruct (String.eqb m ("ref_BT" ++ cc)), (String.eqb m ("BT" ++ cc)); reflexivity.
  - assert (Hr : ref_bt <> None) by (apply HinR; left; reflexivity). destruct ref_bt as [rb|]; [clear Hr|congruence].
    rewrite (item_ok _ _ _ HR). cbn [bind]. rewrite ER. rewrite (item_ok _ _ bt); [|rewrite lookup_put, lookup_remove; exact HB]. cbn [bind]. rewrite EB. eexists. exists cc. split; [reflexivity|]. split; [|split; [reflexivity|exact HO]].
    intros m. rewrite lookup_put, lookup_remove, lookup_put, lookup_remove. rewrite (String.eqb_sym "ref_BT" m), (String.eqb_sym ("ref_BT" ++ cc) m), (String.eqb_sym "BT" m), (String.eqb_sym ("BT" ++ cc) m).
    destruct (String.eqb_spec m "BT") as [->|]; [reflexivity|]. destruct (String.eqb_spec m "ref_BT") as [->|]; [reflexivity|]. destruct (String.eqb m ("ref_BT" ++ cc)), (String.eqb m ("BT" ++ cc)); reflexivity.
Qed.

(** ** The variables kept *)
Definition kept_vars (d : dict) (mask : list bool) (l : list (string * string)) : dict :=
  flat_map (fun p => match lookup (fst p) d with Some v => [(snd p, sel mask v)] | None => [] end) l.
Lemma vars_ok d mask : (forall n v, In n (map fst renamed) -> lookup n d = Some v -> length mask = length v) -> return_additional_variables d mask = Ok (kept_vars d mask renamed).
Proof.
  intros H. unfold return_additional_variables.
  assert (G : forall l acc, (forall n, In n (map fst l) -> In n (map fst renamed)) -> foldM (fun (acc : dict) (p : string * string) => match lookup (fst p) d with Some v => do v' <- masked mask v;; Ok (acc ++ [(snd p, v')]) | None => Ok acc end) l acc = Ok (acc ++ kept_vars d mask l)); [|apply (G renamed []); auto].
  induction l as [|(o, n) l IH]; intros acc Hl; cbn [foldM kept_vars flat_map]; [rewrite app_nil_r; reflexivity|]. cbn [fst snd].
  destruct (lookup o d) as [v|] eqn:E; [|cbn [bind app]; apply IH; intros; apply Hl; right; auto].
  assert (Em : masked mask v = Ok (sel mask v)) by (apply masked_ok; split; [eapply H; [apply Hl; left; reflexivity|eauto]|reflexivity]). rewrite Em. cbn [bind]. rewrite IH by (intros; apply Hl; right; auto). rewrite <- app_assoc. reflexivity.
Qed.
Lemma kept_lookup d mask l o n : NoDup (map snd l) -> In (o, n) l -> lookup n (kept_vars d mask l) = option_map (sel mask) (lookup o d).
Proof.
  induction l as [|(o', n') l IH]; intros Hn Hi0; [destruct Hi0|]. destruct Hi0 as [E|Hi]; cbn [map snd] in Hn; inversion Hn as [|? ? Hx Hn']; subst; cbn [kept_vars flat_map fst snd]; rewrite lookup_app'.
  - injection E as -> ->. destruct (lookup o d) as [v|] eqn:Eo; cbn [lookup option_map]; [rewrite String.eqb_refl; reflexivity|].
    apply CheckProofs.lookup_none. intros Hc. apply Hx. apply in_map_iff in Hc as ((k & w) & <- & Hc). apply in_flat_map in Hc as ((o2 & n2) & Hin & Hc). cbn [fst snd] in Hc. destruct (lookup o2 d); [|destruct Hc]. destruct Hc as [Hc|[]]. injection Hc as <- _.
    apply (in_map snd) in Hin. exact Hin.
  - assert (Hne : n' <> n) by (intros ->; apply Hx; apply (in_map snd) in Hi; exact Hi).
    destruct (lookup o' d) as [v|]; cbn [lookup]; [rewrite (proj2 (String.eqb_neq n' n) Hne)|]; apply IH; auto.
Qed.
Lemma renamed_nodup : NoDup (map snd renamed).
Proof. cbn [map snd renamed]. repeat (constructor; [cbn [In]; intuition discriminate|]). constructor. Qed.
Lemma kept_other d mask l n : ~ In n (map snd l) -> lookup n (kept_vars d mask l) = None.
Proof.
  intros H. apply CheckProofs.lookup_none. intros Hc. apply H. apply in_map_iff in Hc as ((k & w) & <- & Hc). apply in_flat_map in Hc as ((o2 & n2) & Hin & Hc). cbn [fst snd] in Hc. destruct (lookup o2 d); [|destruct Hc]. destruct Hc as [Hc|[]]. injection Hc as <- _.
  apply (in_map snd) in Hin. exact Hin.
Qed.

(** ** Rolling averages *)
Lemma gen_same times dt ku ku' wt ks W u W' u' : kernel ku wt ks = kernel ku' wt ks -> gen_w times dt ku wt ks = Ok (W, u) -> gen_w times dt ku' wt ks = Ok (W', u') -> W = W'.
Proof.
  unfold gen_w. intros E H H'. rewrite <- E in H'. repeat (match type of H with bind ?x _ = _ => destruct x as [?|] eqn:?; cbn [bind] in H; [|discriminate] end). cbn [bind] in H'.
  repeat (match type of H' with bind ?x _ = _ => destruct x as [?|] eqn:?; cbn [bind] in H'; [|discriminate] end).
  cbv zeta in H, H'. destruct ku, ku'; repeat (match type of H with bind ?x _ = _ => destruct x as [?|] eqn:?; cbn [bind] in H; [|discriminate] end); repeat (match type of H' with bind ?x _ = _ => destruct x as [?|] eqn:?; cbn [bind] in H'; [|discriminate] end); congruence.
Qed.
Lemma cumul_mono ns : forall t i p q, nth_error (cumul t ns) i = Some p -> nth_error (cumul t ns) (i + 1) = Some q -> p <= q <= t + list_sum ns.
Proof.
  induction ns as [|n ns IH]; intros t i p q H1 H2; [destruct i as [|[|]]; discriminate|]. change (list_sum (n :: ns)) with (n + list_sum ns). destruct i as [|i].
  - cbn in H1, H2. injection H1 as <-. assert (q = t + n) by (destruct ns; cbn in H2; congruence). lia.
  - cbn in H1, H2. specialize (IH _ _ _ _ H1 H2). lia.
Qed.
Lemma rows_shape nc rows : (forall r c x, In r rows -> In (c, x) r -> c < nc) -> csr_shape (csr_of_rows nc rows) (length rows) nc.
Proof.
  intros H. unfold csr_shape, csr_of_rows. cbn [c_indptr c_nrows c_ncols c_indices c_data]. do 2 (split; [reflexivity|]). split; [rewrite cumul_length, map_length; lia|]. split; [rewrite !map_length; reflexivity|]. split.
  - intros i p q H1 H2. pose proof (cumul_mono _ _ _ _ _ H1 H2) as Hm. rewrite map_length. replace (length (concat rows)) with (list_sum (map (@length _) rows)); [exact Hm|].
    clear. induction rows as [|r rows IH]; [reflexivity|]. cbn [concat map]. rewrite app_length, <- IH. reflexivity.
  - intros c Hc. apply in_map_iff in Hc as ((c' & x) & E & Hc). cbn [fst] in E. subst c'. apply in_concat in Hc as (r & Hr & Hx). eauto.
Qed.
Lemma gen_csr_shape times dt ku wt ks W u : gen_w times dt ku wt ks = Ok (W, u) -> csr_shape W (c_nrows R W) (c_ncols R W).
Proof.
  intros H. destruct (gen_shape _ _ _ _ _ _ _ H) as (w & cols & -> & Hn).
  assert (Hs : csr_shape (csr_select w cols) (length (map (fun i => renumber cols (csr_row w i)) (seq 0 (c_nrows R w)))) (length cols)); [|exact Hs].
  apply rows_shape. intros r c x Hr Hx. apply (select_inside w). auto. unfold csr_select, csr_of_rows. cbn [c_indices]. apply in_map_iff. exists (c, x). split; [reflexivity|]. apply in_concat. eauto.
Qed.
