From Coq Require Import Reals Lra.
From Verif Require Import Base BaseLemmas ReaderModel UncModel UncProofs UncProofs2 MuModel MuProofs SampleSpec SampleProofs TransformModel TransformSpec TransformProofs.
Open Scope nat_scope.

(** ** shapes: success without any numerical condition *)
Section Shape.
Variables (w : csr R) (u : list R) (N : nat).
Hypothesis Sh : csr_shape w N (length u).
Variables (pre post : list R).

Lemma solve_row_shape x xs enc i : i < N -> length xs = length u -> length enc = length u ->
  exists xs' enc', solve_row w u (length pre) x (pre ++ xs ++ post, enc) i = Ok (pre ++ xs' ++ post, enc') /\
    length xs' = length u /\ length enc' = length u.
Proof.
  intros Hi Hx He. destruct (row_bounds w N (length u) Sh i Hi) as (p & q & H1 & H2 & _).
  destruct (row_cols_entries w N (length u) Sh i p q Hi H1 H2) as (Ec & Ed).
  pose proof (entry_col w N (length u) Sh i) as Hcol. specialize (Hcol).
  set (es := row_entries w i) in *.
  assert (Hes : forall e, In e es -> fst e < length u) by (intros e H; apply Hcol; auto; apply in_map; auto).
  unfold solve_row. rewrite (proj2 (get_ok _ _ _) H1), (proj2 (get_ok _ _ _) H2). cbn [bind]. rewrite Ec, Ed.
  assert (Em : mapM (get enc) (map fst es) = Ok (map (fun e => nth (fst e) enc false) es)).
  { rewrite <- (map_map fst (fun c => nth c enc false)). apply mapM_Ok_map. intros c Hc. apply in_map_iff in Hc as (e & <- & H).
    rewrite (get_nth enc _ false) by (rewrite He; auto). reflexivity. }
  rewrite Em. cbn [bind]. change (fun (value : R) (st : list R * list bool) (col : nat) =>
     do uc <- get u col;; do vals' <- setitem (length pre + col) (value / uc)%R (fst st);;
     do enc' <- setitem col true (snd st);; Ok (vals', enc')) with (write_col u pre).
  destruct (_ =? _).
  - destruct (write_fold u pre post x (map fst es) xs enc Hx He) as (xs' & enc' & E & L1 & L2 & _).
    + intros c Hc. apply Hcol; auto.
    + exists xs', enc'. auto.
  - destruct (0 <? _); [|exists xs, enc; auto].
    unfold enumerate. rewrite (filter_combine_map es fst (fun e => nth (fst e) enc false) 0).
    rewrite (filter_combine_map' es fst (fun e => nth (fst e) enc false) 0).
    assert (Hk : forall k e, In (k, e) (combine (seq 0 (length es)) es) -> get (map snd es) k = Ok (snd e)).
    { intros k e H. apply get_ok. change (combine (seq 0 (length es)) es) with (enumerate es) in H.
      apply in_enumerate in H. rewrite nth_error_map'. rewrite H. reflexivity. }
    match goal with |- context [mapM ?f ?l] => destruct (mapM_ok_ex f l) as (ts & ->) end.
    { intros [[k c] b] H. cbn [fst snd]. apply in_map_iff in H as ([k' e] & E & H). injection E as -> <- <-.
      apply filter_In in H as (H & _). rewrite (Hk k e H). cbn [bind].
      assert (He' : In e es) by (eapply in_combine_r; eauto). cbn [snd].
      rewrite get_mid by (rewrite Hx; auto). rewrite (get_nth xs _ 0%R) by (rewrite Hx; auto). cbn [bind].
      rewrite (get_nth u _ 0%R) by auto. cbn [bind]. eauto. }
    cbn [bind].
    match goal with |- context [mapM ?f ?l] => destruct (mapM_ok_ex f l) as (ws & ->) end.
    { intros [[k c] b] H. cbn [fst snd]. apply in_map_iff in H as ([k' e] & E & H). injection E as -> <- <-.
      apply filter_In in H as (H & _). rewrite (Hk k e H). eauto. }
    cbn [bind].
    match goal with |- context [foldM ?f ?cs _] =>
      change f with (write_col u pre ((x - rsum ts) / rsum ws)%R);
      destruct (write_fold u pre post ((x - rsum ts) / rsum ws)%R cs xs enc Hx He) as (xs' & enc' & E & L1 & L2 & _) end.
    + intros c Hc. rewrite map_map in Hc. apply in_map_iff in Hc as ([k e] & <- & H). cbn.
      apply filter_In in H as (H & _). apply Hes. eapply in_combine_r; eauto.
    + exists xs', enc'. auto.
Qed.

Lemma solve_block_shape src istart : istart + N <= length src ->
  exists xs, solve_block w u (length pre) istart (istart + N) src (pre ++ repeat 0%R (length u) ++ post) = Ok (pre ++ xs ++ post) /\
    length xs = length u.
Proof.
  intros Hl. unfold solve_block. assert (Hnc : c_ncols R w = length u) by apply Sh. rewrite Hnc.
  assert (G : forall l xs enc, (forall p, In p l -> fst p < N /\ snd p < length src) -> length xs = length u -> length enc = length u ->
     exists xs' enc', foldM (fun st p => do x <- get src (snd p);; solve_row w u (length pre) x st (fst p)) l (pre ++ xs ++ post, enc)
        = Ok (pre ++ xs' ++ post, enc') /\ length xs' = length u).
  { induction l as [|p l IH]; intros xs enc Hp Hx He; [exists xs, enc; auto|].
    destruct (Hp p (or_introl eq_refl)) as (P1 & P2).
    cbn [foldM]. rewrite (get_nth src _ 0%R P2). cbn [bind].
    destruct (solve_row_shape (nth (snd p) src 0%R) xs enc (fst p) P1 Hx He) as (xs1 & enc1 & -> & L1 & L2).
    apply IH; auto. intros; apply Hp; right; auto. }
  destruct (G (enumerate (seq istart (istart + N - istart))) (repeat 0%R (length u)) (repeat false (length u))) as (xs & enc & -> & L).
  - intros [i j] H. apply in_enumerate in H. cbn. assert (Hi : i < N).
    { assert (i < length (seq istart (istart + N - istart))) by (apply nth_error_Some; congruence). rewrite seq_length in H0. lia. }
    split; [auto|]. apply nth_error_In in H. apply in_seq in H. lia.
  - apply repeat_length.
  - apply repeat_length.
  - cbn [bind fst]. exists xs. auto.
Qed.
End Shape.

(** ** block loops *)
Lemma block_fold {A X} (z : A) (step : list A -> nat * X -> res (list A)) (xs : list X) (vs : list (list A)) (tail : list A) :
  length vs = length xs ->
  (forall i x v pre post, nth_error xs i = Some x -> nth_error vs i = Some v ->
     length pre = list_sum (firstn i (map (@length A) vs)) ->
     step (pre ++ repeat z (length v) ++ post) (i, x) = Ok (pre ++ v ++ post)) ->
  foldM step (enumerate xs) (repeat z (list_sum (map (@length A) vs)) ++ tail) = Ok (concat vs ++ tail).
Proof.
  intros Hl Hstep.
  assert (G : forall xs2 vs2 k pre, length vs2 = length xs2 -> 
     (forall i, nth_error xs2 i = nth_error xs (k + i)) -> (forall i, nth_error vs2 i = nth_error vs (k + i)) ->
     length pre = list_sum (firstn k (map (@length A) vs)) ->
     foldM step (combine (seq k (length xs2)) xs2) (pre ++ repeat z (list_sum (map (@length A) vs2)) ++ tail) = Ok (pre ++ concat vs2 ++ tail)).
  { induction xs2 as [|x xs2 IH]; intros [|v vs2] k pre L Hx Hv Hp; cbn in L; try discriminate; [reflexivity|].
    cbn [length seq combine foldM map concat].
    change (list_sum (length v :: map (@length A) vs2)) with (length v + list_sum (map (@length A) vs2)).
    rewrite repeat_app, <- !app_assoc.
    pose proof (Hx 0) as Hx0. pose proof (Hv 0) as Hv0. rewrite Nat.add_0_r in Hx0, Hv0. cbn in Hx0, Hv0.
    rewrite (Hstep k x v pre _ (eq_sym Hx0) (eq_sym Hv0) Hp).
    replace (pre ++ v ++ repeat z (list_sum (map (@length A) vs2)) ++ tail) with ((pre ++ v) ++ repeat z (list_sum (map (@length A) vs2)) ++ tail) by (rewrite <- app_assoc; auto).
    rewrite (IH vs2 (S k) (pre ++ v)).
    - rewrite <- !app_assoc. reflexivity.
    - lia.
    - intros i. specialize (Hx (S i)). rewrite Nat.add_succ_r in Hx. exact Hx.
    - intros i. specialize (Hv (S i)). rewrite Nat.add_succ_r in Hv. exact Hv.
    - rewrite app_length, Hp. symmetry. apply list_sum_firstn_S. rewrite nth_error_map', <- Hv0. reflexivity. }
  apply (G xs vs 0 []); auto.
Qed.

Lemma assign_mid {A} (pre old post v : list A) : length v = length old ->
  assign (length pre) (length pre + length old) v (pre ++ old ++ post) = Ok (pre ++ v ++ post).
Proof.
  intros H. unfold assign.
  assert (E : length (slice (length pre) (length pre + length old) (pre ++ old ++ post)) = length old).
  { unfold slice. rewrite skipn_app, skipn_all, Nat.sub_diag. cbn. rewrite firstn_length, app_length. lia. }
  rewrite E, H, Nat.eqb_refl. f_equal. f_equal; [rewrite firstn_app, firstn_all, Nat.sub_diag; cbn; apply app_nil_r|].
  f_equal. rewrite app_assoc. rewrite skipn_app. rewrite skipn_all2 by (rewrite app_length; lia). rewrite app_length, Nat.sub_diag. reflexivity.
Qed.

Lemma slice_mid {A} (pre v post : list A) : slice (length pre) (length pre + length v) (pre ++ v ++ post) = v.
Proof.
  unfold slice. rewrite skipn_app, skipn_all, Nat.sub_diag. cbn. replace (length pre + length v - length pre) with (length v) by lia.
  rewrite firstn_app, firstn_all, Nat.sub_diag. cbn. apply app_nil_r.
Qed.

Lemma zip2_length f a b : length a = length b -> length (zip2 f a b) = length a.
Proof. intros H. unfold zip2. rewrite map_length, combine_length. lia. Qed.
Lemma bop_eq f a b : length a = length b -> bop f a b = Ok (zip2 f a b).
Proof. intros H. unfold bop. rewrite H, Nat.eqb_refl. reflexivity. Qed.
Lemma zip2_nth f a b i : length a = length b -> i < length a -> nth i (zip2 f a b) 0%R = f (nth i a 0%R) (nth i b 0%R).
Proof.
  revert b i. induction a as [|x a IH]; intros [|y b] i H Hi; cbn in *; try lia. destruct i; [reflexivity|]. apply IH; lia.
Qed.
Lemma zip2_nth_error f a b i x y : nth_error a i = Some x -> nth_error b i = Some y -> nth_error (zip2 f a b) i = Some (f x y).
Proof.
  revert b i. induction a as [|x0 a IH]; intros [|y0 b] [|i] H1 H2; cbn in *; try discriminate.
  - congruence.
  - apply IH; auto.
Qed.
Lemma zip2_inv a b : length a = length b -> nonzero b -> zip2 Rmult (zip2 Rdiv a b) b = a.
Proof.
  revert b. induction a as [|x a IH]; intros [|y b] H Hn; cbn in *; try discriminate; [reflexivity|].
  f_equal; [field; apply Hn; left; auto|]. apply IH; [lia|]. intros z Hz; apply Hn; right; auto.
Qed.
Lemma zip2_comm a b : zip2 Rmult a b = zip2 Rmult b a.
Proof.
  unfold zip2. revert b. induction a as [|x a IH]; intros [|y b]; cbn; auto. f_equal; [lra|apply IH].
Qed.

Lemma add_last_get n l i : i + 1 < length l -> get (add_last n l) i = get l i.
Proof.
  revert i. induction l as [|x l IH]; intros i H; cbn in *; [lia|]. destruct l as [|y l]; [cbn in H; lia|].
  destruct i; [reflexivity|]. unfold get in *. cbn [nth_error]. apply IH. cbn in *. lia.
Qed.
Lemma add_last_snoc n l x : add_last n (l ++ [x]) = l ++ [x + n].
Proof. induction l as [|a l IH]; [reflexivity|]. cbn [app add_last]. destruct (l ++ [x]) eqn:E; [destruct l; discriminate|]. rewrite IH. reflexivity. Qed.
Lemma cumul_snoc t ns n : cumul t (ns ++ [n]) = cumul t ns ++ [t + list_sum ns + n].
Proof.
  revert t. induction ns as [|a ns IH]; intros t; cbn [cumul app]; [cbn; f_equal; f_equal; lia|].
  rewrite IH. cbn. change (fold_right Nat.add 0 ns) with (list_sum ns). f_equal. f_equal. f_equal. lia.
Qed.
Lemma add_last_pylast n t ns : pylast (add_last n (cumul t ns)) = Ok (t + list_sum ns + n).
Proof.
  destruct (exists_last (l := cumul t ns)) as (l & x & E); [destruct ns; discriminate|].
  pose proof (cumul_last t ns) as H. rewrite E in *. rewrite pylast_app in H. injection H as ->.
  rewrite add_last_snoc. apply pylast_app.
Qed.

Lemma scale_ks_ok f (im : list (nat * nat)) Nm ks unck :
  length im = length Nm -> length ks = list_sum Nm ->
  (forall n u, nth_error unck n = Some u -> nth_error Nm n = Some (length u)) -> length unck = length Nm ->
  scale_ks f im (cumul 0 Nm) ks unck = Ok (zip2 f ks (concat unck)).
Proof.
  intros Him Hk Hu Hl. unfold scale_ks. rewrite pylast_cumul. cbn [bind plus].
  assert (EN : Nm = map (@length R) unck).
  { apply nth_error_ext. intros i. rewrite nth_error_map'. destruct (nth_error unck i) as [u|] eqn:E; [apply Hu; auto|].
    apply nth_error_None. apply nth_error_None in E. lia. }
  destruct (chop_spec Nm ks Hk) as (C1 & C2).
  set (vs := map (fun p => zip2 f (fst p) (snd p)) (combine (chop Nm ks) unck)).
  assert (Hcl : length (chop Nm ks) = length unck).
  { rewrite <- (map_length (@length R) (chop Nm ks)), C2. auto. }
  assert (Hvl : map (@length R) vs = Nm).
  { apply nth_error_ext. intros i. unfold vs. rewrite map_map, nth_error_map'.
    destruct (nth_error (combine (chop Nm ks) unck) i) as [[a b]|] eqn:E.
    - assert (Ha : nth_error (chop Nm ks) i = Some a /\ nth_error unck i = Some b).
      { clear - E. revert i E. generalize (chop Nm ks). intros l. revert unck. induction l as [|x l IH]; intros [|y unck] [|i] E; cbn in *; try discriminate.
        - injection E as <- <-. auto.
        - apply IH; auto. }
      destruct Ha as (Ha & Hb). cbn [option_map fst snd]. assert (length a = length b).
      { specialize (Hu i b Hb). rewrite <- C2, nth_error_map', Ha in Hu. cbn in Hu. congruence. }
      rewrite zip2_length by auto. rewrite (Hu i b Hb). congruence.
    - apply nth_error_None in E. rewrite combine_length in E. cbn. symmetry. apply nth_error_None. lia. }
  assert (Ecat : zip2 f ks (concat unck) = concat vs).
  { rewrite <- C1. unfold vs. clear - C2 EN. revert C2. rewrite EN. generalize (chop (map (@length R) unck) ks). clear EN.
    induction unck as [|u unck IH]; intros [|c l] H; cbn in H; try discriminate; [reflexivity|]. injection H as H1 H2.
    cbn [concat combine map fst snd]. rewrite <- (IH l H2). unfold zip2. clear - H1.
    revert u H1. induction c as [|x c IH]; intros [|y u] H; cbn in *; try discriminate; [reflexivity|]. f_equal. apply IH. lia. }
  rewrite Ecat. pose proof (block_fold 0%R (fun arr p => (fun arr i =>
    do s <- get (cumul 0 Nm) i;; do e <- get (cumul 0 Nm) (i + 1);; do u <- get unck i;;
    do v <- bop f (slice s e ks) u;; assign s e v arr) arr (fst p)) im vs []) as B.
  rewrite !app_nil_r in B. rewrite Hvl in B. rewrite <- B.
  - rewrite <- (enumerate_map_fst im). rewrite foldM_map. reflexivity.
  - unfold vs. rewrite map_length, combine_length. lia.
  - intros i x v pre post _ Hv Hp. cbn [fst].
    assert (Hi : i < length Nm) by (rewrite <- Hvl, map_length; apply nth_error_Some; congruence).
    assert (HN : nth_error Nm i = Some (length v)) by (rewrite <- Hvl, nth_error_map', Hv; auto).
    rewrite (proj2 (get_ok _ _ _) (cumul_nth 0 Nm i ltac:(lia))). cbn [bind].
    rewrite (proj2 (get_ok _ _ _) (cumul_nth 0 Nm (i + 1) ltac:(lia))). cbn [bind].
    unfold vs in Hv. rewrite nth_error_map' in Hv. destruct (nth_error (combine (chop Nm ks) unck) i) as [[a b]|] eqn:E; [|discriminate].
    cbn [option_map fst snd] in Hv. injection Hv as <-.
    assert (Ha : nth_error (chop Nm ks) i = Some a /\ nth_error unck i = Some b).
    { clear - E. revert i E. generalize (chop Nm ks). intros l. revert unck. induction l as [|y l IH]; intros [|y' unck] [|i] E; cbn in *; try discriminate.
      - injection E as <- <-. auto.
      - apply IH; auto. }
    destruct Ha as (Ha & Hb). rewrite (proj2 (get_ok _ _ _) Hb). cbn [bind].
    assert (Hab : length a = length b).
    { specialize (Hu i b Hb). rewrite <- C2, nth_error_map', Ha in Hu. cbn in Hu. congruence. }
    rewrite zip2_length in HN by auto.
    rewrite (Nat.add_1_r i), (list_sum_firstn_S _ _ _ HN). cbn [plus].
    replace (slice (list_sum (firstn i Nm)) (list_sum (firstn i Nm) + length a) ks) with a.
    + rewrite bop_eq by auto. cbn [bind].
      rewrite <- Hp.
      replace (length a) with (length (repeat 0%R (length (zip2 f a b)))) by (rewrite repeat_length, zip2_length; auto).
      apply assign_mid. rewrite repeat_length. reflexivity.
    + pose proof (is_block_concat _ _ _ Ha) as (lo & hi & L1 & L2 & _ & L3). rewrite C1, C2 in *.
      rewrite (cumul_nth 0 Nm i) in L1 by lia. rewrite (cumul_nth 0 Nm (i + 1)) in L2 by lia. cbn [plus] in *.
      injection L1 as <-. injection L2 as <-. rewrite (Nat.add_1_r i), (list_sum_firstn_S _ _ _ HN) in L3. exact L3.
Qed.
