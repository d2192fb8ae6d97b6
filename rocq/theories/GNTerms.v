From Coq Require Import Reals Lra.
From Verif Require Import Base BaseLemmas ReaderModel UncModel MuModel MuProofs SampleSpec TransformModel TransformSpec TransformProofs TransformProofs2 TransformMain EvalModel GNModel GNSpec GNAlgebra.
Open Scope nat_scope.

Ltac lens := repeat (first [rewrite zip2_len|rewrite scal_len|rewrite map_length|rewrite seq_length|rewrite repeat_length|rewrite app_length]); lia.

Lemma nth_map0 (f : R -> R) l i : i < length l -> nth i (map f l) 0%R = f (nth i l 0%R).
Proof. intros H. rewrite (nth_indep _ 0%R (f 0%R)) by (rewrite map_length; auto). apply map_nth. Qed.
Lemma nth_scal s l i : i < length l -> nth i (scal s l) 0%R = (s * nth i l 0)%R.
Proof. apply nth_map0. Qed.
Lemma nth_mapseq (f : nat -> R) n i : i < n -> nth i (map f (seq 0 n)) 0%R = f i.
Proof. intros H. rewrite (nth_indep _ 0%R (f 0)) by lens. rewrite map_nth, seq_nth by auto. reflexivity. Qed.
Ltac nths := repeat (first [rewrite zip2_nth by lens | rewrite nth_scal by lens | rewrite nth_mapseq by lens | rewrite nth_map0 by lens]).
Ltac lext := apply (nth_ext _ _ 0%R 0%R); [lens|]; intros ?i Hi; repeat (first [rewrite zip2_len in Hi|rewrite scal_len in Hi|rewrite map_length in Hi|rewrite seq_length in Hi]); nths.

(** ** sparse matrices *)
Lemma entries_sum (es : list (nat * R)) (v : nat -> R) nc : (forall c, In c (map fst es) -> c < nc) ->
  rsum (map (fun e => (snd e * v (fst e))%R) es) = rsum (map (fun j => rsum (map snd (filter (fun p => fst p =? j) es)) * v j)%R (seq 0 nc)).
Proof.
  induction es as [|e es IH]; intros H.
  - cbn [map filter]. rewrite (rsum_ext _ (fun _ => 0%R)) by (intros; cbn; lra). rewrite rsum_zero. reflexivity.
  - cbn [map]. rewrite rsum_cons, IH by (intros; apply H; right; auto).
    assert (He : fst e < nc) by (apply H; left; auto).
    rewrite (rsum_ext (fun j => (rsum (map snd (filter (fun p => fst p =? j) (e :: es))) * v j)%R)
                      (fun j => ((if j =? fst e then snd e * v (fst e) else 0) + rsum (map snd (filter (fun p => fst p =? j) es)) * v j)%R)).
    + rewrite rsum_plus. f_equal.
      clear - He. assert (G : forall k n, k <= fst e < k + n -> rsum (map (fun j => if j =? fst e then (snd e * v (fst e))%R else 0%R) (seq k n)) = (snd e * v (fst e))%R).
      { intros k n. revert k. induction n as [|n IH]; intros k Hk; [lia|]. cbn [seq map]. rewrite rsum_cons.
        destruct (Nat.eqb_spec k (fst e)).
        - rewrite (rsum_ext _ (fun _ => 0%R)); [rewrite rsum_zero; lra|]. intros j Hj. apply in_seq in Hj. destruct (Nat.eqb_spec j (fst e)); [lia|auto].
        - rewrite IH by lia. lra. }
      symmetry. apply G. lia.
    + intros j _. cbn [filter]. rewrite (Nat.eqb_sym j (fst e)). destruct (Nat.eqb_spec (fst e) j) as [->|]; cbn [map]; rewrite ?rsum_cons; lra.
Qed.

Lemma row_apply_entries w v N nc i : csr_shape w N nc -> i < N ->
  row_apply w v i = rsum (map (fun j => csr_entry w i j * v j)%R (seq 0 nc)).
Proof.
  intros Sh Hi. unfold row_apply. change (fold_right Rplus 0%R) with rsum. rewrite (entries_sum _ v nc) by (intros c; apply (entry_col w N nc Sh i c Hi)).
  reflexivity.
Qed.

Definition wmul (w : csr R) (N : nat) (v : list R) : list R := map (row_apply w (fun c => nth c v 0%R)) (seq 0 N).
Definition wtmul (w : csr R) (v : list R) : list R :=
  map (fun j => rsum (map (fun i => csr_entry w i j * nth i v 0)%R (seq 0 (c_nrows R w)))) (seq 0 (c_ncols R w)).
Lemma wmul_len w N v : length (wmul w N v) = N.
Proof. unfold wmul. lens. Qed.
Lemma wtmul_len w v N nc : csr_shape w N nc -> length (wtmul w v) = nc.
Proof. intros Sh. unfold wtmul. rewrite map_length, seq_length. apply Sh. Qed.
Lemma wmul_ok w v N nc : csr_shape w N nc -> length v = nc -> csr_dot w v = Ok (wmul w N v).
Proof. apply csr_dot_ok. Qed.
Lemma wtmul_ok w v N nc : csr_shape w N nc -> length v = N -> csr_tdot w v = Ok (wtmul w v).
Proof. intros Sh Hv. unfold csr_tdot. assert (E : c_nrows R w = N) by apply Sh. rewrite E, Hv, Nat.eqb_refl, <- E. reflexivity. Qed.

Lemma wmul_adj w N nc x y : csr_shape w N nc -> length x = nc -> length y = N -> dotp (wmul w N x) y = dotp x (wtmul w y).
Proof.
  intros Sh Hx Hy. rewrite (dotp_sum _ _ N) by (rewrite ?wmul_len; auto). rewrite (dotp_sum _ _ nc) by (rewrite ?(wtmul_len w y N nc Sh); auto).
  rewrite (rsum_ext _ (fun i => rsum (map (fun j => nth j x 0 * (csr_entry w i j * nth i y 0))%R (seq 0 nc)))).
  - rewrite rsum_swap. apply rsum_ext. intros j Hj. apply in_seq in Hj. unfold wtmul.
    assert (E : c_nrows R w = N /\ c_ncols R w = nc) by (split; apply Sh). destruct E as (-> & ->).
    rewrite (nth_mapseq (fun j => rsum (map (fun i => csr_entry w i j * nth i y 0)%R (seq 0 N)))) by lia. apply rsum_scal_l.
  - intros i Hi. apply in_seq in Hi. unfold wmul. rewrite (nth_mapseq (row_apply w (fun c => nth c x 0%R))) by lia.
    rewrite (row_apply_entries w _ N nc i Sh) by lia. rewrite <- rsum_scale. apply rsum_ext. intros j _. ring.
Qed.

Lemma wmul_scale w N nc v k : csr_shape w N nc -> length v = nc -> wmul w N (map (fun y => y * k)%R v) = map (fun y => y * k)%R (wmul w N v).
Proof.
  intros Sh Hv. unfold wmul. lext. rewrite !(row_apply_entries w _ N nc) by (auto; lia). rewrite <- rsum_scale. apply rsum_ext.
  intros j Hj. apply in_seq in Hj. rewrite nth_map0 by lia. ring.
Qed.

(** ** one covariate *)
Section Cov.
Context {T : Type}.
Variables (st : solver T) (n1 n2 N ns tot : nat) (s : R) (JB JRc uK : list R) (istart iend ib ie : nat) (u : unc R).
Hypothesis HJB : length JB = N.
Hypothesis HJRc : length JRc = N.
Hypothesis HuK : length uK = N.
Hypothesis Hk : iend = istart + N.
Hypothesis Hk2 : iend <= n2.
Hypothesis Hb : ib <= ie <= n1.
Hypothesis Hsys : tot + ns <= n1.

Lemma slice_k (y : list R) : length y = n2 -> length (slice istart iend y) = N.
Proof. intros H. rewrite slice_length' by lia. lia. Qed.
Lemma slice_b (x : list R) : length x = n1 -> length (slice ib ie x) = ie - ib.
Proof. intros H. apply slice_length'. lia. Qed.

Lemma prod5_ok xs r : length xs = N -> length r = N ->
  prod5 s JB JRc xs r uK = Ok (zip2 Rdiv (zip2 Rmult (zip2 Rmult (zip2 Rmult (scal s JB) JRc) xs) r) uK).
Proof.
  intros H1 H2. unfold prod5. rewrite bop_eq by lens. cbn [bind]. rewrite bop_eq by lens. cbn [bind]. rewrite bop_eq by lens. cbn [bind].
  apply bop_eq. lens.
Qed.

Lemma adj_random r : length r = N -> ie - ib = N ->
  adj n1 n2 (fun x A => do t <- prod5 s JB JRc (slice ib ie x) r uK;; add_slice istart iend t A)
            (fun y B => do t <- prod5 s JB JRc (slice istart iend y) r uK;; add_slice ib ie t B).
Proof.
  intros Hr HN. set (h := fun xs => zip2 Rdiv (zip2 Rmult (zip2 Rmult (zip2 Rmult (scal s JB) JRc) xs) r) uK).
  apply (adj_ext n1 n2 (fun x A => add_slice istart iend (h (slice ib ie x)) A) (fun y B => add_slice ib ie (h (slice istart iend y)) B)).
  - apply adj_slices; auto; try lia.
    + intros x Hx. pose proof (slice_b x Hx). unfold h. lens.
    + intros y Hy. pose proof (slice_k y Hy). unfold h. lens.
    + intros x y Hx Hy. pose proof (slice_b x Hx) as L1. pose proof (slice_k y Hy) as L2. unfold h.
      rewrite !(dotp_sum _ _ N) by lens. apply rsum_ext. intros i Hi. apply in_seq in Hi. nths. unfold Rdiv. ring.
  - intros x A Hx HA. rewrite prod5_ok; [reflexivity|rewrite slice_b; auto|auto].
  - intros y B Hy HB. rewrite prod5_ok; [reflexivity|rewrite slice_k; auto|auto].
Qed.

Lemma isys_nat k : 1 <= k <= ns -> isys (tot + ns) ns k = Z.of_nat (tot + k - 1).
Proof. unfold isys. lia. Qed.

Lemma adj_systematic k (c : list R) : length c = N -> 1 <= k <= ns ->
  adj n1 n2
    (fun x A => do xi <- pyget x (isys (tot + ns) ns k);;
                do v <- bop Rmult (map (fun y => y * xi)%R (scal s (zip2 Rmult JB JRc))) c;;
                do v <- bop Rdiv v uK;; add_slice istart iend v A)
    (fun y B => do v <- bop Rmult (zip2 Rmult JB JRc) c;; do v <- bop Rdiv v uK;; do d <- np_dot v (slice istart iend y);;
                add_item (isys (tot + ns) ns k) (s * d)%R B).
Proof.
  intros Hc Hks. set (v := zip2 Rdiv (zip2 Rmult (scal s (zip2 Rmult JB JRc)) c) uK).
  assert (Lv : length v = N) by (unfold v; lens).
  eapply adj_ext; [apply (adj_item n1 n2 (isys (tot + ns) ns k) (tot + k - 1) istart iend v (isys_nat k Hks)); lia| |].
  - intros x A Hx HA. cbv beta. destruct (pyget x (isys (tot + ns) ns k)) as [xi|]; [|reflexivity]. cbn [bind].
    rewrite bop_eq by lens. cbn [bind]. rewrite bop_eq by lens. cbn [bind]. f_equal. unfold v. lext. unfold Rdiv. ring.
  - intros y B Hy HB. cbv beta. rewrite bop_eq by lens. cbn [bind]. rewrite bop_eq by lens. cbn [bind]. unfold np_dot.
    rewrite zip2_len, zip2_len, zip2_len, (slice_k y Hy), HJB, HJRc, Hc, HuK, !Nat.min_id, Nat.eqb_refl. cbn [bind]. f_equal.
    pose proof (slice_k y Hy) as L. rewrite !(dotp_sum _ _ N) by (first [exact L|lens]). rewrite <- rsum_scal_l. apply rsum_ext.
    intros i Hi. apply in_seq in Hi. unfold v. nths. unfold Rdiv. ring.
Qed.

Lemma adj_structured w (uv : list R) : csr_shape w N (length uv) -> ie - ib = length uv ->
  adj n1 n2
    (fun x A => do v <- bop Rmult (scal s JB) JRc;; do ux <- bop Rmult uv (slice ib ie x);; do wx <- csr_dot w ux;;
                do v <- bop Rmult v wx;; do t <- bop Rdiv v uK;; add_slice istart iend t A)
    (fun y B => do v <- bop Rmult JB JRc;; do v <- bop Rmult v (slice istart iend y);; do v <- bop Rdiv v uK;;
                do wt <- csr_tdot w v;; do t <- bop Rmult (scal s uv) wt;; add_slice ib ie t B).
Proof.
  intros Sh Hu.
  set (h := fun x => zip2 Rdiv (zip2 Rmult (zip2 Rmult (scal s JB) JRc) (wmul w N (zip2 Rmult uv (slice ib ie x)))) uK).
  set (g := fun y => zip2 Rdiv (zip2 Rmult (zip2 Rmult JB JRc) (slice istart iend y)) uK).
  set (k := fun y => zip2 Rmult (scal s uv) (wtmul w (g y))).
  apply (adj_ext n1 n2 (fun x A => add_slice istart iend (h x) A) (fun y B => add_slice ib ie (k y) B)).
  - apply adj_slices; auto; try lia.
    + intros x Hx. pose proof (slice_b x Hx). unfold h. rewrite zip2_len, zip2_len, zip2_len, wmul_len. lens.
    + intros y Hy. unfold k. rewrite zip2_len, (wtmul_len w _ N (length uv) Sh). lens.
    + intros x y Hx Hy. pose proof (slice_b x Hx) as L1. pose proof (slice_k y Hy) as L2.
      assert (Lg : length (g y) = N) by (unfold g; lens).
      assert (E1 : dotp (h x) (slice istart iend y) = (s * dotp (wmul w N (zip2 Rmult uv (slice ib ie x))) (g y))%R).
      { pose proof (wmul_len w N (zip2 Rmult uv (slice ib ie x))) as L3.
        rewrite (dotp_sum _ _ N) by (first [exact L2|unfold h; lens]).
        rewrite (dotp_sum _ _ N) by (first [exact L3|exact Lg]). rewrite <- rsum_scal_l. apply rsum_ext.
        intros i Hi. apply in_seq in Hi. unfold h, g. nths. unfold Rdiv. ring. }
      rewrite E1. rewrite (wmul_adj w N (length uv)) by (auto; lens).
      pose proof (wtmul_len w (g y) N (length uv) Sh) as L4.
      rewrite !(dotp_sum _ _ (length uv)) by (first [exact L4|unfold k; lens]). rewrite <- rsum_scal_l. apply rsum_ext.
      intros i Hi. apply in_seq in Hi. unfold k. nths. ring.
  - intros x A Hx HA. pose proof (slice_b x Hx) as L1. rewrite bop_eq by lens. cbn [bind]. rewrite bop_eq by lens. cbn [bind].
    rewrite (wmul_ok w _ N (length uv) Sh) by lens. cbn [bind]. rewrite bop_eq by (rewrite wmul_len; lens). cbn [bind].
    rewrite bop_eq by (rewrite zip2_len, wmul_len; lens). reflexivity.
  - intros y B Hy HB. pose proof (slice_k y Hy) as L2. rewrite bop_eq by lens. cbn [bind]. rewrite bop_eq by lens. cbn [bind].
    rewrite bop_eq by lens. cbn [bind]. rewrite (wtmul_ok w _ N (length uv) Sh) by lens. cbn [bind].
    rewrite bop_eq by (rewrite (wtmul_len w _ N (length uv) Sh); lens). reflexivity.
Qed.

Lemma adj_cov : match u_kind R u with
    | UK1 _ r => length r = N /\ ie - ib = N
    | UK2 _ r c => length r = N /\ length c = N /\ ie - ib = N /\ exists k, u_sysi R u = Some k /\ 1 <= k <= ns
    | UK3 _ wi ui => exists w uv, nth_error (m_ws R T (g_m T st)) wi = Some w /\ nth_error (m_us R T (g_m T st)) ui = Some uv /\
                       csr_shape w N (length uv) /\ ie - ib = length uv
    | UK4 _ wi ui _ => exists w uv k, nth_error (m_ws R T (g_m T st)) wi = Some w /\ nth_error (m_us R T (g_m T st)) ui = Some uv /\
                       csr_shape w N (length uv) /\ ie - ib = length uv /\ u_sysi R u = Some k /\ 1 <= k <= ns
    end ->
  adj n1 n2 (fun x A => cov_term T false st ns (tot + ns) s JB JRc x uK istart iend ib ie u A)
            (fun y B => cov_term T true st ns (tot + ns) s JB JRc y uK istart iend ib ie u B).
Proof.
  intros H. unfold cov_term. destruct (u_kind R u) as [r|r c|wi ui|wi ui c].
  - apply adj_random; tauto.
  - destruct H as (Hr & Hc & HN & k & Ek & Hks). unfold sys_no. rewrite Ek. cbn [bind].
    eapply adj_ext; [apply adj_comp; [apply (adj_random r Hr HN)|apply (adj_systematic k c Hc Hks)]| |].
    + intros x A Hx HA. cbv beta. destruct (prod5 s JB JRc (slice ib ie x) r uK) as [t|]; [|reflexivity]. cbn [bind].
      destruct (add_slice istart iend t A) as [A1|]; [|reflexivity]. cbn [bind]. rewrite (bop_eq Rmult JB) by lia. reflexivity.
    + intros y B Hy HB. cbv beta. destruct (prod5 s JB JRc (slice istart iend y) r uK) as [t|]; [|reflexivity]. cbn [bind].
      destruct (add_slice ib ie t B) as [A1|]; [|reflexivity]. cbn [bind]. rewrite (bop_eq Rmult JB) by lia. reflexivity.
  - destruct H as (w & uv & H1 & H2 & Sh & Hl). rewrite (proj2 (get_ok _ _ _) H1), (proj2 (get_ok _ _ _) H2). cbn [bind].
    apply adj_structured; auto.
  - destruct H as (w & uv & k & H1 & H2 & Sh & Hl & Ek & Hks). unfold sys_no. rewrite Ek, (proj2 (get_ok _ _ _) H1), (proj2 (get_ok _ _ _) H2). cbn [bind].
    set (wu := wmul w N (repeat c (length uv))). assert (Lw : length wu = N) by apply wmul_len.
    eapply adj_ext; [apply adj_comp; [apply (adj_structured w uv Sh Hl)|apply (adj_systematic k wu Lw Hks)]| |].
    + intros x A Hx HA. cbv beta.
      destruct (bop Rmult (scal s JB) JRc) as [v|]; [|reflexivity]. cbn [bind].
      destruct (bop Rmult uv (slice ib ie x)) as [ux|]; [|reflexivity]. cbn [bind].
      destruct (csr_dot w ux) as [wx|]; [|reflexivity]. cbn [bind].
      destruct (bop Rmult v wx) as [v2|]; [|reflexivity]. cbn [bind].
      destruct (bop Rdiv v2 uK) as [t|]; [|reflexivity]. cbn [bind].
      destruct (add_slice istart iend t A) as [A1|]; [|reflexivity]. cbn [bind]. rewrite (bop_eq Rmult JB) by lia. cbn [bind].
      destruct (pyget x (isys (tot + ns) ns k)) as [xi|]; [|reflexivity]. cbn [bind].
      rewrite (wmul_ok w _ N (length uv) Sh) by lens. cbn [bind]. rewrite (wmul_scale w N (length uv)) by (auto; lens). fold wu.
      rewrite !(bop_eq Rmult) by lens. cbn [bind].
      assert (E : zip2 Rmult (scal s (zip2 Rmult JB JRc)) (map (fun y => (y * xi)%R) wu) = zip2 Rmult (map (fun y => (y * xi)%R) (scal s (zip2 Rmult JB JRc))) wu).
      { lext. ring. }
      rewrite E. reflexivity.
    + intros y B Hy HB. cbv beta. pose proof (slice_k y Hy) as L2.
      rewrite (bop_eq Rmult JB) by lia. cbn [bind].
      destruct (bop Rmult (zip2 Rmult JB JRc) (slice istart iend y)) as [v|]; [|reflexivity]. cbn [bind].
      destruct (bop Rdiv v uK) as [v2|]; [|reflexivity]. cbn [bind].
      destruct (csr_tdot w v2) as [wt|]; [|reflexivity]. cbn [bind].
      destruct (bop Rmult (scal s uv) wt) as [t|]; [|reflexivity]. cbn [bind].
      destruct (add_slice ib ie t B) as [A1|]; [|reflexivity]. cbn [bind].
      rewrite (wmul_ok w _ N (length uv) Sh) by lens. cbn [bind]. reflexivity.
Qed.

(** the reference sensor *)
Lemma adj_ref r : length r = N -> ie - ib = N ->
  adj n1 n2 (fun x A => do t <- bop Rmult (scal s JB) (slice ib ie x);; do t <- bop Rmult t r;; do t <- bop Rdiv t uK;; add_slice istart iend t A)
            (fun y B => do t <- bop Rmult (scal s JB) (slice istart iend y);; do t <- bop Rmult t r;; do t <- bop Rdiv t uK;; add_slice ib ie t B).
Proof.
  intros Hr HN. set (h := fun xs => zip2 Rdiv (zip2 Rmult (zip2 Rmult (scal s JB) xs) r) uK).
  apply (adj_ext n1 n2 (fun x A => add_slice istart iend (h (slice ib ie x)) A) (fun y B => add_slice ib ie (h (slice istart iend y)) B)).
  - apply adj_slices; auto; try lia.
    + intros x Hx. pose proof (slice_b x Hx). unfold h. lens.
    + intros y Hy. pose proof (slice_k y Hy). unfold h. lens.
    + intros x y Hx Hy. pose proof (slice_b x Hx) as L1. pose proof (slice_k y Hy) as L2. unfold h.
      rewrite !(dotp_sum _ _ N) by lens. apply rsum_ext. intros i Hi. apply in_seq in Hi. nths. unfold Rdiv. ring.
  - intros x A Hx HA. pose proof (slice_b x Hx). rewrite bop_eq by lens. cbn [bind]. rewrite bop_eq by lens. cbn [bind]. rewrite bop_eq by lens. reflexivity.
  - intros y B Hy HB. pose proof (slice_k y Hy). rewrite bop_eq by lens. cbn [bind]. rewrite bop_eq by lens. cbn [bind]. rewrite bop_eq by lens. reflexivity.
Qed.
End Cov.
