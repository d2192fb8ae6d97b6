(** * C26, part 1: the forward product, entry by entry.  Proofs only. *)
From Coq Require Import Reals Lra Sorted.
From Verif Require Import Base BaseLemmas ReaderModel UncModel MuModel MuProofs SensorSpec SampleSpec SampleProofs TransformModel TransformSpec TransformProofs TransformProofs2 TransformMain TransformMain2 TransformMain3 EvalModel EvalSpec EvalProofs EvalMain GNModel GNSpec GNAlgebra GNTerms GNAdjoint GNMain GNResidual.
Open Scope nat_scope.

Lemma rsum_single {A} (F : A -> R) l n x : nth_error l n = Some x -> (forall k y, nth_error l k = Some y -> k <> n -> F y = 0%R) -> rsum (map F l) = F x.
Proof.
  revert n. induction l as [|a l IH]; intros [|n] Hn H; try discriminate; cbn [map]; rewrite rsum_cons.
  - cbn in Hn. injection Hn as ->. assert (Z : rsum (map F l) = 0%R); [|rewrite Z; lra].
    assert (G : forall y, In y l -> F y = 0%R) by (intros y Hy; apply In_nth_error in Hy as (k & Hk); apply (H (S k) y Hk); lia).
    clear - G. induction l as [|b l IH]; [reflexivity|]. cbn [map]. rewrite rsum_cons, IH by (intros; apply G; right; auto). rewrite G by (left; auto). lra.
  - rewrite (H 0 a eq_refl) by lia. rewrite (IH n Hn); [lra|]. intros k y Hk Hne. apply (H (S k) y Hk). lia.
Qed.

Definition adds (n2 : nat) (F : list R -> res (list R)) (t : nat -> R) : Prop :=
  forall A, length A = n2 -> exists A', F A = Ok A' /\ length A' = n2 /\ forall j, j < n2 -> nth j A' 0%R = (nth j A 0 + t j)%R.
Definition win (lo N : nat) (g : nat -> R) (j : nat) : R := if (lo <=? j) && (j <? lo + N) then g (j - lo) else 0%R.

Lemma win_in lo N g i : i < N -> win lo N g (lo + i) = g i.
Proof.
  intros H. unfold win. replace (lo <=? lo + i) with true by (symmetry; apply Nat.leb_le; lia). replace (lo + i <? lo + N) with true by (symmetry; apply Nat.ltb_lt; lia).
  cbn [andb]. f_equal. lia.
Qed.
Lemma win_out lo N g j : j < lo \/ lo + N <= j -> win lo N g j = 0%R.
Proof.
  intros H. unfold win. destruct (Nat.leb_spec lo j); [|reflexivity]. destruct (Nat.ltb_spec j (lo + N)); [lia|reflexivity].
Qed.
Lemma win_ext lo N g g' j : (forall i, i < N -> g i = g' i) -> win lo N g j = win lo N g' j.
Proof.
  intros H. unfold win. destruct (Nat.leb_spec lo j); [|reflexivity]. destruct (Nat.ltb_spec j (lo + N)); [|reflexivity]. cbn. apply H. lia.
Qed.
Lemma win_plus lo N g g' j : (win lo N g j + win lo N g' j)%R = win lo N (fun i => g i + g' i)%R j.
Proof. unfold win. destruct (_ && _); lra. Qed.
Lemma win_sum {A} lo N (g : A -> nat -> R) l j : rsum (map (fun k => win lo N (g k) j) l) = win lo N (fun i => rsum (map (fun k => g k i) l)) j.
Proof. unfold win. destruct (_ && _); [reflexivity|apply rsum_zero]. Qed.

Lemma adds_eq n2 F t t' : adds n2 F t -> (forall j, j < n2 -> t j = t' j) -> adds n2 F t'.
Proof. intros H E A HA. destruct (H A HA) as (A' & E1 & L & P). exists A'. split; [auto|]. split; [auto|]. intros j Hj. rewrite P, E by auto. reflexivity. Qed.
Lemma adds_ext n2 F F' t : adds n2 F t -> (forall A, length A = n2 -> F' A = F A) -> adds n2 F' t.
Proof. intros H E A HA. rewrite E by auto. apply H. auto. Qed.
Lemma adds_comp n2 F G t t' : adds n2 F t -> adds n2 G t' -> adds n2 (fun A => do A1 <- F A;; G A1) (fun j => t j + t' j)%R.
Proof.
  intros H H' A HA. destruct (H A HA) as (A1 & E1 & L1 & P1). rewrite E1. cbn [bind]. destruct (H' A1 L1) as (A2 & E2 & L2 & P2).
  exists A2. split; [auto|]. split; [auto|]. intros j Hj. rewrite P2, P1 by auto. lra.
Qed.
Lemma adds_fold {K} n2 (F : list R -> K -> res (list R)) (t : K -> nat -> R) l : (forall k, In k l -> adds n2 (fun A => F A k) (t k)) ->
  adds n2 (fun A => foldM F l A) (fun j => rsum (map (fun k => t k j) l)).
Proof.
  induction l as [|k l IH]; intros H A HA.
  - exists A. cbn [foldM map]. split; [auto|]. split; [auto|]. intros; cbn; lra.
  - cbn [foldM]. destruct (H k (or_introl eq_refl) A HA) as (A1 & E1 & L1 & P1). rewrite E1. cbn [bind].
    destruct (IH ltac:(intros; apply H; right; auto) A1 L1) as (A2 & E2 & L2 & P2). exists A2. split; [auto|]. split; [auto|].
    intros j Hj. rewrite P2, P1 by auto. cbn [map]. rewrite rsum_cons. lra.
Qed.
Lemma adds_slice n2 lo N v : length v = N -> lo + N <= n2 -> adds n2 (fun A => add_slice lo (lo + N) v A) (win lo N (fun i => nth i v 0%R)).
Proof.
  intros Hv Hle A HA. assert (Hse : lo <= lo + N <= length A) by lia. destruct (cut3 A lo (lo + N) Hse) as (E & L1 & L2).
  unfold add_slice. rewrite bop_eq by lia. cbn [bind].
  set (z := zip2 Rplus (slice lo (lo + N) A) v). assert (Lz : length z = N) by (unfold z; rewrite zip2_len; lia).
  pose proof (assign_mid (firstn lo A) (slice lo (lo + N) A) (skipn (lo + N) A) z) as AM. rewrite <- E in AM. rewrite L1, L2 in AM.
  replace (lo + (lo + N - lo)) with (lo + N) in AM by lia. rewrite AM by lia.
  eexists. split; [reflexivity|]. split; [rewrite !app_length, L1, Lz, skipn_length; lia|].
  intros j Hj. assert (EA : nth j A 0%R = nth j (firstn lo A ++ slice lo (lo + N) A ++ skipn (lo + N) A) 0%R) by (rewrite <- E; reflexivity). rewrite EA. clear EA E AM.
  destruct (Nat.lt_ge_cases j lo) as [C|C].
  - rewrite win_out by lia. rewrite !app_nth1 by lia. lra.
  - destruct (Nat.lt_ge_cases j (lo + N)) as [C'|C'].
    + assert (EW : win lo N (fun i => nth i v 0%R) j = nth (j - lo) v 0%R) by (rewrite <- (win_in lo N (fun i => nth i v 0%R) (j - lo)) by lia; f_equal; lia). rewrite EW. rewrite !(app_nth2 (firstn lo A)) by lia. rewrite (app_nth1 z), (app_nth1 (slice lo (lo + N) A)) by lia.
      rewrite L1. unfold z. rewrite zip2_nth by lia. reflexivity.
    + rewrite win_out by lia. rewrite !(app_nth2 (firstn lo A)) by lia. rewrite (app_nth2 z), (app_nth2 (slice lo (lo + N) A)) by lia. rewrite L1, L2, Lz. replace (j - lo - (lo + N - lo)) with (j - lo - N) by lia. lra.
Qed.

Lemma wmul_plus w N nc v v' : csr_shape w N nc -> length v = nc -> length v' = nc ->
  wmul w N (zip2 Rplus v v') = zip2 Rplus (wmul w N v) (wmul w N v').
Proof.
  intros Sh Hv Hv'. pose proof (wmul_len w N v) as L1. pose proof (wmul_len w N v') as L2.
  apply (nth_ext _ _ 0%R 0%R); [rewrite wmul_len, zip2_len; lia|]. intros i Hi. rewrite wmul_len in Hi. rewrite zip2_nth by lia.
  unfold wmul. rewrite !nth_mapseq by auto. rewrite !(row_apply_entries w _ N nc) by auto. rewrite <- rsum_plus. apply rsum_ext.
  intros j Hj. apply in_seq in Hj. rewrite zip2_nth by lia. ring.
Qed.

Lemma nth_repeat_lt (c : R) n i : i < n -> nth i (repeat c n) 0%R = c.
Proof. revert i. induction n as [|n IH]; intros [|i] H; cbn; try lia; auto. apply IH. lia. Qed.

Lemma prod5_ok' N s JB JRc uK xs r : length JB = N -> length JRc = N -> length uK = N -> length xs = N -> length r = N ->
  prod5 s JB JRc xs r uK = Ok (zip2 Rdiv (zip2 Rmult (zip2 Rmult (zip2 Rmult (scal s JB) JRc) xs) r) uK).
Proof.
  intros H1 H2 H3 H4 H5. unfold prod5. rewrite bop_eq by lens. cbn [bind]. rewrite bop_eq by lens. cbn [bind]. rewrite bop_eq by lens. cbn [bind].
  rewrite bop_eq by lens. reflexivity.
Qed.

Section Fwd.
Context {T : Type}.
Variables (m : mobj R T) (st : solver T).
Hypothesis SF : solver_for m st.
Hypothesis FO : functions_ok m st.
Notation d := (g_m T st).
Notation sd := (g_sd T st).
Notation n1 := (n_vars st + n_pars st).
Notation n2 := (n_vars st + n_ks st).
Variables (nv : list nat) (ns : nat).
Hypothesis St : state_of m d nv ns.

(** column of block [b] in original form, from the unknowns [x] *)
Definition cv (b : nat) (x : list R) : list R :=
  match nth_error (m_unc R T m) b, nth_error (N_var (m_idx R T m)) b, nth_error nv b with
  | Some u, Some N, Some n' => rev_val m (list_sum nv) x (slice (list_sum (firstn b nv)) (list_sum (firstn b nv) + n') x) u N
  | _, _, _ => []
  end.

Lemma nvars_eq : n_vars st = list_sum nv + ns.
Proof. apply (st_len _ _ _ _ St). Qed.

(** everything about one block *)
Lemma cv_facts b N n : nth_error (n_mu (m_idx R T m)) b = Some (n + 1) -> nth_error (Nm (m_idx R T m)) n = Some N ->
  exists u ib n', nth_error (m_unc R T m) b = Some u /\ nth_error (N_var (m_idx R T m)) b = Some N /\ nth_error nv b = Some n' /\ ib = list_sum (firstn b nv) /\
    get (idxs (m_idx R T d)) b = Ok ib /\ get (N_var (m_idx R T d)) b = Ok n' /\ get (m_unc R T d) b = Ok u /\ ib + n' <= list_sum nv /\
    (forall x, cv b x = rev_val m (list_sum nv) x (slice ib (ib + n') x) u N) /\
    match u_kind R u with
    | UK1 _ r => length r = N /\ n' = N
    | UK2 _ r c => length r = N /\ length c = N /\ n' = N /\ exists k, u_sysi R u = Some k /\ 1 <= k <= ns
    | UK3 _ wi ui => exists w uv, nth_error (m_ws R T m) wi = Some w /\ nth_error (m_us R T m) ui = Some uv /\
                       csr_shape w N (length uv) /\ n' = length uv
    | UK4 _ wi ui _ => exists w uv k, nth_error (m_ws R T m) wi = Some w /\ nth_error (m_us R T m) ui = Some uv /\
                       csr_shape w N (length uv) /\ n' = length uv /\ u_sysi R u = Some k /\ 1 <= k <= ns
    end.
Proof.
  intros Hmu HN. destruct (block_series m st SF b n Hmu) as (u & N' & Hu & HN' & HNv). assert (N' = N) by congruence. subst N'.
  destruct (block_facts m st SF nv ns b u N St Hu HNv) as (ib & n' & G1 & G2 & G3 & Hle & Hk).
  assert (Hn' : nth_error nv b = Some n') by (rewrite (st_nv _ _ _ _ St) in G2; apply get_ok; auto).
  destruct (state_block m d nv ns St b n' Hn') as (ib' & G1' & _ & Eib & _). assert (Eib2 : ib = list_sum (firstn b nv)) by congruence. clear ib' G1' Eib.
  rewrite (st_ws _ _ _ _ St), (st_us _ _ _ _ St) in Hk.
  exists u, ib, n'. do 8 (split; [auto|]). split; [|exact Hk]. intros x. unfold cv. rewrite Hu, HNv, Hn', <- Eib2. reflexivity.
Qed.

Lemma cv_len b N n x : nth_error (n_mu (m_idx R T m)) b = Some (n + 1) -> nth_error (Nm (m_idx R T m)) n = Some N -> n_vars st <= length x -> length (cv b x) = N.
Proof.
  intros Hmu HN Hx. destruct (cv_facts b N n Hmu HN) as (u & ib & n' & _ & _ & _ & _ & _ & _ & _ & Hle & -> & Hk). pose proof nvars_eq as NV.
  assert (Ls : length (slice ib (ib + n') x) = n') by (rewrite slice_length'; lia).
  unfold rev_val. destruct (u_kind R u) as [r|r c|wi ui|wi ui c].
  - destruct Hk as (L & ->). rewrite zip2_len. lia.
  - destruct Hk as (L & L' & -> & _). rewrite !zip2_len, map_length. lia.
  - destruct Hk as (w & uv & -> & -> & _). rewrite map_length, seq_length. reflexivity.
  - destruct Hk as (w & uv & k & -> & -> & _). rewrite map_length, seq_length. reflexivity.
Qed.

Lemma nth_vadd i a b : length a = length b -> nth i (vadd a b) 0%R = (nth i a 0 + nth i b 0)%R.
Proof.
  revert i b. induction a as [|x a IH]; intros i [|y b] H; try discriminate; [destruct i; cbn; lra|].
  destruct i; cbn [vadd nth]; [reflexivity|]. apply IH. cbn in H. lia.
Qed.
Lemma nth_vscale i h a : nth i (vscale h a) 0%R = (h * nth i a 0)%R.
Proof.
  unfold vscale. revert i. induction a as [|x a IH]; intros [|i]; cbn [map nth]; try lra. apply IH.
Qed.
Lemma nth_slice_R lo hi (x : list R) i : i < hi - lo -> nth i (slice lo hi x) 0%R = nth (lo + i) x 0%R.
Proof.
  intros H. unfold slice. revert lo H. assert (G : forall (l : list R) k i, i < k -> nth i (firstn k l) 0%R = nth i l 0%R).
  { induction l as [|a l IH]; intros [|k] [|j] Hj; cbn; try lia; auto. apply IH. lia. }
  intros lo H. rewrite G by auto. clear. revert lo. induction x as [|a x IH]; intros [|lo]; cbn; auto. destruct i; reflexivity.
Qed.

Lemma cv_linear b N n x y h i : nth_error (n_mu (m_idx R T m)) b = Some (n + 1) -> nth_error (Nm (m_idx R T m)) n = Some N ->
  n_vars st <= length x -> length y = length x -> i < N ->
  nth i (cv b (vadd x (vscale h y))) 0%R = (nth i (cv b x) 0 + h * nth i (cv b y) 0)%R.
Proof.
  intros Hmu HN Hx Hy Hi. destruct (cv_facts b N n Hmu HN) as (u & ib & n' & _ & _ & _ & _ & _ & _ & _ & Hle & Hcv & Hk). pose proof nvars_eq as NV. rewrite !Hcv.
  assert (Lv : length (vadd x (vscale h y)) = length x) by (rewrite vadd_len; rewrite ?vscale_len; lia).
  assert (Lsc : length (vscale h y) = length x) by (rewrite vscale_len; auto).
  assert (Ls : forall z : list R, length z = length x -> length (slice ib (ib + n') z) = n') by (intros z Hz; rewrite slice_length'; lia).
  pose proof (Ls _ Lv) as L1. pose proof (Ls x eq_refl) as L2. pose proof (Ls _ Hy) as L3.
  assert (Es : forall j, j < n' -> nth j (slice ib (ib + n') (vadd x (vscale h y))) 0%R = (nth j (slice ib (ib + n') x) 0 + h * nth j (slice ib (ib + n') y) 0)%R).
  { intros j Hj. rewrite !nth_slice_R by lia. rewrite nth_vadd, nth_vscale by lia. reflexivity. }
  set (s1 := slice ib (ib + n') (vadd x (vscale h y))) in *. set (s2 := slice ib (ib + n') x) in *. set (s3 := slice ib (ib + n') y) in *. clearbody s1 s2 s3.
  unfold rev_val. destruct (u_kind R u) as [r|r c|wi ui|wi ui c].
  - destruct Hk as (L & ->). rewrite !zip2_nth by lia. rewrite Es by auto. ring.
  - destruct Hk as (L & L' & -> & k & -> & Hks). rewrite !zip2_nth by (rewrite ?zip2_len, ?map_length; lia). rewrite !nth_map0 by lia.
    rewrite nth_vadd, nth_vscale by lia. rewrite Es by auto. ring.
  - destruct Hk as (w & uv & -> & -> & Sh & ->). rewrite !map_id. fold (wmul w N (zip2 Rmult uv s1)) (wmul w N (zip2 Rmult uv s2)) (wmul w N (zip2 Rmult uv s3)).
    assert (E : zip2 Rmult uv s1 = zip2 Rplus (zip2 Rmult uv s2) (map (fun z => z * h)%R (zip2 Rmult uv s3))).
    { clear i Hi. lext. rewrite Es by lia. ring. }
    rewrite E. rewrite (wmul_plus w N (length uv)) by (auto; lens). rewrite (wmul_scale w N (length uv)) by (auto; lens).
    rewrite zip2_nth by (rewrite ?map_length, !wmul_len; lia). rewrite nth_map0 by (rewrite wmul_len; auto). ring.
  - destruct Hk as (w & uv & k & -> & -> & Sh & -> & -> & Hks).
    set (y1 := nth (list_sum nv + k - 1) (vadd x (vscale h y)) 0%R). set (y2 := nth (list_sum nv + k - 1) x 0%R). set (y3 := nth (list_sum nv + k - 1) y 0%R).
    assert (Ey : y1 = (y2 + h * y3)%R) by (unfold y1; rewrite nth_vadd, nth_vscale by lia; reflexivity). clearbody y1 y2 y3.
    fold (wmul w N (map (fun x0 => (x0 + y1 * c)%R) (zip2 Rmult uv s1))) (wmul w N (map (fun x0 => (x0 + y2 * c)%R) (zip2 Rmult uv s2))) (wmul w N (map (fun x0 => (x0 + y3 * c)%R) (zip2 Rmult uv s3))).
    assert (E : map (fun x0 => (x0 + y1 * c)%R) (zip2 Rmult uv s1) = zip2 Rplus (map (fun x0 => (x0 + y2 * c)%R) (zip2 Rmult uv s2)) (map (fun z => z * h)%R (map (fun x0 => (x0 + y3 * c)%R) (zip2 Rmult uv s3)))).
    { clear i Hi. lext. rewrite Es by lia. rewrite Ey. ring. }
    rewrite E. rewrite (wmul_plus w N (length uv)) by (auto; lens). rewrite (wmul_scale w N (length uv)) by (auto; lens).
    rewrite zip2_nth by (rewrite ?map_length, !wmul_len; lia). rewrite nth_map0 by (rewrite wmul_len; auto). ring.
Qed.

(** one covariate in the forward product *)
Lemma cov_adds b N n s JB JRc uK istart ib n' u x : nth_error (n_mu (m_idx R T m)) b = Some (n + 1) -> nth_error (Nm (m_idx R T m)) n = Some N ->
  length JB = N -> length JRc = N -> length uK = N -> length x = n1 -> istart + N <= n2 ->
  get (idxs (m_idx R T d)) b = Ok ib -> get (N_var (m_idx R T d)) b = Ok n' -> get (m_unc R T d) b = Ok u ->
  adds n2 (fun A => cov_term T false st ns (n_vars st) s JB JRc x uK istart (istart + N) ib (ib + n') u A)
    (win istart N (fun i => s * nth i JB 0 * (nth i JRc 0 * nth i (cv b x) 0) / nth i uK 0)%R).
Proof.
  intros Hmu HN LJB LJR LuK Lx Hle2 G1 G2 G3.
  destruct (cv_facts b N n Hmu HN) as (u' & ib' & n'' & Hu & _ & _ & _ & G1' & G2' & G3' & Hle & Hcv & Hk). pose proof nvars_eq as NV.
  assert (u' = u) by congruence. assert (ib' = ib) by congruence. assert (n'' = n') by congruence. subst u' ib' n''.
  assert (Ls : length (slice ib (ib + n') x) = n') by (rewrite slice_length'; lia).
  rewrite Hcv. unfold cov_term, rev_val. set (xs := slice ib (ib + n') x) in *. clearbody xs.
  destruct (u_kind R u) as [r|r c|wi ui|wi ui c].
  - destruct Hk as (L & ->). eapply adds_eq.
    + eapply adds_ext; [apply (adds_slice n2 istart N (zip2 Rdiv (zip2 Rmult (zip2 Rmult (zip2 Rmult (scal s JB) JRc) xs) r) uK)); [lens|auto]|].
      intros A HA. cbv beta. rewrite (prod5_ok' N s JB JRc uK) by auto. reflexivity.
    + intros j Hj. apply win_ext. intros i Hi. nths. unfold Rdiv. ring.
  - destruct Hk as (L & L' & -> & k & Ek & Hks). unfold sys_no. rewrite Ek. cbn [bind].
    assert (Ei : isys (n_vars st) ns k = Z.of_nat (list_sum nv + k - 1)) by (unfold isys; lia). rewrite Ei.
    assert (Ep : pyget x (Z.of_nat (list_sum nv + k - 1)) = Ok (nth (list_sum nv + k - 1) x 0%R)) by (rewrite pyget_of_nat; apply get_nth; lia).
    set (xi := nth (list_sum nv + k - 1) x 0%R) in *.
    eapply adds_eq.
    + eapply adds_ext; [apply adds_comp;
        [apply (adds_slice n2 istart N (zip2 Rdiv (zip2 Rmult (zip2 Rmult (zip2 Rmult (scal s JB) JRc) xs) r) uK)); [lens|auto]
        |apply (adds_slice n2 istart N (zip2 Rdiv (zip2 Rmult (map (fun y => y * xi)%R (scal s (zip2 Rmult JB JRc))) c) uK)); [lens|auto]]|].
      intros A HA. cbv beta. rewrite (prod5_ok' N s JB JRc uK) by auto. cbn [bind]. destruct (add_slice _ _ _ A) as [A1|]; [|reflexivity]. cbn [bind].
      rewrite bop_eq by lia. cbn [bind]. rewrite Ep. cbn [bind]. rewrite bop_eq by lens. cbn [bind]. rewrite bop_eq by lens. reflexivity.
    + intros j Hj. cbv beta. rewrite win_plus. apply win_ext. intros i Hi. nths. unfold Rdiv. ring.
  - destruct Hk as (w & uv & Hw & Huv & Sh & ->). rewrite (st_ws _ _ _ _ St), (st_us _ _ _ _ St), (proj2 (get_ok _ _ _) Hw), (proj2 (get_ok _ _ _) Huv), Hw, Huv. cbn [bind].
    rewrite map_id. fold (wmul w N (zip2 Rmult uv xs)). pose proof (wmul_len w N (zip2 Rmult uv xs)) as Lw.
    eapply adds_eq.
    + eapply adds_ext; [apply (adds_slice n2 istart N (zip2 Rdiv (zip2 Rmult (zip2 Rmult (scal s JB) JRc) (wmul w N (zip2 Rmult uv xs))) uK)); [lens|auto]|].
      intros A HA. cbv beta. rewrite bop_eq by lens. cbn [bind]. rewrite bop_eq by lens. cbn [bind]. rewrite (wmul_ok w _ N (length uv) Sh) by lens. cbn [bind].
      rewrite bop_eq by lens. cbn [bind]. rewrite bop_eq by lens. reflexivity.
    + intros j Hj. apply win_ext. intros i Hi. nths. unfold Rdiv. ring.
  - destruct Hk as (w & uv & k & Hw & Huv & Sh & -> & Ek & Hks). unfold sys_no. rewrite Ek. cbn [bind].
    rewrite (st_ws _ _ _ _ St), (st_us _ _ _ _ St), (proj2 (get_ok _ _ _) Hw), (proj2 (get_ok _ _ _) Huv), Hw, Huv. cbn [bind].
    assert (Ei : isys (n_vars st) ns k = Z.of_nat (list_sum nv + k - 1)) by (unfold isys; lia). rewrite Ei.
    assert (Ep : pyget x (Z.of_nat (list_sum nv + k - 1)) = Ok (nth (list_sum nv + k - 1) x 0%R)) by (rewrite pyget_of_nat; apply get_nth; lia).
    set (xi := nth (list_sum nv + k - 1) x 0%R) in *.
    fold (wmul w N (map (fun x0 => (x0 + xi * c)%R) (zip2 Rmult uv xs))).
    pose proof (wmul_len w N (zip2 Rmult uv xs)) as Lw. pose proof (wmul_len w N (map (fun y => y * xi)%R (repeat c (length uv)))) as Lw2.
    assert (Ew : wmul w N (map (fun x0 => (x0 + xi * c)%R) (zip2 Rmult uv xs)) = zip2 Rplus (wmul w N (zip2 Rmult uv xs)) (wmul w N (map (fun y => y * xi)%R (repeat c (length uv))))).
    { rewrite <- (wmul_plus w N (length uv)) by (auto; lens). f_equal. lext. rewrite nth_repeat_lt by lia. ring. }
    rewrite Ew.
    eapply adds_eq.
    + eapply adds_ext; [apply adds_comp;
        [apply (adds_slice n2 istart N (zip2 Rdiv (zip2 Rmult (zip2 Rmult (scal s JB) JRc) (wmul w N (zip2 Rmult uv xs))) uK)); [lens|auto]
        |apply (adds_slice n2 istart N (zip2 Rdiv (zip2 Rmult (scal s (zip2 Rmult JB JRc)) (wmul w N (map (fun y => y * xi)%R (repeat c (length uv))))) uK)); [lens|auto]]|].
      intros A HA. cbv beta. rewrite bop_eq by lens. cbn [bind]. rewrite bop_eq by lens. cbn [bind]. rewrite (wmul_ok w _ N (length uv) Sh) by lens. cbn [bind].
      rewrite bop_eq by lens. cbn [bind]. rewrite bop_eq by lens. cbn [bind]. destruct (add_slice _ _ _ A) as [A1|]; [|reflexivity]. cbn [bind].
      rewrite bop_eq by lia. cbn [bind]. rewrite Ep. cbn [bind]. rewrite (wmul_ok w _ N (length uv) Sh) by lens. cbn [bind].
      rewrite bop_eq by lens. cbn [bind]. rewrite bop_eq by lens. reflexivity.
    + intros j Hj. cbv beta. rewrite win_plus. apply win_ext. intros i Hi. nths. unfold Rdiv. ring.
Qed.
End Fwd.
