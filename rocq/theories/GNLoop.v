(** * C27-C29: the outer loop and the covariance.  Proofs only. *)
From Coq Require Import Reals Lra.
From Verif Require Import Base BaseLemmas ReaderModel UncModel MuModel SensorSpec SampleSpec TransformModel TransformSpec TransformProofs TransformProofs2 EvalModel EvalSpec GNModel GNSpec GNAlgebra GNTerms GNAdjoint GNMain GNResidual.
Open Scope nat_scope.

Lemma cost_sum_sq v : cost_of v = sum_sq v.
Proof.
  unfold cost_of, norm2, sum_sq. rewrite pow2_sqrt.
  - induction v as [|a v IH]; [reflexivity|]. cbn [map inner]. rewrite rsum_cons, IH. reflexivity.
  - induction v as [|a v IH]; [cbn; lra|]. cbn [map]. rewrite rsum_cons. pose proof (Rle_0_sqr a). unfold Rsqr in *. lra.
Qed.
Lemma norm_inf_max v y : norm_inf v = Ok y -> y = max_abs v.
Proof. unfold norm_inf, max_abs. destruct v; [discriminate|]. congruence. Qed.
Lemma converged_criteria l : converged l = true <-> criteria l.
Proof.
  unfold converged, criteria, rleb, rltb. rewrite !andb_true_iff.
  destruct (Rle_dec 0 (l_red l)), (Rlt_dec (l_red l) (l_redtol l)), (Rlt_dec (l_d l) (l_dtol l)), (Rle_dec (l_g l) (l_gtol l)); split; intros H; try tauto; try (destruct H as (((H1 & H2) & H3) & H4); discriminate); repeat split; try lra; auto.
Qed.

Section Loop.
Context {T : Type}.
Variable lsmr : nat -> solver T -> list R -> res (list R).
Variable st : solver T.
Variable tol : R.

Record linv (x0 : list R) (g : gstate) (xs : list (list R)) : Prop := {
  li_hist : history st tol x0 xs (s_log g);
  li_iter : s_iter g = length (s_log g);
  li_last : nth_error xs (s_iter g) = Some (s_xyza g);
  li_res : calc_f T (with_xyza T st (s_xyza g)) (s_xyza g) = Ok (s_res g);
  li_prev : s_prev g = sum_sq (s_res g);
  li_cost : 1 <= s_iter g -> s_cost g = Some (sum_sq (s_res g));
  li_open : forall k l, nth_error (s_log g) k = Some l -> S k < s_iter g -> ~ criteria l;
  li_conv : s_conv g = true <-> exists l k, s_iter g = S k /\ nth_error (s_log g) k = Some l /\ criteria l
}.

Lemma iter_inv x0 g g' xs : linv x0 g xs -> s_conv g = false -> gn_iter T lsmr st tol g = Ok g' -> s_iter g' = S (s_iter g) /\ linv x0 g' (xs ++ [s_xyza g']).
Proof.
  intros [Hh Hi Hl Hr Hp Hc Ho Hv] Hconv E. unfold gn_iter in E.
  destruct (lsmr _ _ _) as [sol|] eqn:Esol; cbn [bind] in E; [|discriminate].
  destruct (calc_Px T _ sol false) as [dd|] eqn:Ed; cbn [bind] in E; [|discriminate].
  destruct (Nat.eqb_spec (length dd) (length (s_xyza g))) as [El|]; cbn [bind] in E; [|discriminate].
  rewrite bop_eq in E by auto. cbn [bind] in E. set (x' := zip2 Rplus (s_xyza g) dd) in *.
  destruct (calc_f T _ x') as [res'|] eqn:Er; cbn [bind] in E; [|discriminate].
  destruct (calc_prod_JPx T _ res' true) as [jt|] eqn:Ej; cbn [bind] in E; [|discriminate].
  destruct (norm_inf dd) as [nd|] eqn:End; cbn [bind] in E; [|discriminate].
  destruct (norm_inf x') as [nx|] eqn:Enx; cbn [bind] in E; [|discriminate].
  destruct (norm_inf (map (Rmult 2) jt)) as [ng|] eqn:Eng; cbn [bind] in E; [|discriminate].
  apply norm_inf_max in End, Enx, Eng. rewrite !cost_sum_sq in E.
  match type of E with Ok (mkG _ _ _ _ _ (converged ?l) _) = _ => set (lg := l) in * end.
  injection E as <-. cbn [s_iter s_xyza s_res s_prev s_cost s_conv s_log].
  split; [reflexivity|]. destruct Hh as (H1 & H2 & H3).
  assert (IT : iteration st tol (S (s_iter g)) (s_xyza g) x' lg).
  { constructor.
    - reflexivity.
    - exists (s_res g), res', jt. unfold lg. cbn [l_red l_redtol l_g l_gtol]. rewrite Hp.
      do 5 (split; [auto|]). split; [exact Eng|auto].
    - exists dd. rewrite vadd_zip. auto.
    - unfold lg. cbn [l_dtol]. rewrite Enx. reflexivity. }
  constructor; cbn [s_iter s_xyza s_res s_prev s_cost s_conv s_log].
  - split; [rewrite !app_length; cbn; lia|]. split; [rewrite nth_error_app1 by lia; auto|].
    intros k x x2 l A1 A2 A3.
    destruct (Nat.lt_ge_cases k (length (s_log g))) as [Hk|Hk].
    + rewrite nth_error_app1 in A1, A2, A3 by lia. eapply H3; eauto.
    + assert (k = s_iter g).
      { assert (k < length (s_log g ++ [lg])) by (apply nth_error_Some; congruence). rewrite app_length in *. cbn in *. lia. }
      subst k. rewrite nth_error_app1 in A1 by lia. rewrite nth_error_app2 in A2 by lia. rewrite nth_error_app2 in A3 by lia.
      replace (S (s_iter g) - length xs) with 0 in A2 by lia. replace (s_iter g - length (s_log g)) with 0 in A3 by lia. cbn in A2, A3. injection A2 as <-. injection A3 as <-.
      rewrite Hl in A1. injection A1 as <-. exact IT.
  - rewrite app_length. cbn. lia.
  - rewrite nth_error_app2 by lia. replace (S (s_iter g) - length xs) with 0 by lia. reflexivity.
  - exact Er.
  - reflexivity.
  - reflexivity.
  - intros k l A1 A2 A3. destruct (Nat.eq_dec (S k) (s_iter g)) as [Ek|Ek].
    + rewrite nth_error_app1 in A1 by lia. assert (s_conv g = true); [|congruence]. apply Hv. exists l, k. auto.
    + rewrite nth_error_app1 in A1 by lia. apply (Ho k l A1); [lia|auto].
  - rewrite converged_criteria. split.
    + intros C. exists lg, (s_iter g). split; [auto|]. split; [|auto]. rewrite nth_error_app2 by lia. replace (s_iter g - length (s_log g)) with 0 by lia. reflexivity.
    + intros (l & k & E1 & E2 & C). injection E1 as <-. rewrite nth_error_app2 in E2 by lia. replace (s_iter g - length (s_log g)) with 0 in E2 by lia. cbn in E2. injection E2 as <-. auto.
Qed.

Lemma loop_inv x0 fuel : forall g g' xs, linv x0 g xs -> gn_loop T lsmr st tol fuel g = Ok g' ->
  (exists xs', linv x0 g' xs') /\ s_iter g' <= s_iter g + fuel /\ (s_conv g' = false -> s_iter g' = s_iter g + fuel) /\ s_iter g <= s_iter g'.
Proof.
  induction fuel as [|fuel IH]; intros g g' xs Hg E; cbn [gn_loop] in E.
  - injection E as <-. split; [exists xs; auto|]. split; [lia|]. split; lia.
  - destruct (s_conv g) eqn:Ec.
    + injection E as <-. split; [exists xs; auto|]. split; [lia|]. split; [congruence|lia].
    + destruct (gn_iter T lsmr st tol g) as [g1|] eqn:E1; cbn [bind] in E; [|discriminate].
      destruct (iter_inv x0 g g1 xs Hg Ec E1) as (I1 & Hg1). destruct (IH g1 g' _ Hg1 E) as (A & B & C & D).
      split; [exact A|]. split; [lia|]. split; [|lia]. intros H. specialize (C H). lia.
Qed.
End Loop.

Section Run.
Context {T : Type}.
Variable lsmr : nat -> solver T -> list R -> res (list R).
Variable minres : nat -> nat -> solver T -> list R -> res (list R).

Lemma with_self (st : solver T) : with_xyza T st (g_xyza T st) = st.
Proof. destruct st; reflexivity. Qed.

Lemma run_loop st tol rc r : gn_run T lsmr minres st tol rc = Ok r -> exists NV xs f,
  pylast (idxs (m_idx R T (g_m T st))) = Ok NV /\
  history st tol (g_xyza T st) xs (r_log r) /\ length (r_log r) = r_iter r /\ 1 <= r_iter r <= NV /\
  (forall k l, nth_error (r_log r) k = Some l -> S k < r_iter r -> ~ criteria l) /\
  (r_conv r = true <-> exists l, nth_error (r_log r) (r_iter r - 1) = Some l /\ criteria l) /\
  (r_conv r = false -> r_iter r = NV) /\
  nth_error xs (r_iter r) = Some (r_xyza r) /\ r_a r = skipn NV (r_xyza r) /\
  calc_f T (with_xyza T st (r_xyza r)) (r_xyza r) = Ok f /\ r_cost r = sum_sq f.
Proof.
  intros E. unfold gn_run in E.
  destruct (pylast (cNm _)) as [N_mu|] eqn:E1; cbn [bind] in E; [|discriminate].
  destruct (pylast (idxs _)) as [NV|] eqn:E2; cbn [bind] in E; [|discriminate].
  destruct (calc_f T st (g_xyza T st)) as [res0|] eqn:E3; cbn [bind] in E; [|discriminate].
  destruct (gn_loop _ _ _ _ _ _) as [g|] eqn:E4; cbn [bind] in E; [|discriminate].
  match type of E with bind ?x _ = _ => destruct x as [cov|]; cbn [bind] in E; [|discriminate] end.
  match type of E with bind ?x _ = _ => destruct x as [rr|]; cbn [bind] in E; [|discriminate] end.
  match type of E with bind ?x _ = _ => destruct x as [sys|]; cbn [bind] in E; [|discriminate] end.
  destruct (s_cost g) as [c|] eqn:Ec; cbn [bind] in E; [|discriminate]. injection E as <-. cbn [r_log r_iter r_conv r_xyza r_a r_cost].
  destruct (loop_inv lsmr st tol (g_xyza T st) NV (mkG 0 (g_xyza T st) res0 (cost_of res0) None false []) g [g_xyza T st]) with (2 := E4) as ((xs & L) & B1 & B2 & B3).
  { constructor; cbn [s_iter s_xyza s_res s_prev s_cost s_conv s_log].
    - split; [reflexivity|]. split; [reflexivity|]. intros k x x' l A1 A2. destruct k; discriminate.
    - reflexivity.
    - reflexivity.
    - rewrite with_self. auto.
    - apply cost_sum_sq.
    - lia.
    - intros k l H. destruct k; discriminate.
    - split; [discriminate|]. intros (l & k & H & _). discriminate. }
  cbn [s_iter] in *. destruct L as [Hh Hi Hl Hr Hp Hc Ho Hv].
  assert (H1 : 1 <= s_iter g).
  { destruct (s_iter g) as [|k] eqn:Ek; [|lia]. assert (NV = 0).
    { destruct (s_conv g) eqn:Ecv; [|specialize (B2 eq_refl); lia]. destruct (proj1 Hv eq_refl) as (l & k & A & _). discriminate. }
    subst NV. cbn [gn_loop] in E4. injection E4 as <-. discriminate. }
  exists NV, xs, (s_res g). split; [auto|]. split; [auto|]. split; [auto|]. split; [lia|]. split; [auto|]. split.
  { rewrite Hv. split.
    - intros (l & k & A1 & A2 & A3). exists l. rewrite A1. replace (S k - 1) with k by lia. auto.
    - intros (l & A1 & A2). exists l, (s_iter g - 1). split; [lia|auto]. }
  split; [intros H; specialize (B2 H); lia|]. split; [auto|]. split; [auto|]. split; [auto|]. specialize (Hc H1). congruence.
Qed.

(** covariance *)
Lemma map_seq_nth {A} (f : nat -> A) n i dflt : i < n -> nth i (map f (seq 0 n)) dflt = f i.
Proof. intros H. rewrite (nth_indep _ dflt (f 0)) by (rewrite map_length, seq_length; auto). rewrite map_nth, seq_nth by auto. reflexivity. Qed.

Lemma covariance_shape st V : covariance T minres st = Ok V -> square V (n_pars st) /\
  exists W, mapM (fun i => mapM (fun j => covariance_ij T minres st i j) (seq 0 (n_pars st))) (seq 0 (n_pars st)) = Ok W /\
  forall i j, i < n_pars st -> j < n_pars st -> entry V i j = ((entry W i j + entry W j i) / 2)%R.
Proof.
  unfold covariance. change (length (sd_a T (g_sd T st))) with (n_pars st).
  destruct (mapM _ _) as [W|] eqn:EW; cbn [bind]; [|discriminate]. intros E. injection E as <-. split.
  - split; [rewrite map_length, seq_length; auto|]. intros r Hr. apply in_map_iff in Hr as (i & <- & _). rewrite map_length, seq_length. auto.
  - exists W. split; [auto|]. intros i j Hi Hj. unfold entry. rewrite (map_seq_nth _ _ _ _ Hi), (map_seq_nth _ _ _ _ Hj). reflexivity.
Qed.
Lemma covariance_sym st V : covariance T minres st = Ok V -> square V (n_pars st) /\ forall i j, entry V i j = entry V j i.
Proof.
  intros E. destruct (covariance_shape st V E) as (Sq & W & _ & H). split; [auto|]. intros i j. destruct Sq as (L & Lr).
  assert (O : forall i j, n_pars st <= i \/ n_pars st <= j -> entry V i j = 0%R).
  { intros a b Hab. unfold entry. destruct (Nat.lt_ge_cases a (n_pars st)) as [Ha|Ha].
    - apply nth_overflow. rewrite Lr by (apply nth_In; lia). lia.
    - rewrite (nth_overflow V) by lia. destruct b; reflexivity. }
  destruct (Nat.lt_ge_cases i (n_pars st)), (Nat.lt_ge_cases j (n_pars st)); [rewrite !H by auto; lra|rewrite !O by auto; reflexivity..].
Qed.
Lemma zeros_sym (a : list R) i j : entry (map (fun _ => repeat 0%R (length a)) a) i j = 0%R.
Proof.
  unfold entry. destruct (Nat.lt_ge_cases i (length a)) as [H|H].
  - rewrite (nth_indep _ [] (repeat 0%R (length a))) by (rewrite map_length; auto). rewrite (map_nth (fun _ : R => repeat 0%R (length a)) a 0%R). apply nth_repeat.
  - rewrite (nth_overflow (map _ _)) by (rewrite map_length; auto). destruct j; reflexivity.
Qed.

Lemma run_cov st tol rc r : gn_run T lsmr minres st tol rc = Ok r -> (forall i j, entry (r_cov r) i j = entry (r_cov r) j i) /\
  (rc = true -> covariance T minres (with_xyza T st (r_xyza r)) = Ok (r_cov r)) /\ (rc = false -> forall i j, entry (r_cov r) i j = 0%R) /\
  exists NV N_mu, pylast (idxs (m_idx R T (g_m T st))) = Ok NV /\ pylast (cNm (m_idx R T (g_m T st))) = Ok N_mu /\
    r_dof r = (Z.of_nat NV - Z.of_nat N_mu - Z.of_nat (n_pars st))%Z.
Proof.
  intros E. unfold gn_run in E.
  destruct (pylast (cNm _)) as [N_mu|] eqn:E1; cbn [bind] in E; [|discriminate].
  destruct (pylast (idxs _)) as [NV|] eqn:E2; cbn [bind] in E; [|discriminate].
  destruct (calc_f T st (g_xyza T st)) as [res0|] eqn:E3; cbn [bind] in E; [|discriminate].
  destruct (gn_loop _ _ _ _ _ _) as [g|] eqn:E4; cbn [bind] in E; [|discriminate].
  match type of E with bind ?x _ = _ => destruct x as [cov|] eqn:Ecov; cbn [bind] in E; [|discriminate] end.
  match type of E with bind ?x _ = _ => destruct x as [rr|]; cbn [bind] in E; [|discriminate] end.
  match type of E with bind ?x _ = _ => destruct x as [sys|]; cbn [bind] in E; [|discriminate] end.
  destruct (s_cost g) as [c|] eqn:Ec; cbn [bind] in E; [|discriminate]. injection E as <-. cbn [r_cov r_dof r_xyza].
  destruct rc.
  - split; [apply (covariance_sym _ _ Ecov)|]. split; [auto|]. split; [discriminate|]. exists NV, N_mu. auto.
  - injection Ecov as <-. split; [intros i j; rewrite !zeros_sym; auto|]. split; [discriminate|]. split; [intros _ i j; apply zeros_sym|]. exists NV, N_mu. auto.
Qed.
End Run.
