(** * Every run returns, and what it returns.  Proofs only. *)
From Coq Require Import Reals Lra.
From Verif Require Import Base BaseLemmas ReaderModel UncModel MuModel SensorSpec SampleSpec SampleProofs TransformModel TransformSpec TransformProofs TransformProofs2 TransformMain TransformMain2 TransformMain3 EvalModel EvalSpec EvalProofs GNModel GNSpec GNAlgebra GNTerms GNAdjoint GNMain GNResidual GNLoop GNTotal.
Open Scope nat_scope.

Lemma nth_skipn' {A} s (l : list A) k dflt : nth k (skipn s l) dflt = nth (s + k) l dflt.
Proof. revert l. induction s as [|s IH]; intros [|x l]; cbn [skipn plus]; auto. - destruct k; reflexivity. - apply IH. Qed.

Section Out.
Context {T : Type}.
Variables (m : mobj R T) (st : solver T).
Hypothesis SF : solver_for m st.
Hypothesis FO : functions_ok m st.
Notation d := (g_m T st).
Notation sd := (g_sd T st).

(** residuals transformed back *)
Lemma res_reverse res : residual_vec st res -> exists r, tn_reverse T (residual_obj T st res (n_vars st)) = Ok r /\
  length (m_values R T r) = list_sum (N_var (m_idx R T m)) /\ m_ks R T r = zip2 Rmult (skipn (n_vars st) res) (all_uK m).
Proof.
  intros Hr. unfold residual_vec in Hr. destruct (solver_facts m st SF) as (nv & ns & St & _).
  pose proof (nks_m m st SF) as NK.
  assert (Lf : length (firstn (n_vars st) res) = n_vars st) by (apply firstn_length_le; lia).
  assert (St1 : state_of m (residual_obj T st res (n_vars st)) nv ns).
  { destruct St as [A1 A2 A3 A4 A5 A6 A7 A8 A9 A10 A11 A12]. constructor; auto.
    cbn [residual_obj m_values]. unfold slice. rewrite Nat.sub_0_r. cbn [skipn]. rewrite Lf. unfold n_vars. auto. }
  destruct (reverse_spec m _ nv ns (sf_wf _ _ SF) (sf_shapes _ _ SF) St1) as (vs1 & E1 & L1 & P1); [cbn [residual_obj m_ks]; rewrite skipn_length; lia|].
  eexists. split; [exact E1|]. cbn [m_values m_ks]. split; [rewrite concat_length, L1; auto|reflexivity].
Qed.

Lemma index_first l (i : nat) : In i l -> exists b, index Nat.eqb i l = Ok b /\ nth_error l b = Some i.
Proof. intros H. destruct (index_in Nat.eqb Nat.eqb_eq i l H) as (b & E). exists b. split; [auto|]. apply (index_ok Nat.eqb Nat.eqb_eq _ _ _ E). Qed.

Lemma list_max_le l x : In x l -> x <= list_max l.
Proof. intros H. pose proof (proj1 (list_max_le l (list_max l)) (le_n _)) as F. rewrite Forall_forall in F. auto. Qed.

(** systematic errors *)
Lemma sys_out x : unknowns_vec st x -> well_numbered m -> exists ns o, n_uS (m_unc R T m) = Ok ns /\ systematic_out T (with_xyza T st x) x (n_vars st) = Ok o /\
  match o with
  | None => ns = 0
  | Some (e, names) => 1 <= ns <= n_vars st /\ length e = ns /\ length names = ns /\ e = slice (n_vars st - ns) (n_vars st) x /\
      forall k name, nth_error names k = Some name -> exists b u s, nth_error (m_unc R T m) b = Some u /\ has_systematic u /\ u_sysi R u = Some (S k) /\
        nth_error (n_sensor (m_idx R T m)) b = Some s /\ nth_error (sensors (m_idx R T m)) s = Some name
  end.
Proof.
  intros Hx HN. destruct (solver_facts m st SF) as (nv & ns & St & SL & Hv & _ & Hnus & _). pose proof (sf_ev _ _ SF) as Ev. pose proof (sf_wf _ _ SF) as W. pose proof (sf_shapes _ _ SF) as Sh.
  destruct SL as (S1 & _ & _ & _ & _ & S6 & _ & _ & S9 & _). rewrite S9 in Hnus. exists ns.
  destruct (n_uS_ok m W Sh) as (ns' & E' & Hsys & Hmax). assert (ns' = ns) by congruence. subst ns'.
  unfold systematic_out. cbn [with_xyza g_m]. rewrite S9, Hnus. cbn [bind].
  destruct (Nat.eqb_spec ns 0) as [H0|H0]; [exists None; auto|].
  assert (NOS : mapM (fun u => if is_sys u then sys_no u else Ok 0) (m_unc R T m) = Ok (map (fun u => if is_sys u then match u_sysi R u with Some k => k | None => 0 end else 0) (m_unc R T m))).
  { apply mapM_Ok_map. intros u Hu. destruct (is_sys u) eqn:Es; [|auto]. assert (Hu' : has_systematic u) by (unfold is_sys, has_systematic in *; destruct (u_kind R u); auto; discriminate).
    destruct (Hsys u Hu Hu') as (k & Ek & _). unfold sys_no. rewrite Ek. reflexivity. }
  rewrite NOS. cbn [bind]. set (nos := map _ (m_unc R T m)).
  assert (FIND : forall k, 1 <= k <= ns -> exists b u s name, index Nat.eqb k nos = Ok b /\ nth_error (m_unc R T m) b = Some u /\ has_systematic u /\ u_sysi R u = Some k /\
     nth_error (n_sensor (m_idx R T m)) b = Some s /\ nth_error (sensors (m_idx R T m)) s = Some name).
  { intros k Hk. destruct Hmax as [|(um & Hum & Hsm & Hkm)]; [lia|].
    destruct (proj1 HN k um Hum Hsm) as (b0 & u0 & Hb0 & Hs0 & Hk0); [exists ns; split; [auto|lia]|].
    assert (IN : In k nos).
    { unfold nos. apply in_map_iff. exists u0. split; [|eapply nth_error_In; eauto]. rewrite Hk0. unfold is_sys, has_systematic in *. destruct (u_kind R u0); auto; contradiction. }
    destruct (index_first nos k IN) as (b & Eb & Hb). unfold nos in Hb. rewrite nth_error_map' in Hb.
    destruct (nth_error (m_unc R T m) b) as [u|] eqn:Eu; [|discriminate]. cbn in Hb. injection Hb as Hb.
    destruct (is_sys u) eqn:Es; [|lia]. assert (Hu' : has_systematic u) by (unfold is_sys, has_systematic in *; destruct (u_kind R u); auto; discriminate).
    destruct (Hsys u (nth_error_In _ _ Eu) Hu') as (k' & Ek' & _). rewrite Ek' in Hb. subst k'.
    assert (Lb : b < length (N_var (m_idx R T m))) by (rewrite <- (wf_unc _ W); apply nth_error_Some; congruence).
    destruct (ev_len _ _ Ev) as (LL1 & LL2).
    destruct (nth_error (n_sensor (m_idx R T m)) b) as [s|] eqn:Esn; [|apply nth_error_None in Esn; lia].
    pose proof (proj2 HN b s Esn) as Hsl. destruct (nth_error (sensors (m_idx R T m)) s) as [name|] eqn:Ename; [|apply nth_error_None in Ename; lia].
    exists b, u, s, name. do 5 (split; [auto|]). auto. }
  destruct (mapM_ok_ex (fun i => do b <- index Nat.eqb i nos;; do s <- get (n_sensor (m_idx R T d)) b;; get (sensors (m_idx R T d)) s) (seq 1 ns)) as (names & En).
  { intros k Hk. apply in_seq in Hk. destruct (FIND k ltac:(lia)) as (b & u & s & name & E1 & _ & _ & _ & E2 & E3). exists name. rewrite E1. cbn [bind]. rewrite S6, S1, (proj2 (get_ok _ _ _) E2). cbn [bind]. apply get_ok. auto. }
  rewrite En. cbn [bind]. eexists. split; [auto|]. split; [reflexivity|]. cbn beta iota.
  split; [lia|]. split; [|split; [|split; [auto|]]].
  - rewrite slice_length'; [lia|]. unfold unknowns_vec in Hx. lia.
  - rewrite (mapM_length _ _ _ En), seq_length. auto.
  - intros k name Hk. assert (Hkl : k < ns) by (rewrite <- (seq_length ns 1), <- (mapM_length _ _ _ En); apply nth_error_Some; congruence).
    assert (Es : nth_error (seq 1 ns) k = Some (S k)) by (rewrite (nth_error_nth' _ 0) by (rewrite seq_length; auto); rewrite seq_nth by auto; reflexivity).
    destruct (mapM_nth _ _ _ k (S k) En Es) as (nm & Enm & Hnm). assert (nm = name) by congruence. subst nm.
    destruct (FIND (S k) ltac:(lia)) as (b & u & s & name' & E1 & E2 & E3 & E4 & E5 & E6). rewrite E1 in Enm. cbn [bind] in Enm.
    rewrite S6, S1, (proj2 (get_ok _ _ _) E5) in Enm. cbn [bind] in Enm. rewrite (proj2 (get_ok _ _ _) E6) in Enm. injection Enm as <-.
    exists b, u, s. auto.
Qed.

Lemma run_total lsmr minres tol rc : 1 <= n_vars st -> well_numbered m -> lsmr_total lsmr st -> minres_total minres st ->
  exists r, gn_run T lsmr minres st tol rc = Ok r.
Proof.
  intros Hn HN HL HM. unfold gn_run.
  destruct (solver_facts m st SF) as (nv & ns & St & SL & Hv & Hlast & Hnus & Hcn & _). rewrite Hcn, Hlast. cbn [bind].
  destruct (calc_f_ok m st SF FO (g_xyza T st) (sf_xyza _ _ SF)) as (f & _ & _ & Ef & Lf & _). rewrite Ef. cbn [bind].
  destruct (loop_total m st SF FO lsmr tol (n_vars st) Hn HL (mkG 0 (g_xyza T st) f (cost_of f) None false []) (sf_xyza _ _ SF)) as (g & Eg & Hx & Hc & _).
  rewrite Eg. cbn [bind]. specialize (Hc eq_refl Hn).
  pose proof (solver_with m st SF _ Hx) as SF'.
  assert (EC : exists cov, (if rc then covariance T minres (with_xyza T st (s_xyza g)) else Ok (map (fun _ => repeat 0%R (length (skipn (n_vars st) (s_xyza g)))) (skipn (n_vars st) (s_xyza g)))) = Ok cov).
  { destruct rc; [|eexists; reflexivity]. apply (covariance_total m (with_xyza T st (s_xyza g)) SF' minres). intros i j b. apply HM. }
  destruct EC as (cov & ->). cbn [bind].
  assert (Lres : residual_vec st (s_res g)).
  { destruct (loop_inv lsmr st tol (g_xyza T st) (n_vars st) (mkG 0 (g_xyza T st) f (cost_of f) None false []) g [g_xyza T st]) with (2 := Eg) as ((xs & L) & _).
    { constructor; cbn [s_iter s_xyza s_res s_prev s_cost s_conv s_log].
      - split; [reflexivity|]. split; [reflexivity|]. intros k x x' l A1 A2. destruct k; discriminate.
      - reflexivity.
      - reflexivity.
      - rewrite with_self. auto.
      - apply cost_sum_sq.
      - lia.
      - intros k l H. destruct k; discriminate.
      - split; [discriminate|]. intros (l & k & H & _). discriminate. }
    pose proof (li_res _ _ _ _ _ L) as E. destruct (calc_f_ok m _ SF' FO (s_xyza g) Hx) as (f' & _ & _ & Ef' & Lf' & _).
    assert (f' = s_res g) by congruence. subst f'. exact Lf'. }
  destruct (res_reverse _ Lres) as (r & Er & _). rewrite Er. cbn [bind].
  destruct (sys_out (s_xyza g) Hx HN) as (ns' & o & _ & Eo & _). rewrite Eo. cbn [bind].
  destruct (s_cost g); [|congruence]. cbn [bind]. eexists; reflexivity.
Qed.

Lemma run_fields lsmr minres tol rc r : gn_run T lsmr minres st tol rc = Ok r -> lsmr_total lsmr st -> 1 <= n_vars st -> exists f,
  unknowns_vec st (r_xyza r) /\ calc_f T (with_xyza T st (r_xyza r)) (r_xyza r) = Ok f /\ r_cost r = sum_sq f /\
  r_ks r = zip2 Rmult (skipn (n_vars st) f) (all_uK m) /\ systematic_out T (with_xyza T st (r_xyza r)) (r_xyza r) (n_vars st) = Ok (r_sys r) /\
  r_a r = skipn (n_vars st) (r_xyza r).
Proof.
  intros E HL Hn.
  destruct (run_loop lsmr minres st tol rc r E) as (NV & xs & f & E0 & _ & _ & _ & _ & _ & _ & _ & Ea & Ef & Ecost).
  destruct (solver_facts m st SF) as (nv & ns & St & SL & Hv & Hlast & Hnus & Hcn & _). rewrite Hlast in E0. injection E0 as <-.
  exists f. unfold gn_run in E. rewrite Hcn, Hlast in E. cbn [bind] in E.
  destruct (calc_f T st (g_xyza T st)) as [res0|] eqn:E3; cbn [bind] in E; [|discriminate].
  destruct (loop_total m st SF FO lsmr tol (n_vars st) Hn HL (mkG 0 (g_xyza T st) res0 (cost_of res0) None false []) (sf_xyza _ _ SF)) as (g & Eg & Hx & Hc & _).
  rewrite Eg in E. cbn [bind] in E.
  match type of E with bind ?x _ = _ => destruct x as [cov|] eqn:Ecov; cbn [bind] in E; [|discriminate] end.
  match type of E with bind ?x _ = _ => destruct x as [rr|] eqn:Err; cbn [bind] in E; [|discriminate] end.
  match type of E with bind ?x _ = _ => destruct x as [sys|] eqn:Esys; cbn [bind] in E; [|discriminate] end.
  destruct (s_cost g) as [c|] eqn:Ec; cbn [bind] in E; [|discriminate]. injection E as <-. cbn [r_xyza r_cost r_ks r_sys r_a] in *.
  split; [auto|]. split; [auto|]. split; [auto|]. split; [|auto].
  destruct (loop_inv lsmr st tol (g_xyza T st) (n_vars st) (mkG 0 (g_xyza T st) res0 (cost_of res0) None false []) g [g_xyza T st]) with (2 := Eg) as ((xs' & L) & _).
  { constructor; cbn [s_iter s_xyza s_res s_prev s_cost s_conv s_log].
      - split; [reflexivity|]. split; [reflexivity|]. intros k x x' l A1 A2. destruct k; discriminate.
      - reflexivity.
      - reflexivity.
      - rewrite with_self. auto.
      - apply cost_sum_sq.
      - lia.
      - intros k l H. destruct k; discriminate.
      - split; [discriminate|]. intros (l & k & H & _). discriminate. }
  pose proof (li_res _ _ _ _ _ L) as Er2. assert (s_res g = f) by congruence. subst f.
  destruct (calc_f_ok m _ (solver_with m st SF _ Hx) FO (s_xyza g) Hx) as (f' & _ & _ & Ef' & Lf' & _). assert (f' = s_res g) by congruence. subst f'.
  destruct (res_reverse _ Lf') as (r2 & Er & _ & Ek). rewrite Er in Err. injection Err as <-. exact Ek.
Qed.

Lemma run_output lsmr minres tol rc r : gn_run T lsmr minres st tol rc = Ok r -> lsmr_total lsmr st -> 1 <= n_vars st -> nonzero (all_uK m) -> well_numbered m ->
  exists e ks, estimate_of m st (r_xyza r) e /\ evaluate_K T e (with_params sd (r_a r)) SelAll = Ok ks /\
    length (r_ks r) = n_ks st /\
    (forall i, i < n_ks st -> nth i (r_ks r) 0%R = (nth i ks 0 - nth i (m_ks R T m) 0)%R) /\
    match r_sys r with
    | None => forall u, In u (m_unc R T m) -> ~ has_systematic u
    | Some (errs, names) => length errs = length names /\
        forall k err name, nth_error errs k = Some err -> nth_error names k = Some name -> exists b u s, nth_error (m_unc R T m) b = Some u /\ has_systematic u /\ u_sysi R u = Some (S k) /\
          nth_error (n_sensor (m_idx R T m)) b = Some s /\ nth_error (sensors (m_idx R T m)) s = Some name /\
          nth_error (r_xyza r) (n_vars st - length errs + k) = Some err
    end.
Proof.
  intros E HL Hn HU HN. destruct (run_fields lsmr minres tol rc r E HL Hn) as (f & Hx & Ef & _ & Ek & Es & Ea).
  destruct (calc_f_ok m _ (solver_with m st SF _ Hx) FO (r_xyza r) Hx) as (f' & e & ks & Ef' & Lf & EO & EK & LK & _ & H2).
  assert (f' = f) by congruence. subst f'. change (n_vars (with_xyza T st (r_xyza r))) with (n_vars st) in *. change (n_ks (with_xyza T st (r_xyza r))) with (n_ks st) in *.
  exists e, ks. split; [destruct EO as [B1 B2 B3 B4]; constructor; auto|]. split; [rewrite Ea; exact EK|].
  destruct (ks_len m st SF) as (LU & _). rewrite <- (nks_m m st SF) in LU. fold (all_uK m) in LU. unfold residual_vec in Lf. change (length f = n_vars st + n_ks st) in Lf.
  assert (Lsk : length (skipn (n_vars st) f) = n_ks st) by (rewrite skipn_length; lia).
  split; [rewrite Ek, zip2_len; lia|]. split.
  - intros i Hi. rewrite Ek, zip2_nth by lia. rewrite nth_skipn' , H2 by auto. field. apply HU. apply nth_In. lia.
  - destruct (sys_out (r_xyza r) Hx HN) as (ns & o & En & Eo & Ho). rewrite Es in Eo. injection Eo as <-.
    destruct (n_uS_ok m (sf_wf _ _ SF) (sf_shapes _ _ SF)) as (ns' & E' & Hsys & _). assert (ns' = ns) by congruence. subst ns'.
    destruct (r_sys r) as [(errs & names)|].
    + destruct Ho as (H1 & Le & Ln & Ee & Hk). split; [congruence|]. intros k err name Hke Hkn.
      destruct (Hk k name Hkn) as (b & u & s & A1 & A2 & A3 & A4 & A5). exists b, u, s. do 5 (split; [auto|]).
      assert (Hkl : k < ns) by (rewrite <- Le; apply nth_error_Some; congruence).
      rewrite Le. rewrite Ee in Hke. unfold slice in Hke. rewrite nth_error_firstn, nth_error_skipn in Hke.
      destruct (Nat.ltb_spec k (n_vars st - (n_vars st - ns))); [auto|discriminate].
    + intros u Hu Hs. destruct (Hsys u Hu Hs) as (k & _ & Hk'). lia.
Qed.
End Out.
