(** * C26: the forward product is the directional derivative of the residual.  Proofs only. *)
From Coq Require Import Reals Lra Sorted.
From Verif Require Import Base BaseLemmas ReaderModel UncModel MuModel MuProofs SensorSpec SampleSpec SampleProofs TransformModel TransformSpec TransformProofs TransformProofs2 TransformMain TransformMain2 TransformMain3 EvalModel EvalSpec EvalProofs EvalMain GNModel GNSpec GNAlgebra GNTerms GNAdjoint GNMain GNResidual GNForward GNForward2.
Open Scope nat_scope.

Lemma derivable_ext f g x l : (forall h, f h = g h) -> derivable_pt_lim f x l -> derivable_pt_lim g x l.
Proof. intros E H eps He. destruct (H eps He) as (del & Hd). exists del. intros h Hh Hl. rewrite <- !E. apply Hd; auto. Qed.

Lemma derivable_val f x l l' : l = l' -> derivable_pt_lim f x l -> derivable_pt_lim f x l'.
Proof. intros ->. auto. Qed.

Lemma concat_nth (vs : list (list R)) b v i : nth_error vs b = Some v -> i < length v ->
  nth (list_sum (firstn b (map (@length R) vs)) + i) (concat vs) 0%R = nth i v 0%R.
Proof.
  revert b. induction vs as [|w vs IH]; intros [|b] Hb Hi; try discriminate.
  - cbn in Hb. injection Hb as ->. cbn [map firstn concat list_sum plus]. apply app_nth1. auto.
  - cbn [map firstn concat]. cbn [nth_error] in Hb. change (list_sum (length w :: firstn b (map (@length R) vs))) with (length w + list_sum (firstn b (map (@length R) vs))).
    rewrite app_nth2 by lia. replace (length w + list_sum (firstn b (map (@length R) vs)) + i - length w) with (list_sum (firstn b (map (@length R) vs)) + i) by lia. apply IH; auto.
Qed.

Lemma locate l k : k < list_sum l -> exists n N i, nth_error l n = Some N /\ i < N /\ k = list_sum (firstn n l) + i.
Proof.
  revert k. induction l as [|a l IH]; intros k Hk; [cbn in Hk; lia|]. change (list_sum (a :: l)) with (a + list_sum l) in Hk.
  destruct (Nat.lt_ge_cases k a) as [C|C]; [exists 0, a, k; auto|].
  destruct (IH (k - a) ltac:(lia)) as (n & N & i & H1 & H2 & H3). exists (S n), N, i. split; [auto|]. split; [auto|].
  cbn [firstn]. change (list_sum (a :: firstn n l)) with (a + list_sum (firstn n l)). lia.
Qed.

Lemma labelled_move name ps (x y : list R) h : length x = length ps -> length y = length ps ->
  labelled name ps (vadd x (vscale h y)) = vadd (labelled name ps x) (vscale h (labelled name ps y)).
Proof.
  unfold labelled. revert x y. induction ps as [|a ps IH]; intros [|u x] [|v y] H1 H2; try discriminate; [reflexivity|].
  cbn [vscale map vadd combine filter fst]. change (map (fun a0 => (h * a0)%R) y) with (vscale h y).
  destruct (String.eqb a name); cbn [map snd vadd vscale]; rewrite IH by (cbn in *; lia); reflexivity.
Qed.

Lemma skipn_vadd n x y : skipn n (vadd x y) = vadd (skipn n x) (skipn n y).
Proof. revert x y. induction n as [|n IH]; intros [|a x] [|b y]; cbn; auto. destruct (skipn n x); reflexivity. Qed.
Lemma skipn_vscale n h x : skipn n (vscale h x) = vscale h (skipn n x).
Proof. unfold vscale. apply skipn_map. Qed.

Lemma vadd_zero a b : length a = length b -> vadd a (vscale 0 b) = a.
Proof. revert b. induction a as [|x a IH]; intros [|y b] H; try discriminate; [reflexivity|]. cbn. f_equal; [lra|]. apply IH. cbn in H. lia. Qed.

Section Der.
Context {T : Type}.
Variables (m : mobj R T) (st : solver T).
Hypothesis SF : solver_for m st.
Hypothesis FO : functions_ok m st.
Hypothesis DC : derivatives_correct m st.
Hypothesis II : ignores_indices m st.
Hypothesis RR : reference_random m st.
Notation d := (g_m T st).
Notation sd := (g_sd T st).
Notation n1 := (n_vars st + n_pars st).
Notation n2 := (n_vars st + n_ks st).
Variables (nv : list nat) (ns : nat).
Hypothesis St : state_of m d nv ns.
Notation bl s n := (blocks_of (m_idx R T m) s (n + 1)).
Notation cvs' := (cvs m nv).
Notation pas' := (pas m st).
Notation x0 := (g_xyza T st).

Lemma cvs_len s n p N x : nth_error (Im (m_idx R T m)) n = Some p -> s = fst p \/ s = snd p -> nth_error (Nm (m_idx R T m)) n = Some N -> length x = n1 ->
  forall col, In col (cvs' s n x) -> length col = N.
Proof.
  intros Hp Hs HN Hx col Hc. unfold cvs in Hc. apply in_map_iff in Hc as (b & <- & Hb). destruct (in_bl m st SF b s n Hb) as (A1 & _).
  apply (cv_len m st SF nv ns St b N n); auto. lia.
Qed.

Lemma cvs_move s n p N x y h : nth_error (Im (m_idx R T m)) n = Some p -> s = fst p \/ s = snd p -> nth_error (Nm (m_idx R T m)) n = Some N ->
  length x = n1 -> length y = n1 -> cvs' s n (vadd x (vscale h y)) = cols_add (cvs' s n x) h (cvs' s n y).
Proof.
  intros Hp Hs HN Hx Hy. unfold cvs, cols_add. pose proof (in_bl m st SF) as IB.
  assert (G : forall l, (forall b, In b l -> In b (bl s n)) ->
    map (fun b => cv m nv b (vadd x (vscale h y))) l = map (fun p => vadd (fst p) (vscale h (snd p))) (combine (map (fun b => cv m nv b x) l) (map (fun b => cv m nv b y) l))).
  { induction l as [|b l IH]; intros H; [reflexivity|]. cbn [map combine fst snd]. f_equal; [|apply IH; intros; apply H; right; auto].
    destruct (IB b s n (H b (or_introl eq_refl))) as (A1 & _).
    assert (L : forall z, length z = n1 -> length (cv m nv b z) = N) by (intros z Hz; apply (cv_len m st SF nv ns St b N n); auto; lia).
    assert (Lv : length (vadd x (vscale h y)) = n1) by (rewrite vadd_len; rewrite ?vscale_len; congruence).
    apply (nth_ext _ _ 0%R 0%R); [rewrite vadd_len; rewrite ?vscale_len, ?L; auto|].
    intros i Hi. rewrite L in Hi by auto. rewrite nth_vadd by (rewrite vscale_len, !L; auto). rewrite nth_vscale.
    apply (cv_linear m st SF nv ns St b N n); auto; lia. }
  apply G. auto.
Qed.

Lemma pas_move s x y h : length x = n1 -> length y = n1 -> pas' s (vadd x (vscale h y)) = vadd (pas' s x) (vscale h (pas' s y)).
Proof.
  intros Hx Hy. unfold pas. destruct (nth_error (sensors (m_idx R T m)) s) as [name|]; [|reflexivity].
  destruct (sf_ps _ _ SF) as (ps & Eps & _ & Lps). rewrite Eps. rewrite skipn_vadd, skipn_vscale. apply labelled_move; rewrite skipn_length; lia.
Qed.

Lemma cols_add_zero X dX N : length dX = length X -> (forall c, In c X -> length c = N) -> (forall c, In c dX -> length c = N) -> cols_add X 0 dX = X.
Proof.
  unfold cols_add. revert dX. induction X as [|c X IH]; intros [|e dX] H H1 H2; try discriminate; [reflexivity|]. cbn [combine map fst snd].
  rewrite vadd_zero by (rewrite H1, H2 by (left; auto); auto). f_equal. apply IH; [cbn in H; lia| |]; intros; [apply H1|apply H2]; right; auto.
Qed.

(** what one side contributes, for every estimate *)
Lemma adjusted_inputs x e n p side N b : length x = n1 -> estimate_of m st x e -> nth_error (Im (m_idx R T m)) n = Some p ->
  nth_error (Nm (m_idx R T m)) n = Some N ->
  adjusted_side e (estimate_sd T st x (n_vars st)) (n + 1) side b ->
  exists s name f c bb r J B, s = (if side =? 0 then fst p else snd p) /\ nth_error (sensors (m_idx R T m)) s = Some name /\
    nth_error (sd_model T sd) s = Some f /\ nth_error (sd_adj T sd) s = Some bb /\ c = labelled name (sd_cs T sd) (sd_c T sd) /\
    f (cvs' s n x) (pas' s x) c None None None = Ok (r, J) /\ bb r = Ok (b, B).
Proof.
  intros Hx EO Hp HN (s & X & a & c & xt & al & t & f & J & bb & r & B & I & Hf & Ef & Hb & Eb).
  destruct (si_sensor _ _ _ _ _ _ _ _ _ _ _ I) as (p' & Hp' & Es). rewrite (eo_idx _ _ _ _ EO) in Hp'. replace (n + 1 - 1) with n in Hp' by lia.
  assert (p' = p) by congruence. subst p'. assert (Hs : s = fst p \/ s = snd p) by (destruct (side =? 0); auto).
  destruct (si_a _ _ _ _ _ _ _ _ _ _ _ I) as (name & ps & Hname & Hps & Ea & Ec). rewrite (eo_idx _ _ _ _ EO) in Hname. rewrite (eo_ps _ _ _ _ EO) in Hps.
  rewrite (est_sd m st SF) in *. cbn [with_params sd_a sd_c sd_cs sd_model sd_adj] in *.
  pose proof (si_X _ _ _ _ _ _ _ _ _ _ _ I) as HX. pose proof (est_covs m st SF nv ns St x e n p s N Hx EO Hp Hs HN) as HX'.
  assert (EX : X = cvs' s n x).
  { clear - HX HX'. unfold covariates in *. revert HX'. generalize (cvs' s n x). induction HX; intros X' HX'; inversion HX'; subst; auto.
    f_equal; auto. eapply is_block_fun; eauto. }
  assert (Epa : a = pas' s x) by (unfold pas; rewrite Hname, Hps; auto).
  destruct (eo_none _ _ _ _ EO) as (A1 & A2 & A3 & A4 & A5 & A6).
  assert (xt = None). { pose proof (si_xt _ _ _ _ _ _ _ _ _ _ _ I) as H. rewrite A1, A2 in H. destruct (side =? 0), xt; cbn in H; auto; contradiction. }
  assert (al = None). { pose proof (si_al _ _ _ _ _ _ _ _ _ _ _ I) as H0. rewrite A3, A4 in H0. destruct (side =? 0), al; cbn in H0; auto; contradiction. }
  assert (t = None). { pose proof (si_t _ _ _ _ _ _ _ _ _ _ _ I) as H1. rewrite A5, A6 in H1. destruct (side =? 0), t; cbn in H1; auto; contradiction. }
  subst xt al t. exists s, name, f, c, bb, r, J, B. rewrite <- EX, <- Epa. do 6 (split; [auto|]). auto.
Qed.

(** the i-th adjusted measurand of one side, as a function of the step *)
Lemma side_deriv n p side s N i dx : nth_error (Im (m_idx R T m)) n = Some p -> side = 0 \/ side = 1 -> s = (if side =? 0 then fst p else snd p) ->
  nth_error (Nm (m_idx R T m)) n = Some N -> i < N -> length dx = n1 ->
  exists A : R -> R, derivable_pt_lim A 0 (sideD m st nv s n dx i) /\
    forall h e b, estimate_of m st (vadd x0 (vscale h dx)) e -> adjusted_side e (estimate_sd T st (vadd x0 (vscale h dx)) (n_vars st)) (n + 1) side b -> nth i b 0%R = A h.
Proof.
  intros Hp Hside Es HN Hi Ldx. assert (Hs : s = fst p \/ s = snd p) by (destruct (side =? 0); auto).
  pose proof (sf_xyza _ _ SF) as Lx0.
  assert (Ly : forall h, length (vadd x0 (vscale h dx)) = n1) by (intros; rewrite vadd_len; rewrite ?vscale_len; congruence).
  destruct (ev_pair _ _ (sf_ev _ _ SF) n p Hp) as (_ & Hin). destruct (Hin s Hs) as (H1 & _).
  destruct (nth_error (sensors (m_idx R T m)) s) as [name|] eqn:Ename; [|apply nth_error_None in Ename; lia].
  destruct (side_ok m st SF FO n p s name N Hp Hs Ename HN) as (ps & ms & f & b & X & a & c & xt & al & t & r & J & r' & B & SD & Eps & Lps & Hms & _ & _ & _ & Hall & HJ).
  pose proof (unc_covs m st SF nv ns St x0 n p s N X Lx0 Hp Hs HN (sd_X _ _ _ _ _ _ _ _ _ _ _ _ _ _ _ _ _ SD)) as EX.
  destruct (sd_pa _ _ _ _ _ _ _ _ _ _ _ _ _ _ _ _ _ SD) as (name' & ps' & Hname' & Hps' & Ea & Ec). assert (name' = name) by congruence. assert (ps' = ps) by congruence. subst name' ps'.
  assert (Epa : a = pas' s x0) by (unfold pas; rewrite Ename, Eps; auto).
  destruct (sd_len _ _ _ _ _ _ _ _ _ _ _ _ _ _ _ _ _ SD) as (Lr & _ & LB).
  pose proof (sd_f _ _ _ _ _ _ _ _ _ _ _ _ _ _ _ _ _ SD) as Hf. pose proof (sd_b _ _ _ _ _ _ _ _ _ _ _ _ _ _ _ _ _ SD) as Hb.
  pose proof (sd_ev _ _ _ _ _ _ _ _ _ _ _ _ _ _ _ _ _ SD) as Ev. rewrite (II n p s f X a c xt al t Hp Hs Hf) in Ev.
  destruct (residual_ok m st SF FO x0 Lx0) as (e0 & _ & EO0 & _).
  pose proof (est_covs m st SF nv ns St x0 e0 n p s N Lx0 EO0 Hp Hs HN) as HX0. rewrite <- EX in HX0.
  destruct (DC e0 n p s name ps f b X c N a r J EO0 Hp Hs Ename Eps Hf Hb HN HX0 Ea Ec Ev) as (D1 & g & B' & Eg & Hg & D2).
  assert (B' = B) by (pose proof (sd_bv _ _ _ _ _ _ _ _ _ _ _ _ _ _ _ _ _ SD); congruence). subst B'.
  set (dX := cvs' s n dx). set (da := pas' s dx).
  assert (LdX : length dX = length X) by (rewrite EX; unfold dX, cvs; rewrite !map_length; auto).
  assert (LdXc : forall col, In col dX -> length col = N) by (apply (cvs_len s n p); auto).
  assert (LXc : forall col, In col X -> length col = N) by (rewrite EX; apply (cvs_len s n p); auto).
  assert (Lda : length da = length a).
  { rewrite Ea. unfold da, pas. rewrite Ename, Eps. rewrite !labelled_length by (rewrite skipn_length; lia). auto. }
  set (w := fun h => nth i (output f (cols_add X h dX) (vadd a (vscale h da)) c) 0%R).
  assert (W0 : w 0%R = nth i r 0%R).
  { unfold w. rewrite (cols_add_zero X dX N), vadd_zero by auto. unfold output. rewrite Ev. reflexivity. }
  specialize (D1 dX da i LdX LdXc Lda Hi). fold w in D1.
  exists (fun h => g (w h)). split.
  - assert (ED : sideD m st nv s n dx i = (nth i B 0 * jac_row J dX da i)%R) by (unfold sideD; rewrite (sd_jac _ _ _ _ _ _ _ _ _ _ _ _ _ _ _ _ _ SD); reflexivity).
    rewrite ED. apply (derivable_pt_lim_comp w g 0 (jac_row J dX da i) (nth i B 0%R)); [exact D1|]. rewrite W0. apply D2. auto.
  - intros h e b' EO AS. destruct (adjusted_inputs _ e n p side N b' (Ly h) EO Hp HN AS) as (s' & name' & f' & c' & bb & r1 & J1 & B1 & Es' & En' & Hf' & Hb' & Ec' & Ef' & Eb').
    rewrite <- Es in Es'. subst s'. assert (f' = f) by congruence. assert (bb = b) by congruence. assert (name' = name) by congruence. subst f' bb name'.
    assert (Ecc : c' = c) by congruence. rewrite Ecc in Ef'. clear Ecc Ec' c'.
    rewrite (cvs_move s n p N), pas_move in Ef' by auto. fold dX da in Ef'. rewrite <- EX, <- Epa in Ef'.
    assert (Ew : w h = nth i r1 0%R) by (unfold w, output; rewrite Ef'; reflexivity). cbv beta. rewrite Ew.
    destruct (Hg r1) as (B2 & Eg2). rewrite Eg2 in Eb'. injection Eb' as <- <-.
    rewrite (nth_indep _ 0%R (g 0%R)), map_nth; [reflexivity|]. rewrite map_length.
    destruct (sf_covs' m st SF n p s Hp Hs) as (ms' & Hms' & _).
    assert (LX : length X = ms) by (destruct (sd_Xl _ _ _ _ _ _ _ _ _ _ _ _ _ _ _ _ _ SD) as ((ms2 & E2 & E3) & _); congruence).
    destruct (proj2 FO n p s name ps ms N f b (cols_add X h dX) (vadd a (vscale h da)) c None None None Hp Hs Ename Eps Hms HN Hf Hb) as (r3 & J3 & _ & _ & E3 & L3 & _); auto; try exact Logic.I.
    + unfold cols_add. rewrite map_length, combine_length. lia.
    + intros col Hc. unfold cols_add in Hc. apply in_map_iff in Hc as ((c1 & c2) & <- & Hc). cbn [fst snd].
      pose proof (LXc c1 (in_combine_l _ _ _ _ Hc)). pose proof (LdXc c2 (in_combine_r _ _ _ _ Hc)). rewrite vadd_len; rewrite ?vscale_len; congruence.
    + rewrite vadd_len by (rewrite vscale_len; congruence). rewrite Ea. apply labelled_length. rewrite skipn_length. lia.
    + assert (r3 = r1) by congruence. subst. lia.
Qed.

Lemma K_entry x e n p N i ks : length x = n1 -> estimate_of m st x e -> evaluable e (estimate_sd T st x (n_vars st)) -> models_total e (estimate_sd T st x (n_vars st)) ->
  evaluate_K T e (estimate_sd T st x (n_vars st)) SelAll = Ok ks ->
  nth_error (Im (m_idx R T m)) n = Some p -> nth_error (Nm (m_idx R T m)) n = Some N -> i < N ->
  exists b1 b2, adjusted_side e (estimate_sd T st x (n_vars st)) (n + 1) 0 b1 /\ adjusted_side e (estimate_sd T st x (n_vars st)) (n + 1) 1 b2 /\
    nth (start m n + i) ks 0%R = (nth i b2 0 - nth i b1 0)%R.
Proof.
  intros Hx EO EV MT Ek Hp HN Hi. destruct (all_selected e _ EV) as (S1 & S2).
  destruct (K_rows e _ EV MT _ SelAll S1 eq_refl) as (ks' & Ek' & Lk & PK). assert (ks' = ks) by congruence. subst ks'.
  assert (Hn : n < length (Nm (m_idx R T m))) by (apply nth_error_Some; congruence).
  assert (Hk : nth_error (distinct (n_mu (m_idx R T e))) n = Some (n + 1)).
  { rewrite S2, (eo_idx _ _ _ _ EO). rewrite (nth_error_nth' _ 0), seq_nth by (rewrite ?seq_length; auto). f_equal. lia. }
  destruct (PK n (n + 1) Hk) as (b1 & b2 & A1 & A2 & E). exists b1, b2. split; [auto|]. split; [auto|].
  assert (LA : forall side b, adjusted_side e (estimate_sd T st x (n_vars st)) (n + 1) side b -> length b = N).
  { intros side b (s & X & a & c & xt & al & t & f & J & bb & r0 & B & I & F & G & F' & G').
    destruct (proj1 MT (n + 1) side s X a c xt al t N f I F) as (r1 & J1 & E1 & L1); [rewrite (eo_idx _ _ _ _ EO); replace (n + 1 - 1) with n by lia; auto|].
    destruct (proj2 MT s bb r0 F') as (r2 & B2 & E2 & L2). assert (r2 = b) by congruence. assert (r1 = r0) by congruence. subst. auto. }
  pose proof (LA 0 b1 A1) as L1. pose proof (LA 1 b2 A2) as L2.
  assert (NM : forall k, k <= length (Nm (m_idx R T m)) -> n_matchups e (firstn k (distinct (n_mu (m_idx R T e)))) = start m k).
  { intros k Hk'. unfold n_matchups, start. rewrite S2, (eo_idx _ _ _ _ EO). f_equal. apply nth_error_ext. intros j. rewrite nth_error_map', !nth_error_firstn.
    destruct (Nat.ltb_spec j k); [|reflexivity]. rewrite (nth_error_nth' (seq 1 _) 0), seq_nth by (rewrite ?seq_length; lia). cbn [option_map].
    replace (1 + j - 1) with j by lia. symmetry. apply nth_error_nth'. lia. }
  unfold series_rows in E. rewrite !NM in E by lia.
  assert (Est : start m (S n) = start m n + N) by (unfold start; apply list_sum_firstn_S; auto). rewrite Est in E.
  rewrite <- (nth_slice_R (start m n) (start m n + N) ks i) by lia. rewrite E. fold (zip2 Rminus b2 b1). rewrite zip2_nth by lia. reflexivity.
Qed.

Lemma product_derivative x : unknowns_vec st x -> exists dx Jx, calc_Px T st x false = Ok dx /\ unknowns_vec st dx /\
  calc_prod_JPx T st x false = Ok Jx /\ residual_vec st Jx /\
  (forall h, exists f, calc_f T st (vadd x0 (vscale h dx)) = Ok f /\ residual_vec st f) /\
  forall i, i < n2 -> derivable_pt_lim (residual_along st dx i) 0 (nth i Jx 0%R).
Proof.
  intros Hx. destruct (forward_ok m st SF FO nv ns St x Hx RR II) as (dx & Jx & EP & LP & EJ & LJ & JV & JK).
  pose proof (sf_xyza _ _ SF) as Lx0.
  assert (Ly : forall h, unknowns_vec st (vadd x0 (vscale h dx))) by (intros; unfold unknowns_vec; rewrite vadd_len; rewrite ?vscale_len; congruence).
  exists dx, Jx. split; [auto|]. split; [auto|]. split; [auto|]. split; [auto|]. split.
  - intros h. destruct (calc_f_ok m st SF FO _ (Ly h)) as (f & _ & _ & E & L & _). exists f. auto.
  - intros i Hi. destruct (Nat.lt_ge_cases i (n_vars st)) as [C|C].
    + rewrite JV by auto. apply (derivable_ext (fun h => nth i x0 0 + h * nth i dx 0 - nth i (m_values R T d) 0)%R).
      * intros h. unfold residual_along. destruct (calc_f_ok m st SF FO _ (Ly h)) as (f & _ & _ & E & L & _ & _ & _ & P & _). rewrite E, P by auto.
        rewrite nth_vadd, nth_vscale by (rewrite vscale_len; congruence). reflexivity.
      * assert (E0 : ((0 + (1 * nth i dx 0 + id 0 * 0)) - 0)%R = nth i dx 0%R) by (unfold id; ring). refine (eq_ind _ (fun l => derivable_pt_lim _ 0 l) _ _ E0).
        apply (derivable_pt_lim_minus (fun h => nth i x0 0 + h * nth i dx 0)%R (fun _ => nth i (m_values R T d) 0%R)); [|apply derivable_pt_lim_const].
        apply (derivable_pt_lim_plus (fun _ => nth i x0 0%R) (fun h => h * nth i dx 0)%R); [apply derivable_pt_lim_const|].
        apply (derivable_pt_lim_mult id (fun _ => nth i dx 0%R)); [apply derivable_pt_lim_id|apply derivable_pt_lim_const].
    + pose proof (nks_m m st SF) as NK. destruct (locate (Nm (m_idx R T m)) (i - n_vars st)) as (n & N & i' & HN & Hi' & Ei); [lia|].
      fold (start m n) in Ei. replace i with (n_vars st + (start m n + i')) in * by lia. clear Ei C.
      assert (Hn : n < length (Nm (m_idx R T m))) by (apply nth_error_Some; congruence).
      destruct (nth_error (Im (m_idx R T m)) n) as [p|] eqn:Hp; [|apply nth_error_None in Hp; rewrite (ev_im _ _ (sf_ev _ _ SF)) in Hp; lia].
      destruct (nth_error (m_unck R T m) n) as [uK|] eqn:EK; [|apply nth_error_None in EK; rewrite (wf_unck _ (sf_wf _ _ SF)) in EK; lia].
      assert (LuK : length uK = N) by (pose proof (proj1 (proj2 (sf_shapes _ _ SF)) n uK EK); congruence).
      rewrite (JK n p N uK i' Hp HN EK Hi').
      destruct (side_deriv n p 0 (fst p) N i' dx Hp (or_introl eq_refl) eq_refl HN Hi' LP) as (A1 & D1 & P1).
      destruct (side_deriv n p 1 (snd p) N i' dx Hp (or_intror eq_refl) eq_refl HN Hi' LP) as (A2 & D2 & P2).
      apply (derivable_ext (fun h => (A2 h - A1 h - nth (start m n + i') (m_ks R T m) 0) * / nth i' uK 0)%R).
      * intros h. unfold residual_along. destruct (residual_ok m st SF FO _ (Ly h)) as (e & ks & EO & EV & MT & Ek & Lk & Ef). 
        destruct (calc_f_ok m st SF FO _ (Ly h)) as (f & e' & ks' & E & L & EO' & Ek' & _ & _ & P). rewrite E, P by lia.
        rewrite <- (est_sd m st SF) in Ek'.
        assert (EU : nth (start m n + i') (all_uK m) 0%R = nth i' uK 0%R).
        { unfold all_uK, start. rewrite <- (unck_sizes m st SF). apply concat_nth; auto; lia. }
        assert (EV' : evaluable e' (estimate_sd T st (vadd x0 (vscale h dx)) (n_vars st)) /\ models_total e' (estimate_sd T st (vadd x0 (vscale h dx)) (n_vars st))).
        { destruct (eo_none _ _ _ _ EO') as (B1 & B2 & B3 & B4 & B5 & B6). apply (est_evaluable m st SF FO); auto; [apply (eo_idx _ _ _ _ EO')|apply (eo_ps _ _ _ _ EO')|].
          destruct (eo_values _ _ _ _ EO') as (r0 & Er0 & ->). assert (Lf : length (firstn (n_vars st) (vadd x0 (vscale h dx))) = n_vars st) by (apply firstn_length_le; rewrite (Ly h); lia). apply (reverse_vals m st SF _ _ Lf Er0). }
        destruct EV' as (EV' & MT').
        destruct (K_entry _ e' n p N i' ks' (Ly h) EO' EV' MT' Ek' Hp HN Hi') as (b1 & b2 & AS1 & AS2 & EK2).
        rewrite EU, EK2, (P1 h e' b1 EO' AS1), (P2 h e' b2 EO' AS2). reflexivity.
      * replace ((sideD m st nv (snd p) n dx i' - sideD m st nv (fst p) n dx i') / nth i' uK 0)%R
          with ((sideD m st nv (snd p) n dx i' - sideD m st nv (fst p) n dx i' - 0) * / nth i' uK 0 + (A2 0 - A1 0 - nth (start m n + i') (m_ks R T m) 0) * 0)%R by (unfold Rdiv; ring).
        apply (derivable_pt_lim_mult (fun h => A2 h - A1 h - nth (start m n + i') (m_ks R T m) 0)%R (fun _ => / nth i' uK 0)%R); [|apply derivable_pt_lim_const].
        apply (derivable_pt_lim_minus (fun h => A2 h - A1 h)%R (fun _ => nth (start m n + i') (m_ks R T m) 0%R)); [|apply derivable_pt_lim_const].
        apply (derivable_pt_lim_minus A2 A1); auto.
Qed.
End Der.

Theorem product_is_derivative {T} (m : mobj R T) (st : solver T) x : solver_for m st -> functions_ok m st -> derivatives_correct m st ->
  ignores_indices m st -> reference_random m st -> unknowns_vec st x ->
  exists dx Jx, calc_Px T st x false = Ok dx /\ unknowns_vec st dx /\
  calc_prod_JPx T st x false = Ok Jx /\ residual_vec st Jx /\
  (forall h, exists f, calc_f T st (vadd (g_xyza T st) (vscale h dx)) = Ok f /\ residual_vec st f) /\
  forall i, i < n_vars st + n_ks st -> derivable_pt_lim (residual_along st dx i) 0 (nth i Jx 0%R).
Proof.
  intros SF FO DC II RR Hx. destruct (solver_facts m st SF) as (nv & ns & St & _). exact (product_derivative m st SF FO DC II RR nv ns St x Hx).
Qed.
