(** * The Gauss-Newton loop with LSMR in place. *)
From Coq Require Import Reals ZArith Lra Lia.
From Verif Require Import Base BaseLemmas ReaderModel UncModel MuModel SensorSpec SampleSpec TransformModel TransformSpec TransformProofs TransformProofs2 EvalModel EvalSpec
  HistModel GNModel GNAlgebra GNTerms GNAdjoint GNMain GNResidual GNLoop GNTotal GNOutput PCAlgebra LsmrModel LsmrSpec LsmrAlg LsmrInv LsmrLoop LsmrMono EivModel EivSpec EivProofs GNSpec.
Open Scope nat_scope.

Lemma list_of_vec n l : length l = n -> list_of n (vec_of l) = l.
Proof.
  intros L. apply nth_ext with (d := 0%R) (d' := 0%R); [rewrite list_of_len; auto|]. intros i Hi. rewrite list_of_len in Hi. exact (vec_list n (vec_of l) i Hi).
Qed.

Section L.
Context {T : Type}.
Variables (m : mobj R T) (st : solver T) (SF : solver_for m st) (FO : functions_ok m st).
Variables (tolA tolB : R) (HA : (0 <= tolA)%R) (NV : 1 <= n_vars st).
Variable tol : R.
Notation n1 := (n_vars st + n_pars st).
Notation n2 := (n_vars st + n_ks st).

Lemma res_at x : unknowns_vec st x -> exists f g, residuals_at st x f /\ residual_vec st f /\ calc_prod_JPx T (with_xyza T st x) f true = Ok g /\ unknowns_vec st g.
Proof.
  intros Hx. destruct (calc_f_ok m _ (solver_with m st SF _ Hx) FO x Hx) as (f & _ & _ & Ef & Lf & _).
  destruct (ADJ m (with_xyza T st x) (solver_with m st SF _ Hx) FO (repeat 0%R n1) f) as (_ & g & _ & Eg & _ & Lg & _); [apply repeat_length|exact Lf|].
  exists f, g. auto.
Qed.
Lemma stationary_iff x f g : residuals_at st x f -> calc_prod_JPx T (with_xyza T st x) f true = Ok g -> (stationary st x <-> all_zero g).
Proof.
  intros E1 E2. split.
  - intros (g' & (f' & F1 & F2) & Z). unfold residuals_at in *. assert (f' = f) by congruence. subst f'. assert (g' = g) by congruence. subst g'. exact Z.
  - intros Z. exists g. split; [exists f; auto|exact Z].
Qed.

(** A call of LSMR at [x]. *)
Lemma call_at x f attr : unknowns_vec st x -> residuals_at st x f -> (forall a, attr = Some a -> unknowns_vec st a) ->
  match lsmr_call T tolA tolB (with_xyza T st x) attr (map Ropp f) with
  | Raise e => e = ZeroDivisionError /\ linearly_solvable st x /\ ~ stationary st x
  | Ok None => stationary st x /\ attr = None
  | Ok (Some s) => unknowns_vec st s /\ (stationary st x -> attr = Some s) /\
      (~ stationary st x -> exists f g Js, residuals_at st x f /\ gradient_at st x g /\ calc_prod_JPx T (with_xyza T st x) s false = Ok Js /\
         (sum_sq (vadd f Js) < sum_sq f)%R /\ (2 * inner g s < - sum_sq Js)%R)
  end.
Proof.
  intros Hx Ef Ha. set (sx := with_xyza T st x). pose proof (solver_with m st SF _ Hx) as SX. fold sx in SX.
  destruct (res_at x Hx) as (f' & g & E1 & Lf & Eg & Lg). assert (f' = f) by (unfold residuals_at in *; congruence). subst f'.
  destruct (lsmr_call T tolA tolB sx attr (map Ropp f)) as [o|e] eqn:E.
  - destruct (call_ok m sx SX FO tolA tolB HA NV attr f o Lf E) as (g' & Eg' & _ & [(Z & ->)|((a & Ia & Na) & s & Js & -> & Ls & EJ & _ & D1 & D2)]); fold sx in Eg; assert (g' = g) by congruence; subst g'.
    + pose proof (proj2 (stationary_iff x f g E1 Eg) Z) as St. destruct attr as [a|]; cbn [option_map]; [|auto].
      change (n_vars sx + n_pars sx) with n1. rewrite list_of_vec by (apply Ha; reflexivity). split; [apply Ha; reflexivity|]. split; [auto|]. intros N. contradiction.
    + split; [exact Ls|]. assert (NS : ~ stationary st x). { intros St. apply Na. exact (proj1 (stationary_iff x f g E1 Eg) St a Ia). }
      split; [intros St; contradiction|]. intros _. exists f, g, Js. split; [exact E1|]. split; [exists f; auto|]. split; [exact EJ|]. split; [exact D1|exact D2].
  - assert (NST : ~ stationary st x). { intros St. fold sx in Eg. rewrite (call_stationary m sx SX FO tolA tolB NV attr f g Lf Eg (proj1 (stationary_iff x f g E1 Eg) St)) in E. discriminate. }
    unfold lsmr_call in E. destruct (dims m sx SX) as (D1 & D2). rewrite D1, D2 in E. cbn [bind] in E. change (n_a_of T sx) with (n_pars st) in E.
    match type of E with match solve ?a ?b ?c 0 ?d1 ?d2 ?d3 ?d4 ?sx0 ?bb with _ => _ end = _ => pose proof (solve_exact a b c bb d1 d2 d3 d4 HA sx0) as EX end.
    match type of EX with let (_, _) := ?t in _ => destruct t as [[s|e'] sx'] end; [discriminate|]. injection E as <-. destruct EX as (-> & v & Hv). split; [reflexivity|]. split; [|exact NST].
    destruct (op_mul_vec n2 n1 _ _ (ADJ m sx SX FO) v) as (Jv & EJ & LJ & HJ). exists f, (list_of n1 v), Jv. split; [exact E1|]. split; [unfold unknowns_vec; apply list_of_len|]. split; [exact EJ|].
    apply nth_ext with (d := 0%R) (d' := 0%R); [unfold vscale; rewrite map_length, LJ; symmetry; exact Lf|]. intros i Hi. rewrite LJ in Hi. change (i < n2) in Hi. etransitivity; [symmetry; exact (HJ i Hi)|]. etransitivity; [exact (Hv i Hi)|]. unfold vec_of.
    rewrite map_opp. reflexivity.
Qed.

Record einv (x0 : list R) (ga : gstate * option (list R)) (xs ss : list (list R)) : Prop := {
  ei_l : linv st tol x0 (fst ga) xs;
  ei_u : unknowns_vec st (s_xyza (fst ga));
  ei_len : length ss = s_iter (fst ga);
  ei_attr : snd ga = match length ss with 0 => None | S k => nth_error ss k end;
  ei_all : forall s, In s ss -> unknowns_vec st s;
  ei_steps : eiv_steps st x0 xs ss
}.

Lemma gn_iter_moves lsmr g g' s : (forall st' b, lsmr (S (s_iter g)) st' b = Ok s) -> gn_iter T lsmr st tol g = Ok g' -> moves st (s_xyza g) s (s_xyza g').
Proof.
  intros H E. unfold gn_iter in E. rewrite H in E. cbn [bind] in E.
  destruct (calc_Px T _ s false) as [dd|] eqn:Ed; cbn [bind] in E; [|discriminate].
  destruct (Nat.eqb_spec (length dd) (length (s_xyza g))) as [El|]; cbn [bind] in E; [|discriminate].
  rewrite bop_eq in E by auto. cbn [bind] in E.
  repeat (match type of E with bind ?x _ = _ => destruct x as [?|] eqn:?; cbn [bind] in E; [|discriminate] end). injection E as <-. cbn [s_xyza].
  exists dd. rewrite vadd_zip. auto.
Qed.
Lemma gn_iter_ext l1 l2 g : (forall st' b, l1 (S (s_iter g)) st' b = l2 (S (s_iter g)) st' b) -> gn_iter T l1 st tol g = gn_iter T l2 st tol g.
Proof. intros H. unfold gn_iter. rewrite H. reflexivity. Qed.

Lemma eiter_ok x0 ga xs ss : einv x0 ga xs ss -> s_conv (fst ga) = false ->
  match eiv_iter T tolA tolB st tol ga with
  | Ok ga' => exists s, einv x0 ga' (xs ++ [s_xyza (fst ga')]) (ss ++ [s]) /\ s_iter (fst ga') = S (s_iter (fst ga)) /\ gn_iter T (fun _ _ _ => Ok s) st tol (fst ga) = Ok (fst ga')
  | Raise e => e = TypeError /\ ss = [] /\ stationary st x0 \/ e = ZeroDivisionError /\ linearly_solvable st (s_xyza (fst ga)) /\ ~ stationary st (s_xyza (fst ga))
  end.
Proof.
  destruct ga as [g attr]. intros [Hl Hu Hn Ha Hs He] Hc. cbn [fst snd] in *. unfold eiv_iter.
  pose proof (call_at (s_xyza g) (s_res g) attr Hu (li_res _ _ _ _ _ Hl)) as C.
  assert (HH : forall a, attr = Some a -> unknowns_vec st a). { intros a E. rewrite E in Ha. apply Hs. destruct (length ss); [discriminate|]. eapply nth_error_In. symmetry. exact Ha. }
  specialize (C HH). destruct (lsmr_call T tolA tolB (with_xyza T st (s_xyza g)) attr (map Ropp (s_res g))) as [[s|]|e]; cbn [bind].
  - destruct C as (Us & C1 & C2).
    destruct (iter_total m st SF FO (fun _ _ _ => Ok s) tol g NV) as (g' & E & Hu'); [intros k st' b; exists s; auto|exact Hu|]. rewrite E. cbn [bind]. exists s.
    destruct (iter_inv (fun _ _ _ => Ok s) st tol x0 g g' xs Hl Hc E) as (I1 & I2). cbn [fst snd]. split; [|auto].
    destruct He as (P1 & P2 & P3).
    constructor; cbn [fst snd].
    + exact I2.
    + exact Hu'.
    + rewrite app_length. cbn [length]. lia.
    + rewrite app_length. cbn [length]. replace (length ss + 1) with (S (length ss)) by lia. rewrite nth_error_app2 by lia. rewrite Nat.sub_diag. reflexivity.
    + intros s' Hs'. apply in_app_or in Hs'. destruct Hs' as [Hs'|Hs']; [auto|]. cbn in Hs'. destruct Hs' as [<-|[]]. exact Us.
    + split; [rewrite !app_length; cbn [length]; lia|]. split; [rewrite nth_error_app1 by lia; exact P2|].
      intros k x s' x' A1 A2 A3. destruct (Nat.lt_ge_cases k (length ss)) as [Hk|Hk].
      * rewrite nth_error_app1 in A1, A2, A3 by lia. replace (match k with 0 => None | S k' => nth_error (ss ++ [s]) k' end) with (match k with 0 => None | S k' => nth_error ss k' end); [eapply P3; eauto|].
        destruct k; [reflexivity|]. rewrite nth_error_app1 by lia. reflexivity.
      * assert (k = length ss). { assert (k < length (ss ++ [s])) by (apply nth_error_Some; congruence). rewrite app_length in *. cbn in *. lia. } subst k.
        rewrite nth_error_app1 in A1 by lia. rewrite nth_error_app2, Nat.sub_diag in A2 by lia. rewrite nth_error_app2 in A3 by lia. replace (S (length ss) - length xs) with 0 in A3 by lia. cbn in A2, A3. injection A2 as <-. injection A3 as <-.
        rewrite Hn, (li_last _ _ _ _ _ Hl) in A1. injection A1 as <-.
        split; [exact Hu|]. split; [exact Us|]. split; [exact (gn_iter_moves (fun _ _ _ => Ok s) g g' s (fun _ _ => eq_refl) E)|]. split; [|exact C2].
        intros St. rewrite <- (C1 St), Ha. destruct (length ss) as [|k] eqn:Ek; [reflexivity|]. rewrite nth_error_app1 by lia. reflexivity.
  - left. destruct C as (St & An). split; [reflexivity|].
    assert (Es : ss = []). { destruct ss as [|s ss']; [reflexivity|]. exfalso. rewrite An in Ha. cbn [length] in Ha. symmetry in Ha. apply nth_error_None in Ha. cbn in Ha. lia. }
    split; [exact Es|]. subst ss. cbn [length] in Hn. pose proof (li_last _ _ _ _ _ Hl) as Q. rewrite <- Hn in Q. destruct He as (_ & P2 & _). rewrite P2 in Q. injection Q as ->. exact St.
  - right. exact C.
Qed.

Lemma eloop_ok x0 fuel : forall ga xs ss, einv x0 ga xs ss ->
  match eiv_loop T tolA tolB st tol fuel ga with
  | Ok ga' => exists xs' ss', einv x0 ga' xs' ss' /\ (exists more, ss' = ss ++ more) /\ s_iter (fst ga) <= s_iter (fst ga') <= s_iter (fst ga) + fuel /\
      (s_conv (fst ga') = false -> s_iter (fst ga') = s_iter (fst ga) + fuel) /\ (s_conv (fst ga) = false -> 1 <= fuel -> s_iter (fst ga) < s_iter (fst ga')) /\
      (forall lsmr, (forall k s, nth_error ss' k = Some s -> forall st' b, lsmr (S k) st' b = Ok s) -> gn_loop T lsmr st tol fuel (fst ga) = Ok (fst ga'))
  | Raise e => e = TypeError /\ stationary st x0 \/
      e = ZeroDivisionError /\ exists xs' ss' x, eiv_steps st x0 xs' ss' /\ nth_error xs' (length ss') = Some x /\ length ss' < s_iter (fst ga) + fuel /\ linearly_solvable st x /\ ~ stationary st x
  end.
Proof.
  induction fuel as [|fuel IH]; intros ga xs ss H; cbn [eiv_loop].
  - exists xs, ss. split; [exact H|]. split; [exists []; rewrite app_nil_r; reflexivity|]. split; [lia|]. split; [lia|]. split; [lia|]. reflexivity.
  - destruct (s_conv (fst ga)) eqn:Hc.
    + exists xs, ss. split; [exact H|]. split; [exists []; rewrite app_nil_r; reflexivity|]. split; [lia|]. split; [congruence|]. split; [congruence|]. intros lsmr Hl. cbn [gn_loop]. rewrite Hc. reflexivity.
    + pose proof (eiter_ok x0 ga xs ss H Hc) as I1. destruct (eiv_iter T tolA tolB st tol ga) as [ga1|e]; cbn [bind].
      * destruct I1 as (s & H1 & It & Eg). specialize (IH ga1 _ _ H1). destruct (eiv_loop T tolA tolB st tol fuel ga1) as [ga'|e].
        -- destruct IH as (xs' & ss' & A1 & (more & A2) & A3 & A4 & A5 & A6). exists xs', ss'. split; [exact A1|]. split; [exists (s :: more); rewrite A2, <- app_assoc; reflexivity|]. split; [lia|]. split; [intros Q; specialize (A4 Q); lia|]. split; [lia|].
           intros lsmr Hl. cbn [gn_loop]. rewrite Hc. rewrite (gn_iter_ext lsmr (fun _ _ _ => Ok s)); [rewrite Eg; cbn [bind]; apply A6, Hl|].
           intros st' b. apply Hl. rewrite A2, <- app_assoc, nth_error_app2 by (rewrite (ei_len _ _ _ _ H); lia). rewrite (ei_len _ _ _ _ H), Nat.sub_diag. reflexivity.
        -- destruct IH as [IH|(IH1 & xs' & ss' & x & IH2 & IH3 & IH4 & IH5)]; [left; exact IH|]. right. split; [exact IH1|]. exists xs', ss', x. split; [exact IH2|]. split; [exact IH3|]. split; [lia|exact IH5].
      * destruct I1 as [(A1 & A2 & A3)|(A1 & A2)]; [left; auto|]. right. split; [exact A1|]. exists xs, ss, (s_xyza (fst ga)). split; [exact (ei_steps _ _ _ _ H)|]. split; [rewrite (ei_len _ _ _ _ H); exact (li_last _ _ _ _ _ (ei_l _ _ _ _ H))|]. split; [rewrite (ei_len _ _ _ _ H); lia|exact A2].
Qed.

Lemma einv0 f : calc_f T st (g_xyza T st) = Ok f -> einv (g_xyza T st) (mkG 0 (g_xyza T st) f (cost_of f) None false [], None) [g_xyza T st] [].
Proof.
  intros E. constructor; cbn [fst snd].
  - constructor; cbn [s_iter s_xyza s_res s_prev s_cost s_conv s_log].
    + split; [reflexivity|]. split; [reflexivity|]. intros k x x' l A1 A2. destruct k; discriminate.
    + reflexivity.
    + reflexivity.
    + rewrite with_self. auto.
    + apply cost_sum_sq.
    + lia.
    + intros k l H. destruct k; discriminate.
    + split; [discriminate|]. intros (l & k & H & _). discriminate.
  - exact (sf_xyza _ _ SF).
  - reflexivity.
  - reflexivity.
  - intros s [].
  - split; [reflexivity|]. split; [reflexivity|]. intros [|k] x s x' _ H; discriminate.
Qed.
End L.
