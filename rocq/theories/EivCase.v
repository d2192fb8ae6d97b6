(** * A small problem on which the run is followed completely: two match-ups of a reference A and a sensor B with an unknown offset. *)
From Coq Require Import Reals ZArith Lra Lia.
From Verif Require Import Base BaseLemmas ReaderModel UncModel MuModel SensorSpec SampleSpec TransformModel TransformSpec TransformProofs TransformProofs2 EvalModel EvalSpec
  HistModel GNModel GNAlgebra GNTerms GNAdjoint GNMain GNResidual GNForward GNDeriv GNLoop GNTotal GNOutput PCAlgebra LsmrModel LsmrSpec LsmrAlg LsmrInv LsmrLoop LsmrMono LsmrEigen MinresModel
  EivModel EivSpec EivProofs EivProofs2 EivProofs3 GNSpec PropertiesEval.
Open Scope nat_scope.

(** ** LSMR when the gradient is an eigenvector of the normal matrix *)
Section Exact.
Context {T : Type}.
Variables (m : mobj R T) (st : solver T) (SF : solver_for m st) (FO : functions_ok m st).
Variables (tolA tolB : R) (HA : (0 <= tolA)%R) (NV : 1 <= n_vars st).
Notation n1 := (n_vars st + n_pars st).
Notation n2 := (n_vars st + n_ks st).

Lemma call_exact x f g Jg c attr : unknowns_vec st x -> residuals_at st x f -> residual_vec st f -> unknowns_vec st g -> residual_vec st Jg ->
  calc_prod_JPx T (with_xyza T st x) f true = Ok g -> calc_prod_JPx T (with_xyza T st x) g false = Ok Jg ->
  calc_prod_JPx T (with_xyza T st x) Jg true = Ok (vscale c g) -> ~ all_zero g -> ~ linearly_solvable st x ->
  exists s Js r, lsmr_call T tolA tolB (with_xyza T st x) attr (map Ropp f) = Ok (Some s) /\ unknowns_vec st s /\
    calc_prod_JPx T (with_xyza T st x) s false = Ok Js /\ calc_prod_JPx T (with_xyza T st x) (vadd f Js) true = Ok r /\ all_zero r.
Proof.
  intros Hx Ef Lf Lg LJg Eg EJ ET Ng NL. set (sx := with_xyza T st x) in *. pose proof (solver_with m st SF _ Hx) as SX. fold sx in SX.
  set (b := map Ropp f). assert (Lb : length b = n2) by (unfold b; rewrite map_length; exact Lf).
  set (A := op_matrix n1 (fun x => calc_prod_JPx T sx x false)).
  destruct (op_mulH n2 n1 _ _ (ADJ m sx SX FO) f Lf) as (g' & Eg' & _ & Hg). assert (g' = g) by congruence. subst g'. fold A in Hg.
  assert (Hgb : forall j, j < n1 -> mulH n2 A (vec_of b) j = (- nth j g 0)%R).
  { intros j Hj. rewrite <- (Hg j Hj). rewrite (mulH_lin n2 A (vec_of f) (vec_of f) (vec_of b) (-1) 0); [ring|]. intros i Hi. unfold vec_of, b. unfold residual_vec in Lf. rewrite nth_map0 by lia. ring. }
  destruct (op_mul n2 n1 _ _ (ADJ m sx SX FO) g Lg) as (J' & EJ' & _ & HJ). assert (J' = Jg) by congruence. subst J'. fold A in HJ.
  destruct (op_mulH n2 n1 _ _ (ADJ m sx SX FO) Jg LJg) as (t & ET' & _ & HT). assert (t = vscale c g) by congruence. subst t. fold A in HT.
  destruct (solve_normal n2 n1 A (vec_of b) c tolA tolA tolB (n_vars st) (option_map vec_of attr) HA NV) as (s & Es & Hs).
  - destruct (Exists_dec (fun a => a <> 0%R) g (fun a => match Req_EM_T a 0 with left e => right (fun n => n e) | right n => left n end)) as [X|X].
    + apply Exists_exists in X. destruct X as (a & Ha & Na). destruct (In_nth g a 0%R Ha) as (j & Hj & E). exists j. unfold unknowns_vec in Lg. split; [lia|]. rewrite Hgb by lia. rewrite E. lra.
    + exfalso. apply Ng. intros a Ha. destruct (Req_EM_T a 0) as [E|N]; [exact E|]. exfalso. apply X. apply Exists_exists. exists a. auto.
  - intros j Hj. rewrite (Hgb j Hj). 
    rewrite (mulH_lin n2 A (vec_of Jg) (vec_of Jg) (mul n1 A (mulH n2 A (vec_of b))) (-1) 0).
    + rewrite (HT j Hj), nth_vscale. ring.
    + intros i Hi. rewrite (mul_lin n1 A (vec_of g) (vec_of g) (mulH n2 A (vec_of b)) (-1) 0 i).
      * rewrite (HJ i Hi). unfold vec_of. ring.
      * intros k Hk. rewrite (Hgb k Hk). unfold vec_of. ring.
  - intros (v & Hv). apply NL. destruct (op_mul_vec n2 n1 _ _ (ADJ m sx SX FO) v) as (Jv & EJv & LJ & HJv). exists f, (list_of n1 v), Jv. split; [exact Ef|]. split; [unfold unknowns_vec; apply list_of_len|]. split; [exact EJv|].
    apply nth_ext with (d := 0%R) (d' := 0%R); [unfold vscale; rewrite map_length, LJ; symmetry; exact Lf|]. intros i Hi. rewrite LJ in Hi. etransitivity; [symmetry; exact (HJv i Hi)|]. etransitivity; [exact (Hv i Hi)|]. unfold vec_of, b. rewrite map_opp. reflexivity.
  - destruct (op_mul_vec n2 n1 _ _ (ADJ m sx SX FO) (l_x s)) as (Js & EJs & LJ & HJs). fold A in HJs.
    assert (Ly : length (vadd f Js) = n2) by (rewrite vadd_len; unfold residual_vec in *; congruence).
    destruct (op_mulH n2 n1 _ _ (ADJ m sx SX FO) (vadd f Js) Ly) as (r & Er & Lr & Hr). fold A in Hr.
    exists (list_of n1 (l_x s)), Js, r. split; [|split; [unfold unknowns_vec; apply list_of_len|split; [exact EJs|split; [exact Er|]]]].
    + unfold lsmr_call. destruct (dims m sx SX) as (D1 & D2). rewrite D1, D2. cbn [bind]. change (n_a_of T sx) with (n_pars st). change (n_vars sx) with (n_vars st). change (n_ks sx) with (n_ks st). fold A. rewrite Es. reflexivity.
    + intros a Ha. destruct (In_nth r a 0%R Ha) as (j & Hj & <-). rewrite Lr in Hj. rewrite <- (Hr j Hj).
      rewrite (mulH_lin n2 A (residual n1 A (vec_of b) (l_x s)) (residual n1 A (vec_of b) (l_x s)) (vec_of (vadd f Js)) (-1) 0); [rewrite (Hs j Hj); ring|].
      intros i Hi. unfold vec_of at 1. rewrite nth_vadd by (unfold residual_vec in *; congruence). unfold residual. rewrite (HJs i Hi). unfold vec_of, b. unfold residual_vec in Lf. rewrite nth_map0 by lia. ring.
Qed.
End Exact.

(** ** The problem *)
Local Open Scope R_scope.
Definition oxidx : idx_t :=
  mkIdx [2]%nat [0; 2]%nat [(0, 1)]%nat ["A"; "B"]%string [1; 1]%nat [0; 1]%nat [1; 1]%nat [1; 1]%nat [2; 2]%nat [0; 2; 4]%nat.
Definition oxps : list string := ["B"]%string.
Definition ones2 : unc R := mkUnc R (UK1 R [1; 1]) None.
Definition oxm (k1 k2 : R) : mobj R nat :=
  mkMobj R nat oxidx (Some oxps) (Some oxidx) (Some oxps) [0; 0; 0; 0] [k1; k2] [ones2; ones2] [[1; 1]] [] [] None None None None None None None.
Definition off_model : smodel nat := fun X a c xt al t =>
  match X, a with x :: _, [a0] => Ok (map (fun v => a0 + v) x, Some [map (fun _ => 1) x; map (fun _ => 1) x]) | _, _ => Raise IndexError end.
Definition oxsd : sdat nat := mkSdat nat [0] [] [] [ref_model; off_model] [default_adj; default_adj].
Definition oxst (k1 k2 : R) : solver nat := gn_init nat (match tn_run nat (oxm k1 k2) with Ok d => d | Raise _ => oxm k1 k2 end) oxsd [].

Section Case.
Variables k1 k2 : R.
Lemma ox_solver : solver_for (oxm k1 k2) (oxst k1 k2).
Proof.
  constructor.
  - constructor; try reflexivity.
    + intros b n Hb. do 2 (destruct b as [|b]; [cbn in Hb; injection Hb as <-; split; [lia|]; eexists; split; reflexivity|]). destruct b; discriminate.
    + cbn. intros n Hn. destruct n as [|[|n]]; try lia; tauto.
  - split; [reflexivity|]. split.
    + intros n v Hv. destruct n as [|n]; [cbn in Hv; injection Hv as <-; reflexivity|]. destruct n; discriminate.
    + intros b v N Hv HN. destruct b as [|[|b]]; cbn in Hv, HN; try (destruct b; discriminate); injection Hv as <-; injection HN as <-; reflexivity.
  - reflexivity.
  - reflexivity.
  - constructor; try reflexivity.
    + split; reflexivity.
    + intros b n Hb. destruct b as [|[|b]]; cbn in Hb; try (destruct b; discriminate); injection Hb as <-; (split; [lia|]; eexists; split; reflexivity).
    + cbn. intros n Hn. destruct n as [|[|n]]; try lia; tauto.
    + repeat constructor; cbn; intuition congruence.
    + intros n p Hp. destruct n as [|n]; cbn in Hp; [|destruct n; discriminate]; injection Hp as <-; cbn [fst snd];
        (split; [lia|]); intros s [-> | ->]; cbn; repeat split; try lia; discriminate.
    + eexists; reflexivity.
    + cbn. intros l H. repeat (destruct H as [H|H]; [try discriminate; injection H as <-; reflexivity|]); destruct H.
    + cbn. intros l [H|[H|[]]]; discriminate.
  - discriminate.
  - cbn. repeat constructor; cbn; intuition congruence.
  - intros n p s Hp Hs. exists 1%nat. destruct n as [|n]; cbn in Hp; [|destruct n; discriminate]; injection Hp as <-; cbn in Hs;
      destruct Hs as [-> | ->]; repeat split; lia.
  - exists oxps. repeat split.
  - reflexivity.
  - cbn. rewrite app_length. reflexivity.
  - split; [reflexivity|]. cbn. intros r Hr. repeat (destruct Hr as [<-|Hr]; [reflexivity|]). destruct Hr.
Qed.
Lemma ox_functions : functions_ok (oxm k1 k2) (oxst k1 k2).
Proof.
  split.
  - intros s b r Hb. cbn in Hb. destruct s as [|[|s]]; cbn in Hb; try (destruct s; discriminate); injection Hb as <-; eexists r, _; (split; reflexivity).
  - intros n p s name ps ms N g b X a c xt' al t Hp Hs Hn Hps Hms HN Hg Hb LX HX La Hc _ _ _.
    cbn in Hps. injection Hps as <-.
    destruct X as [|x0 X0]; [exfalso; cbn in LX; subst ms; destruct s as [|[|s]]; try discriminate; destruct s; discriminate|].
    assert (L0 : length x0 = N) by (apply HX; left; reflexivity).
    destruct n as [|n]; cbn in Hp; [|destruct n; discriminate]; injection Hp as <-; cbn in HN; injection HN as <-; cbn in Hs;
      destruct Hs as [-> | ->]; cbn in Hn; injection Hn as <-; cbn in Hms; injection Hms as <-; cbn in Hg; injection Hg as <-; cbn in Hb; injection Hb as <-.
    + exists x0, None, x0. eexists. split; [reflexivity|]. split; [auto|]. split; [reflexivity|]. split; [auto|]. split; [rewrite map_length; auto|].
      exists 0%nat, ones2. split; [reflexivity|]. split; [reflexivity|]. exact Logic.I.
    + destruct a as [|a0 [|? ?]]; try discriminate.
      eexists _, _, _, _. split; [reflexivity|]. split; [rewrite map_length; auto|]. split; [reflexivity|]. split; [rewrite map_length; auto|]. split; [rewrite !map_length; auto|].
      split; [reflexivity|]. split; [cbn; lia|]. split; [reflexivity|].
      intros col [<-|[<-|[]]]; rewrite ?map_length; auto.
Qed.
Lemma ox_numbered : well_numbered (oxm k1 k2).
Proof.
  split.
  - intros k u Hu Hs. exfalso. cbn in Hu. destruct Hu as [<-|[<-|[]]]; exact Hs.
  - intros b s H. destruct b as [|[|b]]; cbn in H; try (destruct b; discriminate); injection H as <-; cbn; lia.
Qed.
Ltac rlazy := lazy -[Rplus Rmult Rdiv Rinv Ropp Rminus IZR].
Ltac same := repeat (apply (f_equal2 cons); [field|]); reflexivity.
Lemma ox_f x1 x2 x3 x4 x5 : residuals_at (oxst k1 k2) [x1; x2; x3; x4; x5] [x1; x2; x3; x4; x5 + x3 - x1 - k1; x5 + x4 - x2 - k2].
Proof.
  unfold residuals_at. assert (E : exists l, calc_f nat (with_xyza nat (oxst k1 k2) [x1; x2; x3; x4; x5]) [x1; x2; x3; x4; x5] = Ok l /\ l = [x1; x2; x3; x4; x5 + x3 - x1 - k1; x5 + x4 - x2 - k2]).
  { eexists. split; [rlazy; reflexivity|]. same. }
  destruct E as (l & -> & ->). reflexivity.
Qed.
Lemma ox_J x1 x2 x3 x4 x5 s1 s2 s3 s4 s5 : calc_prod_JPx nat (with_xyza nat (oxst k1 k2) [x1; x2; x3; x4; x5]) [s1; s2; s3; s4; s5] false = Ok [s1; s2; s3; s4; s5 + s3 - s1; s5 + s4 - s2].
Proof.
  match goal with |- ?a = Ok ?b => assert (E : exists l, a = Ok l /\ l = b) end.
  { eexists. split; [rlazy; reflexivity|]. same. }
  destruct E as (l & -> & ->). reflexivity.
Qed.
Lemma ox_Jt x1 x2 x3 x4 x5 y1 y2 y3 y4 y5 y6 : calc_prod_JPx nat (with_xyza nat (oxst k1 k2) [x1; x2; x3; x4; x5]) [y1; y2; y3; y4; y5; y6] true = Ok [y1 - y5; y2 - y6; y3 + y5; y4 + y6; y5 + y6].
Proof.
  match goal with |- ?a = Ok ?b => assert (E : exists l, a = Ok l /\ l = b) end.
  { eexists. split; [rlazy; reflexivity|]. same. }
  destruct E as (l & -> & ->). reflexivity.
Qed.
Lemma ox_P x s1 s2 s3 s4 s5 : calc_Px nat (with_xyza nat (oxst k1 k2) x) [s1; s2; s3; s4; s5] false = Ok [s1; s2; s3; s4; s5].
Proof.
  match goal with |- ?a = Ok ?b => assert (E : exists l, a = Ok l /\ l = b) end.
  { eexists. split; [rlazy; reflexivity|]. same. }
  destruct E as (l & -> & ->). reflexivity.
Qed.
Lemma ox_dims : n_vars (oxst k1 k2) = 4%nat /\ n_ks (oxst k1 k2) = 2%nat /\ n_pars (oxst k1 k2) = 1%nat.
Proof. split; [reflexivity|]. split; reflexivity. Qed.
Lemma five x : unknowns_vec (oxst k1 k2) x -> exists a b c d e, x = [a; b; c; d; e].
Proof.
  unfold unknowns_vec. destruct ox_dims as (-> & _ & ->). intros L. destruct x as [|a [|b [|c [|d [|e [|? ?]]]]]]; try discriminate. exists a, b, c, d, e. reflexivity.
Qed.
(** Contradicting match-ups can never be fitted exactly. *)
Lemma ox_unsolvable x : k1 <> k2 -> unknowns_vec (oxst k1 k2) x -> ~ linearly_solvable (oxst k1 k2) x.
Proof.
  intros Hk Hx (f & s & Js & Ef & Ls & EJ & E). destruct (five x Hx) as (x1 & x2 & x3 & x4 & x5 & ->). destruct (five s Ls) as (s1 & s2 & s3 & s4 & s5 & ->).
  pose proof (ox_f x1 x2 x3 x4 x5) as F. unfold residuals_at in *. rewrite F in Ef. injection Ef as <-. rewrite ox_J in EJ. injection EJ as <-. cbn [vscale map] in E. injection E as E1 E2 E3 E4 E5 E6. apply Hk. lra.
Qed.
Lemma ox_cost x1 x2 x3 x4 x5 : cost_at (oxst k1 k2) [x1; x2; x3; x4; x5] = x1 ^ 2 + x2 ^ 2 + x3 ^ 2 + x4 ^ 2 + (x5 + x3 - x1 - k1) ^ 2 + (x5 + x4 - x2 - k2) ^ 2.
Proof. unfold cost_at. pose proof (ox_f x1 x2 x3 x4 x5) as F. unfold residuals_at in F. rewrite F. unfold sum_sq. cbn [inner]. ring. Qed.
End Case.
