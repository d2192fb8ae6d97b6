(** Property theorems C30, C31, C57-C60 (preconditioner solver).
    Vocabulary: PCSpec.v, GNSpec.v, EvalSpec.v, TransformSpec.v.  Model: PCModel.v. *)
From Coq Require Import Reals Lra.
From Verif Require Import Base BaseLemmas ReaderModel UncModel MuModel SensorSpec SampleSpec TransformModel TransformSpec EvalModel EvalSpec
  HistModel GNModel GNSpec PCModel PCSpec GNDeriv PCMatrix PCWeights3 PCJac2 PCLoop PCWhite PropertiesTransform PropertiesEval PropertiesGN PropertiesGN2.
Open Scope nat_scope.

Section Props.
Context {T : Type}.
Notation mobj := (mobj R T).

(** C30: whatever the data, a covariance matrix VK that the solver computes is symmetric positive
    definite, of the size of the match-up data, and has a Cholesky factor (so the factorisation that
    follows cannot fail). *)
Theorem C30_covariance_positive_definite : forall (st : solver T) V, calc_VK T st = Ok V ->
  exists n, pylast (cNm (m_idx R T (g_m T st))) = Ok n /\ spd V n /\ exists L, cholesky_factor L V n.
Proof. intros st V H. destruct (VK_good st V H) as (n & E & G). exists n. split; [exact E|]. apply good_spd in G. split; [exact G|]. apply spd_cholesky. exact G. Qed.

(** C57: VK is the covariance of the errors of K (in units of their uncertainty) that propagation of the
    random and systematic uncertainties of all covariates through sensor and adjustment functions gives. *)
Theorem C57_covariance_is_propagated : forall (m : mobj) (st : solver T) a, pc_for m st a -> functions_ok m st -> one_effect_per_sensor m st ->
  exists V, calc_VK T st = Ok V /\ square V (list_sum (Nm (m_idx R T m))) /\
    (forall p, p < list_sum (Nm (m_idx R T m)) -> exists l, parts m (g_sd T st) a p l) /\
    forall p q l l', parts m (g_sd T st) a p l -> parts m (g_sd T st) a q l' -> entry V p q = propagated p q l l'.
Proof. exact VK_propagated. Qed.

(** C58: the sum of squares that is minimised is the K residual weighted with the inverse of V (w = V^-1 d). *)
Theorem C58_weighted_residual : forall solve, solve_exact solve -> forall (m : mobj) (st : solver T) a L V,
  pc_for m st a -> functions_ok m st -> square V (list_sum (Nm (m_idx R T m))) -> cholesky_factor L V (list_sum (Nm (m_idx R T m))) ->
  forall w, exists f d, get_f T solve st L = Ok f /\ length d = list_sum (Nm (m_idx R T m)) /\
    (forall p, p < list_sum (Nm (m_idx R T m)) -> exists x, model_K m (g_sd T st) a p x) /\
    (forall p x, model_K m (g_sd T st) a p x -> nth p d 0%R = (x - nth p (m_ks R T (g_m T st)) 0)%R) /\
    (length w = list_sum (Nm (m_idx R T m)) -> mul_vec V w = d -> inner f f = inner w d).
Proof.
  intros solve SE m st a L V PF FO SV CF w. destruct (weighted_sum solve SE m st a L V w PF FO SV CF) as (f & d & H1 & H2 & H3 & H4).
  exists f, d. split; [exact H1|]. split; [exact H2|]. split; [|split; assumption].
  destruct (kJ_values m st a PF FO) as (k & Ja & _ & _ & _ & _ & X & _). exact X.
Qed.

(** C58: the Jacobian handed to the optimiser is the derivative of the residual handed to it, in every
    direction [da]. *)
Theorem C58_jacobian_is_derivative : forall solve, solve_exact solve -> forall (m : mobj) (st : solver T) a L da,
  pc_for m st a -> functions_ok m st -> parameter_derivatives m (g_sd T st) ->
  lower_triangular L (list_sum (Nm (m_idx R T m))) -> length da = length a ->
  exists J, get_Ja T solve st L = Ok J /\ length J = length a /\
    forall p, p < list_sum (Nm (m_idx R T m)) ->
      derivable_pt_lim (fun h => weighted_residual_at solve st L (vadd a (vscale h da)) p) 0%R (row_dot J da p).
Proof. intros solve SE m st a L da. apply (weighted_derivative solve SE m st a L da). Qed.

Section Run.
Variables (cholesky : list (list R) -> res (list (list R))) (solve : list (list R) -> list R -> res (list R)).
Variable least_squares : nat -> solver T -> list (list R) -> list R -> res (list (list R) * list R).
Variables (qr_R lstsq_eye : list (list R) -> res (list (list R))).

(** C31: a run makes at least one pass and at most 20 + ceil(sqrt(number of values + number of
    parameters)); each pass starts from the parameters of the previous one; the loop goes on exactly
    while they move by at least the tolerance; the returned parameters are those of the last pass. *)
Theorem C31_passes : same_length least_squares -> forall st tol r, runPC T cholesky solve least_squares qr_R lstsq_eye st tol = Ok r ->
  exists sts as_ LKs, pc_passes cholesky solve least_squares st (sd_a T (g_sd T st)) sts as_ LKs /\
    pc_iter r = length LKs /\ 1 <= length LKs /\
    (exists c, ceil_sqrt (length (m_values R T (g_m T st)) + length (sd_a T (g_sd T st))) c /\ length LKs <= 20 + c /\
       (length LKs < 20 + c -> forall k a a', length LKs = S k -> nth_error as_ k = Some a -> nth_error as_ (S k) = Some a' -> (distance a' a < tol)%R)) /\
    (forall k a a', S k < length LKs -> nth_error as_ k = Some a -> nth_error as_ (S k) = Some a' -> ~ (distance a' a < tol)%R) /\
    nth_error as_ (length LKs) = Some (pc_a r).
Proof. intros H st tol r. apply run_passes. exact H. Qed.

(** C31: whatever the library routines return, the covariance is symmetric positive semidefinite. *)
Theorem C31_covariance_symmetric : forall st tol r, runPC T cholesky solve least_squares qr_R lstsq_eye st tol = Ok r ->
  exists n, square (pc_V r) n /\ symmetric (pc_V r) /\ forall x, length x = n -> (0 <= quad (pc_V r) x)%R.
Proof. apply run_covariance. Qed.

(** C31: with exact QR and least-squares routines the covariance is the inverse of J'J, with J the
    weighted Jacobian at the returned parameters, weighted with the factor of the last pass. *)
Theorem C31_covariance_is_inverse : same_length least_squares -> qr_exact qr_R -> lstsq_exact lstsq_eye ->
  forall st tol r, runPC T cholesky solve least_squares qr_R lstsq_eye st tol = Ok r ->
  exists sts as_ LKs st' st2 LK J, pc_passes cholesky solve least_squares st (sd_a T (g_sd T st)) sts as_ LKs /\ pc_iter r = length LKs /\
    nth_error sts (length LKs) = Some st' /\ nth_error as_ (length LKs) = Some (pc_a r) /\ nth_error LKs (length LKs - 1) = Some LK /\
    pc_update T st' (pc_a r) = Ok st2 /\ get_Ja T solve st2 LK = Ok J /\
    forall N, independent_columns J N -> square (pc_V r) (length J) /\
      forall i j, i < length J -> j < length J -> rsum (map (fun t => entry (pc_V r) i t * inner (nth t J []) (nth j J []))%R (seq 0 (length J))) = delta i j.
Proof. intros H1 H2 H3 st tol r H. exact (run_inverse cholesky solve least_squares qr_R lstsq_eye H1 st tol r H H2 H3). Qed.

(** C31: a run returns, for every tolerance, if the library routines do. *)
Theorem C31_run_returns : cholesky_total cholesky -> solve_total solve -> least_squares_total least_squares ->
  (forall J, exists x, qr_R J = Ok x) -> (forall M, exists x, lstsq_eye M = Ok x) ->
  forall (m : mobj) st tol, pc_for m st (sd_a T (g_sd T st)) -> functions_ok m st -> one_effect_per_sensor m st ->
  exists r, runPC T cholesky solve least_squares qr_R lstsq_eye st tol = Ok r.
Proof. intros H1 H2 H3 H4 H5 m st tol. apply run_returns; assumption. Qed.
End Run.

(** C59: if the optimiser evaluates the residual last at the solution it returns, the weights of every
    pass are those of the current estimate (and so, by C57, the covariance propagated with it).
    Partial: this condition is needed, see C59_stale_weights_refuted. *)
Theorem C59_weights_of_current_estimate_partial : forall cholesky solve least_squares, ends_at_solution least_squares ->
  forall (m : mobj) (st : solver T) sts as_ LKs, pc_passes cholesky solve least_squares st (sd_a T (g_sd T st)) sts as_ LKs ->
  pc_for m st (sd_a T (g_sd T st)) -> functions_ok m st -> one_effect_per_sensor m st ->
  forall k s a LK, nth_error sts k = Some s -> nth_error as_ k = Some a -> nth_error LKs k = Some LK ->
  exists V, cholesky V = Ok LK /\
    forall p q l l', parts m (g_sd T st) a p l -> parts m (g_sd T st) a q l' -> entry V p q = propagated p q l l'.
Proof.
  intros cholesky solve ls EN m st sts as_ LKs PP PF FO OE k s a LK Hs Ha HL.
  destruct (weights_at_estimate cholesky solve ls m st _ sts as_ LKs EN PP PF FO k s a Hs Ha) as (P & F & Sd).
  destruct PP as (H1 & H2 & _ & _ & H5). assert (k < length LKs) by (apply nth_error_Some; congruence).
  destruct (nth_error sts (S k)) as [s'|] eqn:Es; [|apply nth_error_None in Es; lia]. destruct (nth_error as_ (S k)) as [a'|] eqn:Ea; [|apply nth_error_None in Ea; lia].
  destruct (H5 k s s' a a' LK Hs Es Ha Ea HL) as (VK & tried & E1 & E2 & _).
  assert (OE1 : one_effect_per_sensor m s) by (destruct OE; constructor; auto; rewrite Sd; auto).
  destruct (VK_propagated m s a P F OE1) as (V & EV & _ & _ & PV). rewrite E1 in EV. injection EV as <-. exists VK. split; [exact E2|]. rewrite <- Sd. exact PV.
Qed.
End Props.
Print Assumptions C59_weights_of_current_estimate_partial.
Print Assumptions C30_covariance_positive_definite.
Print Assumptions C57_covariance_is_propagated.
Print Assumptions C58_weighted_residual.
Print Assumptions C58_jacobian_is_derivative.
Print Assumptions C31_passes.
Print Assumptions C31_covariance_symmetric.
Print Assumptions C31_covariance_is_inverse.
Print Assumptions C31_run_returns.

Section Concrete.
Local Open Scope R_scope.

(** Three sensors A (reference), B, C; series A-B with two match-ups, B-C with one.  B has systematic
    effect 1 in both series, C effect 2. *)
Definition pxidx : idx_t :=
  mkIdx [2; 1]%nat [0; 2; 3]%nat [(0, 1); (1, 2)]%nat ["A"; "B"; "C"]%string [1; 1; 1]%nat [0; 1; 1; 2]%nat [1; 1; 2; 2]%nat [1; 1; 1; 1]%nat [2; 2; 1; 1]%nat [0; 2; 4; 5; 6]%nat.
Definition pxps : list string := ["B"; "B"; "C"; "C"]%string.
Definition px_unc : list (unc R) :=
  [mkUnc R (UK1 R [1; 2]) None; mkUnc R (UK2 R [1; 1] [1; 2]) (Some 1%nat); mkUnc R (UK2 R [1] [3]) (Some 1%nat); mkUnc R (UK2 R [1] [1]) (Some 2%nat)].
Definition mkpx (ix : idx_t) (ps : list string) (vals ks : list R) (us : list (unc R)) (uk : list (list R)) : mobj R nat :=
  mkMobj R nat ix (Some ps) (Some ix) (Some ps) vals ks us uk [] [] None None None None None None None.
Definition mkst (m : mobj R nat) (sd : sdat nat) : solver nat := pc_init nat (match tn_run nat m with Ok d => d | Raise _ => m end) sd.
Definition pxm : mobj R nat := mkpx pxidx pxps [1; 2; 1; 3; 2; 4] [0; 1; 1] px_unc [[1; 2]; [1]].
Definition pxsd : sdat nat := mkSdat nat [0; 1; 0; 2] [] [] [ref_model; lin_model; lin_model] [default_adj; default_adj; default_adj].
Definition pxst : solver nat := mkst pxm pxsd.

Ltac nz := intros x Hx; cbn in Hx; intuition lra.
Ltac eachnat n H := cbn in H; repeat (destruct n as [|n]; [cbn in H; injection H as <-|]); try (destruct n; discriminate).
Ltac pcfor :=
  constructor;
  [ constructor; try reflexivity;
    [ intros b n Hb; eachnat b Hb; (split; [lia|]; eexists; split; reflexivity)
    | cbn; intros n Hn; destruct n as [|[|[|n]]]; try lia; tauto ]
  | split; [reflexivity|]; split;
    [ intros n v Hv; eachnat n Hv; reflexivity
    | intros b v N Hv HN; cbn in HN; eachnat b Hv; injection HN as <-; cbn; repeat split; eexists; split; try reflexivity; lia ]
  | split; [intros u Hu; cbn in Hu; repeat (destruct Hu as [<-|Hu]; [nz|]); destruct Hu
    | intros b v N Hv HN; cbn in HN; eachnat b Hv; injection HN as <-; cbn [u_kind]; nz ]
  | intros u Hu; cbn in Hu; repeat (destruct Hu as [<-|Hu]; [exact Logic.I|]); destruct Hu
  | reflexivity
  | constructor; try reflexivity;
    [ split; reflexivity
    | intros b n Hb; eachnat b Hb; (split; [lia|]; eexists; split; reflexivity)
    | cbn; intros n Hn; destruct n as [|[|[|n]]]; try lia; tauto
    | repeat constructor; cbn; intuition congruence
    | intros n p Hp; eachnat n Hp; cbn [fst snd]; (split; [lia|]); intros s [-> | ->]; cbn; repeat split; try lia; discriminate
    | eexists; reflexivity
    | cbn; intros l H; repeat (destruct H as [H|H]; [discriminate|]); destruct H
    | cbn; intros l H; repeat (destruct H as [H|H]; [discriminate|]); destruct H ]
  | discriminate
  | cbn; repeat constructor; cbn; intuition congruence
  | intros n p s Hp Hs; eachnat n Hp; cbn [fst snd] in Hs; destruct Hs as [-> | ->]; eexists; (split; [reflexivity|]; split; [lia|reflexivity])
  | eexists; split; reflexivity
  | reflexivity
  | reflexivity ].

Example px_for : pc_for pxm pxst [0; 1; 0; 2].
Proof. pcfor. Qed.
Ltac onemodel :=
  match goal with
  | La : length ?a = _ |- exists r J r' B, ref_model (?x0 :: _) _ _ _ _ _ = _ /\ _ => exists x0, None, x0; eexists; split; [reflexivity|]; split; [auto|]; split; [reflexivity|];
      split; [auto|]; split; [rewrite map_length; auto|]; eexists _, _; split; [reflexivity|]; split; [reflexivity|exact Logic.I]
  | La : length ?a = _ |- exists r J r' B, lin_model (?x0 :: _) _ _ _ _ _ = _ /\ _ => destruct a as [|a0 [|a1 [|? ?]]]; try discriminate;
      eexists _, _, _, _; split; [reflexivity|]; split; [rewrite map_length; auto|]; split; [reflexivity|]; split; [rewrite map_length; auto|]; split; [rewrite !map_length; auto|];
      split; [reflexivity|]; split; [cbn; lia|]; split; [reflexivity|];
      intros col [<-|[<-|[<-|[]]]]; rewrite ?map_length; auto
  end.
Ltac fok :=
  split;
  [ intros s b r Hb; eachnat s Hb; eexists r, _; (split; reflexivity)
  | intros n p s name ps ms N f b X a c xt al t Hp Hs Hn Hps Hms HN Hf Hb LX HX La Hc _ _ _;
    cbn in Hps; injection Hps as <-; cbn in HN, Hn, Hms, Hf, Hb; eachnat n Hp; injection HN as <-; cbn [fst snd] in Hs; destruct Hs as [-> | ->];
    injection Hn as <-; injection Hms as <-; injection Hf as <-; injection Hb as <-;
    (destruct X as [|x0 X]; [discriminate|]); assert (L0 : length x0 = _) by (apply HX; left; reflexivity); onemodel ].
Example px_functions : functions_ok pxm pxst.
Proof. fok. Qed.
Example px_effects : one_effect_per_sensor pxm pxst.
Proof.
  constructor.
  - intros n p s f X a c xt al t r b u Hp Hs Hf Ef Hb Hu. cbn in Hf. eachnat n Hp; cbn [fst snd] in Hs; destruct Hs as [-> | ->]; injection Hf as <-; cbn in Hb;
      try (destruct X as [|? ?]; [discriminate|]; destruct a as [|? [|? [|? ?]]]; discriminate).
    destruct Hb as [<-|[]]. cbn in Hu. injection Hu as <-. eexists. reflexivity.
  - intros b s u Hs Hu Hsys. exists pxps. split; [reflexivity|]. cbn in Hs. eachnat b Hu; injection Hs as <-; cbn in *; try tauto; lia.
  - intros b b' s s' u u' k k' Hs Hs' Hu Hu' Hsys Hsys' Hk Hk'. cbn in Hs, Hs'. eachnat b Hu; cbn in Hsys, Hk; try tauto; injection Hs as <-; injection Hk as <-;
      eachnat b' Hu'; cbn in Hsys', Hk'; try tauto; injection Hs' as <-; injection Hk' as <-; lia.
  - intros b b' s n u u' Hs Hs' Hn Hn' Hu Hu' Hsys Hsys'. cbn in Hs, Hs', Hn, Hn'. eachnat b Hu; cbn in Hsys; try tauto;
      eachnat b' Hu'; cbn in Hsys'; try tauto; injection Hs as <-; injection Hn as <-; first [reflexivity|discriminate].
Qed.

Lemma lin_param x a c r J da i : lin_model [x] a c None None None = Ok (r, J) -> length da = length a -> (i < length x)%nat ->
  derivable_pt_lim (fun h => nth i (match lin_model [x] (vadd a (vscale h da)) c None None None with Ok (r, _) => r | Raise _ => [] end) 0) 0
    (match J with None => 0 | Some cols => inner (map (fun col => nth i col 0) (skipn 1 cols)) da end).
Proof.
  intros E L Hi. destruct a as [|a0 [|a1 [|? ?]]]; try discriminate. injection E as <- <-. destruct da as [|d0 [|d1 [|? ?]]]; try discriminate.
  assert (EJ : inner (map (fun col => nth i col 0) (skipn 1 [map (fun _ => a1) x; map (fun _ => 1) x; x])) [d0; d1] = d0 + nth i x 0 * d1).
  { cbn [map skipn inner]. rewrite !GNTerms.nth_map0 by lia. ring. }
  rewrite EJ. apply (derivable_ext (fun h => (a0 + h * d0) + (a1 + h * d1) * nth i x 0)).
  - intros h. unfold lin_model. cbn [map vadd vscale]. change (map (fun a2 => h * a2) [d0; d1]) with [h * d0; h * d1]. cbn [vadd]. rewrite GNTerms.nth_map0 by lia. reflexivity.
  - assert (D : forall u v, derivable_pt_lim (fun h => u + h * v) 0 v).
    { intros u v. assert (E0 : (0 + (1 * v + id 0 * 0)) = v) by (unfold id; ring). apply (derivable_val _ _ _ _ E0).
      apply (derivable_pt_lim_plus (fun _ => u) (fun h => h * v)); [apply derivable_pt_lim_const|].
      apply (derivable_pt_lim_mult id (fun _ => v)); [apply derivable_pt_lim_id|apply derivable_pt_lim_const]. }
    assert (E0 : d0 + (d1 * nth i x 0 + (a1 + 0 * d1) * 0) = d0 + nth i x 0 * d1) by ring. apply (derivable_val _ _ _ _ E0).
    apply (derivable_pt_lim_plus (fun h => a0 + h * d0) (fun h => (a1 + h * d1) * nth i x 0)); [apply D|].
    apply (derivable_pt_lim_mult (fun h => a1 + h * d1) (fun _ => nth i x 0)); [apply D|apply derivable_pt_lim_const].
Qed.

Example px_derivatives : parameter_derivatives pxm pxsd.
Proof.
  intros a n side s X as_ c xt al f b r J N SI Hf Hb HN Ef.
  assert (exists x, X = [x] /\ length x = N) as (x & -> & Lx).
  { destruct (si_sensor _ _ _ _ _ _ _ _ _ _ _ SI) as (p & Hp & Hs). pose proof (si_X _ _ _ _ _ _ _ _ _ _ _ SI) as HX. unfold covariates in HX. rewrite Nat.add_sub in Hp.
    cbn in HN. eachnat n Hp; injection HN as <-; cbn [fst snd] in Hs; destruct (Nat.eqb side 0); subst s; cbn in HX; inversion HX as [|b0 x bs xs Hx Hr]; subst; inversion Hr; subst;
      exists x; (split; [reflexivity|]); destruct Hx as (lo & hi & H1 & H2 & _ & ->); injection H1 as <-; injection H2 as <-; reflexivity. }
  assert (Hfs : f = ref_model \/ f = lin_model) by (eachnat s Hf; auto).
  assert (b = default_adj) by (eachnat s Hb; reflexivity). subst b.
  split.
  - intros da i Ld Hi. destruct Hfs as [-> | ->].
    + cbn in Ef. injection Ef as <- <-. apply derivable_pt_lim_const.
    + assert (Hi' : (i < length x)%nat) by lia. exact (lin_param x as_ c r J da i Ef Ld Hi').
  - apply adj_deriv. destruct Hfs as [-> | ->]; cbn in Ef; [injection Ef as <- _; auto|]. destruct as_ as [|? [|? [|? ?]]]; try discriminate. injection Ef as <- _. rewrite map_length. auto.
Qed.

(** The covariance of the example: match-ups 1 and 2 share B's effect with match-up 3. *)
Ltac rlz := lazy -[Rplus Rmult Rdiv Rinv Ropp Rminus IZR].
Example px_VK : exists V, calc_VK nat pxst = Ok V /\ entry V 0 0 = 4 /\ entry V 0 2 = 3 * -1 * 1 /\ entry V 2 2 = 1 + 1 + 9 + 4 + 4.
Proof. eexists. split; [rlz; reflexivity|]. unfold entry. cbn [nth]. repeat split; field. Qed.

(** C60, refuted: with systematic effects in two covariates of one sensor only the last one is kept.
    Reference A and sensor B with two covariates, one match-up, all uncertainties and derivatives 1: the
    variance of K is 6, the solver uses 5. *)
Definition sum_model : smodel nat := fun X a c xt al t =>
  match X, a with [x; y], [a0] => Ok (zip2 Rplus x y, Some [map (fun _ => 1) x; map (fun _ => 1) x; map (fun _ => 0) x]) | _, _ => Raise IndexError end.
Definition qxidx : idx_t :=
  mkIdx [1]%nat [0; 1]%nat [(0, 1)]%nat ["A"; "B"]%string [1; 2]%nat [0; 1; 1]%nat [1; 1; 1]%nat [1; 1; 2]%nat [1; 1; 1]%nat [0; 1; 2; 3]%nat.
Definition qxm : mobj R nat := mkpx qxidx ["B"%string] [1; 2; 3] [0]
  [mkUnc R (UK1 R [1]) None; mkUnc R (UK2 R [1] [1]) (Some 1%nat); mkUnc R (UK2 R [1] [1]) (Some 2%nat)] [[1]].
Definition qxsd : sdat nat := mkSdat nat [0] [] [] [ref_model; sum_model] [default_adj; default_adj].
Definition qxst : solver nat := mkst qxm qxsd.
Example qx_for : pc_for qxm qxst [0].
Proof. pcfor. Qed.
Example qx_functions : functions_ok qxm qxst.
Proof.
  split; [intros s b r Hb; eachnat s Hb; eexists r, _; (split; reflexivity)|].
  intros n p s name ps ms N f b X a c xt al t Hp Hs Hn Hps Hms HN Hf Hb LX HX La Hc _ _ _;
    cbn in Hps; injection Hps as <-; cbn in HN, Hn, Hms, Hf, Hb; eachnat n Hp; injection HN as <-; cbn [fst snd] in Hs; destruct Hs as [-> | ->];
    injection Hn as <-; injection Hms as <-; injection Hf as <-; injection Hb as <-;
    (destruct X as [|x0 X]; [discriminate|]); assert (L0 : length x0 = 1%nat) by (apply HX; left; reflexivity); [onemodel|].
  destruct X as [|x1 [|? ?]]; try discriminate. destruct a as [|a0 [|? ?]]; try discriminate.
  assert (L1 : length x1 = 1%nat) by (apply HX; right; left; reflexivity).
  assert (Lz : length (zip2 Rplus x0 x1) = 1%nat) by (rewrite GNAlgebra.zip2_len; lia).
  eexists _, _, _, _. split; [reflexivity|]. split; [auto|]. split; [reflexivity|]. split; [auto|]. split; [rewrite map_length; auto|].
  split; [reflexivity|]. split; [cbn; lia|]. split; [reflexivity|].
  intros col [<-|[<-|[<-|[]]]]; rewrite ?map_length; auto.
Qed.
Ltac blk := eexists _, _; (split; [reflexivity|]; split; [reflexivity|]; split; [cbn; lia|]; rlz; reflexivity).
Ltac covs := unfold covariates; match goal with |- Forall2 _ ?b _ => let b' := eval vm_compute in b in change b with b' end; repeat (apply Forall2_cons; [blk|]); apply Forall2_nil.
Ltac sinput := constructor; [lia|eexists; split; reflexivity|covs|eexists _, _; do 3 (split; [reflexivity|]); reflexivity|exact Logic.I|exact Logic.I|exact Logic.I].
Ltac sens := eexists _, _, _, _, (@None (list R)), (@None (list R)), _, _, _, _, _, _, _; split; [sinput|]; do 5 (split; [reflexivity|]); cbv zeta; rlz; reflexivity.
Theorem C60_two_effects_refuted : pc_for qxm qxst [0] /\ functions_ok qxm qxst /\
  exists V l, calc_VK nat qxst = Ok V /\ parts qxm qxsd [0] 0 l /\ entry V 0 0 = 5 /\ propagated 0 0 l l = 6.
Proof.
  split; [exact qx_for|]. split; [exact qx_functions|]. eexists _, _. split; [rlz; reflexivity|]. split.
  - exists 0%nat, 0%nat, 1%nat. eexists _, _. do 3 (split; [first [reflexivity|lia]|]). split; [sens|]. split; [sens|reflexivity].
  - split; [unfold entry; cbn [nth]; field|]. rlz. field.
Qed.

(** C60, refuted: the reference R between B and C.  The systematic effects of B and C are unrelated, but
    their columns coincide: the solver uses covariance -1 for the match-ups B-R and R-C. *)
Definition mxidx : idx_t :=
  mkIdx [1; 1]%nat [0; 1; 2]%nat [(0, 1); (1, 2)]%nat ["B"; "R"; "C"]%string [1; 1; 1]%nat [0; 1; 1; 2]%nat [1; 1; 2; 2]%nat [1; 1; 1; 1]%nat [1; 1; 1; 1]%nat [0; 1; 2; 3; 4]%nat.
Definition mxm : mobj R nat := mkpx mxidx pxps [1; 2; 3; 4] [0; 0]
  [mkUnc R (UK2 R [1] [1]) (Some 1%nat); mkUnc R (UK1 R [1]) None; mkUnc R (UK1 R [1]) None; mkUnc R (UK2 R [1] [1]) (Some 2%nat)] [[1]; [1]].
Definition mxsd : sdat nat := mkSdat nat [0; 1; 0; 1] [] [] [lin_model; ref_model; lin_model] [default_adj; default_adj; default_adj].
Definition mxst : solver nat := mkst mxm mxsd.
Example mx_for : pc_for mxm mxst [0; 1; 0; 1].
Proof. pcfor. Qed.
Example mx_functions : functions_ok mxm mxst.
Proof. fok. Qed.
Theorem C60_reference_not_first_refuted : pc_for mxm mxst [0; 1; 0; 1] /\ functions_ok mxm mxst /\
  exists V l l', calc_VK nat mxst = Ok V /\ parts mxm mxsd [0; 1; 0; 1] 0 l /\ parts mxm mxsd [0; 1; 0; 1] 1 l' /\
    entry V 0 1 = -1 /\ propagated 0 1 l l' = 0.
Proof.
  split; [exact mx_for|]. split; [exact mx_functions|]. eexists _, _, _. split; [rlz; reflexivity|]. split; [|split].
  - exists 0%nat, 0%nat, 1%nat. eexists _, _. do 3 (split; [first [reflexivity|lia]|]). split; [sens|]. split; [sens|reflexivity].
  - exists 1%nat, 0%nat, 1%nat. eexists _, _. do 3 (split; [first [reflexivity|lia]|]). split; [sens|]. split; [sens|reflexivity].
  - split; [unfold entry; cbn [nth]; field|]. rlz. field.
Qed.

(** C60, refuted: two reference sensors Q and R before sensor B with a systematic effect: IndexError. *)
Definition nxidx : idx_t :=
  mkIdx [1; 1]%nat [0; 1; 2]%nat [(0, 2); (1, 2)]%nat ["Q"; "R"; "B"]%string [1; 1; 1]%nat [0; 2; 1; 2]%nat [1; 1; 2; 2]%nat [1; 1; 1; 1]%nat [1; 1; 1; 1]%nat [0; 1; 2; 3; 4]%nat.
Definition nxm : mobj R nat := mkpx nxidx ["B"; "B"]%string [1; 2; 3; 4] [0; 0]
  [mkUnc R (UK1 R [1]) None; mkUnc R (UK2 R [1] [1]) (Some 1%nat); mkUnc R (UK1 R [1]) None; mkUnc R (UK2 R [1] [1]) (Some 1%nat)] [[1]; [1]].
Definition nxsd : sdat nat := mkSdat nat [0; 1] [] [] [ref_model; ref_model; lin_model] [default_adj; default_adj; default_adj].
Definition nxst : solver nat := mkst nxm nxsd.
Theorem C60_two_references_refuted : pc_for nxm nxst [0; 1] /\ functions_ok nxm nxst /\ calc_VK nat nxst = Raise IndexError.
Proof. split; [pcfor|]. split; [fok|]. rlz. reflexivity. Qed.
Print Assumptions C60_two_effects_refuted.
Print Assumptions C60_reference_not_first_refuted.
Print Assumptions C60_two_references_refuted.

(** C59, refuted: one match-up of A and B.  The optimiser is called at gain 1, tries 2 and then 3, rejects 3
    and returns 2: the weights of the second pass are those of gain 3. *)
Definition sxidx : idx_t :=
  mkIdx [1]%nat [0; 1]%nat [(0, 1)]%nat ["A"; "B"]%string [1; 1]%nat [0; 1]%nat [1; 1]%nat [1; 1]%nat [1; 1]%nat [0; 1; 2]%nat.
Definition sxm : mobj R nat := mkpx sxidx ["B"; "B"]%string [1; 2] [0] [mkUnc R (UK1 R [1]) None; mkUnc R (UK1 R [1]) None] [[1]].
Definition sxsd : sdat nat := mkSdat nat [0; 1] [] [] [ref_model; lin_model] [default_adj; default_adj].
Definition sxst : solver nat := mkst sxm sxsd.
Example sx_for : pc_for sxm sxst [0; 1].
Proof. pcfor. Qed.
Example sx_functions : functions_ok sxm sxst.
Proof. fok. Qed.
(** Exact routines for 1 x 1 matrices. *)
Definition chol1 (V : list (list R)) : res (list (list R)) := match V with [[v]] => Ok [[sqrt v]] | _ => Raise ValueError end.
Definition solve1 (L : list (list R)) (d : list R) : res (list R) := match L, d with [[l]], [x] => Ok [x / l] | _, _ => Raise ValueError end.
Definition ls1 (k : nat) (st : solver nat) (L : list (list R)) (a : list R) : res (list (list R) * list R) :=
  Ok ([a; [0; 2]; [0; 3]], [0; 2]).
Theorem C59_stale_weights_refuted : pc_for sxm sxst (sd_a nat (g_sd nat sxst)) /\ functions_ok sxm sxst /\
  exists sts as_ LKs, pc_passes chol1 solve1 ls1 sxst (sd_a nat (g_sd nat sxst)) sts as_ LKs /\ length LKs = 2%nat /\
    nth_error as_ 1 = Some [0; 2] /\
    exists s V s' V', nth_error sts 1 = Some s /\ calc_VK nat s = Ok V /\ pc_update nat s [0; 2] = Ok s' /\ calc_VK nat s' = Ok V' /\
      entry V 0 0 = 11 /\ entry V' 0 0 = 6.
Proof.
  split; [exact sx_for|]. split; [exact sx_functions|].
  set (upd a := with_xyza nat sxst (m_values R nat (g_m nat sxst) ++ a)).
  set (V a := match calc_VK nat (upd a) with Ok v => v | Raise _ => [] end).
  set (L a := match chol1 (V a) with Ok v => v | Raise _ => [] end).
  exists [sxst; upd [0; 3]; upd [0; 3]], [[0; 1]; [0; 2]; [0; 2]], [L [0; 1]; L [0; 3]]. split.
  - do 4 (split; [reflexivity|]). intros k s s' a a' LK H1 H2 H3 H4 H5.
    destruct k as [|[|[|k]]]; cbn [nth_error] in *; try (destruct k; discriminate); try discriminate;
      injection H1 as <-; injection H2 as <-; injection H3 as <-; injection H4 as <-; injection H5 as <-; eexists _, _;
      (split; [rlz; reflexivity|]); (split; [rlz; reflexivity|]); (split; [reflexivity|]); (split; [rlz; reflexivity|reflexivity]).
  - split; [reflexivity|]. split; [reflexivity|]. eexists _, _, _, _. split; [reflexivity|]. split; [rlz; reflexivity|]. split; [rlz; reflexivity|]. split; [rlz; reflexivity|].
    unfold entry. cbn [nth]. split; field.
Qed.
Print Assumptions C59_stale_weights_refuted.
End Concrete.
