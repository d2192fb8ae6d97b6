(** * C117-C119: a whole harmonisation, from files and sensor data to the result. *)
From Coq Require Import Reals Lra Permutation QArith.
From Verif Require Import Base BaseLemmas ReaderModel ReaderSpec UncModel SensorModel SensorSpec MuModel SampleModel SampleSpec
  TransformModel TransformSpec EvalModel EvalSpec GNModel PCModel PCSpec LsmrModel EivModel EivSpec CheckModel CheckSpec CheckProofs IOModel IOSpec FullModel FullSpec FullProofs5 FullProofs6 FullProofs8 FullProofs9 FullCase IOProofs IOProofs5 Routines PropertiesCheck GNSpec.
Open Scope nat_scope.

Section Props.
Context {T : Type} (nanV : R) (zeroT : T) (f32 i32 : R -> R) (todate : R -> T) (isfill : R -> bool) (ord : list string -> list string) (ordn : list nat -> list nat).
Variables (cholesky : list (list R) -> res (list (list R))) (solve : list (list R) -> list R -> res (list R))
          (least_squares : nat -> solver T -> list (list R) -> list R -> res (list (list R) * list R))
          (qr_R lstsq_eye : list (list R) -> res (list (list R))) (smp : nat -> list nat -> nat -> list nat).
Variables (tolA tolB eps tol : R) (xs : list vec).
Notation open_matchup := (open_matchup nanV zeroT f32 i32 todate isfill ord ordn).
Notation harmonise := (harmonise zeroT cholesky solve least_squares qr_R lstsq_eye smp tolA tolB eps tol xs).
Notation precondition := (precondition zeroT cholesky solve least_squares qr_R lstsq_eye smp).

(** ** C117: usable files and sensor data that describe their sensors open to an object with everything the later steps need *)
Theorem C117_open_ready : (forall l, Permutation (ordn l) l) -> forall dict fs, fs <> [] -> (forall f, In f fs -> usable f) -> agree fs -> describes dict fs ->
  exists m sd, open_matchup dict fs = Ok (m, sd) /\ ready m sd /\
    (forall f M, In f fs -> size f "M" M -> In M (Nm (m_idx R T m))) /\
    ((forall f, In f fs -> rows_filled f) -> complete_mobj m /\ w_rows m).
Proof. exact (open_ready nanV zeroT f32 i32 todate isfill ord ordn). Qed.

(** ** C118: from files to the result, with a given preconditioner *)
Theorem C118_files_to_result : (forall l, Permutation (ordn l) l) -> cholesky_total cholesky -> (0 <= tolA)%R ->
  forall dict fs, (forall f, In f fs -> usable f) -> agree fs -> describes dict fs -> (exists f M, In f fs /\ size f "M" M /\ 1 <= M) ->
  exists m sd, open_matchup dict fs = Ok (m, sd) /\
  forall save a V, length a = length (sd_a T sd) -> spd V (length a) ->
  exists d L, tn_run T m = Ok d /\ cholesky V = Ok L /\ cholesky_factor L V (length a) /\
    harmonised eps xs tol save m (start sd d a L) (harmonise m sd save (Some (a, V))).
Proof.
  intros PM CT HA dict fs US AG DE (f & M & Hf & HM & H1). assert (NE : fs <> []) by (intros ->; destruct Hf).
  destruct (C117_open_ready PM dict fs NE US AG DE) as (m & sd & EO & RD & NM & _). exists m, sd. split; [exact EO|].
  intros save a V La SV. unfold FullModel.harmonise. cbn [bind]. exact (harmonised_from cholesky tolA tolB eps tol xs m sd save a V RD CT HA (ex_intro _ M (conj (NM f M Hf HM) H1)) La SV).
Qed.

(** The same from data written with the writer: no file made by hand. *)
Theorem C118_data_to_result : (forall l, Permutation (ordn l) l) -> cholesky_total cholesky -> (0 <= tolA)%R ->
  forall f4 trunc dict ps w, match_set ps -> (forall p, In p ps -> good_values p /\ forall sd, 1 <= p_m p sd) ->
  exists fs, mapM (fun p => write_input_file f4 trunc (args_of p w)) ps = Ok fs /\ (forall f, In f fs -> check f = Ok []) /\
  (describes dict fs -> exists m sd, open_matchup dict fs = Ok (m, sd) /\
   forall save a V, length a = length (sd_a T sd) -> spd V (length a) ->
   exists d L, tn_run T m = Ok d /\ cholesky V = Ok L /\ cholesky_factor L V (length a) /\
     harmonised eps xs tol save m (start sd d a L) (harmonise m sd save (Some (a, V)))).
Proof.
  intros PM CT HA f4 trunc dict ps w MS GV. pose proof MS as (NE & WS & _). exists (map (file_of f4 trunc) ps). split; [apply written_all; intros p Hp; apply (WS p Hp)|].
  assert (US : forall f, In f (map (file_of f4 trunc) ps) -> usable f). { intros f Hf. apply in_map_iff in Hf. destruct Hf as (p & <- & Hp). destruct (GV p Hp). apply written_usable; auto. apply (WS p Hp). }
  split; [intros f Hf; apply (us_check _ (US f Hf))|]. intros DE. apply C118_files_to_result; auto; [apply written_agree; exact MS|].
  destruct ps as [|p ps]; [congruence|]. exists (file_of f4 trunc p), (p_M p). split; [left; reflexivity|]. split; [cbn; tauto|]. destruct (GV p (or_introl eq_refl)). apply written_some; auto. apply (WS p (or_introl eq_refl)).
Qed.

(** ** C119: from files to the result, with its own preconditioner *)
Theorem C119_own_preconditioner : (forall l, Permutation (ordn l) l) -> cholesky_total cholesky -> solve_exact solve -> least_squares_total least_squares ->
  (forall J, exists x, qr_R J = Ok x) -> qr_exact qr_R -> (forall M, exists x, lstsq_eye M = Ok x) -> lstsq_exact lstsq_eye -> is_sample smp -> (0 <= tolA)%R ->
  forall dict fs, (forall f, In f fs -> usable f) -> (forall f, In f fs -> rows_filled f) -> agree fs -> describes dict fs -> (exists f M, In f fs /\ size f "M" M /\ 1 <= M) ->
  exists m sd s d' a V st k Ja, open_matchup dict fs = Ok (m, sd) /\
    (* the preconditioner returns: its parameters and their covariance *)
    precondition m sd = Ok (a, V) /\ length a = length (sd_a T sd) /\
    (* the derivatives of the sampled K at these parameters *)
    sample2ind R T 0%R zeroT rms_u smp m (1 # 10)%Q 100000%Z = Ok s /\ tn_run T s = Ok d' /\
    g_m T st = d' /\ g_sd T st = sd /\ g_xyza T st = m_values R T d' ++ a /\ pc_kJ T st = Ok (k, Ja) /\ length Ja = length a /\
    (* if the sample determines the parameters, the solver runs from there *)
    (independent_columns Ja (list_sum (Nm (m_idx R T s))) ->
     spd V (length a) /\ forall save, exists d L, tn_run T m = Ok d /\ cholesky V = Ok L /\ cholesky_factor L V (length a) /\
       harmonised eps xs tol save m (start sd d a L) (harmonise m sd save None)).
Proof.
  intros PM CT SE LT QT QE LQ LE IS HA dict fs US RF AG DE (f & M & Hf & HM & H1). assert (NE : fs <> []) by (intros ->; destruct Hf).
  destruct (C117_open_ready PM dict fs NE US AG DE) as (m & sd & EO & RD & NM & CW). destruct (CW RF) as (CM & WR).
  destruct (precondition_ok zeroT cholesky solve least_squares qr_R lstsq_eye smp m sd CT SE LT QT QE LQ LE IS RD CM WR) as (s & d' & a & V & st & k & Ja & P1 & P2 & P3 & P4 & P5 & P6 & P7 & P8 & P9 & P10).
  exists m, sd, s, d', a, V, st, k, Ja. do 10 (split; [assumption|]). intros IND. split; [auto|]. intros save. unfold FullModel.harmonise. rewrite P3. cbn [bind].
  exact (harmonised_from cholesky tolA tolB eps tol xs m sd save a V RD CT HA (ex_intro _ M (conj (NM f M Hf HM) H1)) P4 (P10 IND)).
Qed.
End Props.
Print Assumptions C117_open_ready.
Print Assumptions C118_files_to_result.
Print Assumptions C118_data_to_result.
Print Assumptions C119_own_preconditioner.

(** ** The hypotheses are met *)
(** By exact routines in real arithmetic (Routines.v). *)
Example routines_exist : cholesky_total chol /\ solve_exact fsolve /\ least_squares_total (T := nat) (fun _ _ _ a => Ok ([a], a)) /\
  (forall J, exists x, qr J = Ok x) /\ qr_exact qr /\ (forall M, exists x, lsq M = Ok x) /\ lstsq_exact lsq /\ is_sample (fun _ l k => firstn k l).
Proof. split; [exact chol_total|]. split; [exact fsolve_exact|]. split; [exact stay_total|]. split; [apply qr_is_exact|]. split; [apply qr_is_exact|]. split; [apply lsq_is_exact|]. split; [apply lsq_is_exact|exact first_is_sample]. Qed.
(** By a file with a W matrix and a dictionary for its two sensors. *)
Example C117_example : let f := exfile 3 [[0; 1]]%Z in usable f /\ rows_filled f /\ agree [f] /\ describes (exdict "B" "A") [f] /\ size f "M" 1.
Proof. cbv zeta. destruct exw_files as (H1 & H2 & H3 & H4 & H5). split; [apply H1; left; reflexivity|]. split; [apply H2; left; reflexivity|]. auto. Qed.
Example C118_example : match_set [exq] /\ (forall p, In p [exq] -> good_values p /\ forall sd, 1 <= p_m p sd) /\ describes (exdict "A" "B") [file_of (fun x => x) (fun _ => 0%Z) exq].
Proof.
  split; [|split; [intros p [<-|[]]; split; [exact exq_values|intros sd; apply le_n]|apply exqf_files]]. split; [discriminate|]. split; [intros p [<-|[]]; split; [apply exq_shaped|discriminate]|intros p p' sd sd' [<-|[]] [<-|[]] _; reflexivity].
Qed.
(** A complete run, preconditioner and solver, on ten match-ups. *)
Example C119_example : exists m sd s a V d L, let harm := harmonise O chol fsolve (fun _ _ _ a => Ok ([a], a)) qr lsq (fun _ l k => firstn k l) 1%R 1%R 1%R (1/1000)%R [] m sd false None in
  open_matchup (T := nat) 0%R O (fun x => x) (fun x => x) (fun _ => O) (fun _ => false) (fun l => l) (fun l => l) (exdict "A" "B") [exqf] = Ok (m, sd) /\
  sample2ind R nat 0%R O rms_u (fun _ l k => firstn k l) m (1 # 10)%Q 100000%Z = Ok s /\ spd V (length a) /\ chol V = Ok L /\ harmonised 1%R [] (1/1000)%R false m (start sd d a L) harm.
Proof.
  destruct routines_exist as (H1 & H2 & H3 & H4 & H5 & H6 & H7 & H8). destruct exqf_files as (F1 & F2 & F3 & F4 & F5).
  destruct (C119_own_preconditioner 0%R O (fun x => x) (fun x => x) (fun _ => O) (fun _ => false) (fun l => l) (fun l => l) chol fsolve (fun _ _ _ a => Ok ([a], a)) qr lsq (fun _ l k => firstn k l) 1%R 1%R 1%R (1/1000)%R []
    (fun l => Permutation_refl l) H1 H2 H3 H4 H5 H6 H7 H8 Rle_0_1 (exdict "A" "B") [exqf] F1 F2 F3 F4) as (m & sd & s & d' & a & V & st & k & Ja & E1 & E2 & E3 & E4 & E5 & E6 & E7 & E8 & E9 & E10 & K).
  { exists exqf, 10. split; [left; reflexivity|]. split; [exact F5|lia]. }
  destruct (K (exq_determined m sd s d' a st k Ja E1 E3 E4 E5 E6 E7 E8 E9)) as (SV & R). destruct (R false) as (d & L & R1 & R2 & R3 & R4).
  exists m, sd, s, a, V, d, L. cbv zeta. auto.
Qed.
