(** Proofs for C118, C119: a whole harmonisation. *)
From Coq Require Import Reals Lra Permutation QArith.
From Verif Require Import Base BaseLemmas ReaderModel ReaderSpec UncModel SensorModel SensorSpec MuModel MuProofs SampleModel SampleSpec
  TransformModel TransformSpec TransformProofs TransformProofs2 TransformMain EvalModel EvalSpec GNModel GNAlgebra GNMain GNResidual PCModel PCSpec LsmrModel EivModel EivSpec EivProofs3 CheckModel CheckSpec IOModel IOSpec FullModel FullSpec FullProofs5 FullProofs6 FullProofs8 GNSpec.
Open Scope nat_scope.

Section Harm.
Context {T : Type}.
Variables (cholesky : list (list R) -> res (list (list R))).
Variables (tolA tolB eps tol : R) (xr : list vec).

Lemma iterates_len (st : solver T) x0 xs ss k x : eiv_steps st x0 xs ss -> unknowns_vec st x0 -> nth_error xs k = Some x -> unknowns_vec st x.
Proof.
  intros (L & X0 & St) U0 H. destruct k as [|k]; [rewrite X0 in H; injection H as <-; exact U0|].
  assert (S k < length xs) by (apply nth_error_Some; congruence). destruct (nth_error xs k) as [y|] eqn:Ey; [|apply nth_error_None in Ey; lia]. destruct (nth_error ss k) as [s|] eqn:Es; [|apply nth_error_None in Es; lia].
  destruct (St k y s x Ey Es H) as (Uy & _ & (d & _ & -> & Ld) & _). unfold unknowns_vec in *. rewrite vadd_len; lia.
Qed.
Lemma harmonised_from m sd save a V : ready m sd -> cholesky_total cholesky -> (0 <= tolA)%R -> (exists N, In N (Nm (m_idx R T m)) /\ 1 <= N) ->
  length a = length (sd_a T sd) -> spd V (length a) ->
  exists d L, tn_run T m = Ok d /\ cholesky V = Ok L /\ cholesky_factor L V (length a) /\
    harmonised eps xr tol save m (start sd d a L) (eiv_from cholesky tolA tolB eps tol xr m sd save (a, V)).
Proof.
  intros RD CT HA HN La SV. destruct (eiv_from_outcome cholesky tolA tolB eps tol xr m sd save a V RD CT HA HN La SV) as (d & L & Ed & EL & FL & SF & FO & NV & ->).
  exists d, L. do 3 (split; [assumption|]). pose proof (run_outcome m (start sd d a L) SF FO tolA tolB eps xr HA NV tol (negb save) (rd_num _ _ RD)) as RO.
  destruct (eiv_run T tolA tolB eps xr (start sd d a L) tol (negb save)) as [r|x] eqn:Er; [|exact RO].
  unfold harmonised. destruct RO as (xs & ss & R1 & R2 & R3 & R4 & R5 & R6 & R7 & R8 & R9 & R10 & R11 & R12). destruct (rd_ps _ _ RD) as (ps & P1 & _ & P3). cbn [h_sensors h_idx h_result]. rewrite P1. do 2 (split; [reflexivity|]).
  exists xs, ss. do 10 (split; [assumption|]). split.
  { assert (U : unknowns_vec (start sd d a L) (e_xyza r)). { eapply iterates_len; [exact R1| |exact R9]. unfold unknowns_vec, n_vars, n_pars. cbn. apply app_length. }
    rewrite R10, skipn_length, U. unfold n_pars. cbn. lia. }
  split; [exact R11|]. destruct save; exact R12.
Qed.
End Harm.
