From Coq Require Import Lra.
From Verif Require Import Base BaseLemmas UncProofs2 UnckModel.
Local Open Scope R_scope.

Lemma quad_ge a b : Rabs a <= sqrt (a * a + b * b).
Proof.
  rewrite <- (sqrt_Rsqr_abs a). apply sqrt_le_1_alt. unfold Rsqr.
  pose proof (Rle_0_sqr b) as H. unfold Rsqr in H. lra.
Qed.

Lemma quad_zero a b : sqrt (a * a + b * b) = 0 <-> a = 0 /\ b = 0.
Proof.
  split.
  - intros H. pose proof (quad_ge a b) as H1. pose proof (quad_ge b a) as H2.
    rewrite (Rplus_comm (b * b)) in H2. rewrite H in *.
    split; match goal with |- ?x = 0 => destruct (Req_dec x 0) as [|Hn]; auto;
      pose proof (Rabs_pos_lt x Hn); lra end.
  - intros (-> & ->). replace (0 * 0 + 0 * 0) with 0 by ring. apply sqrt_0.
Qed.

Theorem unck_valid kr ks : length kr = length ks ->
  exists u, unck kr ks = Ok u /\ length u = length kr /\
  forall i r s, nth_error kr i = Some r -> nth_error ks i = Some s ->
    exists x, nth_error u i = Some x /\ 0 <= x /\ x * x = r * r + s * s /\
      Rabs r <= x /\ Rabs s <= x /\ (x <> 0 <-> r <> 0 \/ s <> 0).
Proof.
  intros Hl. unfold unck. rewrite (proj2 (Nat.eqb_eq _ _) Hl). eexists; split; [reflexivity|].
  split; [rewrite map_length, combine_length, Hl; apply Nat.min_id|].
  intros i r s Hr Hs. rewrite nth_error_map', nth_error_combine, Hr, Hs.
  eexists; split; [reflexivity|]. cbn [fst snd].
  assert (0 <= r * r + s * s).
  { pose proof (Rle_0_sqr r); pose proof (Rle_0_sqr s). unfold Rsqr in *. lra. }
  split; [apply sqrt_pos|]. split; [apply sqrt_sqrt; auto|].
  split; [apply quad_ge|]. split; [rewrite Rplus_comm; apply quad_ge|].
  rewrite quad_zero. destruct (Req_dec r 0), (Req_dec s 0); tauto.
Qed.
