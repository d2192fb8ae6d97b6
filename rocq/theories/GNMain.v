(** * C22-C24: the operators of the Gauss-Newton solver.  Proofs only. *)
From Coq Require Import Reals Lra.
From Verif Require Import Base BaseLemmas ReaderModel UncModel MuModel SensorSpec SampleSpec TransformModel TransformSpec EvalModel EvalSpec GNModel GNSpec GNAlgebra GNTerms GNAdjoint.
Open Scope nat_scope.

Lemma vscale_len c x : length (vscale c x) = length x. Proof. apply map_length. Qed.
Lemma vadd_len x y : length x = length y -> length (vadd x y) = length x.
Proof. revert y. induction x as [|a x IH]; intros [|b y] H; try discriminate; [reflexivity|]. cbn. f_equal. apply IH. cbn in H. lia. Qed.
Lemma vadd_zip x y : vadd x y = zip2 Rplus x y.
Proof. revert y. induction x as [|a x IH]; intros [|b y]; try reflexivity. cbn [vadd]. rewrite IH. reflexivity. Qed.

Lemma inner_comm x y : inner x y = inner y x.
Proof. revert y. induction x as [|a x IH]; intros [|b y]; try reflexivity. cbn [inner]. rewrite IH. ring. Qed.
Lemma inner_scale c x y : inner (vscale c x) y = (c * inner x y)%R.
Proof. revert y. induction x as [|a x IH]; intros [|b y]; cbn [vscale map inner]; try ring. fold (vscale c x). rewrite IH. ring. Qed.
Lemma inner_add x1 x2 y : length x1 = length x2 -> inner (vadd x1 x2) y = (inner x1 y + inner x2 y)%R.
Proof.
  revert x2 y. induction x1 as [|a x IH]; intros [|b x2] [|c y] H; try discriminate; cbn [vadd inner]; try ring.
  rewrite IH by (cbn in H; lia). ring.
Qed.
Lemma inner_zero n y : inner (repeat 0%R n) y = 0%R.
Proof. revert y. induction n as [|n IH]; intros [|b y]; try reflexivity. cbn [repeat inner]. rewrite IH. ring. Qed.
Lemma inner_ext a b : length a = length b -> (forall y, length y = length a -> inner a y = inner b y) -> a = b.
Proof.
  revert b. induction a as [|x a IH]; intros [|z b] L H; try discriminate; [reflexivity|]. f_equal.
  - specialize (H (1%R :: repeat 0%R (length a))). cbn [inner] in H. rewrite (inner_comm a), (inner_comm b), !inner_zero in H.
    specialize (H ltac:(cbn; rewrite repeat_length; auto)). lra.
  - apply IH; [cbn in L; lia|]. intros y Hy. specialize (H (0%R :: y) ltac:(cbn; lia)). cbn [inner] in H. lra.
Qed.
Lemma inner_sq_nonneg x : (0 <= inner x x)%R.
Proof. induction x as [|a x IH]; cbn [inner]; [lra|]. pose proof (Rle_0_sqr a). unfold Rsqr in *. lra. Qed.

Section Ops.
Context {T : Type}.
Variables (m : mobj R T) (st : solver T).
Hypothesis SF : solver_for m st.
Hypothesis FO : functions_ok m st.
Notation n1 := (n_vars st + n_pars st).
Notation n2 := (n_vars st + n_ks st).

Lemma adjoint x y : unknowns_vec st x -> residual_vec st y -> exists Jx Jty,
  calc_prod_JPx T st x false = Ok Jx /\ calc_prod_JPx T st y true = Ok Jty /\
  residual_vec st Jx /\ unknowns_vec st Jty /\ inner Jx y = inner x Jty.
Proof.
  intros Hx Hy. destruct (op_adj m st SF FO x y Hx Hy) as (Jx & Jty & E1 & E2 & L1 & L2 & D). unfold unknowns_vec, residual_vec in *.
  exists Jx, Jty. do 4 (split; [auto|]). rewrite !inner_dotp by lia. auto.
Qed.

Lemma linear_fwd c1 c2 x1 x2 : unknowns_vec st x1 -> unknowns_vec st x2 -> exists y1 y2,
  calc_prod_JPx T st x1 false = Ok y1 /\ calc_prod_JPx T st x2 false = Ok y2 /\
  calc_prod_JPx T st (vadd (vscale c1 x1) (vscale c2 x2)) false = Ok (vadd (vscale c1 y1) (vscale c2 y2)).
Proof.
  unfold unknowns_vec. intros H1 H2.
  assert (H3 : unknowns_vec st (vadd (vscale c1 x1) (vscale c2 x2))) by (unfold unknowns_vec; rewrite vadd_len; rewrite ?vscale_len; congruence).
  assert (Z : residual_vec st (repeat 0%R n2)) by apply repeat_length.
  destruct (adjoint x1 _ H1 Z) as (y1 & _ & E1 & _ & L1 & _). destruct (adjoint x2 _ H2 Z) as (y2 & _ & E2 & _ & L2 & _).
  destruct (adjoint _ _ H3 Z) as (y3 & _ & E3 & _ & L3 & _). unfold residual_vec in *.
  exists y1, y2. split; [auto|]. split; [auto|]. rewrite E3. f_equal.
  assert (LV : length (vadd (vscale c1 y1) (vscale c2 y2)) = n2) by (rewrite vadd_len; rewrite ?vscale_len; congruence).
  apply inner_ext; [congruence|]. intros y Hy. rewrite L3 in Hy.
  destruct (adjoint x1 y H1 Hy) as (a1 & b & A1 & B & _ & _ & D1). destruct (adjoint x2 y H2 Hy) as (a2 & b' & A2 & B' & _ & _ & D2).
  destruct (adjoint _ y H3 Hy) as (a3 & b'' & A3 & B'' & _ & _ & D3).
  assert (a1 = y1) by congruence. assert (a2 = y2) by congruence. assert (a3 = y3) by congruence. assert (b' = b) by congruence. assert (b'' = b) by congruence. subst.
  rewrite D3, !inner_add, !inner_scale by (rewrite !vscale_len; congruence). rewrite D1, D2. reflexivity.
Qed.

Lemma linear_bwd c1 c2 x1 x2 : residual_vec st x1 -> residual_vec st x2 -> exists y1 y2,
  calc_prod_JPx T st x1 true = Ok y1 /\ calc_prod_JPx T st x2 true = Ok y2 /\
  calc_prod_JPx T st (vadd (vscale c1 x1) (vscale c2 x2)) true = Ok (vadd (vscale c1 y1) (vscale c2 y2)).
Proof.
  unfold residual_vec. intros H1 H2.
  assert (H3 : residual_vec st (vadd (vscale c1 x1) (vscale c2 x2))) by (unfold residual_vec; rewrite vadd_len; rewrite ?vscale_len; congruence).
  assert (Z : unknowns_vec st (repeat 0%R n1)) by apply repeat_length.
  destruct (adjoint _ x1 Z H1) as (_ & y1 & _ & E1 & _ & L1 & _). destruct (adjoint _ x2 Z H2) as (_ & y2 & _ & E2 & _ & L2 & _).
  destruct (adjoint _ _ Z H3) as (_ & y3 & _ & E3 & _ & L3 & _). unfold unknowns_vec in *.
  exists y1, y2. split; [auto|]. split; [auto|]. rewrite E3. f_equal.
  assert (LV : length (vadd (vscale c1 y1) (vscale c2 y2)) = n1) by (rewrite vadd_len; rewrite ?vscale_len; congruence).
  apply inner_ext; [congruence|]. intros y Hy. rewrite L3 in Hy.
  destruct (adjoint y x1 Hy H1) as (b & a1 & B & A1 & _ & _ & D1). destruct (adjoint y x2 Hy H2) as (b' & a2 & B' & A2 & _ & _ & D2).
  destruct (adjoint y _ Hy H3) as (b'' & a3 & B'' & A3 & _ & _ & D3).
  assert (a1 = y1) by congruence. assert (a2 = y2) by congruence. assert (a3 = y3) by congruence. assert (b' = b) by congruence. assert (b'' = b) by congruence. subst.
  rewrite (inner_comm y3 y), <- D3. rewrite inner_add, !inner_scale by (rewrite !vscale_len; congruence).
  rewrite (inner_comm b), inner_add, !inner_scale by (rewrite !vscale_len; congruence).
  rewrite (inner_comm x1), (inner_comm x2), D1, D2, (inner_comm y), (inner_comm y y2). reflexivity.
Qed.

Lemma hess_ok x : unknowns_vec st x -> exists Jx Hx, calc_prod_JPx T st x false = Ok Jx /\ calc_Hx T st x = Ok Hx /\ unknowns_vec st Hx /\
  forall z, unknowns_vec st z -> exists Jz, calc_prod_JPx T st z false = Ok Jz /\ inner z Hx = inner Jz Jx.
Proof.
  intros Hx. assert (Z : residual_vec st (repeat 0%R n2)) by apply repeat_length.
  destruct (adjoint x _ Hx Z) as (Jx & _ & E1 & _ & L1 & _). destruct (adjoint x Jx Hx L1) as (Jx' & H & E1' & E2 & _ & L2 & _).
  exists Jx, H. split; [auto|]. split; [unfold calc_Hx; rewrite E1; cbn [bind]; auto|]. split; [auto|].
  intros z Hz. destruct (adjoint z Jx Hz L1) as (Jz & H' & E3 & E4 & _ & _ & D). assert (H' = H) by congruence. subst.
  exists Jz. auto.
Qed.

Lemma hess_sym x y : unknowns_vec st x -> unknowns_vec st y -> exists Hx Hy, calc_Hx T st x = Ok Hx /\ calc_Hx T st y = Ok Hy /\
  unknowns_vec st Hx /\ unknowns_vec st Hy /\ inner Hx y = inner x Hy.
Proof.
  intros Hx Hy. destruct (hess_ok x Hx) as (Jx & HX & E1 & E2 & L & D). destruct (hess_ok y Hy) as (Jy & HY & F1 & F2 & L' & D').
  exists HX, HY. do 4 (split; [auto|]). destruct (D y Hy) as (Jy' & G1 & G2). destruct (D' x Hx) as (Jx' & G3 & G4).
  assert (Jy' = Jy) by congruence. assert (Jx' = Jx) by congruence. subst. rewrite (inner_comm HX), G2, G4. apply inner_comm.
Qed.

Lemma hess_psd x : unknowns_vec st x -> exists Jx Hx, calc_prod_JPx T st x false = Ok Jx /\ calc_Hx T st x = Ok Hx /\
  inner x Hx = sum_sq Jx /\ (0 <= inner x Hx)%R.
Proof.
  intros Hx. destruct (hess_ok x Hx) as (Jx & HX & E1 & E2 & L & D). exists Jx, HX. split; [auto|]. split; [auto|].
  destruct (D x Hx) as (Jx' & G1 & G2). assert (Jx' = Jx) by congruence. subst. rewrite G2. split; [reflexivity|apply inner_sq_nonneg].
Qed.
End Ops.
