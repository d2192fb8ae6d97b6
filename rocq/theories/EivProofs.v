(** * The operators of the Gauss-Newton solver as matrices, and its calls of LSMR. *)
From Coq Require Import Reals Lra Lia.
From Verif Require Import Base BaseLemmas ReaderModel UncModel MuModel SensorSpec SampleSpec TransformModel TransformSpec EvalModel EvalSpec
  HistModel GNModel GNSpec GNAlgebra GNTerms GNAdjoint GNMain GNResidual GNLoop GNTotal PCAlgebra LsmrModel LsmrSpec LsmrAlg LsmrInv LsmrLoop LsmrMono EivModel.
Open Scope nat_scope.
Local Notation vadd := GNSpec.vadd.

Lemma vec_list n v i : i < n -> vec_of (list_of n v) i = v i.
Proof. intros H. unfold vec_of, list_of. rewrite (nth_indep _ 0%R (v 0)) by (rewrite map_length, seq_length; auto). rewrite map_nth, seq_nth by auto. reflexivity. Qed.
Lemma list_of_len n v : length (list_of n v) = n.
Proof. unfold list_of. rewrite map_length, seq_length. reflexivity. Qed.
Lemma vdot_inner n x y : length x = n -> length y = n -> vdot n (vec_of x) (vec_of y) = inner x y.
Proof. intros Hx Hy. rewrite (inner_nth x y n Hx Hy). reflexivity. Qed.
Lemma vdot_ext n x x' y y' : (forall i, i < n -> x i = x' i) -> (forall i, i < n -> y i = y' i) -> vdot n x y = vdot n x' y'.
Proof. intros Hx Hy. unfold vdot. f_equal. apply map_ext_in. intros i Hi. apply in_seq in Hi. rewrite Hx, Hy by lia. reflexivity. Qed.
Lemma vdot_vec_of n x v : length x = n -> vdot n (vec_of x) v = inner x (list_of n v).
Proof. intros Hx. rewrite <- (vdot_inner n x (list_of n v) Hx (list_of_len n v)). apply vdot_ext; [auto|]. intros i Hi. symmetry. apply vec_list, Hi. Qed.

Section Op.
Variables (m n : nat) (f g : list R -> res (list R)).
Hypothesis ADJ : forall x y, length x = n -> length y = m -> exists fx gy, f x = Ok fx /\ g y = Ok gy /\ length fx = m /\ length gy = n /\ inner fx y = inner x gy.
Notation A := (op_matrix n f).

Lemma op_entry i j : i < m -> j < n -> exists gi, g (unit_vec m i) = Ok gi /\ length gi = n /\ A i j = nth j gi 0%R.
Proof.
  intros Hi Hj. destruct (ADJ (unit_vec n j) (unit_vec m i) (unit_len n j) (unit_len m i)) as (fx & gy & E1 & E2 & L1 & L2 & E3).
  exists gy. split; [exact E2|]. split; [exact L2|]. unfold op_matrix. rewrite E1. rewrite inner_comm, inner_unit in E3 by auto. rewrite inner_unit in E3 by auto. exact E3.
Qed.
Lemma op_mul x : length x = n -> exists fx, f x = Ok fx /\ length fx = m /\ forall i, i < m -> mul n A (vec_of x) i = nth i fx 0%R.
Proof.
  intros Hx. destruct (ADJ x (repeat 0%R m) Hx (repeat_length _ _)) as (fx & _ & E1 & _ & L1 & _ & _). exists fx. split; [exact E1|]. split; [exact L1|].
  intros i Hi. destruct (ADJ x (unit_vec m i) Hx (unit_len m i)) as (fx' & gy & E1' & E2 & _ & L2 & E3). rewrite E1 in E1'. injection E1' as <-.
  rewrite inner_comm, inner_unit in E3 by auto. rewrite E3. unfold mul. rewrite (inner_nth x gy n Hx L2). f_equal. apply map_ext_in. intros j Hj. apply in_seq in Hj.
  destruct (op_entry i j Hi ltac:(lia)) as (gi & E4 & _ & E5). rewrite E2 in E4. injection E4 as <-. rewrite E5. unfold vec_of. ring.
Qed.
Lemma op_mulH y : length y = m -> exists gy, g y = Ok gy /\ length gy = n /\ forall j, j < n -> mulH m A (vec_of y) j = nth j gy 0%R.
Proof.
  intros Hy. destruct (ADJ (repeat 0%R n) y (repeat_length _ _) Hy) as (_ & gy & _ & E2 & _ & L2 & _). exists gy. split; [exact E2|]. split; [exact L2|].
  intros j Hj. destruct (ADJ (unit_vec n j) y (unit_len n j) Hy) as (fx & gy' & E1 & E2' & L1 & _ & E3). rewrite E2 in E2'. injection E2' as <-.
  rewrite inner_unit in E3 by auto. rewrite <- E3. unfold mulH. rewrite (inner_nth fx y m L1 Hy). f_equal. apply map_ext_in. intros i Hi. unfold op_matrix. rewrite E1. reflexivity.
Qed.
Lemma mul_ext A' k x x' i : (forall j, j < k -> x j = x' j) -> mul k A' x i = mul k A' x' i.
Proof. intros H. unfold mul. f_equal. apply map_ext_in. intros j Hj. apply in_seq in Hj. rewrite H by lia. reflexivity. Qed.
Lemma op_mul_vec v : exists fx, f (list_of n v) = Ok fx /\ length fx = m /\ forall i, i < m -> mul n A v i = nth i fx 0%R.
Proof.
  destruct (op_mul (list_of n v) (list_of_len n v)) as (fx & E & L & H). exists fx. split; [exact E|]. split; [exact L|]. intros i Hi. rewrite <- (H i Hi). apply mul_ext. intros j Hj. symmetry. apply vec_list, Hj.
Qed.
End Op.

Lemma map_opp x : map Ropp x = vscale (-1) x.
Proof. apply map_ext. intros a. ring. Qed.
Lemma sum_sq_pos x : (0 <= sum_sq x)%R.
Proof. apply inner_sq_nonneg. Qed.
Lemma sum_sq_zero x : sum_sq x = 0%R -> forall a, In a x -> a = 0%R.
Proof.
  induction x as [|b x IH]; intros H a []; unfold sum_sq in *; cbn [inner] in H.
  - subst. pose proof (inner_sq_nonneg x). pose proof (Rle_0_sqr a). unfold Rsqr in *. assert (a * a = 0)%R by lra. apply Rmult_integral in H2. destruct H2; auto.
  - pose proof (inner_sq_nonneg x). pose proof (Rle_0_sqr b). unfold Rsqr in *. apply IH; auto. lra.
Qed.
Lemma sum_sq_add x y : length x = length y -> sum_sq (vadd x y) = (sum_sq x + 2 * inner x y + sum_sq y)%R.
Proof. intros L. unfold sum_sq. rewrite inner_add by auto. rewrite (inner_comm x (vadd x y)), (inner_comm y (vadd x y)), !inner_add by auto. rewrite (inner_comm y x). ring. Qed.
Lemma sum_sq_scale c x : sum_sq (vscale c x) = (c * c * sum_sq x)%R.
Proof. unfold sum_sq. rewrite inner_scale, inner_comm, inner_scale. ring. Qed.
Lemma vnorm_sq n x : length x = n -> (vnorm n (vec_of x) ^ 2 = sum_sq x)%R.
Proof. intros L. unfold vnorm. rewrite vdot_inner by auto. cbn [pow]. rewrite Rmult_1_r. apply sqrt_sqrt, inner_sq_nonneg. Qed.

Section Call.
Context {T : Type}.
Variables (m : mobj R T) (st : solver T) (SF : solver_for m st) (FO : functions_ok m st).
Variables (tolA tolB : R) (HA : (0 <= tolA)%R) (NV : 1 <= n_vars st).
Notation n1 := (n_vars st + n_pars st).
Notation n2 := (n_vars st + n_ks st).
Notation J := (op_matrix n1 (fun x => calc_prod_JPx T st x false)).

Lemma dims : n_vars_of T st = Ok (n_vars st) /\ n_mu_of T st = Ok (n_ks st).
Proof.
  destruct (solver_facts m st SF) as (nv & ns & St & SL & Hv & Hlast & Hnus & Hcn & _). split; [apply (last_vars m st SF)|]. exact Hcn.
Qed.
Lemma ADJ x y : length x = n1 -> length y = n2 -> exists fx gy, calc_prod_JPx T st x false = Ok fx /\ calc_prod_JPx T st y true = Ok gy /\ length fx = n2 /\ length gy = n1 /\ inner fx y = inner x gy.
Proof. intros Hx Hy. destruct (GNMain.adjoint m st SF FO x y Hx Hy) as (Jx & Jty & E1 & E2 & L1 & L2 & E3). exists Jx, Jty. auto. Qed.

(** What a call of LSMR with right-hand side [-f] leaves in the attribute. *)
Lemma call_ok attr f r : length f = n2 -> lsmr_call T tolA tolB st attr (map Ropp f) = Ok r ->
  exists g, calc_prod_JPx T st f true = Ok g /\ length g = n1 /\
  ((forall a, In a g -> a = 0%R) /\ r = option_map (fun a => list_of n1 (vec_of a)) attr \/
   (exists a, In a g /\ a <> 0%R) /\ exists x Jx, r = Some x /\ length x = n1 /\ calc_prod_JPx T st x false = Ok Jx /\ length Jx = n2 /\
     (sum_sq (vadd f Jx) < sum_sq f)%R /\ (2 * inner g x < - sum_sq Jx)%R).
Proof.
  intros Lf E. unfold lsmr_call in E. destruct dims as (D1 & D2). rewrite D1, D2 in E. cbn [bind] in E. change (n_a_of T st) with (n_pars st) in E.
  set (b := map Ropp f) in *. assert (Lb : length b = n2) by (unfold b; rewrite map_length; exact Lf).
  destruct (op_mulH n2 n1 _ _ ADJ f Lf) as (g & Eg & Lg & Hg). exists g. split; [exact Eg|]. split; [exact Lg|].
  destruct (op_mulH n2 n1 _ _ ADJ b Lb) as (gb & Egb & Lgb & Hgb).
  assert (Gb : forall j, j < n1 -> nth j gb 0%R = (- nth j g 0)%R).
  { intros j Hj. rewrite <- (Hgb j Hj), <- (Hg j Hj). rewrite (mulH_lin n2 J (vec_of f) (vec_of f) (vec_of b) (-1) 0); [ring|]. intros i Hi. unfold vec_of, b. rewrite nth_map0 by lia. ring. }
  destruct (solve n2 n1 J 0 tolA tolA tolB (n_vars st) (option_map vec_of attr) (vec_of b)) as [[s|e] sx'] eqn:ES; [|discriminate]. injection E as <-.
  destruct (Req_EM_T (vnorm n1 (mulH n2 J (vec_of b))) 0) as [Z|N].
  - left. assert (Z2 : vdot n1 (mulH n2 J (vec_of b)) (mulH n2 J (vec_of b)) = 0%R). { unfold vnorm in Z. apply sqrt_eq_0 in Z; [exact Z|apply vdot_pos]. }
    split.
    + intros a Ha. destruct (In_nth g a 0%R Ha) as (j & Hj & <-). pose proof (vdot_null _ _ Z2 j ltac:(lia)) as Q. rewrite Hgb, Gb in Q by lia. lra.
    + destruct (init_zero n2 n1 J (vec_of b)) as (_ & _ & Ex). unfold solve in ES. rewrite Reqb_t in ES; [|destruct (init_norms n2 n1 J (vec_of b)) as (_ & I2 & _); rewrite I2, Ex, <- Z; symmetry; apply rhs_norm]. injection ES as _ <-. destruct attr; reflexivity.
  - right. split.
    + destruct (Exists_dec (fun a => a <> 0%R) g (fun a => match Req_EM_T a 0 with left e => right (fun n => n e) | right n => left n end)) as [X|X].
      * apply Exists_exists in X. exact X.
      * exfalso. apply N. unfold vnorm. replace (vdot n1 (mulH n2 J (vec_of b)) (mulH n2 J (vec_of b))) with 0%R; [apply sqrt_0|]. symmetry. apply vdot_zero. intros j Hj. rewrite Hgb, Gb by auto.
        assert (nth j g 0%R = 0%R); [|lra]. destruct (Req_EM_T (nth j g 0%R) 0) as [Q|Q]; [exact Q|]. exfalso. apply X. apply Exists_exists. exists (nth j g 0%R). split; [apply nth_In; lia|exact Q].
    + assert (Sx : sx' = Some (l_x s)).
      { unfold solve in ES. destruct (Req_EM_T (l_normar (init n2 n1 J (vec_of b))) 0) as [E|E].
        - exfalso. apply N. destruct (init_norms n2 n1 J (vec_of b)) as (_ & I2 & _). destruct (init_zero n2 n1 J (vec_of b)) as (_ & _ & Ex). rewrite <- E, I2, Ex. apply rhs_norm.
        - rewrite (Reqb_f _ _ E) in ES. destruct (loop _ _ _ _ _ _ _ _ _ _ _); [|discriminate]. congruence. }
      pose proof (solve_less n2 n1 J (vec_of b) tolA tolA tolB (n_vars st) _ s sx' HA ltac:(lia) N ES) as LE. subst sx'. cbn [option_map].
      destruct (op_mul_vec n2 n1 _ _ ADJ (l_x s)) as (Jx & EJ & LJ & HJ). exists (list_of n1 (l_x s)), Jx. split; [reflexivity|]. split; [apply list_of_len|]. split; [exact EJ|]. split; [exact LJ|].
      assert (R1 : vdot n2 (LsmrInv.resid n1 J (vec_of b) (l_x s)) (LsmrInv.resid n1 J (vec_of b) (l_x s)) = sum_sq (vadd f Jx)).
      { assert (Lv : length (vadd f Jx) = n2) by (rewrite vadd_len; congruence). unfold sum_sq. rewrite <- (vdot_inner n2 _ _ Lv Lv).
        assert (Q : forall i, i < n2 -> LsmrInv.resid n1 J (vec_of b) (l_x s) i = ((-1) * vec_of (vadd f Jx) i + 0 * vec_of (vadd f Jx) i)%R).
        { intros i Hi. unfold LsmrInv.resid. rewrite (HJ i Hi). unfold vec_of at 2 3. rewrite GNForward.nth_vadd by congruence. unfold vec_of, b. rewrite nth_map0 by lia. ring. }
        rewrite (vdot_lin_l n2 _ _ _ _ _ _ Q), !(vdot_lin n2 _ _ _ _ _ _ Q). ring. }
      assert (R2 : vdot n2 (vec_of b) (vec_of b) = sum_sq f). { rewrite vdot_inner by auto. unfold b. rewrite map_opp. fold (sum_sq (vscale (-1) f)). rewrite sum_sq_scale. ring. }
      rewrite R1, R2 in LE. split; [exact LE|].
      rewrite sum_sq_add in LE by congruence. destruct (ADJ (list_of n1 (l_x s)) f (list_of_len _ _) Lf) as (fx & gy & E1 & E2 & _ & _ & E3). rewrite EJ in E1. injection E1 as <-. rewrite Eg in E2. injection E2 as <-.
      rewrite (inner_comm g), <- E3, (inner_comm Jx f). pose proof (sum_sq_pos f). lra.
Qed.
(** Where the gradient vanishes the attribute is left alone. *)
Lemma call_stationary attr f g : length f = n2 -> calc_prod_JPx T st f true = Ok g -> (forall a, In a g -> a = 0%R) ->
  lsmr_call T tolA tolB st attr (map Ropp f) = Ok (option_map (fun a => list_of n1 (vec_of a)) attr).
Proof.
  intros Lf Eg Z. unfold lsmr_call. destruct dims as (D1 & D2). rewrite D1, D2. cbn [bind]. change (n_a_of T st) with (n_pars st).
  set (b := map Ropp f). destruct (op_mulH n2 n1 _ _ ADJ f Lf) as (g' & Eg' & Lg & Hg). assert (g' = g) by congruence. subst g'.
  destruct (init_zero n2 n1 J (vec_of b)) as (_ & _ & Ex). unfold solve. rewrite Reqb_t; [destruct attr; reflexivity|].
  destruct (init_norms n2 n1 J (vec_of b)) as (_ & I2 & _). rewrite I2, Ex, <- rhs_norm. unfold vnorm.
  rewrite vdot_zero; [apply sqrt_0|]. intros j Hj.
  rewrite (mulH_lin n2 J (vec_of f) (vec_of f) (vec_of b) (-1) 0) by (intros i Hi; unfold vec_of, b; rewrite nth_map0 by lia; ring).
  rewrite (Hg j Hj). unfold vec_of. rewrite (Z (nth j g 0%R)) by (apply nth_In; lia). ring.
Qed.
End Call.
