(** * Routines in exact arithmetic that meet everything assumed of numpy's and scipy's: the assumptions are consistent. *)
From Coq Require Import Reals Lra Permutation.
From Verif Require Import Base BaseLemmas GNModel GNMain GNLoop PCModel PCAlgebra PCMatrix PCWhite SampleSpec PCSpec GNSpec.
Open Scope nat_scope.

(** ** Square matrices as functions *)
Definition mm (n : nat) (A B : nat -> nat -> R) (i j : nat) : R := sm n (fun t => A i t * B t j)%R.
Definition tr (A : nat -> nat -> R) (i j : nat) : R := A j i.
Definition eqm (n : nat) (A B : nat -> nat -> R) : Prop := forall i j, i < n -> j < n -> A i j = B i j.
Lemma mm_ext n A A' B B' : eqm n A A' -> eqm n B B' -> eqm n (mm n A B) (mm n A' B').
Proof. intros HA HB i j Hi Hj. apply sm_ext. intros t Ht. rewrite HA, HB by auto. reflexivity. Qed.
Lemma mm_assoc n A B C : eqm n (mm n (mm n A B) C) (mm n A (mm n B C)).
Proof.
  intros i j _ _. unfold mm. rewrite (sm_ext n _ (fun t => sm n (fun s => A i s * B s t * C t j))%R) by (intros; rewrite <- sm_scal_r; reflexivity).
  rewrite sm_swap. apply sm_ext. intros s _. rewrite <- sm_scal. apply sm_ext. intros. ring.
Qed.
Lemma mm_1l n A : eqm n (mm n delta A) A.
Proof. intros i j Hi _. unfold mm. rewrite (sm_ext n _ (fun t => if t =? i then A t j else 0%R)); [apply (sm_delta n i (fun t => A t j) Hi)|]. intros t _. unfold delta. rewrite Nat.eqb_sym. destruct (t =? i); ring. Qed.
Lemma mm_1r n A : eqm n (mm n A delta) A.
Proof. intros i j _ Hj. unfold mm. rewrite (sm_ext n _ (fun t => if t =? j then A i t else 0%R)); [apply (sm_delta n j (fun t => A i t) Hj)|]. intros t _. unfold delta. destruct (t =? j); ring. Qed.
Lemma eqm_trans n A B C : eqm n A B -> eqm n B C -> eqm n A C.
Proof. intros H1 H2 i j Hi Hj. rewrite H1, H2 by auto. reflexivity. Qed.
Lemma eqm_sym n A B : eqm n A B -> eqm n B A.
Proof. intros H i j Hi Hj. rewrite H by auto. reflexivity. Qed.
Lemma eqm_refl n A : eqm n A A.
Proof. intros i j _ _. reflexivity. Qed.
Lemma tr_mm n A B : eqm n (tr (mm n A B)) (mm n (tr B) (tr A)).
Proof. intros i j _ _. unfold tr, mm. apply sm_ext. intros. ring. Qed.

(** A left inverse is a right inverse. *)
Lemma left_right n M U W : eqm n (mm n U M) delta -> eqm n U (mm n W (tr M)) -> eqm n (tr W) W -> eqm n (mm n M U) delta.
Proof.
  intros UM UW Wsym.
  set (P := mm n M U).
  assert (PP : eqm n (mm n P P) P).
  { unfold P. eapply eqm_trans; [apply mm_assoc|]. eapply eqm_trans; [apply mm_ext; [apply eqm_refl|eapply eqm_trans; [apply eqm_sym, mm_assoc|eapply mm_ext; [exact UM|apply eqm_refl]]]|].
    apply mm_ext; [apply eqm_refl|apply mm_1l]. }
  assert (PE : eqm n P (mm n M (mm n W (tr M)))) by (apply mm_ext; [apply eqm_refl|exact UW]).
  assert (PS : eqm n (tr P) P).
  { intros i j Hi Hj. unfold tr. rewrite !PE by auto. unfold mm.
    rewrite (sm_ext n _ (fun t => sm n (fun s => M j t * (W t s * M i s)))%R) by (intros; rewrite <- sm_scal; reflexivity). rewrite sm_swap. apply sm_ext. intros s Hs. rewrite <- sm_scal. apply sm_ext. intros t Ht.
    pose proof (Wsym s t Hs Ht) as Q. unfold tr in Q. rewrite Q. unfold tr. ring. }
  assert (TR : sm n (fun i => P i i) = sm n (fun _ => 1%R)).
  { unfold P, mm. rewrite sm_swap. apply sm_ext. intros t Ht. transitivity (mm n U M t t); [apply sm_ext; intros; ring|]. rewrite UM by auto. unfold delta. rewrite Nat.eqb_refl. reflexivity. }
  assert (Z : sm n (fun i => sm n (fun j => (delta i j - P i j) * (delta i j - P i j)))%R = 0%R).
  { rewrite (sm_ext n _ (fun i => 1 + - 1 * P i i)%R).
    - rewrite sm_plus, sm_scal, TR. ring.
    - intros i Hi. rewrite (sm_ext n _ (fun j => (if j =? i then 1 + -2 * P i j else 0) + P i j * P j i)%R).
      2:{ intros j Hj. pose proof (PS i j Hi Hj) as Q. unfold tr in Q. rewrite Q. unfold delta. rewrite (Nat.eqb_sym i j). destruct (j =? i); ring. }
      rewrite sm_plus, (sm_delta n i (fun j => 1 + -2 * P i j)%R) by auto. pose proof (PP i i Hi Hi) as Q. unfold mm at 1 in Q. rewrite Q. ring. }
  intros i j Hi Hj. destruct (Req_dec (P i j) (delta i j)) as [E|E]; [exact E|exfalso].
  assert (0 < sm n (fun i => sm n (fun j => (delta i j - P i j) * (delta i j - P i j))))%R; [|lra].
  assert (NN : forall i0, i0 < n -> (0 <= sm n (fun j0 => (delta i0 j0 - P i0 j0) * (delta i0 j0 - P i0 j0)))%R) by (intros; apply sm_nonneg; intros; apply Rle_0_sqr).
  apply (sm_pos n _ i); auto. apply (sm_pos n _ j); auto; [intros; apply Rle_0_sqr|]. assert (Q : (delta i j - P i j <> 0)%R) by lra. exact (Rsqr_pos_lt _ Q).
Qed.

(** ** Cholesky *)
Fixpoint cholf (n : nat) (v : nat -> nat -> R) : nat -> nat -> R :=
  match n with
  | 0 => fun _ _ => 0%R
  | S n => fun i j => match i, j with
                      | 0, 0 => sqrt (v 0%nat 0%nat)
                      | 0, S _ => 0%R
                      | S i, 0 => (v (S i) 0%nat / sqrt (v 0%nat 0%nat))%R
                      | S i, S j => cholf n (fun i j => v (S i) (S j) - v (S i) 0%nat * v (S j) 0%nat / v 0%nat 0%nat)%R i j
                      end
  end.
Lemma qf_delta n v i : i < n -> qf n v (fun k => if k =? i then 1%R else 0%R) = v i i.
Proof.
  intros Hi. unfold qf. rewrite (sm_ext n _ (fun p => if p =? i then v p i else 0%R)); [apply (sm_delta n i (fun p => v p i) Hi)|].
  intros p Hp. rewrite (sm_ext n _ (fun q => if q =? i then (if p =? i then 1 else 0) * v p q else 0)%R); [rewrite (sm_delta n i (fun q => (if p =? i then 1 else 0) * v p q)%R Hi); destruct (p =? i); ring|].
  intros q Hq. destruct (q =? i); ring.
Qed.
Lemma cholf_lower n : forall v i j, i < j -> cholf n v i j = 0%R.
Proof. induction n as [|n IH]; intros v i j H; [reflexivity|]. destruct i, j; cbn; try lia; [reflexivity|]. apply IH. lia. Qed.
Lemma schur_qf n v x : (forall p q, p < S n -> q < S n -> v p q = v q p) -> (v 0%nat 0%nat <> 0)%R ->
  qf n (fun i j => v (S i) (S j) - v (S i) 0%nat * v (S j) 0%nat / v 0%nat 0%nat)%R x = qf (S n) v (fun i => match i with 0 => (- sm n (fun i => v (S i) 0%nat * x i) / v 0%nat 0%nat)%R | S i => x i end).
Proof.
  intros Sy Hd. rewrite qf_S by auto. set (b := sm n (fun i => v (S i) 0%nat * x i)%R). set (dd := v 0%nat 0%nat). change (fun i : nat => x i) with x.
  assert (Eb : (b * b / dd)%R = qf n (fun i j => v (S i) 0%nat * v (S j) 0%nat / dd)%R x).
  { unfold qf, b, Rdiv. rewrite Rmult_assoc. rewrite <- sm_scal_r. apply sm_ext. intros p _. rewrite <- sm_scal_r, <- sm_scal. apply sm_ext. intros q _. ring. }
  assert (Eq : qf n (fun p q => v (S p) (S q)) x = (qf n (fun i j => v (S i) (S j) - v (S i) 0%nat * v (S j) 0%nat / dd)%R x + b * b / dd)%R).
  { rewrite Eb, <- qf_plus. apply qf_ext; auto. intros. ring. }
  rewrite Eq. field. exact Hd.
Qed.
Lemma cholf_psd n : forall v, (forall p q, p < n -> q < n -> v p q = v q p) -> (forall x, (0 <= qf n v x)%R) ->
  forall i j, i < n -> j < n -> v i j = sm n (fun t => cholf n v i t * cholf n v j t)%R.
Proof.
  induction n as [|n IH]; intros v Sy P; [intros; lia|].
  assert (Hd : (0 <= v 0%nat 0%nat)%R) by (rewrite <- (qf_delta (S n) v 0) by lia; apply P).
  assert (Z : (v 0%nat 0%nat = 0)%R -> forall i, i < n -> v (S i) 0%nat = 0%R).
  { intros E i Hi. assert (Q : forall t, (0 <= 2 * t * v (S i) 0%nat + v (S i) (S i))%R).
    { intros t. specialize (P (fun k => match k with 0 => t | S k => if k =? i then 1%R else 0%R end)). rewrite qf_S in P by auto. rewrite E in P.
      rewrite (sm_ext n _ (fun k => if k =? i then v (S k) 0%nat else 0%R)) in P by (intros k _; destruct (k =? i); ring). rewrite (sm_delta n i (fun k => v (S k) 0%nat) Hi) in P.
      rewrite (qf_delta n (fun p q => v (S p) (S q)) i Hi) in P. lra. }
    destruct (Req_dec (v (S i) 0%nat) 0) as [|Hn]; [assumption|exfalso]. pose proof (Q (- (v (S i) (S i) + 1) / (2 * v (S i) 0%nat))%R) as B. replace (2 * (- (v (S i) (S i) + 1) / (2 * v (S i) 0%nat)) * v (S i) 0%nat)%R with (- (v (S i) (S i) + 1))%R in B by (field; exact Hn). lra. }
  set (w := (fun i j => v (S i) (S j) - v (S i) 0%nat * v (S j) 0%nat / v 0%nat 0%nat)%R).
  assert (IHw : forall i j, i < n -> j < n -> w i j = sm n (fun t => cholf n w i t * cholf n w j t)%R).
  { apply IH.
    - intros p q Hp Hq. unfold w. rewrite (Sy (S p) (S q)) by lia. unfold Rdiv. ring.
    - intros x. destruct (Req_dec (v 0%nat 0%nat) 0) as [E|E].
      + rewrite (qf_ext n w (fun p q => v (S p) (S q)) x x) by (auto; intros p q Hp Hq; unfold w; rewrite (Z E p Hp); unfold Rdiv; ring).
        specialize (P (fun i => match i with 0 => 0%R | S i => x i end)). rewrite qf_S in P by auto. change (fun i : nat => x i) with x in P. lra.
      + unfold w. rewrite schur_qf by auto. apply P. }
  assert (Off : forall i, i < n -> (v (S i) 0%nat / sqrt (v 0%nat 0%nat) * sqrt (v 0%nat 0%nat))%R = v (S i) 0%nat).
  { intros i Hi. destruct (Req_dec (v 0%nat 0%nat) 0) as [E|E]; [rewrite (Z E i Hi); unfold Rdiv; ring|]. field. apply Rgt_not_eq. apply sqrt_lt_R0. lra. }
  intros i j Hi Hj. rewrite sm_S. destruct i as [|i], j as [|j]; cbn [cholf]; fold w.
  - rewrite sm_zero by (intros; ring). rewrite sqrt_sqrt by exact Hd. ring.
  - rewrite sm_zero by (intros; ring). rewrite (Sy 0 (S j)) by lia. pose proof (Off j ltac:(lia)). lra.
  - rewrite sm_zero by (intros; ring). pose proof (Off i ltac:(lia)). lra.
  - rewrite <- IHw by lia. unfold w. destruct (Req_dec (v 0%nat 0%nat) 0) as [E|E].
    + rewrite (Z E i), (Z E j) by lia. unfold Rdiv. ring.
    + replace (v (S i) 0%nat / sqrt (v 0%nat 0%nat) * (v (S j) 0%nat / sqrt (v 0%nat 0%nat)))%R with (v (S i) 0%nat * v (S j) 0%nat / v 0%nat 0%nat)%R; [ring|]. rewrite <- (sqrt_sqrt (v 0%nat 0%nat)) at 1 by exact Hd. field. apply Rgt_not_eq. apply sqrt_lt_R0. lra.
Qed.
Lemma cholf_pos n : forall v, (forall p q, p < n -> q < n -> v p q = v q p) -> (forall x, (exists i, i < n /\ x i <> 0%R) -> (0 < qf n v x)%R) -> forall i, i < n -> (0 < cholf n v i i)%R.
Proof.
  induction n as [|n IH]; intros v Sy P i Hi; [lia|].
  assert (Hd : (0 < v 0%nat 0%nat)%R). { rewrite <- (qf_delta (S n) v 0) by lia. apply P. exists 0. split; [lia|]. cbn. lra. }
  destruct i as [|i]; cbn [cholf]; [apply sqrt_lt_R0; exact Hd|]. apply IH; [| |lia].
  - intros p q Hp Hq. rewrite (Sy (S p) (S q)) by lia. unfold Rdiv. ring.
  - intros x (k & Hk & Hx). rewrite schur_qf by (auto; lra). apply P. exists (S k). split; [lia|exact Hx].
Qed.
Definition listm (n : nat) (f : nat -> nat -> R) : list (list R) := map (fun i => map (f i) (seq 0 n)) (seq 0 n).
Definition chol (V : list (list R)) : res (list (list R)) := Ok (listm (length V) (cholf (length V) (entry V))).
Lemma listm_factor n f V : (forall i j, i < j -> f i j = 0%R) -> (forall i, i < n -> (0 < f i i)%R) -> (forall i j, i < n -> j < n -> entry V i j = sm n (fun t => f i t * f j t)%R) -> cholesky_factor (listm n f) V n.
Proof.
  intros U D E. assert (SL : square (listm n f) n) by apply mapseq_square. split; [exact SL|]. split; [|split].
  - intros i j Hij. destruct (Nat.lt_ge_cases j n) as [Hj|Hj]; [unfold listm; rewrite mapseq_entry by lia; apply U; auto|].
    unfold entry. destruct (Nat.lt_ge_cases i n); [apply nth_overflow; rewrite (square_nth _ n) by auto; auto|]. rewrite (nth_overflow (listm n f)) by (unfold listm; rewrite map_length, seq_length; auto). destruct j; auto.
  - intros i Hi. unfold listm. rewrite mapseq_entry by auto. auto.
  - intros i j Hi Hj. rewrite E by auto. rewrite (inner_sm n) by (apply square_nth; auto). apply sm_ext. intros t Ht. change (nth t (nth i ?L []) 0%R) with (entry L i t). unfold listm.
    fold (entry (map (fun i => map (f i) (seq 0 n)) (seq 0 n)) i t). fold (entry (map (fun i => map (f i) (seq 0 n)) (seq 0 n)) j t). rewrite !mapseq_entry by auto. reflexivity.
Qed.
Lemma quad_pos V n : spd V n -> forall x, (exists i, i < n /\ x i <> 0%R) -> (0 < qf n (entry V) x)%R.
Proof.
  intros (S & Sy & P) x (i & Hi & Hx). assert (H : (0 < quad V (map x (seq 0 n)))%R).
  { apply P; [rewrite map_length, seq_length; auto|]. exists i. rewrite map_seq_nth by auto. auto. }
  rewrite (quad_qf V n) in H by (auto; rewrite map_length, seq_length; auto). rewrite (qf_ext n _ (entry V) _ x) in H; auto. intros p Hp. apply map_seq_nth; auto.
Qed.
Lemma psd_of_pos n v : (forall x, (exists i, i < n /\ x i <> 0%R) -> (0 < qf n v x)%R) -> forall x, (0 <= qf n v x)%R.
Proof.
  intros H x. assert (D : (exists i, i < n /\ x i <> 0%R) \/ forall i, i < n -> x i = 0%R).
  { clear H. induction n as [|n [(i & Hi & Hx)|IH]]; [right; intros; lia|left; exists i; split; [lia|exact Hx]|].
    destruct (Req_dec (x n) 0) as [E|E]; [right|left; exists n; split; [lia|exact E]]. intros i Hi. destruct (Nat.eq_dec i n) as [-> |]; [exact E|apply IH; lia]. }
  destruct D as [D|D]; [apply Rlt_le, H, D|]. rewrite qf_zero by exact D. lra.
Qed.
Theorem chol_total : cholesky_total chol.
Proof.
  intros V n SV. pose proof (quad_pos V n SV) as QP. destruct SV as (S & Sy & _). destruct S as (L & _). unfold chol. rewrite L. eexists. split; [reflexivity|].
  apply listm_factor; [apply cholf_lower|apply cholf_pos; auto|apply cholf_psd; auto]. apply psd_of_pos. exact QP.
Qed.

(** ** Forward substitution *)
Fixpoint fwd (L : list (list R)) (d : list R) (k : nat) : list R :=
  match k with 0 => [] | S k => let x := fwd L d k in x ++ [((nth k d 0 - inner (nth k L []) x) / entry L k k)%R] end.
Definition fsolve (L : list (list R)) (d : list R) : res (list R) := Ok (fwd L d (length d)).
Lemma fwd_len L d k : length (fwd L d k) = k.
Proof. induction k as [|k IH]; [reflexivity|]. cbn [fwd]. rewrite app_length, IH. cbn. lia. Qed.
Lemma fwd_nth L d k i : i < k -> nth i (fwd L d k) 0%R = ((nth i d 0 - inner (nth i L []) (fwd L d i)) / entry L i i)%R.
Proof.
  induction k as [|k IH]; intros Hi; [lia|]. cbn [fwd]. destruct (Nat.eq_dec i k) as [-> |N].
  - rewrite app_nth2 by (rewrite fwd_len; lia). rewrite fwd_len, Nat.sub_diag. reflexivity.
  - rewrite app_nth1 by (rewrite fwd_len; lia). apply IH. lia.
Qed.
Lemma fwd_solves L n d i : lower_triangular L n -> length d = n -> i < n -> nth i (mul_vec L (fwd L d n)) 0%R = nth i d 0%R.
Proof.
  intros (S & Low & Pos) Ld Hi. rewrite (mul_vec_sm L n) by (auto; apply fwd_len). replace n with (i + (1 + (n - i - 1))) at 1 by lia. rewrite !sm_app.
  rewrite (sm_zero (n - i - 1)) by (intros t Ht; rewrite Low by lia; ring).
  rewrite sm_S. change (sm 0 ?f) with 0%R. replace (i + 0) with i by lia. rewrite fwd_nth by lia.
  assert (E : inner (nth i L []) (fwd L d i) = sm i (fun j => entry L i j * nth j (fwd L d n) 0)%R).
  { rewrite inner_comm, (inner_sm' i) by (rewrite fwd_len; lia). apply sm_ext. intros j Hj. unfold entry. rewrite (fwd_nth L d n j) by lia. rewrite (fwd_nth L d i j) by lia. ring. }
  rewrite E. field. apply Rgt_not_eq, Pos. exact Hi.
Qed.
Theorem fsolve_exact : solve_exact fsolve.
Proof.
  intros L n d LT Ld. unfold fsolve. rewrite Ld. eexists. split; [reflexivity|]. split; [apply fwd_len|].
  apply (nth_ext _ _ 0%R 0%R); [unfold mul_vec; rewrite map_length; destruct LT as ((LL & _) & _); congruence|].
  intros i Hi. apply (fwd_solves L n d i LT Ld). unfold mul_vec in Hi. rewrite map_length in Hi. destruct LT as ((LL & _) & _). congruence.
Qed.

(** ** QR: the transposed Cholesky factor of J'J *)
Definition jtj (J : list (list R)) (i j : nat) : R := inner (nth i J []) (nth j J []).
Definition qr (J : list (list R)) : res (list (list R)) := Ok (listm (length J) (tr (cholf (length J) (jtj J)))).
Lemma jtj_psd J x : (0 <= qf (length J) (jtj J) x)%R.
Proof.
  rewrite (qf_ext (length J) _ (entry (gram J)) x x); [apply gram_nonneg| |auto]. intros p q Hp Hq. rewrite gram_entry by auto. reflexivity.
Qed.
Theorem qr_is_exact : (forall J, exists x, qr J = Ok x) /\ qr_exact qr.
Proof.
  split; [intros J; eexists; reflexivity|]. intros J M [= <-]. split; [apply mapseq_square|]. intros i j Hi Hj. change (inner (nth i J []) (nth j J [])) with (jtj J i j).
  rewrite (cholf_psd (length J) (jtj J)) by (auto using jtj_psd; intros; apply inner_comm). unfold sm. f_equal. apply map_ext_in. intros t Ht. apply in_seq in Ht. unfold listm. rewrite !mapseq_entry by lia. reflexivity.
Qed.

(** ** Least squares with the identity: (M'M)^-1 M' *)
Definition invl (n : nat) (L : list (list R)) (i j : nat) : R := nth i (fwd L (map (fun k => delta k j) (seq 0 n)) n) 0%R.
Definition pinv (n : nat) (m : nat -> nat -> R) : nat -> nat -> R :=
  let K := invl n (listm n (cholf n (mm n (tr m) m))) in mm n (mm n (tr K) K) (tr m).
Definition lsq (M : list (list R)) : res (list (list R)) := Ok (listm (length M) (pinv (length M) (entry M))).
Lemma invl_right n L : lower_triangular L n -> eqm n (mm n (entry L) (invl n L)) delta.
Proof.
  intros LT i j Hi Hj. unfold mm, invl. set (d := map (fun k => delta k j) (seq 0 n)). assert (Ld : length d = n) by (unfold d; rewrite map_length, seq_length; reflexivity).
  destruct LT as (SL & LT'). rewrite <- (mul_vec_sm L n) by (auto; apply fwd_len). pose proof (conj SL LT' : lower_triangular L n) as LT. rewrite (fwd_solves L n d i LT Ld Hi). unfold d. apply (map_seq_nth (fun k => delta k j)). exact Hi.
Qed.
Lemma lower_cancel n L x : lower_triangular L n -> (forall i, i < n -> sm n (fun t => entry L i t * x t)%R = 0%R) -> forall i, i < n -> x i = 0%R.
Proof.
  intros (S & Low & Pos) H i. induction i as [i IH] using lt_wf_ind. intros Hi. specialize (H i Hi). replace n with (i + (1 + (n - i - 1))) in H by lia. rewrite !sm_app in H.
  rewrite (sm_zero i) in H by (intros t Ht; rewrite IH by lia; ring). rewrite (sm_zero (n - i - 1)) in H by (intros t Ht; rewrite Low by lia; ring). rewrite sm_S in H. change (sm 0 ?f) with 0%R in H. replace (i + 0) with i in H by lia.
  assert (Q : (entry L i i * x i)%R = 0%R) by lra. specialize (Pos i Hi). apply Rmult_integral in Q. destruct Q; [lra|assumption].
Qed.
Lemma invl_left n L : lower_triangular L n -> eqm n (mm n (invl n L) (entry L)) delta.
Proof.
  intros LT i j Hi Hj. pose proof (invl_right n L LT) as Rt.
  assert (Q : forall p, p < n -> sm n (fun t => entry L p t * (mm n (invl n L) (entry L) t j - delta t j))%R = 0%R).
  { intros p Hp. rewrite (sm_ext n _ (fun t => entry L p t * mm n (invl n L) (entry L) t j + -1 * (entry L p t * delta t j))%R) by (intros; ring). rewrite sm_plus, sm_scal.
    change (sm n (fun t => entry L p t * delta t j)%R) with (mm n (entry L) delta p j). change (sm n (fun t => entry L p t * mm n (invl n L) (entry L) t j)%R) with (mm n (entry L) (mm n (invl n L) (entry L)) p j).
    rewrite <- mm_assoc by auto. rewrite (mm_ext n _ delta _ (entry L) Rt (eqm_refl _ _)) by auto. rewrite mm_1l, mm_1r by auto. ring. }
  pose proof (lower_cancel n L _ LT Q i Hi) as Z. cbv beta in Z. lra.
Qed.
Lemma injective_spd M n : square M n -> injective_mat M n -> forall x, (exists i, i < n /\ x i <> 0%R) -> (0 < qf n (mm n (tr (entry M)) (entry M)) x)%R.
Proof.
  intros SM IM x (i & Hi & Hx). unfold mm, tr. rewrite (qf_gram n n (entry M)). cbv zeta.
  destruct (Rlt_or_le 0 (sm n (fun t => let y := sm n (fun p => x p * entry M t p)%R in y * y)%R)) as [P|P]; [exact P|exfalso]. cbv zeta in P.
  assert (Z : forall t, t < n -> sm n (fun p => x p * entry M t p)%R = 0%R).
  { intros t Ht. destruct (Req_dec (sm n (fun p => x p * entry M t p)%R) 0) as [|Hn]; [assumption|exfalso].
    assert (0 < sm n (fun t => sm n (fun p => x p * entry M t p) * sm n (fun p => x p * entry M t p)))%R; [|lra]. apply (sm_pos n _ t); auto; [intros; nra|nra]. }
  assert (E : map x (seq 0 n) = repeat 0%R n).
  { apply IM; [rewrite map_length, seq_length; reflexivity|]. apply (nth_ext _ _ 0%R 0%R); [unfold mul_vec; rewrite map_length, repeat_length; apply SM|].
    intros t Ht. unfold mul_vec in Ht. rewrite map_length in Ht. destruct SM as (L & RM). rewrite L in Ht. rewrite nth_repeat. rewrite (mul_vec_sm M n) by (first [solve [split; auto] | solve [rewrite map_length, seq_length; reflexivity] | assumption]).
    rewrite <- (Z t Ht). apply sm_ext. intros p Hp. rewrite map_seq_nth by auto. ring. }
  apply Hx. rewrite <- (map_seq_nth x n i 0%R Hi), E. apply nth_repeat.
Qed.
Theorem lsq_is_exact : (forall M, exists x, lsq M = Ok x) /\ lstsq_exact lsq.
Proof.
  split; [intros M; eexists; reflexivity|]. intros M U n SM IM [= <-]. destruct SM as (LM & RM). rewrite LM.
  set (m := entry M). set (a := mm n (tr m) m).
  assert (Sa : forall p q, p < n -> q < n -> a p q = a q p). { intros p q Hp Hq. unfold a, mm, tr. apply sm_ext. intros. ring. }
  assert (Pa : forall x, (exists i, i < n /\ x i <> 0%R) -> (0 < qf n a x)%R) by (apply injective_spd; [split; auto|exact IM]).
  set (L := listm n (cholf n a)).
  assert (FL : cholesky_factor L (listm n a) n).
  { apply listm_factor; [apply cholf_lower|apply cholf_pos; auto|]. intros i j Hi Hj. unfold listm. rewrite mapseq_entry by auto. apply cholf_psd; auto. apply psd_of_pos. exact Pa. }
  assert (LT : lower_triangular L n) by (destruct FL as (C1 & C2 & C3 & _); split; auto).
  assert (LL : eqm n a (mm n (entry L) (tr (entry L)))).
  { intros i j Hi Hj. rewrite (cholf_psd n a Sa (psd_of_pos n a Pa) i j Hi Hj). unfold mm, tr. apply sm_ext. intros t Ht. unfold L, listm. rewrite !mapseq_entry by auto. reflexivity. }
  set (K := invl n L). pose proof (invl_left n L LT) as KL. pose proof (invl_right n L LT) as LK. fold K in KL, LK.
  assert (UM : eqm n (mm n (pinv n m) m) delta).
  { unfold pinv. fold a L K. eapply eqm_trans; [apply mm_assoc|]. fold a. eapply eqm_trans; [apply mm_ext; [apply eqm_refl|exact LL]|].
    eapply eqm_trans; [apply mm_assoc|]. eapply eqm_trans; [apply mm_ext; [apply eqm_refl|]|].
    { eapply eqm_trans; [apply eqm_sym, mm_assoc|]. eapply eqm_trans; [eapply mm_ext; [exact KL|apply eqm_refl]|]. apply mm_1l. }
    eapply eqm_trans; [apply eqm_sym, tr_mm|]. intros i j Hi Hj. unfold tr. rewrite LK by auto. unfold delta. rewrite Nat.eqb_sym. reflexivity. }
  assert (MU : eqm n (mm n m (pinv n m)) delta).
  { apply (left_right n m (pinv n m) (mm n (tr K) K)); [exact UM|apply eqm_refl|]. intros i j Hi Hj. unfold tr, mm. apply sm_ext. intros. ring. }
  assert (EP : forall i j, i < n -> j < n -> entry (listm n (pinv n m)) i j = pinv n m i j) by (intros; unfold listm; apply mapseq_entry; auto).
  split; [apply mapseq_square|]. split; [split; auto|]. intros i j Hi Hj. unfold mat_prod. rewrite !rsum_sm. split.
  - rewrite <- (UM i j Hi Hj). unfold mm. apply sm_ext. intros t Ht. rewrite EP by auto. reflexivity.
  - rewrite <- (MU i j Hi Hj). unfold mm. apply sm_ext. intros t Ht. rewrite EP by auto. reflexivity.
Qed.
(** ** Sampling and optimisation *)
Lemma first_is_sample : is_sample (fun _ l k => firstn k l).
Proof. intros c l k H. exists (skipn k l). rewrite firstn_skipn, firstn_length. split; [apply Permutation_refl|lia]. Qed.
Lemma stay_total {T} : least_squares_total (T := T) (fun _ _ _ a => Ok ([a], a)).
Proof. intros k st LK a. exists [a], a. split; [reflexivity|]. split; [intros x [<-|[]]; reflexivity|reflexivity]. Qed.
