(** Proofs: reading a match-up dataset. *)
From Verif Require Import Base FoModel FoSpec FoProofs FoProofs2 FrModel FrSpec FrProofs.
From Coq Require Import QArith Qabs.
Open Scope nat_scope.
Open Scope list_scope.

Lemma mapM_nth : forall (A B : Type) (f : A -> res B) l r, mapM f l = Ok r ->
  length r = length l /\ forall k x, nth_error l k = Some x -> exists y, nth_error r k = Some y /\ f x = Ok y.
Proof.
  induction l as [|a l IH]; intros r E; cbn in E.
  - injection E as <-. split; [reflexivity|]. intros [|k] x h; discriminate.
  - destruct (f a) as [b|] eqn:Ef; [|discriminate]. cbn in E.
    destruct (mapM f l) as [bs|] eqn:Em; [|discriminate]. cbn in E. injection E as <-.
    destruct (IH bs eq_refl) as [L G]. split; [cbn; now rewrite L|].
    intros [|k] x h; cbn in h |- *; [injection h as <-; now exists b|now apply G].
Qed.

Lemma get_some : forall (A : Type) (l : list A) t x, get l t = Ok x <-> nth_error l t = Some x.
Proof. intros A l t x. unfold get. destruct (nth_error l t); split; congruence. Qed.
Lemma fget_nth : forall (A : Type) (l : list A) t z x, z = (Z.of_nat t + 1)%Z ->
  (fget l z = Ok x <-> nth_error l t = Some x).
Proof. intros A l t z x ->. rewrite fget_of_nat. apply get_some. Qed.

Lemma every_thinned : forall (A : Type) (l : list A) M s l', every l M s = Ok l' -> length l = M ->
  0 < s /\ thinned s l l' /\ length l' = (M + s - 1) / s.
Proof.
  intros A l M s l' E HM. unfold every in E. destruct s as [|s']; [discriminate|].
  split; [lia|]. set (s := S s') in *. assert (Hs : 0 < s) by (unfold s; lia).
  rewrite (steps_pos M s Hs) in E. cbn [bind] in E.
  destruct (mapM_nth _ _ _ _ _ E) as [L G]. rewrite map_length, seq_length in L.
  split; [|exact L]. intro t.
  destruct (Nat.lt_ge_cases t ((M + s - 1) / s)) as [Ht|Ht].
  - destruct (G t (1 + Z.of_nat t * Z.of_nat s)%Z) as (y & Ey & Fy).
    { rewrite nth_error_map, (nth_error_nth' _ 0) by now rewrite seq_length. now rewrite seq_nth. }
    rewrite Ey. symmetry. apply (fget_nth _ _ (t * s)) in Fy; [exact Fy|lia].
  - rewrite (proj2 (nth_error_None l' t)) by lia. symmetry. apply nth_error_None.
    assert (N : ~ t * s < M) by (rewrite <- (steps_count M s t Hs); lia). lia.
Qed.

Lemma act_count : forall M s t, 0 < s -> (t < M / s + Nat.min 1 (M mod s) <-> t * s < M).
Proof.
  intros M s t Hs. pose proof (Nat.div_mod M s ltac:(lia)) as D. pose proof (Nat.mod_upper_bound M s ltac:(lia)) as B.
  set (q := M / s) in *. set (r := M mod s) in *. destruct r as [|r].
  - rewrite Nat.min_0_r. split; intro h; nia.
  - replace (Nat.min 1 (S r)) with 1 by lia. split; intro h; nia.
Qed.

Lemma act_steps : forall M s, 0 < s -> M / s + Nat.min 1 (M mod s) = (M + s - 1) / s.
Proof.
  intros M s Hs. assert (H : forall t, t < M / s + Nat.min 1 (M mod s) <-> t < (M + s - 1) / s).
  { intro t. rewrite act_count, steps_count by exact Hs. reflexivity. }
  pose proof (H (M / s + Nat.min 1 (M mod s))). pose proof (H ((M + s - 1) / s)).
  destruct (Nat.lt_trichotomy (M / s + Nat.min 1 (M mod s)) ((M + s - 1) / s)) as [L|[L|L]]; [|exact L|].
  - apply (proj2 (H _)) in L. lia.
  - apply (proj1 (H _)) in L. lia.
Qed.

Lemma full_columns : forall M m x, columns M m (Some (full m M x)).
Proof.
  intros M m x. cbn. unfold full. split; [apply repeat_length|]. intros c Hc. apply repeat_spec in Hc. subst c.
  apply repeat_length.
Qed.
Lemma or_columns : forall M m o x, columns M m o -> columns M m (Some (or_default o (full m M x))).
Proof. intros M m [y|] x H; [exact H|apply full_columns]. Qed.
Lemma or_records : forall (A : Type) M (o : option (list A)) x, records M o -> length (or_default o (repeat x M)) = M.
Proof. intros A M [y|] x H; [exact H|apply repeat_length]. Qed.

Lemma one_to_nth : forall r l, l < r -> nth_error (one_to r) l = Some (Z.of_nat l + 1)%Z.
Proof.
  intros r l H. unfold one_to. rewrite nth_error_map, (nth_error_nth' _ 0) by now rewrite seq_length.
  now rewrite seq_nth.
Qed.

Lemma used_all : forall jb i l, all_columns jb i -> used_column jb i l = Ok l.
Proof. intros jb i l H. unfold used_column. unfold all_columns in H. now rewrite H. Qed.

Lemma fget_inv : forall (A : Type) (l : list A) z x, fget l z = Ok x ->
  exists k, z = (Z.of_nat k + 1)%Z /\ nth_error l k = Some x.
Proof.
  intros A l z x E. unfold fget in E. destruct (1 <=? z)%Z eqn:Ez; [|discriminate]. apply Z.leb_le in Ez.
  exists (Z.to_nat (z - 1)). split; [lia|]. now apply get_some.
Qed.

Lemma used_chosen : forall jb i l z, used_column jb i (Z.of_nat l + 1) = Ok z ->
  forall c, z = (Z.of_nat c + 1)%Z -> chosen jb i l c.
Proof.
  intros jb i l z E c ->. unfold used_column in E. destruct (fget (jb_select jb) i) as [sel|] eqn:Es; [|discriminate].
  cbn [bind] in E. destruct sel.
  - right. split; [exact Es|]. destruct (fget (jb_columns jb) i) as [cols|] eqn:Ec; [|discriminate]. cbn [bind] in E.
    exists cols. split; [reflexivity|]. now apply (fget_nth _ _ l _ _ eq_refl) in E.
  - left. split; [exact Es|]. injection E as E. lia.
Qed.

Lemma telemetry_all : forall jb i r M s sv q, shaped_side M sv ->
  telemetry jb i r M s (if jb_common jb then sv_X sv
                        else sv_X sv ++ or_default (sv_Us sv) (full (sv_m sv) M (Fin 0))) = Ok q ->
  telemetry_of jb i s sv M r q.
Proof.
  intros jb i r M s sv q (HX & _ & HU & _) E.
  pose proof (or_columns M (sv_m sv) _ (Fin 0) HU) as [HUl HUc].
  unfold telemetry in E. apply mapM_nth in E. destruct E as [L G].
  assert (L' : length (one_to r) = r) by (unfold one_to; now rewrite map_length, seq_length).
  split; [lia|]. intros l col Hc.
  assert (Hl : l < r). { rewrite <- L', <- L. apply nth_error_Some. congruence. }
  destruct (G l _ (one_to_nth r l Hl)) as (y & Ey & Fy). rewrite Hc in Ey. injection Ey as <-.
  destruct (used_column jb i (Z.of_nat l + 1)) as [z|] eqn:Eu; [|discriminate]. cbn [bind] in Fy.
  match type of Fy with bind ?x _ = _ => destruct x as [c|] eqn:Ec; cbn [bind] in Fy; [|discriminate] end.
  apply fget_inv in Ec. destruct Ec as (k & Ek & Ec). exists k. split; [exact (used_chosen _ _ _ _ Eu k Ek)|].
  destruct (Nat.lt_ge_cases k (sv_m sv)) as [Hlt|Hge].
  - left. split; [exact Hlt|]. exists c.
    assert (Ec' : nth_error (sv_X sv) k = Some c).
    { destruct (jb_common jb); [exact Ec|]. now rewrite nth_error_app1 in Ec. }
    split; [exact Ec'|]. apply nth_error_In in Ec'. now apply (every_thinned _ _ _ _ _ Fy), HX.
  - right. split; [exact Hge|]. destruct (jb_common jb).
    + exfalso. assert (nth_error (sv_X sv) k = None) by now apply nth_error_None. congruence.
    + split; [reflexivity|]. rewrite nth_error_app2 in Ec by exact Hge. exists c. split; [exact Ec|].
      apply nth_error_In in Ec. now apply (every_thinned _ _ _ _ _ Fy), HUc.
Qed.

(** ** Growth of the store *)
Definition grows (st st' : store) : Prop :=
  st_capacity st' = st_capacity st /\ (exists x, st_b st' = st_b st ++ x) /\ (exists x, st_d st' = st_d st ++ x) /\
  (exists x, st_v st' = st_v st ++ x) /\ (exists x, st_w st' = st_w st ++ x).

Lemma grows_refl : forall st, grows st st.
Proof. intro st. split; [reflexivity|]. repeat split; exists []; symmetry; apply app_nil_r. Qed.
Lemma grows_trans : forall a b c, grows a b -> grows b c -> grows a c.
Proof.
  intros a b c (C1 & [x1 B1] & [x2 D1] & [x3 V1] & [x4 W1]) (C2 & [y1 B2] & [y2 D2] & [y3 V2] & [y4 W2]).
  split; [congruence|]. rewrite B2, D2, V2, W2, B1, D1, V1, W1.
  repeat split; rewrite <- app_assoc; eexists; reflexivity.
Qed.
Lemma refers_app : forall (A : Type) (l m : list A) i x, refers l i x -> refers (l ++ m) i x.
Proof.
  intros A l m i x (k & E & H). exists k. split; [exact E|].
  rewrite nth_error_app1; [exact H|]. apply nth_error_Some. congruence.
Qed.
Lemma refers_last : forall (A : Type) (l : list A) x, refers (l ++ [x]) (Z.of_nat (length l) + 1) x.
Proof. intros A l x. exists (length l). split; [reflexivity|]. rewrite nth_error_app2, Nat.sub_diag by lia. reflexivity. Qed.

Lemma add_to_grows : forall (A : Type) c (x : A) l l' i, add_to c x l = (l', i) -> i <> 0%Z ->
  l' = l ++ [x] /\ i = (Z.of_nat (length l) + 1)%Z /\ length l < c.
Proof.
  intros A c x l l' i E N. destruct (Nat.lt_ge_cases (length l) c) as [H|H].
  - rewrite add_to_room in E by exact H. injection E as <- <-. repeat split; assumption.
  - rewrite add_to_full in E by exact H. injection E as <- <-. congruence.
Qed.

Lemma variances_sq : forall big u, variances big u (map (sq big) u).
Proof.
  intros big. induction u as [|x u IH]; constructor; [|exact IH].
  intros q -> Hq. unfold sq, is_huge. apply Qle_bool_iff in Hq. now rewrite Hq.
Qed.

Lemma covariance_grows : forall big common s vs mats st st' sv M l ty ui ic iv iw, grows st st' ->
  covariance_of big common s vs mats st sv M l ty ui ic iv iw ->
  covariance_of big common s vs mats st' sv M l ty ui ic iv iw.
Proof.
  intros big common s vs mats st st' sv M l ty ui ic iv iw (_ & [x1 B] & [x2 D] & [x3 V] & [x4 W]) (H1 & H2 & H3 & H4).
  unfold covariance_of. cbv zeta. rewrite B, D, V, W. clear B D V W. split; [|split; [|split]].
  - intro h. destruct (H1 h) as (E & x & d & v & A1 & A2 & A3 & A4). split; [exact E|].
    exists x, d, v. repeat (split; [assumption|]). now apply refers_app.
  - intros h h'. destruct (H2 h h') as (E & x & d & v & A1 & A2 & A3 & A4). split; [exact E|].
    exists x, d, v. repeat (split; [assumption|]). now apply refers_app.
  - intros h h'. destruct (H3 h h') as (E & x & y & d & v & u & A1 & A2 & A3 & A4 & A5 & A6). split; [exact E|].
    exists x, y, d, v, u. repeat (split; [assumption|]). now apply refers_app.
  - intro h. destruct (H4 h) as (E & u & v & d & w & k & rows & A1 & A2 & A3 & A4 & A5 & A6 & A7 & A8).
    split; [exact E|]. exists u, v, d, w, k, rows. repeat (split; [try assumption; now apply refers_app|]).
    now apply refers_app.
Qed.

(** ** The loop of setup *)
Lemma fset_ok : forall (A : Type) (l : list A) k z v l', z = (Z.of_nat k + 1)%Z -> fset l z v = Ok l' ->
  k < length l /\ l' = upd k v l.
Proof.
  intros A l k z v l' -> E. unfold fset in E.
  replace (1 <=? Z.of_nat k + 1)%Z with true in E by (symmetry; apply Z.leb_le; lia).
  replace (Z.to_nat (Z.of_nat k + 1 - 1)) with k in E by lia. unfold setitem in E.
  destruct (k <? length l) eqn:Hk; [|discriminate]. injection E as <-. apply Nat.ltb_lt in Hk. now split.
Qed.

Ltac step E :=
  match type of E with bind ?x _ = _ => let e := fresh "E" in destruct x as [?|] eqn:e; cbn [bind] in E; [|discriminate] end.

Definition indices_ok {A B} (P : A -> B -> Prop) (l : list A) (st : list B) (is : list Z) : Prop :=
  forall k i, nth_error is k = Some i -> exists u v, nth_error l k = Some u /\ P u v /\ refers st i v.

Section Setup.
Variables (big : Q) (jb : job) (i : Z) (r M s : nat) (sv : side_vars) (vs : list (list fnum)) (mats : list (list srow)).
Variables (vi wi types : list Z) (st0 : store).
Let ur := or_default (sv_Ur sv) (full (sv_m sv) M (Fin 0)).
Let us := or_default (sv_Us sv) (full (sv_m sv) M (Fin 0)).
Hypothesis (Hall : all_columns jb i) (Hsv : shaped_side M sv).
Hypothesis (Hv : indices_ok (variances big) vs (st_v st0) vi).
Hypothesis (Hw : indices_ok (w_matrix s) mats (st_w st0) wi).

Definition done (n : nat) (a : assoc) : Prop :=
  grows st0 (a_store a) /\
  (length (a_types a) = length types /\ length (a_ic a) = r /\ length (a_iv a) = r /\ length (a_iw a) = r) /\
  (forall l, n <= l -> nth_error (a_types a) l = nth_error types l) /\
  forall l ty, l < n -> l < sv_m sv -> nth_error types l = Some ty ->
    exists x b c d, nth_error (a_types a) l = Some x /\ nth_error (a_ic a) l = Some b /\
      nth_error (a_iv a) l = Some c /\ nth_error (a_iw a) l = Some d /\
      covariance_of big (jb_common jb) s vs mats (a_store a) sv M l ty x b c d.

Lemma ur_columns : forall l c d, nth_error ur l = Some c -> every c M s = Ok d -> thinned s c d.
Proof.
  intros l c d Hc E. destruct Hsv as (_ & HU & _).
  pose proof (or_columns M (sv_m sv) _ (Fin 0) HU) as [_ H]. apply nth_error_In in Hc.
  now apply (every_thinned _ _ _ _ _ E), H.
Qed.
Lemma us_columns : forall l c d, nth_error us l = Some c -> every c M s = Ok d -> thinned s c d.
Proof.
  intros l c d Hc E. destruct Hsv as (_ & _ & HU & _).
  pose proof (or_columns M (sv_m sv) _ (Fin 0) HU) as [_ H]. apply nth_error_In in Hc.
  now apply (every_thinned _ _ _ _ _ E), H.
Qed.

(** A step that changes the entries of column n only. *)
Lemma done_step : forall n a a' ty, done n a -> n < r ->
  nth_error types n = Some ty -> grows (a_store a) (a_store a') ->
  (exists x, a_types a' = a_types a \/ a_types a' = upd n x (a_types a)) ->
  (exists x, a_ic a' = a_ic a \/ a_ic a' = upd n x (a_ic a)) ->
  (exists x, a_iv a' = a_iv a \/ a_iv a' = upd n x (a_iv a)) ->
  (exists x, a_iw a' = a_iw a \/ a_iw a' = upd n x (a_iw a)) ->
  (forall x b c d, nth_error (a_types a') n = Some x -> nth_error (a_ic a') n = Some b ->
     nth_error (a_iv a') n = Some c -> nth_error (a_iw a') n = Some d ->
     covariance_of big (jb_common jb) s vs mats (a_store a') sv M n ty x b c d) ->
  done (S n) a'.
Proof.
  intros n a a' ty (Hg & (L1 & L2 & L3 & L4) & Ht & Hc) Hn Ety Hgr [xt Xt] [xc Xc] [xv Xv] [xw Xw] Hnew.
  assert (U : forall (l l' : list Z) x, l' = l \/ l' = upd n x l -> length l' = length l /\
             forall k, k <> n -> nth_error l' k = nth_error l k).
  { intros l l' x [-> | ->]; (split; [try reflexivity; apply upd_length|]); intros k N; [reflexivity|].
    apply nth_upd_other. congruence. }
  destruct (U _ _ _ Xt) as [T1 T2]. destruct (U _ _ _ Xc) as [C1 C2].
  destruct (U _ _ _ Xv) as [V1 V2]. destruct (U _ _ _ Xw) as [W1 W2].
  split; [exact (grows_trans _ _ _ Hg Hgr)|]. split; [repeat split; congruence|]. split.
  - intros l Hl. rewrite T2 by lia. apply Ht. lia.
  - intros l t Hl Hm Et. destruct (Nat.eq_dec l n) as [->|N].
    + rewrite Ety in Et. injection Et as <-.
      assert (In1 : n < length (a_types a')). { rewrite T1, L1. apply nth_error_Some. congruence. }
      assert (In2 : n < length (a_ic a')) by lia. assert (In3 : n < length (a_iv a')) by lia.
      assert (In4 : n < length (a_iw a')) by lia.
      exists (nth n (a_types a') 0%Z), (nth n (a_ic a') 0%Z), (nth n (a_iv a') 0%Z), (nth n (a_iw a') 0%Z).
      repeat (split; [now apply nth_error_nth'|]). apply Hnew; now apply nth_error_nth'.
    + destruct (Hc l t ltac:(lia) Hm Et) as (x & b & c & d & E1 & E2 & E3 & E4 & Hcov).
      exists x, b, c, d. rewrite T2, C2, V2, W2 by exact N. repeat (split; [assumption|]).
      exact (covariance_grows _ _ _ _ _ _ _ _ _ _ _ _ _ _ _ Hgr Hcov).
Qed.

Lemma set_ic_inv : forall a st ty n z idx a', z = (Z.of_nat n + 1)%Z -> set_ic a st ty z idx = Ok a' ->
  n < length (a_ic a) /\ idx <> 0%Z /\ a' = mkAssoc st ty (upd n idx (a_ic a)) (a_iv a) (a_iw a).
Proof.
  intros a st ty n z idx a' Ez E. unfold set_ic in E. step E. apply (fset_ok _ _ n _ _ _ Ez) in E0.
  destruct E0 as [L ->]. destruct (idx =? 0)%Z eqn:E0; [discriminate|]. apply Z.eqb_neq in E0.
  injection E as <-. repeat split; assumption.
Qed.

Lemma upd_same : forall (l : list Z) n x y, nth_error (upd n x l) n = Some y -> n < length l -> x = y.
Proof. intros l n x y E H. rewrite nth_upd_same in E by exact H. now injection E. Qed.

Lemma independent_column : forall n a a' z ty types', z = (Z.of_nat n + 1)%Z -> done n a -> n < r ->
  nth_error types n = Some ty -> (ty = 1%Z \/ ty = 2%Z /\ jb_common jb = false) ->
  types' = a_types a /\ ty = 1%Z \/ types' = upd n 1%Z (a_types a) ->
  (do c <- used_column jb i z;; do col <- fget ur c;; do d <- every col M s;;
   let '(st, idx) := add_d_matrix big (a_store a) d in set_ic a st types' z idx) = Ok a' ->
  done (S n) a'.
Proof.
  intros n a a' z ty types' Ez Hd Hn Ety Hty Htypes E. rewrite (used_all jb i _ Hall) in E. cbn [bind] in E.
  step E. step E. unfold add_d_matrix in E.
  destruct (add_to (st_capacity (a_store a)) (map (sq big) a1) (st_d (a_store a))) as [l idx] eqn:Ea.
  apply (set_ic_inv _ _ _ n _ _ _ Ez) in E. destruct E as (Lc & Ni & ->).
  destruct (add_to_grows _ _ _ _ _ _ Ea Ni) as (-> & -> & _).
  apply (fget_nth _ _ n _ _ Ez) in E0.
  pose proof Hd as (_ & (L1 & _) & Ht & _). specialize (Ht n (Nat.le_refl _)). rewrite Ety in Ht.
  assert (Ln : n < length (a_types a)) by (apply nth_error_Some; congruence).
  apply (done_step n a _ ty Hd Hn Ety); cbn [a_store a_types a_ic a_iv a_iw].
  - split; [reflexivity|]. cbn [st_b st_d st_v st_w]. repeat split; eexists; try reflexivity; symmetry; apply app_nil_r.
  - exists 1%Z. destruct Htypes as [[-> _]| ->]; [now left|now right].
  - eexists; right; reflexivity.
  - exists 0%Z. now left.
  - exists 0%Z. now left.
  - intros x b c d Ex Eb _ _. apply upd_same in Eb; [|exact Lc]. subst b.
    assert (x = 1%Z).
    { destruct Htypes as [[-> ->]| ->]; [congruence|]. symmetry. exact (upd_same _ _ _ _ Ex Ln). }
    subst x.
    assert (G : 1%Z = 1%Z /\ exists x0 d0 v, nth_error ur n = Some x0 /\ thinned s x0 d0 /\ variances big d0 v /\
      refers (st_d (a_store a) ++ [map (sq big) a1]) (Z.of_nat (length (st_d (a_store a))) + 1) v).
    { split; [reflexivity|]. exists a0, a1, (map (sq big) a1). split; [exact E0|].
      split; [exact (ur_columns _ _ _ E0 E1)|]. split; [apply variances_sq|apply refers_last]. }
    unfold covariance_of. cbv zeta. fold ur us. cbn [st_d].
    split; [intros _; exact G|]. split; [intros _ _; exact G|].
    split; [intros h h'; destruct Hty as [->|[_ h'']]; [discriminate|congruence]|].
    intros [h|h]; destruct Hty as [h'|[h' _]]; congruence.
Qed.

Lemma structured_column : forall n a a' z ty types', z = (Z.of_nat n + 1)%Z -> done n a -> n < r ->
  nth_error types n = Some ty -> (ty = 3%Z \/ ty = 4%Z) ->
  types' = a_types a /\ ty = 3%Z \/ types' = upd n 3%Z (a_types a) ->
  (do c <- used_column jb i z;; do u <- fget (sv_u_use sv) c;; do v <- fget vi u;; do iv <- fset (a_iv a) z v;;
   do w <- fget (sv_w_use sv) c;; do x <- fget wi w;; do iw <- fset (a_iw a) z x;;
   Ok (mkAssoc (a_store a) types' (a_ic a) iv iw)) = Ok a' ->
  done (S n) a'.
Proof.
  intros n a a' z ty types' Ez Hd Hn Ety Hty Htypes E. rewrite (used_all jb i _ Hall) in E. cbn [bind] in E.
  step E. step E. step E. step E. step E. step E. injection E as <-.
  apply (fget_nth _ _ n _ _ Ez) in E0. apply fget_inv in E1. destruct E1 as (k & -> & E1).
  apply (fset_ok _ _ n _ _ _ Ez) in E2. destruct E2 as [Lv ->].
  apply (fget_nth _ _ n _ _ Ez) in E3. apply fget_inv in E4. destruct E4 as (d & -> & E4).
  apply (fset_ok _ _ n _ _ _ Ez) in E5. destruct E5 as [Lw ->].
  pose proof Hd as (Hg & (L1 & _) & Ht & _). specialize (Ht n (Nat.le_refl _)). rewrite Ety in Ht.
  assert (Ln : n < length (a_types a)) by (apply nth_error_Some; congruence).
  destruct (Hv _ _ E1) as (u & v & Eu & Pu & Ru). destruct (Hw _ _ E4) as (rows & w & Er & Pw & Rw).
  destruct Hg as (_ & _ & _ & [xv Gv] & [xw Gw]).
  apply (done_step n a _ ty Hd Hn Ety); cbn [a_store a_types a_ic a_iv a_iw].
  - apply grows_refl.
  - exists 3%Z. destruct Htypes as [[-> _]| ->]; [now left|now right].
  - exists 0%Z. now left.
  - eexists; right; reflexivity.
  - eexists; right; reflexivity.
  - intros x b c e Ex _ Ec Ed. apply upd_same in Ec; [|exact Lv]. apply upd_same in Ed; [|exact Lw]. subst c e.
    assert (x = 3%Z).
    { destruct Htypes as [[-> ->]| ->]; [congruence|]. symmetry. exact (upd_same _ _ _ _ Ex Ln). }
    subst x. unfold covariance_of. cbv zeta. fold ur us.
    split; [intro h; destruct Hty; congruence|]. split; [intro h; destruct Hty; congruence|].
    split; [intro h; destruct Hty; congruence|]. intros _. split; [reflexivity|].
    exists u, v, d, w, k, rows. rewrite Gv, Gw.
    repeat (split; [try assumption; now apply refers_app|]). now apply refers_app.
Qed.

Lemma column_done : forall n a a' z, z = (Z.of_nat n + 1)%Z -> done n a -> n < r ->
  setup_column big jb i M s ur us (sv_u_use sv) (sv_w_use sv) vi wi a z = Ok a' -> done (S n) a'.
Proof.
  intros n a a' z Ez Hd Hn E. unfold setup_column in E. step E. rename a0 into ty.
  apply (fget_nth _ _ n _ _ Ez) in E0.
  pose proof Hd as (_ & (L1 & _) & Ht & _). pose proof (Ht n (Nat.le_refl _)) as Hty. rewrite E0 in Hty. symmetry in Hty.
  assert (Ln : n < length (a_types a)) by (apply nth_error_Some; congruence).
  destruct (ty =? 1)%Z eqn:T1.
  { apply Z.eqb_eq in T1. apply (independent_column n a a' z ty (a_types a)); auto. }
  destruct (ty =? 2)%Z eqn:T2.
  { apply Z.eqb_eq in T2. destruct (negb (jb_common jb)) eqn:C.
    - apply negb_true_iff in C. step E. apply (fset_ok _ _ n _ _ _ Ez) in E1. destruct E1 as [_ ->].
      apply (independent_column n a a' z ty (upd n 1%Z (a_types a))); auto.
    - apply negb_false_iff in C. rewrite (used_all jb i _ Hall) in E. cbn [bind] in E.
      step E. step E. step E. step E. unfold add_b_matrix in E.
      destruct (add_to (st_capacity (a_store a)) (map (sq big) a2, a3) (st_b (a_store a))) as [l idx] eqn:Ea.
      apply (set_ic_inv _ _ _ n _ _ _ Ez) in E. destruct E as (Lc & Ni & ->).
      destruct (add_to_grows _ _ _ _ _ _ Ea Ni) as (-> & -> & _).
      apply (fget_nth _ _ n _ _ Ez) in E1. apply (fget_nth _ _ n _ _ Ez) in E2.
      apply (done_step n a _ ty Hd Hn Hty); cbn [a_store a_types a_ic a_iv a_iw].
      + split; [reflexivity|]. cbn [st_b st_d st_v st_w]. repeat split; eexists; try reflexivity; symmetry; apply app_nil_r.
      + exists 0%Z. now left.
      + eexists; right; reflexivity.
      + exists 0%Z. now left.
      + exists 0%Z. now left.
      + intros x b c d Ex Eb _ _. apply upd_same in Eb; [|exact Lc]. subst b. rewrite E0 in Ex. injection Ex as <-.
        unfold covariance_of. cbv zeta. fold ur us. cbn [st_b].
        split; [congruence|]. split; [congruence|]. split.
        * intros _ _. split; [exact T2|]. exists a0, a1, a2, (map (sq big) a2), a3.
          split; [exact E1|]. split; [exact (ur_columns _ _ _ E1 E3)|]. split; [apply variances_sq|].
          split; [exact E2|]. split; [exact (us_columns _ _ _ E2 E4)|apply refers_last].
        * intros [h|h]; congruence. }
  destruct (ty =? 3)%Z eqn:T3.
  { apply Z.eqb_eq in T3. apply (structured_column n a a' z ty (a_types a)); auto. }
  destruct (ty =? 4)%Z eqn:T4.
  { apply Z.eqb_eq in T4. step E. apply (fset_ok _ _ n _ _ _ Ez) in E1. destruct E1 as [_ ->].
    apply (structured_column n a a' z ty (upd n 3%Z (a_types a))); auto. }
  injection E as <-. apply Z.eqb_neq in T1, T2, T3, T4.
  apply (done_step n a a ty Hd Hn Hty); try (exists 0%Z; now left).
  - apply grows_refl.
  - intros x b c d _ _ _ _. unfold covariance_of. cbv zeta.
    repeat split; intros; exfalso; try congruence; match goal with h : _ \/ _ |- _ => destruct h; congruence end.
Qed.

Lemma setup_done : forall a st1, grows st0 st1 -> 
  setup big jb i r M s ur us (sv_u_use sv) (sv_w_use sv) vi wi types st1 = Ok a -> done r a.
Proof.
  intros a st1 Hg E. unfold setup in E.
  assert (D0 : done 0 (mkAssoc st1 types (repeat 0%Z r) (repeat 0%Z r) (repeat 0%Z r))).
  { split; [exact Hg|]. cbn. rewrite !repeat_length. split; [now repeat split|]. split; [reflexivity|]. intros l ty h. lia. }
  unfold one_to in E.
  enough (G : forall k n a0, n + k = r -> done n a0 ->
    foldM (setup_column big jb i M s ur us (sv_u_use sv) (sv_w_use sv) vi wi)
      (map (fun t => (Z.of_nat t + 1)%Z) (seq n k)) a0 = Ok a -> done r a) by exact (G r 0 _ eq_refl D0 E).
  clear E D0. induction k as [|k IH]; intros n a0 Hn Hd E.
  - cbn in E. injection E as <-. now replace r with n by lia.
  - cbn [seq map foldM] in E.
    destruct (setup_column big jb i M s ur us (sv_u_use sv) (sv_w_use sv) vi wi a0 (Z.of_nat n + 1)) as [a1|] eqn:E1;
      [|discriminate].
    apply (IH (S n) a1); [lia| |exact E]. apply (column_done n a0 a1 _ eq_refl Hd); [lia|exact E1].
Qed.
End Setup.
