(** * Proofs for C43, C44: presence, dimensions, attributes, values. *)
From Coq Require Import Reals Lra.
From Verif Require Import Base BaseLemmas ReaderModel ReaderMain SimModel CheckModel CheckSpec.
Open Scope nat_scope.

Lemma inside_in x l : inside x l = true <-> In x l.
Proof. unfold inside. apply mem_in. intros. apply String.eqb_eq. Qed.
Lemma inside_out x l : inside x l = false <-> ~ In x l.
Proof. rewrite <- inside_in. destruct (inside x l); split; intros; congruence. Qed.
Lemma subset_in l l' : subset l l' = true <-> forall x, In x l -> In x l'.
Proof. unfold subset. rewrite forallb_forall. split; intros H x Hx; apply inside_in; auto. Qed.
Lemma eql_eq a b : eql a b = true <-> a = b.
Proof. unfold eql. destruct (list_eq_dec string_dec a b); split; congruence. Qed.
Lemma errif_nil b e : errif b e = [] <-> b = false.
Proof. destruct b; split; cbn; congruence. Qed.
Lemma app_nil2 {A} (a b : list A) : a ++ b = [] <-> a = [] /\ b = [].
Proof. split; [apply app_eq_nil|intros (-> & ->); auto]. Qed.
Lemma flat_map_nil {A B} (g : A -> list B) l : flat_map g l = [] <-> forall x, In x l -> g x = [].
Proof.
  induction l as [|a l IH]; [split; cbn; auto; tauto|]. cbn [flat_map]. rewrite app_nil2, IH. cbn. split.
  - intros (Ha & H) x [<-|Hx]; auto.
  - intros H. split; auto.
Qed.
Lemma filter_nil {A} (p : A -> bool) l : filter p l = [] <-> forall x, In x l -> p x = false.
Proof.
  induction l as [|a l IH]; [split; cbn; auto; tauto|]. cbn. destruct (p a) eqn:E.
  - split; [discriminate|]. intros H. specialize (H a (or_introl eq_refl)). congruence.
  - rewrite IH. split; [intros H x [<-|Hx]; auto|intros H x Hx; auto].
Qed.
Lemma filter_same {A} (p : A -> bool) l : filter p l = l <-> forall x, In x l -> p x = true.
Proof.
  induction l as [|a l IH]; [split; cbn; auto; tauto|]. cbn. destruct (p a) eqn:E.
  - split; [intros H x [<-|Hx]; auto; apply IH; auto; congruence|]. intros H. f_equal. apply IH. auto.
  - split; [|intros H; specialize (H a (or_introl eq_refl)); congruence]. intros H. exfalso.
    assert (length (filter p l) <= length l) by (clear; induction l as [|b l IH]; cbn; [lia|destruct (p b); cbn; lia]). rewrite H in *. cbn in *. lia.
Qed.
Lemma lookup_nodup {B} n (b : B) l : NoDup (map fst l) -> In (n, b) l -> lookup n l = Some b.
Proof.
  induction l as [|(m, c) l IH]; [intros _ []|]. cbn. intros Hn [E|Hi].
  - injection E as -> ->. rewrite String.eqb_refl. auto.
  - inversion Hn; subst. destruct (String.eqb_spec m n); [|auto]. subst. exfalso. apply H1. apply (in_map fst) in Hi. auto.
Qed.
Lemma lookup_iff {B} n (b : B) l : NoDup (map fst l) -> (lookup n l = Some b <-> In (n, b) l).
Proof. intros H. split; [apply lookup_in|apply lookup_nodup; auto]. Qed.
Lemma lookup_none {B} n (l : list (string * B)) : lookup n l = None <-> ~ In n (map fst l).
Proof.
  induction l as [|(m, c) l IH]; cbn; [tauto|]. destruct (String.eqb_spec m n); [subst; split; [discriminate|tauto]|]. rewrite IH. tauto.
Qed.

(** ** Variables *)
Lemma present_in f n : present f n <-> In n (names f).
Proof.
  unfold present, names. rewrite in_map_iff. split; intros (v & A & B); eauto.
Qed.
Lemma find_nodup l v : NoDup (map v_name l) -> In v l -> find (fun w => String.eqb (v_name w) (v_name v)) l = Some v.
Proof.
  induction l as [|a l IH]; [intros _ []|]. cbn. intros Hn [->|Hi].
  - rewrite String.eqb_refl. auto.
  - inversion Hn; subst. destruct (String.eqb_spec (v_name a) (v_name v)) as [E|]; [|auto]. exfalso. apply H1. rewrite E. apply in_map. auto.
Qed.
Lemma nvar_ok f v : wf_nc f -> In v (nc_vars f) -> nvar f (v_name v) = Ok v.
Proof. intros (_ & Hn & _) Hv. unfold nvar. rewrite find_nodup; auto. Qed.
Lemma var_unique f v w : wf_nc f -> In v (nc_vars f) -> In w (nc_vars f) -> v_name v = v_name w -> v = w.
Proof. intros Hw Hv Hv' E. pose proof (nvar_ok f v Hw Hv). pose proof (nvar_ok f w Hw Hv'). rewrite E in H. congruence. Qed.
Lemma nvar_in f n v : nvar f n = Ok v -> In v (nc_vars f) /\ v_name v = n.
Proof. unfold nvar. destruct (find _ _) as [w|] eqn:E; [|discriminate]. intros H. injection H as <-. apply find_some in E. destruct E as (A & B). apply String.eqb_eq in B. auto. Qed.
Lemma data_unique f n a b : wf_nc f -> data f n a -> data f n b -> a = b.
Proof. intros Hw (v & A & B & C) (w & A' & B' & C'). assert (v = w) by (apply (var_unique f); auto; congruence). congruence. Qed.
Lemma size_ndim f d k : wf_nc f -> (size f d k <-> ndim f d = Ok k).
Proof.
  intros (Hn & _). unfold size, ndim. rewrite <- lookup_iff by auto. destruct (lookup d (nc_dims f)); split; congruence.
Qed.
Lemma size_fun f d k k' : wf_nc f -> size f d k -> size f d k' -> k = k'.
Proof. intros Hw A B. apply size_ndim in A, B; auto. congruence. Qed.

(** ** Reading *)
Lemma fl1_data f n l : wf_nc f -> (fl1 f n = Ok l <-> data f n (Arr1 l)).
Proof.
  intros Hw. unfold fl1, data. split.
  - destruct (nvar f n) as [v|] eqn:E; [|discriminate]. cbn. intros H. destruct (nvar_in _ _ _ E). exists v. destruct (v_data v); try discriminate. injection H as ->. auto.
  - intros (v & A & <- & C). rewrite (nvar_ok f v Hw A). cbn. rewrite C. auto.
Qed.
Lemma fl2_data f n l : wf_nc f -> (fl2 f n = Ok l <-> data f n (Arr2 l)).
Proof.
  intros Hw. unfold fl2, data. split.
  - destruct (nvar f n) as [v|] eqn:E; [|discriminate]. cbn. intros H. destruct (nvar_in _ _ _ E). exists v. destruct (v_data v); try discriminate. injection H as ->. auto.
  - intros (v & A & <- & C). rewrite (nvar_ok f v Hw A). cbn. rewrite C. auto.
Qed.
Lemma in1_data f n l : wf_nc f -> (in1 f n = Ok l <-> data f n (IArr1 l)).
Proof.
  intros Hw. unfold in1, data. split.
  - destruct (nvar f n) as [v|] eqn:E; [|discriminate]. cbn. intros H. destruct (nvar_in _ _ _ E). exists v. destruct (v_data v); try discriminate. injection H as ->. auto.
  - intros (v & A & <- & C). rewrite (nvar_ok f v Hw A). cbn. rewrite C. auto.
Qed.
Lemma in2_data f n l : wf_nc f -> (in2 f n = Ok l <-> data f n (IArr2 l)).
Proof.
  intros Hw. unfold in2, data. split.
  - destruct (nvar f n) as [v|] eqn:E; [|discriminate]. cbn. intros H. destruct (nvar_in _ _ _ E). exists v. destruct (v_data v); try discriminate. injection H as ->. auto.
  - intros (v & A & <- & C). rewrite (nvar_ok f v Hw A). cbn. rewrite C. auto.
Qed.
Ltac fitcase Hw := match goal with A : In ?v (nc_vars ?f) |- _ => let H := fresh "F" in pose proof (proj2 (proj2 (proj2 Hw)) v A) as H; unfold fits in H end.
Lemma decl_f1 f n d : wf_nc f -> declared f n [d] float_types -> exists l, data f n (Arr1 l) /\ size f d (length l).
Proof.
  intros Hw (v & A & B & C & D). fitcase Hw. rewrite C in F. destruct (v_data v) as [l|l|l|l|] eqn:E.
  - destruct F as (_ & d' & E1 & S1). injection E1 as <-. exists l. split; [exists v; auto|auto].
  - destruct F as (_ & ? & ? & ? & E1 & _). discriminate.
  - destruct F as (E1 & _). rewrite E1 in D. cbn in D. destruct D as [D|[D|[]]]; discriminate.
  - destruct F as (E1 & _). rewrite E1 in D. cbn in D. destruct D as [D|[D|[]]]; discriminate.
  - exfalso. destruct F as [F|(F & _)]; [apply F; cbn in D; cbn; tauto|apply F; auto].
Qed.
Lemma decl_f2 f n d e : wf_nc f -> declared f n [d; e] float_types -> exists l k, data f n (Arr2 l) /\ size f d (length l) /\ size f e k /\ forall r, In r l -> length r = k.
Proof.
  intros Hw (v & A & B & C & D). fitcase Hw. rewrite C in F. destruct (v_data v) as [l|l|l|l|] eqn:E.
  - destruct F as (_ & d' & E1 & S1). discriminate.
  - destruct F as (_ & d' & e' & k & E1 & S1 & S2 & S3). injection E1 as <- <-. exists l, k. split; [exists v; auto|auto].
  - destruct F as (E1 & _). rewrite E1 in D. cbn in D. destruct D as [D|[D|[]]]; discriminate.
  - destruct F as (E1 & _). rewrite E1 in D. cbn in D. destruct D as [D|[D|[]]]; discriminate.
  - exfalso. destruct F as [F|(_ & F)]; [apply F; cbn in D; cbn; tauto|apply F; auto].
Qed.
Lemma decl_i1 f n d : wf_nc f -> declared f n [d] int_types -> exists l, data f n (IArr1 l) /\ size f d (length l).
Proof.
  intros Hw (v & A & B & C & D). cbn in D. destruct D as [D|[]]. fitcase Hw. rewrite C, <- D in F. destruct (v_data v) as [l|l|l|l|] eqn:E.
  - exfalso. destruct F as (F & _). cbn in F. destruct F as [F|[F|[]]]; discriminate.
  - exfalso. destruct F as (F & _). cbn in F. destruct F as [F|[F|[]]]; discriminate.
  - destruct F as (_ & d' & E1 & S1). injection E1 as <-. exists l. split; [exists v; auto|auto].
  - destruct F as (_ & ? & ? & ? & E1 & _). discriminate.
  - exfalso. destruct F as [F|(F & _)]; [apply F; cbn; tauto|apply F; auto].
Qed.
Lemma decl_i2 f n d e : wf_nc f -> declared f n [d; e] int_types -> exists l k, data f n (IArr2 l) /\ size f d (length l) /\ size f e k /\ forall r, In r l -> length r = k.
Proof.
  intros Hw (v & A & B & C & D). cbn in D. destruct D as [D|[]]. fitcase Hw. rewrite C, <- D in F. destruct (v_data v) as [l|l|l|l|] eqn:E.
  - exfalso. destruct F as (F & _). cbn in F. destruct F as [F|[F|[]]]; discriminate.
  - exfalso. destruct F as (F & _). cbn in F. destruct F as [F|[F|[]]]; discriminate.
  - destruct F as (_ & ? & E1 & _). discriminate.
  - destruct F as (_ & d' & e' & k & E1 & S1 & S2 & S3). injection E1 as <- <-. exists l, k. split; [exists v; auto|auto].
  - exfalso. destruct F as [F|(_ & F)]; [apply F; cbn; tauto|apply F; auto].
Qed.

(** ** Presence, dimensions, types *)
Lemma included_iff f : check_variable_included f = [] <->
  (forall n, In n (map fst VARIABLE_DATA) -> present f n) /\ ((forall n, In n w_names -> present f n) \/ (forall n, In n w_names -> ~ present f n)).
Proof.
  unfold check_variable_included. rewrite app_nil2, !errif_nil. rewrite Bool.negb_false_iff, eql_eq, filter_nil, Bool.andb_false_iff, !Bool.negb_false_iff, !eql_eq, filter_nil, filter_same.
  change (map fst W_VARIABLE_DATA) with w_names.
  assert (P : forall n, negb (inside n (names f)) = false <-> present f n) by (intros n; rewrite present_in, Bool.negb_false_iff, inside_in; tauto).
  assert (Q : forall n, negb (inside n (names f)) = true <-> ~ present f n) by (intros n; rewrite present_in, Bool.negb_true_iff, inside_out; tauto).
  split; intros (A & [B|B]); (split; [intros n Hn; apply P; auto|]); [left|right|left|right]; intros n Hn; try apply P; try apply Q; auto.
Qed.
Definition table (f : ncfile) (t : list (string * (list string * list string))) : Prop := forall n d ty, In (n, (d, ty)) t -> declared f n d ty.
Lemma required_table f : required f <-> table f VARIABLE_DATA.
Proof.
  unfold required, table. split.
  - intros H n d ty Hi. cbn in Hi. decompose [and] H. clear H. repeat (destruct Hi as [Hi|Hi]; [injection Hi as <- <- <-; assumption|]). destruct Hi.
  - intros H. repeat apply conj; apply H; unfold VARIABLE_DATA; cbn [In]; tauto.
Qed.
Lemma w_table f : w_variables f <-> table f W_VARIABLE_DATA.
Proof.
  unfold w_variables, table. split.
  - intros H n d ty Hi. cbn in Hi. decompose [and] H. clear H. repeat (destruct Hi as [Hi|Hi]; [injection Hi as <- <- <-; assumption|]). destruct Hi.
  - intros H. repeat apply conj; apply H; unfold W_VARIABLE_DATA; cbn [In]; tauto.
Qed.
Lemma spec_of_table n d t : spec_of n = Some (d, t) <-> In (n, (d, t)) (VARIABLE_DATA ++ W_VARIABLE_DATA).
Proof.
  assert (E : spec_of n = lookup n (VARIABLE_DATA ++ W_VARIABLE_DATA)).
  { unfold spec_of. generalize VARIABLE_DATA. intros l. induction l as [|(m, b) l IH]; cbn; [auto|]. destruct (String.eqb m n); auto. }
  rewrite E. apply lookup_iff. cbn. repeat constructor; cbn; intuition discriminate.
Qed.
Lemma shapes_iff f : wf_nc f -> (check_variable_dtype f = [] /\ check_variable_dimension f = [] <->
  forall n d t, In (n, (d, t)) (VARIABLE_DATA ++ W_VARIABLE_DATA) -> present f n -> declared f n d t).
Proof.
  intros Hw. unfold check_variable_dtype, check_variable_dimension. rewrite !flat_map_nil. split.
  - intros (A & B) n d t Hi (v & Hv & <-). apply spec_of_table in Hi. specialize (A v Hv). specialize (B v Hv). cbn in A, B. rewrite Hi in A, B.
    apply errif_nil in A, B. apply Bool.negb_false_iff in A, B. apply inside_in in A. apply eql_eq in B. exists v. auto.
  - intros H. split; intros v Hv; destruct (spec_of (v_name v)) as [(d, t)|] eqn:E; auto; apply spec_of_table in E; destruct (H _ _ _ E (ex_intro _ v (conj Hv eq_refl))) as (w & A & B & C & D);
      assert (w = v) by (apply (var_unique f); auto); subst w; apply errif_nil, Bool.negb_false_iff; [apply inside_in|apply eql_eq]; auto.
Qed.
Theorem format_iff f : wf_nc f -> (check_variable_included f = [] /\ check_variable_dtype f = [] /\ check_variable_dimension f = [] <->
  required f /\ (w_variables f \/ (forall n, In n w_names -> ~ present f n))).
Proof.
  intros Hw. rewrite shapes_iff, included_iff, required_table, w_table by auto. unfold table. split.
  - intros ((A & B) & C). split.
    + intros n d t Hi. apply C; [apply in_or_app; auto|]. apply A. apply (in_map fst) in Hi. auto.
    + destruct B as [B|B]; [left|right; auto]. intros n d t Hi. apply C; [apply in_or_app; auto|]. apply B. change w_names with (map fst W_VARIABLE_DATA). apply (in_map fst) in Hi. auto.
  - assert (DP : forall n d t, declared f n d t -> present f n) by (intros n d t (v & ? & ? & _); exists v; auto).
    intros (A & B). split.
    + split.
      * intros n Hn. apply in_map_iff in Hn. destruct Hn as ((m & d & t) & E & Hi). cbn in E. subst m. eapply DP; eauto.
      * destruct B as [B|B]; [left|right; auto]. intros n Hn. change w_names with (map fst W_VARIABLE_DATA) in Hn. apply in_map_iff in Hn. destruct Hn as ((m & d & t) & E & Hi). cbn in E. subst m. eapply DP; eauto.
    + intros n d t Hi Hp. apply in_app_or in Hi. destruct Hi as [Hi|Hi]; [auto|]. destruct B as [B|B]; [auto|]. exfalso. apply (B n); auto. change w_names with (map fst W_VARIABLE_DATA). apply (in_map fst) in Hi. auto.
Qed.

(** ** Attributes *)
Theorem attributes_iff f : wf_nc f -> (check_attributes f = [] <-> two_sensors f).
Proof.
  intros (_ & _ & Hn & _). unfold check_attributes, two_sensors. rewrite app_nil2. unfold ATTRS. cbn [flat_map]. rewrite !app_nil2, !errif_nil, !Bool.negb_false_iff, !inside_in.
  split.
  - intros ((A & B & _) & C). apply in_map_iff in A, B. destruct A as ((x & a) & E1 & A). destruct B as ((y & b) & E2 & B). cbn in E1, E2. subst x y. exists a, b. do 2 (split; [auto|]).
    rewrite (lookup_nodup _ a _ Hn A), (lookup_nodup _ b _ Hn B) in C. apply errif_nil in C. apply String.eqb_neq in C. auto.
  - intros (a & b & A & B & Hne). rewrite (lookup_nodup _ a _ Hn A), (lookup_nodup _ b _ Hn B). split.
    + apply (in_map fst) in A, B. auto.
    + apply errif_nil, String.eqb_neq. auto.
Qed.

(** ** Values *)
Lemma pos_iff x : pos x = true <-> (0 < x)%R.
Proof. unfold pos. destruct (Rlt_dec 0 x); split; congruence. Qed.
Lemma nonneg_iff x : nonneg x = true <-> (0 <= x)%R.
Proof. unfold nonneg. destruct (Rle_dec 0 x); split; congruence. Qed.
Lemma iszero_iff x : iszero x = true <-> (0 = x)%R.
Proof. unfold iszero. destruct (Req_EM_T x 0); split; congruence. Qed.
Lemma sq_pos r s : (0 <= r)%R -> (0 <= s)%R -> ((0 < s ^ 2 + r ^ 2)%R <-> (0 < r \/ 0 < s)%R).
Proof.
  intros Hr Hs. split.
  - intros H. destruct (Rle_lt_or_eq_dec 0 r Hr); [auto|]. destruct (Rle_lt_or_eq_dec 0 s Hs); [auto|]. subst. cbn in H. lra.
  - intros H. assert (0 <= r ^ 2)%R by (apply pow_le; auto). assert (0 <= s ^ 2)%R by (apply pow_le; auto).
    destruct H as [H|H]; apply (pow_lt _ 2) in H; lra.
Qed.
Lemma combine_all {A B} (P : A * B -> Prop) a b : length a = length b -> ((forall q, In q (combine a b) -> P q) <-> forall i x y, nth_error a i = Some x -> nth_error b i = Some y -> P (x, y)).
Proof.
  revert b. induction a as [|x a IH]; intros [|y b]; try discriminate.
  - intros _. split; [intros _ i u v Hu; destruct i; discriminate|intros _ q []].
  - intros H. cbn in H. injection H as H. specialize (IH b H). cbn [combine]. split.
    + intros Hq [|i] u v Hu Hv; [cbn in *; injection Hu as <-; injection Hv as <-; apply Hq; left; auto|]. apply (proj1 IH) with i; auto. intros q Hi. apply Hq. right; auto.
    + intros Hn q [<-|Hq]; [apply (Hn 0); auto|]. apply (proj2 IH); auto. intros i u v Hu Hv. apply (Hn (S i)); auto.
Qed.
Lemma all_iff {A} (p : A -> bool) (P : A -> Prop) l : (forall x, p x = true <-> P x) -> (forallb p l = true <-> forall x, In x l -> P x).
Proof. intros H. rewrite forallb_forall. split; intros G x Hx; apply H; auto. Qed.
Theorem values_iff f : wf_nc f -> required f -> (check_variable_values f = Ok [] <-> k_uncertainties f /\
  forall n rows r x, In n ["Ur1"; "Ur2"; "Us1"]%string -> data f n (Arr2 rows) -> In r rows -> In x r -> (0 <= x)%R).
Proof.
  intros Hw Hr. pose proof (proj1 (required_table f) Hr) as Ht.
  assert (SUB : forall l, (forall n, In n l -> In n (map fst VARIABLE_DATA)) -> subset l (names f) = true).
  { intros l Hl. apply subset_in. intros n Hn. apply present_in. apply Hl in Hn. apply in_map_iff in Hn. destruct Hn as ((m & d & t) & E & Hi). cbn in E. subst m. destruct (Ht _ _ _ Hi) as (v & ? & ? & _). exists v; auto. }
  destruct (decl_f1 f "Kr" "M" Hw) as (kr & Dr & Sr); [apply Ht; cbn; tauto|].
  destruct (decl_f1 f "Ks" "M" Hw) as (ks & Ds & Ss); [apply Ht; cbn; tauto|].
  pose proof (size_fun f _ _ _ Hw Sr Ss) as HL.
  destruct (decl_f2 f "Ur1" "M" "m1" Hw) as (a1 & k1 & A1 & _); [apply Ht; cbn; tauto|].
  destruct (decl_f2 f "Ur2" "M" "m2" Hw) as (a2 & k2 & A2 & _); [apply Ht; cbn; tauto|].
  destruct (decl_f2 f "Us1" "M" "m1" Hw) as (a3 & k3 & A3 & _); [apply Ht; cbn; tauto|].
  unfold check_variable_values. rewrite !SUB by (cbn; intros n Hn; tauto).
  rewrite (proj2 (fl1_data f _ _ Hw) Dr), (proj2 (fl1_data f _ _ Hw) Ds). cbn [bind]. rewrite HL, Nat.eqb_refl.
  cbn [mapM]. rewrite (proj2 (fl2_data f _ _ Hw) A1), (proj2 (fl2_data f _ _ Hw) A2), (proj2 (fl2_data f _ _ Hw) A3). cbn [bind concat app].
  assert (OK : forall (l l' : list err), Ok (l ++ l') = Ok [] <-> l = [] /\ l' = []) by (intros l l'; rewrite <- app_nil2; split; congruence).
  rewrite OK, !app_nil2, !errif_nil, !Bool.negb_false_iff.
  rewrite (all_iff _ _ kr nonneg_iff), (all_iff _ _ ks nonneg_iff).
  assert (ROWS : forall rows, forallb (forallb nonneg) rows = true <-> forall r, In r rows -> forall x, In x r -> (0 <= x)%R) by (intros rows; apply all_iff; intros r; apply all_iff, nonneg_iff).
  rewrite !ROWS.
  rewrite (all_iff _ (fun q => 0 < snd q ^ 2 + fst q ^ 2)%R (combine kr ks)) by (intros q; apply pos_iff).
  rewrite combine_all by auto. cbn [fst snd]. unfold k_uncertainties.
  split.
  - intros ((K1 & K2 & K3) & U1 & U2 & U3 & _). split.
    + intros kr' ks' D1 D2 i r s Hi Hj. pose proof (data_unique _ _ _ _ Hw Dr D1) as E1. pose proof (data_unique _ _ _ _ Hw Ds D2) as E2. injection E1 as <-. injection E2 as <-.
      assert (0 <= r)%R by (apply K1; eapply nth_error_In; eauto). assert (0 <= s)%R by (apply K2; eapply nth_error_In; eauto). do 2 (split; [auto|]). apply sq_pos; eauto.
    + intros n rows r x Hn D Hi Hx. cbn in Hn. destruct Hn as [<-|[<-|[<-|[]]]]; [pose proof (data_unique _ _ _ _ Hw A1 D) as E|pose proof (data_unique _ _ _ _ Hw A2 D) as E|pose proof (data_unique _ _ _ _ Hw A3 D) as E]; injection E as <-; eauto.
  - intros (K & U). specialize (K kr ks Dr Ds). split.
    + repeat split.
      * intros x Hx. apply In_nth_error in Hx. destruct Hx as (i & Hi). destruct (nth_error ks i) eqn:E; [apply (K i x r Hi E)|]. apply nth_error_None in E. assert (i < length kr) by (apply nth_error_Some; congruence). lia.
      * intros x Hx. apply In_nth_error in Hx. destruct Hx as (i & Hi). destruct (nth_error kr i) eqn:E; [apply (K i r x E Hi)|]. apply nth_error_None in E. assert (i < length ks) by (apply nth_error_Some; congruence). lia.
      * intros i x y Hx Hy. destruct (K i x y Hx Hy) as (? & ? & ?). apply sq_pos; auto.
    + repeat split; intros r Hr' x Hx; [apply (U "Ur1"%string a1 r x)|apply (U "Ur2"%string a2 r x)|apply (U "Us1"%string a3 r x)|apply (U "Ur2"%string a2 r x)]; auto; cbn; tauto.
Qed.
