From Coq Require Import Reals Lra.
From Verif Require Import Base BaseLemmas ReaderModel ReaderSpec UncModel UncSpec UncProofs UncProofs3 TransformModel EvalModel GNModel SimModel WModel WSpec WProofs WProofs2 WProofs3 WProofs4 HRModel PmhModel PmhSpec PmhProofs.
Open Scope nat_scope.

Section Conv.
Variable pyfloat : text -> res R.
Variable pyint : text -> res Z.
Notation open_data_uncs := (open_data_uncs pyfloat pyint).
Notation open_data_pams := (open_data_pams pyfloat pyint).
Notation run_conversion := (run_conversion pyfloat pyint).

Lemma read_var_type ty line v : read_var pyfloat pyint ty line = Ok v -> v_type v = 1 \/ v_type v = 2 \/ v_type v = 3.
Proof.
  unfold read_var. intros E. destruct (teqb ty (tx "R")); [|destruct (teqb ty (tx "RS")); [|destruct (teqb ty (tx "MA")); [|discriminate]]];
  repeat (match type of E with bind ?x _ = _ => destruct x as [?|] eqn:?; cbn [bind] in E; [|discriminate] end); injection E as <-; cbn; auto.
Qed.
Lemma uncs_typed lines uref vs k : open_data_uncs lines = Ok (uref, vs, k) -> typed vs.
Proof.
  unfold PmhModel.open_data_uncs.
  destruct (foldM (unc_line pyfloat pyint (length lines - 1)) (enumerate lines) (mkUstate None None None [])) as [st|] eqn:E; cbn [bind]; [|discriminate].
  assert (G : forall l s s', foldM (unc_line pyfloat pyint (length lines - 1)) l s = Ok s' -> typed (s_vars s) -> typed (s_vars s')).
  { clear. induction l as [|[i line] l IH]; intros s s'; cbn [foldM]; [intros [= <-]; auto|].
    destruct (unc_line pyfloat pyint (length lines - 1) s (i, line)) as [s1|] eqn:E; cbn [bind]; [|discriminate]. intros HF Hs. apply (IH _ _ HF). clear IH HF.
    unfold unc_line in E. destruct ((i =? 0) || (i + 1 =? length lines - 1)); [injection E as <-; auto|].
    destruct (i =? 1); [destruct (float_line pyfloat line); cbn [bind] in E; [injection E as <-; auto|discriminate]|].
    destruct (i =? length lines - 1); [destruct (float_line pyfloat line); cbn [bind] in E; [injection E as <-; auto|discriminate]|].
    destruct (Nat.even i); [destruct (type_word line); cbn [bind] in E; [injection E as <-; auto|discriminate]|].
    destruct (s_type s) as [t|]; [|discriminate]. destruct (read_var pyfloat pyint t line) as [v|] eqn:Ev; cbn [bind] in E; [|discriminate]. injection E as <-. cbn [s_vars].
    intros w Hw. apply in_app_or in Hw. destruct Hw as [Hw|[<-|[]]]; [auto|]. eapply read_var_type; eauto. }
  destruct (s_ref st), (s_kr st); try discriminate. intros [= <- <- <-]. apply (G _ _ _ E). intros v [].
Qed.

(** What a successful conversion did. *)
Lemma run_inv vals pams uncs dir d at_ im ns at' uref vs k : open_data_pams pams = Ok (im, ns, at') -> open_data_uncs uncs = Ok (uref, vs, k) ->
  run_conversion vals pams uncs dir = Ok (d, at_) ->
  at_ = at' /\ (combine im ns = [] \/ 1 < length vals) /\ exists st mv, foldM (write_pair vals (length (hd [] vals)) uref vs) (combine im ns) (mkCstate 0 (KrF k) dir None) = Ok st /\ make_w vs (k_time st) = Ok mv /\
    foldM (append_w vs mv) im (k_dir st) = Ok d.
Proof.
  intros E1 E2. unfold PmhModel.run_conversion. rewrite E1, E2. cbn [bind].
  destruct (negb (length (combine im ns) =? 0) && ((length vals <=? 1) || (length (hd [] vals) <=? 1))) eqn:Ec; [discriminate|].
  destruct (foldM (write_pair _ _ _ _) _ _) as [st|] eqn:E3; cbn [bind]; [|discriminate]. destruct (make_w vs (k_time st)) as [mv|] eqn:E4; cbn [bind]; [|discriminate].
  destruct (foldM (append_w vs mv) im (k_dir st)) as [d'|] eqn:E5; cbn [bind]; [|discriminate]. intros [= <- <-]. split; [auto|]. split; [|exists st, mv; auto].
  destruct (combine im ns) as [|p l]; [left; reflexivity|right]. cbn in Ec. apply orb_false_iff in Ec. destruct Ec as (Ec & _). apply Nat.leb_gt in Ec. exact Ec.
Qed.
Lemma combine_nth' {A B} (l : list A) : forall (m : list B) i a b, nth_error l i = Some a -> nth_error m i = Some b -> nth_error (combine l m) i = Some (a, b).
Proof. induction l as [|x l IH]; intros [|y m] [|i] a b; cbn; try discriminate; [intros [= ->] [= ->]; reflexivity|apply IH]. Qed.
Lemma combine_sums (im : list (list text)) : forall ns i, i <= length im -> list_sum (map (fun p : list text * Z => Z.to_nat (snd p)) (firstn i (combine im ns))) = rows_before ns i.
Proof.
  unfold rows_before, list_sum. induction im as [|x im IH]; intros [|n ns] [|i] Hi; cbn; try reflexivity; [cbn in Hi; lia|]. f_equal. apply IH. cbn in Hi. lia.
Qed.
Lemma later_names (im : list (list text)) ns i names : NoDup (map file_name im) -> nth_error im i = Some names ->
  forall j (p : list text * Z), i < j -> nth_error (combine im ns) j = Some p -> file_name (fst p) <> file_name names.
Proof.
  intros HN Hi j [nm z] Hj Hp. cbn [fst]. assert (Hj' : nth_error im j = Some nm).
  { clear -Hp. revert ns j Hp. induction im as [|x im IH]; intros [|y ns] [|j]; cbn; try discriminate; [congruence|apply IH]. }
  intros E. assert (i = j); [|lia]. apply (NoDup_nth_error (map file_name im)); [auto| |].
  - rewrite map_length. apply nth_error_Some. congruence.
  - rewrite !nth_error_map''. rewrite Hi, Hj'. cbn. congruence.
Qed.
Lemma rect_hd (vals : list (list R)) w : (forall r, In r vals -> length r = w) -> 0 < length vals -> length (hd [] vals) = w.
Proof. intros Hr. destruct vals as [|r l]; cbn; [lia|]. intros _. apply Hr. left. reflexivity. Qed.

Lemma conv_rows vals w pams uncs dir d at_ im ns at' uref vs k : open_data_pams pams = Ok (im, ns, at') -> open_data_uncs uncs = Ok (uref, vs, k) ->
  (forall r, In r vals -> length r = w) -> run_conversion vals pams uncs dir = Ok (d, at_) ->
  at_ = at' /\ NoDup (map file_name im) /\ forall i names n, nth_error im i = Some names -> nth_error ns i = Some n ->
    exists a b rest f, names = a :: b :: rest /\ (0 < n)%Z /\ find_file (file_name names) d = Some f /\
      holds_rows vals uref k vs (rows_before ns i) (Z.to_nat n) a b f.
Proof.
  intros E1 E2 Hr HR. destruct (run_inv _ _ _ _ _ _ _ _ _ _ _ _ E1 E2 HR) as (Ha & Hl & st & mv & F1 & F2 & F3). split; [exact Ha|].
  destruct (append_all_inv _ _ _ _ _ F3) as (A1 & A2 & A3 & A4). split; [exact A1|]. intros i names n Hi Hn.
  assert (Hc := combine_nth' _ _ _ _ _ Hi Hn).
  assert (Hlen : 1 < length vals) by (destruct Hl as [Hl|]; [rewrite Hl in Hc; destruct i; discriminate|auto]).
  rewrite (rect_hd vals w Hr) in F1 by lia.
  destruct (write_all_inv vals w uref k vs Hr (uncs_typed _ _ _ _ E2) (combine im ns) (mkCstate 0 (KrF k) dir None) st eq_refl F1) as (_ & _ & _ & W4).
  destruct (W4 i names n Hc (later_names im ns i names A1 Hi)) as (a & b & rest & f & G1 & G2 & G3 & G4 & G5).
  destruct (A4 names (nth_error_In _ _ Hi)) as (a' & rest' & f' & B1 & B2 & B3 & B4). rewrite G3 in B2. injection B2 as <-.
  exists a, b, rest. eexists. split; [auto|]. split; [auto|]. split; [exact B4|]. cbn [k_end Nat.add] in G4. rewrite combine_sums in G4; [exact G4|].
  apply Nat.lt_le_incl, nth_error_Some. congruence.
Qed.

(** ** W matrices *)
Definition eqw (k : nat) : list R := repeat (1 / INR k)%R k.
Lemma make_w_inv vs t mv : make_w vs (Some t) = Ok mv -> exists v0, nth_error (filter (fun v => v_type v =? 3) vs) 0 = Some v0 /\ (0 < v_nW v0)%Z /\ t <> [] /\
  exists W u, gen_w (map INR t) 1%R (KF (v_uR v0)) None (Some (Z.to_nat (v_nW v0))) = Ok (W, u) /\ open_w_matrix R mv 1 = Ok W /\ open_u_matrix R mv 1 = Ok u /\ c_nrows R W = length t /\
    exists line cols, lines_of (map INR t) 1%R line /\ rolling (eqw (Z.to_nat (v_nW v0))) line (length t) cols W /\ length u = length cols /\ forall x, In x u -> x = v_uR v0.
Proof.
  unfold make_w. destruct (get (filter (fun v => v_type v =? 3) vs) 0) as [v0|] eqn:E0; cbn [bind]; [|discriminate].
  match goal with |- (if ?b then _ else _) = _ -> _ => destruct b end; [discriminate|]. destruct (Z.ltb_spec (v_nW v0) 0) as [|Hz]; [discriminate|].
  destruct (gen_w (map INR t) 1 (KF (v_uR v0)) None (Some (Z.to_nat (v_nW v0)))) as [[W u]|] eqn:EG; cbn [bind]; [|discriminate]. intros HM.
  exists v0. split; [unfold get in E0; destruct (nth_error (filter (fun v => v_type v =? 3) vs) 0); congruence|].
  assert (Hd : (1 / 100 < 1)%R) by lra.
  assert (Hk : (0 < v_nW v0)%Z).
  { destruct (Z.eq_dec (v_nW v0) 0) as [E|E]; [exfalso|lia]. rewrite E in EG. cbn [Z.to_nat] in EG. unfold gen_w in EG. cbn [kernel bind] in EG.
    destruct (column_positions (map INR t) 1) as [cols|]; cbn [bind] in EG; [|discriminate]. cbn [repeat length] in EG.
    replace (flat_map (fun p : nat => seq p 0) cols) with (@nil nat) in EG by (clear; induction cols; cbn; auto). cbn in EG. discriminate. }
  destruct (gen_rolling (map INR t) 1 (KF (v_uR v0)) None (Some (Z.to_nat (v_nW v0))) (eqw (Z.to_nat (v_nW v0))) W u Hd eq_refl EG) as (line & cols & HL & HR & Hu & Hx). rewrite map_length in HR.
  destruct (gen_format _ _ _ _ _ (eqw (Z.to_nat (v_nW v0))) W u line cols EG ltac:(rewrite map_length; exact HR)) as (Fa & Fb).
  assert (Ht : t <> []). { intros ->. apply (gen_nonempty _ _ _ _ _ _ _ EG). reflexivity. }
  split; [exact Hk|]. split; [exact Ht|]. exists W, u. split; [exact EG|].
  assert (Hlc : last_column_used W).
  { apply Fb. intros ->. destruct HR as (_ & _ & _ & HC & _). apply (proj2 (HC (line 0%nat))). exists 0. split; [destruct t; [congruence|cbn; lia]|].
    unfold weight. rewrite Z.sub_diag. cbn [Z.leb Z.compare Z.to_nat]. unfold eqw. assert (Hk' : 0 < Z.to_nat (v_nW v0)) by lia. rewrite (nth_error_nth _ _ 0%R (nth_repeat' _ _ 0 Hk')).
    unfold Rdiv. rewrite Rmult_1_l. apply Rinv_neq_0_compat. apply not_0_INR. lia. }
  destruct (codec_roundtrip 0%R [W] [u] [] [] [] [] (length t)) as (mv' & M1 & _ & _ & _ & _ & M2 & M3); [congruence| |].
  { intros w [<-|[]]. split; [auto|]. split; [apply HR|auto]. }
  assert (Emv : mv' = mv) by congruence. subst mv'. split; [exact (M2 0 W eq_refl)|]. split; [exact (M3 0 u eq_refl)|]. split; [apply HR|].
  exists line, cols. auto.
Qed.

Lemma uses_at vs c v : nth_error vs c = Some v -> v_type v = 3 -> nth_error (uses vs) c = Some 1.
Proof. intros E Ht. unfold uses. rewrite nth_error_map'', E. cbn. rewrite Ht. reflexivity. Qed.
Lemma open_w_uses mv a b (mv' := mkMatvars R a b a b (w_nnz R mv) (w_row R mv) (w_col R mv) (w_val R mv) (u_row_count R mv) (u_val R mv)) i :
  open_w_matrix R mv' i = open_w_matrix R mv i /\ open_u_matrix R mv' i = open_u_matrix R mv i.
Proof. split; reflexivity. Qed.
Lemma lines_shift i0 i1 n line : lines_of (map INR (seq i0 n)) 1 line -> lines_of (map INR (seq i1 n)) 1 line.
Proof.
  intros HL i t Ht. rewrite nth_error_map'' in Ht. destruct (nth_error (seq i1 n) i) as [x|] eqn:E; [|discriminate]. cbn in Ht. injection Ht as <-.
  assert (Hi : i < n). { pose proof (nth_error_Some (seq i1 n) i). rewrite seq_length in H. apply H. congruence. }
  assert (x = i1 + i). { rewrite (nth_error_nth' _ 0) in E by (rewrite seq_length; auto). rewrite seq_nth in E by auto. congruence. } subst x.
  assert (E0 : nth_error (map INR (seq i0 n)) i = Some (INR (i0 + i))). { rewrite nth_error_map''. rewrite (nth_error_nth' _ 0) by (rewrite seq_length; auto). rewrite seq_nth by auto. reflexivity. }
  specialize (HL i _ E0). destruct n as [|n]; [lia|]. cbn [seq map hd] in *. rewrite plus_INR in *. replace ((INR i1 + INR i - INR i1) / 1)%R with ((INR i0 + INR i - INR i0) / 1)%R by lra. exact HL.
Qed.

Lemma times_of H uref k vs i0 n a b f : holds_rows H uref k vs i0 n a b f -> d_time1 R (uf_d R (p_file f)) = map INR (seq i0 n) /\ d_time2 R (uf_d R (p_file f)) = map INR (seq i0 n).
Proof.
  intros Hf. unfold holds_rows in Hf. destruct Hf as (_ & _ & _ & _ & _ & _ & _ & _ & _ & _ & L1 & L2 & _ & _ & Hj & _).
  assert (G : forall l : list R, length l = n -> (forall j, j < n -> nth_error l j = Some (INR (i0 + j))) -> l = map INR (seq i0 n)).
  { intros l Hl Hg. apply (nth_ext _ _ 0%R 0%R); [rewrite map_length, seq_length; auto|]. intros j Hlt. rewrite Hl in Hlt.
    rewrite (nth_error_nth _ _ _ (Hg j Hlt)). symmetry. apply nth_error_nth. rewrite nth_error_map''. rewrite (nth_error_nth' _ 0) by (rewrite seq_length; auto). rewrite seq_nth by auto. reflexivity. }
  split; (apply G; [auto|]; intros j Hlt; destruct (Hj j Hlt) as (? & ? & ? & _ & _ & _ & _ & _ & _ & _ & _ & T1 & T2 & _); auto).
Qed.

Lemma filter_first {A} (p : A -> bool) l v : In v l -> p v = true -> exists v0, nth_error (filter p l) 0 = Some v0 /\ In v0 l /\ p v0 = true.
Proof.
  intros Hi Hp. assert (Hf : In v (filter p l)) by (apply filter_In; auto). destruct (filter p l) as [|v0 l'] eqn:E; [destruct Hf|]. exists v0. split; [reflexivity|].
  apply filter_In. rewrite E. left. reflexivity.
Qed.

(** Equal numbers of match-ups and one kernel: every file represents its averages. *)
Lemma conv_averages vals w pams uncs dir d at_ im ns at' uref vs k n kz u0 : open_data_pams pams = Ok (im, ns, at') -> open_data_uncs uncs = Ok (uref, vs, k) ->
  (forall r, In r vals -> length r = w) -> run_conversion vals pams uncs dir = Ok (d, at_) -> length im <= length ns -> (forall z, In z ns -> z = n) ->
  (forall v, In v vs -> v_type v = 3 -> v_nW v = kz /\ v_uR v = u0) ->
  forall i names, nth_error im i = Some names -> exists a b rest f, names = a :: b :: rest /\ find_file (file_name names) d = Some f /\
    holds_rows vals uref k vs (i * Z.to_nat n) (Z.to_nat n) a b f /\ represents_averages vs a f.
Proof.
  intros E1 E2 Hr HR Hlen Hn Hv i names Hi. destruct (conv_rows _ _ _ _ _ _ _ _ _ _ _ _ _ E1 E2 Hr HR) as (_ & ND & HC).
  assert (Hz : exists z, nth_error ns i = Some z). { destruct (nth_error ns i) eqn:E; [eauto|]. apply nth_error_None in E. assert (i < length im) by (apply nth_error_Some; congruence). lia. }
  destruct Hz as (z & Hz). pose proof (Hn z (nth_error_In _ _ Hz)) as ->. destruct (HC i names n Hi Hz) as (a & b & rest & f & G1 & G2 & G3 & G4).
  exists a, b, rest, f. split; [auto|]. split; [auto|].
  assert (Hrb : rows_before ns i = i * Z.to_nat n).
  { assert (Hil : i <= length ns) by (apply Nat.lt_le_incl, nth_error_Some; congruence). clear -Hn Hil. unfold rows_before. revert ns Hn Hil. induction i as [|i IH]; intros [|x ns] Hn Hil; cbn; try reflexivity; [cbn in Hil; lia|].
    unfold list_sum in *. cbn [fold_right]. rewrite (Hn x) by (left; auto). f_equal. apply IH; [intros y Hy; apply Hn; right; auto|cbn in Hil; lia]. }
  rewrite Hrb in G4. split; [exact G4|].
  destruct (run_inv _ _ _ _ _ _ _ _ _ _ _ _ E1 E2 HR) as (_ & Hl & st & mv & F1 & F2 & F3).
  assert (Hc := combine_nth' _ _ _ _ _ Hi Hz).
  assert (Hlen' : 1 < length vals) by (destruct Hl as [Hl|]; [rewrite Hl in Hc; destruct i; discriminate|auto]).
  rewrite (rect_hd vals w Hr) in F1 by lia.
  destruct (write_all_inv vals w uref k vs Hr (uncs_typed _ _ _ _ E2) (combine im ns) (mkCstate 0 (KrF k) dir None) st eq_refl F1) as (_ & _ & W3 & _).
  destruct W3 as (m & M1 & M2 & _ & p & M3 & M4). { intros E. rewrite E in Hc. destruct i; discriminate. }
  assert (Hm : m = Z.to_nat n). { apply nth_error_In in M3. destruct p as [nm z]. apply in_combine_r in M3. apply Hn in M3. cbn in M4. lia. } subst m.
  rewrite M2 in F2. destruct (make_w_inv _ _ _ F2) as (v0 & V1 & V2 & _ & W & u & _ & O1 & O2 & O3 & line & cols & HL & HRo & Hu & Hx). rewrite seq_length in *.
  assert (Hv0 : In v0 vs /\ v_type v0 = 3). { apply nth_error_In in V1. apply filter_In in V1. destruct V1 as (V1 & V3). apply Nat.eqb_eq in V3. auto. }
  destruct (Hv v0 (proj1 Hv0) (proj2 Hv0)) as (K1 & K2). rewrite K1 in *. rewrite K2 in *.
  destruct (append_all_inv _ _ _ _ _ F3) as (_ & _ & _ & A4). destruct (A4 names (nth_error_In _ _ Hi)) as (a' & rest' & f' & B1 & B2 & B3 & B4).
  assert (Ha : a' = a) by congruence. subst a'. rewrite G3 in B4. injection B4 as Ef.
  destruct (times_of _ _ _ _ _ _ _ _ _ G4) as (T1 & T2). unfold represents_averages. rewrite T1, T2.
  eexists. split; [rewrite Ef; reflexivity|]. cbn [wuse1 wuse2 uuse1 uuse2].
  assert (Hw : repeat (1 / IZR kz)%R (Z.to_nat kz) = eqw (Z.to_nat kz)). { unfold eqw. rewrite INR_IZR_INZ, Z2Nat.id by lia. reflexivity. }
  assert (GA : forall mv2 us c v, nth_error vs c = Some v -> v_type v = 3 -> nth_error us c = Some 1 -> open_w_matrix R mv2 1 = Ok W -> open_u_matrix R mv2 1 = Ok u ->
     averaged_as mv2 us us (map INR (seq (i * Z.to_nat n) (Z.to_nat n))) c v).
  { intros mv2 us c v Hcv Hct Huse P1 P2. destruct (Hv v (nth_error_In _ _ Hcv) Hct) as (Q1 & Q2). exists 1, 1, W, u, line, cols. split; [auto|]. split; [auto|]. split; [auto|]. split; [auto|].
    split; [apply (lines_shift (k_end st - Z.to_nat n)); exact HL|]. rewrite Q1, Q2, Hw, map_length, seq_length. auto. }
  intros c v Hcv Hct. split.
  - apply GA; auto. apply (uses_at vs c v); auto.
  - intros Hna. apply GA; auto. destruct (is_ref a) eqn:Er; [apply is_ref_spec in Er; contradiction|]. apply (uses_at vs c v); auto.
Qed.
End Conv.
