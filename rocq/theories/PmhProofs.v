From Coq Require Import Reals Lra.
From Verif Require Import Base BaseLemmas ReaderModel ReaderSpec UncModel UncSpec UncProofs TransformModel EvalModel GNModel SimModel WModel WSpec HRModel PmhModel PmhSpec.
Open Scope nat_scope.

Lemma teqb_iff a : forall b, teqb a b = true <-> a = b.
Proof.
  induction a as [|x a IH]; intros [|y b]; cbn [teqb]; try (split; congruence). rewrite andb_true_iff, IH, Ascii.eqb_eq. split; [intros (-> & ->); reflexivity|intros [= -> ->]; auto].
Qed.
Lemma teqb_spec a b : reflect (a = b) (teqb a b).
Proof. apply iff_reflect. symmetry. apply teqb_iff. Qed.
Lemma find_put_same n f d : find_file n (put_file n f d) = Some f.
Proof.
  unfold find_file, put_file. induction d as [|[m g] d IH]; cbn [filter fst app find].
  - destruct (teqb_spec n n); [reflexivity|congruence].
  - destruct (teqb m n) eqn:E; cbn [negb app find fst]; [exact IH|]. rewrite E. exact IH.
Qed.
Lemma find_put_other n m f d : m <> n -> find_file m (put_file n f d) = find_file m d.
Proof.
  intros Hm. unfold find_file, put_file. induction d as [|[p g] d IH]; cbn [filter fst app find].
  - destruct (teqb_spec n m); [congruence|reflexivity].
  - destruct (teqb_spec p n) as [E|E]; cbn [negb app find fst]; destruct (teqb_spec p m) as [E'|E']; try congruence; auto.
Qed.
Lemma is_ref_spec a : is_ref a = true <-> a = tx "0".
Proof. apply teqb_iff. Qed.
Lemma nth_repeat' {A} (x : A) n j : j < n -> nth_error (repeat x n) j = Some x.
Proof. revert j. induction n; intros [|j] Hj; cbn; try lia; auto. apply IHn. lia. Qed.
Lemma nth_error_repeat_inv {A} (x y : A) n j : nth_error (repeat x n) j = Some y -> y = x.
Proof. intros E. apply nth_error_In in E. apply repeat_spec in E. auto. Qed.
Lemma nth_slice {A} (l : list A) a b j : j < b - a -> nth_error (slice a b l) j = nth_error l (a + j).
Proof.
  intros Hj. unfold slice. revert l. induction a as [|a IH]; intros l; cbn [skipn Nat.add].
  - rewrite Nat.sub_0_r in *. clear -Hj. revert l j Hj. induction b; intros l j Hj; [lia|]. destruct l as [|x l]; cbn; [destruct j; reflexivity|]. destruct j; cbn; auto. apply IHb. lia.
  - destruct l as [|x l].
    + rewrite firstn_nil. destruct j; reflexivity.
    + cbn [nth_error]. assert (Hj' : j < b - 1 - a) by lia. clear IH.
      assert (G : forall m (l' : list A) k i, i < k -> nth_error (firstn k (skipn m l')) i = nth_error l' (m + i)).
      { clear. induction m; intros l' k i Hi; cbn [skipn Nat.add].
        - revert l' i Hi. induction k; intros l' i Hi; [lia|]. destruct l'; cbn; [destruct i; reflexivity|]. destruct i; cbn; auto. apply IHk. lia.
        - destruct l'; cbn; [rewrite firstn_nil; destruct i; reflexivity|]. apply IHm. auto. }
      apply G. lia.
Qed.
Lemma slice_len {A} (l : list A) a b : length (slice a b l) = Nat.min (b - a) (length l - a).
Proof. unfold slice. rewrite firstn_length, skipn_length. auto. Qed.
Lemma const_rows (r : list R) n m g : length r = m -> (forall c, c < m -> nth_error r c = g c) -> constant_rows (Some (repeat r n)) n m g.
Proof. intros Hl Hg. exists (repeat r n). split; [reflexivity|]. split; [apply repeat_length|]. intros j r' E. apply nth_error_repeat_inv in E. subst r'. auto. Qed.
Lemma nth_error_map'' {A B} (f : A -> B) l i : nth_error (map f l) i = option_map f (nth_error l i).
Proof. revert i. induction l; intros [|i]; cbn; auto. Qed.

(** Types are 1, 2 or 3. *)
Definition typed (vs : list uvar) : Prop := forall v, In v vs -> v_type v = 1 \/ v_type v = 2 \/ v_type v = 3.
Lemma ur_row_nth vs c : typed vs -> nth_error (ur_row vs) c = option_map random_part (nth_error vs c).
Proof.
  intros Ht. unfold ur_row. rewrite nth_error_map''. destruct (nth_error vs c) as [v|] eqn:E; cbn; [|reflexivity]. f_equal. unfold random_part.
  destruct (Ht v (nth_error_In _ _ E)) as [E1|[E1|E1]]; rewrite E1; reflexivity.
Qed.

Definition kr_is (k : R) (q : kr) : Prop := match q with KrF x => x = k | KrA l => forall x, In x l -> x = k end.
Lemma full_kr_is k q n l : kr_is k q -> full_kr n q = Ok l -> length l = n /\ forall x, In x l -> x = k.
Proof.
  destruct q as [x|l0]; cbn.
  - intros -> [= <-]. split; [apply repeat_length|]. intros y Hy. eapply repeat_spec; eauto.
  - intros Hl. destruct (Nat.eqb_spec (length l0) n) as [E|E]; [intros [= <-]; auto|]. destruct l0 as [|a [|b l0]]; try discriminate. intros [= <-].
    split; [apply repeat_length|]. intros y Hy. apply repeat_spec in Hy. subst. apply Hl. left. reflexivity.
Qed.

Section Conv.
Variables (H : list (list R)) (width : nat) (uref k : R) (vs : list uvar).
Hypothesis rect : forall r, In r H -> length r = width.
Hypothesis types_ok : typed vs.

Lemma write_pair_inv st names nz st' : kr_is k (k_kr st) -> write_pair H width uref vs st (names, nz) = Ok st' ->
  exists a b rest f n, names = a :: b :: rest /\ nz = Z.of_nat n /\ n <> 0 /\ k_end st + n <= length H /\ vs <> [] /\ kr_is k (k_kr st') /\ k_end st' = k_end st + n /\
    k_time st' = Some (seq (k_end st) n) /\ k_dir st' = put_file (file_name names) f (k_dir st) /\ holds_rows H uref k vs (k_end st) n a b f /\ umat R (uf_u R (p_file f)) = None /\
    (exists krl, k_kr st' = KrA krl /\ length krl = n).
Proof.
  intros Hk. unfold write_pair. destruct names as [|a [|b rest]]; cbn [get nth_error bind]; [discriminate|discriminate|].
  destruct (Z.ltb_spec nz 0) as [|Hz]; [discriminate|]. remember (Z.to_nat nz) as n eqn:En. set (i0 := k_end st).
  set (rows := slice i0 (i0 + n) H).
  set (q := if is_ref a then _ else _). destruct q as [[[[m1 X1] Ur1] Us1] ut1'] eqn:Eq. unfold q in Eq. clear q.
  destruct (full_kr n (k_kr st)) as [krl|] eqn:Ekr; cbn [bind]; [|discriminate]. destruct (full_kr_is k _ n krl Hk Ekr) as (L1 & L2).
  destruct ((length rows =? 0) || (m1 =? 0) || (Nat.min (2 * length vs) width - length vs =? 0)) eqn:C1; [discriminate|].
  apply orb_false_iff in C1. destruct C1 as (C1 & C3). apply orb_false_iff in C1. destruct C1 as (C1 & C2). apply Nat.eqb_neq in C1, C2, C3.
  match goal with |- (if negb ?b then _ else _) = _ -> _ => destruct b eqn:C4 end; cbn [negb]; [|discriminate].
  apply andb_true_iff in C4. destruct C4 as (C4 & C6). apply andb_true_iff in C4. destruct C4 as (C4 & C5). apply Nat.eqb_eq in C4, C5.
  intros [= <-]. cbn [k_end k_kr k_dir k_time].
  assert (Hrows : length rows = n) by auto. assert (HH : i0 + n <= length H) by (unfold rows in Hrows; rewrite slice_len in Hrows; lia).
  exists a, b, rest. eexists. exists n. split; [reflexivity|]. split; [lia|]. split; [lia|]. split; [exact HH|].
  assert (Hvs : vs <> []) by (intros E; rewrite E in C3; cbn in C3; lia).
  split; [exact Hvs|]. split; [exact L2|]. split; [reflexivity|]. split; [reflexivity|]. split; [reflexivity|].
  split; [|split; [reflexivity|exists krl; auto]].
  assert (Hrow : forall j, j < n -> exists row, nth_error H (i0 + j) = Some row /\ nth_error rows j = Some row /\ length row = width).
  { intros j Hj. destruct (nth_error H (i0 + j)) as [row|] eqn:E; [|apply nth_error_None in E; lia]. exists row. split; [reflexivity|].
    split; [unfold rows; rewrite nth_slice by lia; exact E|]. apply rect. eapply nth_error_In; eauto. }
  unfold holds_rows. cbn [p_file uf_d uf_u d_M d_s1 d_s2 d_m1 d_m2 d_X1 d_X2 d_K d_time1 d_time2 p_Kr p_Ks ut1 ut2 ur1 ur2 us1 us2].
  assert (Hm1 : (a = tx "0" -> m1 = 1 /\ X1 = map (fun r => [nth 0 r 0%R]) rows /\ Ur1 = repeat [uref] n /\ Us1 = repeat [0%R] n /\ ut1' = [1]) /\
                (a <> tx "0" -> m1 = length vs /\ X1 = map (firstn (length vs)) rows /\ Ur1 = repeat (ur_row vs) n /\ Us1 = repeat (us_row vs) n /\ ut1' = map v_type vs)).
  { destruct (is_ref a) eqn:Er; split; intros Ea.
    - injection Eq as <- <- <- <- <-. auto.
    - apply is_ref_spec in Er. contradiction.
    - apply is_ref_spec in Ea. congruence.
    - injection Eq as <- <- <- <- <-. cbn [orb] in C6. apply Nat.eqb_eq in C6. auto. }
  destruct Hm1 as (Href & Hnref).
  assert (LX1 : length X1 = n). { destruct (list_eq_dec ascii_dec a (tx "0")) as [E|E]; [destruct (Href E) as (_ & -> & _)|destruct (Hnref E) as (_ & -> & _)]; rewrite map_length; auto. }
  split; [reflexivity|]. split; [congruence|]. split; [reflexivity|]. split; [reflexivity|]. split; [exact C5|]. split; [intros E; apply Href, E|]. split; [intros E; apply Hnref, E|].
  split; [exact LX1|]. split; [rewrite map_length; auto|]. split; [rewrite map_length; auto|]. split; [rewrite map_length, seq_length; auto|]. split; [rewrite map_length, seq_length; auto|]. split; [exact L1|]. split; [apply repeat_length|].
  split; [|split; [|split; [|split; [reflexivity|split]]]].
  - intros j Hj. destruct (Hrow j Hj) as (row & E1 & E2 & E3). exists row.
    assert (HX1 : exists x1, nth_error X1 j = Some x1 /\ length x1 = m1 /\ forall c, c < m1 -> nth_error x1 c = nth_error row c).
    { destruct (list_eq_dec ascii_dec a (tx "0")) as [E|E]; [destruct (Href E) as (-> & -> & _)|destruct (Hnref E) as (-> & -> & _)]; rewrite nth_error_map'', E2; cbn [option_map].
      - eexists. split; [reflexivity|]. split; [reflexivity|]. intros [|c] Hc; [|lia]. cbn. destruct row; cbn; [|reflexivity]. cbn in E3. lia.
      - eexists. split; [reflexivity|]. assert (length vs <= length row) by lia. split; [rewrite firstn_length; lia|]. intros c Hc.
        change (firstn (length vs) row) with (slice 0 (length vs) row) at 1 || idtac. replace (firstn (length vs) row) with (slice 0 (length vs) row) by (unfold slice; rewrite Nat.sub_0_r; reflexivity).
        rewrite nth_slice by lia. reflexivity. }
    destruct HX1 as (x1 & F1 & F2 & F3). exists x1, (slice (length vs) (2 * length vs) row). split; [exact E1|]. do 3 (split; [auto|]).
    split; [rewrite nth_error_map'', E2; reflexivity|]. split; [rewrite slice_len; lia|]. split; [intros c Hc; rewrite nth_slice by lia; reflexivity|].
    split; [rewrite nth_error_map'', E2; cbn [option_map]; rewrite E3; symmetry; apply nth_error_nth'; lia|].
    assert (Et : nth_error (map INR (seq i0 n)) j = Some (INR (i0 + j))).
    { rewrite nth_error_map''. replace (nth_error (seq i0 n) j) with (Some (i0 + j)); [reflexivity|]. symmetry. rewrite (nth_error_nth' _ 0) by (rewrite seq_length; auto). rewrite seq_nth; auto. }
    split; [exact Et|]. split; [exact Et|]. split; [|apply nth_repeat'; auto].
    destruct (nth_error krl j) as [x|] eqn:Ex; [|apply nth_error_None in Ex; lia]. f_equal. apply L2. eapply nth_error_In; eauto.
  - intros E. destruct (Href E) as (_ & _ & -> & -> & ->). split; [reflexivity|]. split; (apply const_rows; [reflexivity|]; intros [|c] Hc; [reflexivity|lia]).
  - intros E. destruct (Hnref E) as (_ & _ & -> & -> & ->). split; [reflexivity|]. split; (apply const_rows; [unfold ur_row, us_row; rewrite map_length; reflexivity|]; intros c Hc).
    + apply ur_row_nth, types_ok.
    + apply nth_error_map''.
  - apply const_rows; [unfold ur_row; rewrite map_length; reflexivity|]. intros c Hc. apply ur_row_nth, types_ok.
  - apply const_rows; [unfold us_row; rewrite map_length; reflexivity|]. intros c Hc. apply nth_error_map''.
Qed.

Lemma write_all_inv l : forall st st', kr_is k (k_kr st) -> foldM (write_pair H width uref vs) l st = Ok st' ->
  (forall nm, ~ In nm (map (fun p => file_name (fst p)) l) -> find_file nm (k_dir st') = find_file nm (k_dir st)) /\
  k_end st' = k_end st + list_sum (map (fun p => Z.to_nat (snd p)) l) /\
  (l <> [] -> exists n, (0 < n)%nat /\ k_time st' = Some (seq (k_end st' - n) n) /\ n <= k_end st' /\ exists p, nth_error l (length l - 1) = Some p /\ snd p = Z.of_nat n) /\
  forall i names nz, nth_error l i = Some (names, nz) -> (forall j p, i < j -> nth_error l j = Some p -> file_name (fst p) <> file_name names) ->
    exists a b rest f, names = a :: b :: rest /\ (0 < nz)%Z /\ find_file (file_name names) (k_dir st') = Some f /\
      holds_rows H uref k vs (k_end st + list_sum (map (fun p => Z.to_nat (snd p)) (firstn i l))) (Z.to_nat nz) a b f /\ umat R (uf_u R (p_file f)) = None.
Proof.
  induction l as [|[names nz] l IH]; intros st st' Hk.
  - cbn [foldM]. intros [= <-]. split; [auto|]. split; [cbn; lia|]. split; [congruence|]. intros [|i]; discriminate.
  - cbn [foldM]. destruct (write_pair H width uref vs st (names, nz)) as [s|] eqn:E; cbn [bind]; [|discriminate]. intros HF.
    destruct (write_pair_inv st names nz s Hk E) as (a & b & rest & f & n & E1 & E2 & E3 & E4 & _ & E5 & E6 & E7 & E8 & E9 & E10 & _).
    destruct (IH s st' E5 HF) as (I1 & I2 & I3 & I4). split; [|split; [|split]].
    + intros nm Hn. cbn [map fst] in Hn. rewrite I1 by (intros Hi; apply Hn; right; auto). rewrite E8. apply find_put_other. intros Heq. apply Hn. left. auto.
    + rewrite I2, E6, E2. cbn [map snd list_sum fold_right]. unfold list_sum. cbn [fold_right]. rewrite Nat2Z.id. lia.
    + intros _. destruct l as [|p l].
      * cbn in HF. injection HF as <-. exists n. split; [lia|]. split; [rewrite E7, E6; do 2 f_equal; lia|]. split; [lia|]. exists (names, nz). split; [reflexivity|auto].
      * destruct (I3 ltac:(congruence)) as (m & M1 & M2 & M3 & p0 & M4 & M5). exists m. split; [auto|]. split; [auto|]. split; [auto|]. exists p0. split; [|auto].
        cbn [length]. rewrite Nat.sub_succ, Nat.sub_0_r. cbn [length] in M4. rewrite Nat.sub_succ, Nat.sub_0_r in M4. exact M4.
    + intros [|i] names' nz' En Hlater.
      * cbn in En. injection En as <- <-. exists a, b, rest, f. split; [auto|]. split; [lia|]. split; [|split; [|auto]].
        -- rewrite I1, E8; [apply find_put_same|]. intros Hi. apply in_map_iff in Hi. destruct Hi as (p & P1 & P2). apply In_nth_error in P2. destruct P2 as (j & P2).
           apply (Hlater (S j) p); [lia|exact P2|exact P1].
        -- cbn [firstn map list_sum fold_right]. unfold list_sum. cbn [fold_right]. rewrite Nat.add_0_r, E2, Nat2Z.id. exact E9.
      * cbn in En. destruct (I4 i names' nz' En) as (a' & b' & rest' & f' & F1 & F2 & F3 & F4 & F5).
        { intros j p Hj Hp. apply (Hlater (S j) p); [lia|exact Hp]. }
        exists a', b', rest', f'. split; [auto|]. split; [auto|]. split; [auto|]. split; [|auto]. cbn [firstn map snd]. unfold list_sum in *. cbn [fold_right].
        rewrite E6 in F4. rewrite E2, Nat2Z.id, Nat.add_assoc. exact F4.
Qed.
End Conv.

(** ** Appending the W matrices *)
Definition add_w (use1 use2 : list nat) (mv : matvars R) (f : pfile) : pfile :=
  let u := uf_u R (p_file f) in
  mkPfile (mkUfile R (uf_d R (p_file f)) (mkUncvars R (ut1 R u) (ut2 R u) (ur1 R u) (ur2 R u) (us1 R u) (us2 R u)
    (Some (mkMatvars R use1 use2 use1 use2 (w_nnz R mv) (w_row R mv) (w_col R mv) (w_val R mv) (u_row_count R mv) (u_val R mv))))) (p_Kr f) (p_Ks f).
Lemma append_inv vs mv d names d' : append_w vs mv d names = Ok d' ->
  exists a rest f, names = a :: rest /\ find_file (file_name names) d = Some f /\ umat R (uf_u R (p_file f)) = None /\
    d' = put_file (file_name names) (add_w (if is_ref a then [0] else uses vs) (uses vs) mv f) d.
Proof.
  unfold append_w. destruct names as [|a rest]; cbn [get nth_error bind]; [discriminate|]. destruct (find_file (file_name (a :: rest)) d) as [f|] eqn:E; [|discriminate].
  destruct (umat R (uf_u R (p_file f))) eqn:Eu; [discriminate|]. match goal with |- (if ?b then _ else _) = _ -> _ => destruct b end; [|discriminate]. intros [= <-].
  exists a, rest, f. auto.
Qed.
Lemma append_all_inv vs mv l : forall d d', foldM (append_w vs mv) l d = Ok d' ->
  NoDup (map file_name l) /\
  (forall nm f, find_file nm d = Some f -> umat R (uf_u R (p_file f)) <> None -> ~ In nm (map file_name l)) /\
  (forall nm, ~ In nm (map file_name l) -> find_file nm d' = find_file nm d) /\
  forall names, In names l -> exists a rest f, names = a :: rest /\ find_file (file_name names) d = Some f /\ umat R (uf_u R (p_file f)) = None /\
    find_file (file_name names) d' = Some (add_w (if is_ref a then [0] else uses vs) (uses vs) mv f).
Proof.
  induction l as [|names l IH]; intros d d'; cbn [foldM map].
  - intros [= <-]. split; [constructor|]. split; [auto|]. split; [auto|]. intros ? [].
  - destruct (append_w vs mv d names) as [d1|] eqn:E; cbn [bind]; [|discriminate]. intros HF. destruct (append_inv _ _ _ _ _ E) as (a & rest & f & E1 & E2 & E3 & E4).
    destruct (IH d1 d' HF) as (I1 & I2 & I3 & I4).
    assert (Hn : ~ In (file_name names) (map file_name l)). { apply (I2 _ (add_w (if is_ref a then [0] else uses vs) (uses vs) mv f)); [rewrite E4; apply find_put_same|discriminate]. }
    split; [constructor; auto|]. split; [|split].
    + intros nm g G1 G2 [<-|Hi]; [congruence|]. destruct (list_eq_dec ascii_dec nm (file_name names)) as [->|Hne]; [congruence|].
      apply (I2 nm g); auto. rewrite E4, find_put_other; auto.
    + intros nm Hi. rewrite I3 by (intros Hx; apply Hi; right; auto). rewrite E4. apply find_put_other. intros ->. apply Hi. left. reflexivity.
    + intros names' [<-|Hi].
      * exists a, rest, f. do 3 (split; [auto|]). rewrite I3 by auto. rewrite E4. apply find_put_same.
      * destruct (I4 names' Hi) as (a' & rest' & f' & F1 & F2 & F3 & F4). exists a', rest', f'. split; [auto|]. split; [|auto].
        rewrite E4, find_put_other in F2; auto. intros Heq. apply Hn. rewrite <- Heq. apply in_map, Hi.
Qed.
