(** * Conversion of AVHRR match-up files: the six files.  Proofs only. *)
From Coq Require Import Reals Lra Sorted.
From Verif Require Import Base BaseLemmas ReaderModel UncModel UncSpec UncProofs TransformModel TransformSpec GNModel GNTerms HRModel HRText WModel WSpec WProofs WProofs2 WProofs3 WProofs4 CheckProofs AvModel AvSpec AvProofs AvProofs2 AvProofs3.
Open Scope nat_scope.

Lemma ten (r : list fl) : length r = 10 -> exists a b c d e f g h i j, r = [a; b; c; d; e; f; g; h; i; j].
Proof. intros H. do 10 (destruct r as [|? r]; [discriminate|]). destruct r; [|discriminate]. repeat eexists. Qed.

Section Files.
Variables (f : avin) (idx : list nat).
Definition rows10 (l : list (list fl)) : Prop := forall i, In i idx -> length (nth i l []) = 10.
Lemma sized10 k (l : list (list fl)) : sized (n_matchups f) k l -> (forall i, In i idx -> i < n_matchups f) -> forall i, In i idx -> length (nth i l []) = k.
Proof. intros (L & H) Hi i Hin. apply H, nth_In. rewrite L. auto. Qed.

Ltac rows H := intros; unfold columns, block, at_, zero_rows, all_zero; rewrite !map_map; apply map_ext_in; intros i Hin;
  destruct (ten _ (H i Hin)) as (?a & ?b & ?c & ?d & ?e & ?f & ?g & ?h & ?i' & ?j & ->).
Lemma X1_cols l m : rows10 l -> m = 4 \/ m = 5 -> map (firstn m) (block 0 5 idx l) = block 0 m idx l.
Proof. intros H [->| ->]; rows H; reflexivity. Qed.
Lemma X1_ref l : rows10 l -> map (firstn 1) (block 0 1 idx l) = block 0 1 idx l.
Proof. intros H; rows H; reflexivity. Qed.
Lemma X2_cols l m : rows10 l -> m = 4 \/ m = 5 -> map (firstn m) (block 5 10 idx l) = block 5 (5 + m) idx l.
Proof. intros H [->| ->]; rows H; reflexivity. Qed.
Lemma U1_cols l m : rows10 l -> m = 4 \/ m = 5 -> map (firstn m) (columns 0 5 (map (zrow [0; 1; 5; 6]) (at_ [] idx l))) = map (cols_zero structured) (block 0 m idx l).
Proof. intros H [->| ->]; rows H; reflexivity. Qed.
Lemma U1_ref l : rows10 l -> map (firstn 1) (columns 0 1 (map (zrow [5; 6]) (at_ [] idx l))) = block 0 1 idx l.
Proof. intros H; rows H; reflexivity. Qed.
Lemma U2_cols l m (ref : bool) : rows10 l -> m = 4 \/ m = 5 -> map (firstn m) (columns 5 10 (map (zrow (if ref then [5; 6] else [0; 1; 5; 6])) (at_ [] idx l))) = map (cols_zero structured) (block 5 (5 + m) idx l).
Proof. intros H [->| ->]; destruct ref; rows H; reflexivity. Qed.
Lemma S1_cols l m : rows10 l -> m = 4 \/ m = 5 -> map (firstn m) (columns 0 5 (map (fun r => r) (at_ [] idx l))) = block 0 m idx l.
Proof. intros H [->| ->]; rows H; reflexivity. Qed.
Lemma S1_ref l : rows10 l -> map (firstn 1) (columns 0 1 (map (zrow [0]) (at_ [] idx l))) = zero_rows 1 idx.
Proof. intros H; rows H; reflexivity. Qed.
Lemma S2_cols l m (ref : bool) : rows10 l -> m = 4 \/ m = 5 -> map (firstn m) (columns 5 10 (map (fun r => if ref then zrow [0] r else r) (at_ [] idx l))) = block 5 (5 + m) idx l.
Proof. intros H [->| ->]; destruct ref; rows H; reflexivity. Qed.
Lemma Z_cols m (rows : list (list fl)) k : length rows = length idx -> (forall r, In r rows -> length r = k) -> m <= k -> map (firstn m) (all_zero rows) = zero_rows m idx.
Proof.
  intros L H Hk. unfold all_zero, zero_rows. rewrite map_map.
  transitivity (map (fun _ : list fl => repeat (Some 0%R : fl) m) rows).
  - apply map_ext_in. intros r Hr. specialize (H r Hr). revert m Hk r H Hr. clear. induction k as [|k IH]; intros m Hk [|x r] H Hr; try discriminate.
    + replace m with 0 by lia. reflexivity.
    + destruct m as [|m]; [reflexivity|]. cbn [map firstn repeat]. f_equal. assert (HH : forall q : list fl, length q = k -> firstn m (map (fun _ => Some 0%R : fl) q) = repeat (Some 0%R : fl) m).
      { intros q. revert m Hk. clear. induction q as [|y q IHq] in k |- *; intros m Hk Hq; [cbn in Hq; subst k; replace m with 0 by lia; reflexivity|]. destruct m as [|m]; [reflexivity|]. cbn [map firstn repeat]. f_equal. apply (IHq (k - 1)); cbn in Hq; lia. }
      apply HH. cbn in H. lia.
  - revert L. clear. revert idx. induction rows as [|r rows IH]; intros [|i idx] L; try discriminate; [reflexivity|]. cbn [map]. f_equal. apply IH. cbn in L. lia.
Qed.
End Files.

(** ** Writing *)
Definition outf (p : prepared) (dir : string) (m1 m2 : nat) (n1 n2 : string) (ur1 ur2 us1 us2 : list (list fl)) (ut1 ut2 : list nat) (W : option (matvars R)) : avout :=
  mkAvout dir (map (firstn m1) (p_X1 p)) (map (firstn m2) (p_X2 p)) (map (firstn m1) ur1) (map (firstn m2) ur2) (map (firstn m1) us1) (map (firstn m2) us2)
    (firstn m1 ut1) (firstn m2 ut2) (p_K p) (p_Kr p) (p_Ks p) (p_t1 p) (p_t2 p) n1 n2
    (p_adds p ++ (if m1 =? 4 then [("To1"%string, map (fun r => nth 4 r None) (p_X1 p))] else []) ++ (if m2 =? 4 then [("To2"%string, map (fun r => nth 4 r None) (p_X2 p))] else []))
    (match W with
     | None => None
     | Some mv => Some (mkMatvars R (firstn m1 (wuse1 R mv)) (firstn m2 (wuse2 R mv)) (firstn m1 (uuse1 R mv)) (firstn m2 (uuse2 R mv))
                          (w_nnz R mv) (w_row R mv) (w_col R mv) (w_val R mv) (u_row_count R mv) (u_val R mv))
     end).
Lemma last_col_ok rows : (forall r, In r rows -> length r = 5) -> last_col rows = Ok (map (fun r => nth 4 r None) rows).
Proof.
  intros H. apply mapM_Ok_map. intros r Hr. specialize (H r Hr). do 5 (destruct r as [|? r]; [discriminate|]). destruct r; [|discriminate]. reflexivity.
Qed.
Lemma write_ok p dir m1 m2 n1 n2 ur1 ur2 us1 us2 ut1 ut2 W : p_s1 p = Some n1 -> p_s2 p = Some n2 -> (m1 = 4 -> forall r, In r (p_X1 p) -> length r = 5) -> (forall r, In r (p_X2 p) -> length r = 5) ->
  write_file dir m1 m2 (p_X1 p) (p_X2 p) ur1 ur2 us1 us2 ut1 ut2 (p_K p) (p_Kr p) (p_Ks p) (p_t1 p) (p_t2 p) (p_s1 p) (p_s2 p) (p_adds p) W = Ok (outf p dir m1 m2 n1 n2 ur1 ur2 us1 us2 ut1 ut2 W).
Proof.
  intros -> -> H1 H2. unfold write_file, outf. destruct (Nat.eqb_spec m1 4) as [E1|_], (m2 =? 4); rewrite ?(last_col_ok (p_X1 p)) by auto; cbn [bind]; rewrite ?(last_col_ok (p_X2 p)) by auto; reflexivity.
Qed.

(** ** Structured columns without W *)
Lemma set_col_ok i v rows k : length v = length rows -> (forall r, In r rows -> length r = k) -> i < k ->
  exists rows', set_col i v rows = Ok rows' /\ length rows' = length rows /\ (forall r, In r rows' -> length r = k) /\
    forall n r x, nth_error rows n = Some r -> nth_error v n = Some x -> exists r', nth_error rows' n = Some r' /\ nth_error r' i = Some (Some x) /\ forall c, c <> i -> nth_error r' c = nth_error r c.
Proof.
  intros L H Hi. unfold set_col. rewrite L, Nat.eqb_refl. revert v L. induction rows as [|r rows IH]; intros [|x v] L; try discriminate.
  - exists []. cbn. repeat split; auto. intros [|n] r x Hr; discriminate.
  - destruct (IH (fun r Hr => H r (or_intror Hr)) v ltac:(cbn in L; lia)) as (rows' & E & L' & H' & HN). cbn [combine mapM fst snd].
    assert (Hr : length r = k) by (apply H; left; auto).
    assert (HS : exists r', setitem i (Some x) r = Ok r' /\ length r' = k /\ nth_error r' i = Some (Some x) /\ forall c, c <> i -> nth_error r' c = nth_error r c).
    { unfold setitem. match goal with |- context [Nat.ltb i ?x] => replace (Nat.ltb i x) with true by (symmetry; apply Nat.ltb_lt; change x with (@length fl r); lia) end. exists (upd i (Some x) r). split; [reflexivity|]. split; [rewrite BaseLemmas.upd_length; auto|]. split; [apply BaseLemmas.upd_nth_same; change (i < @length fl r); lia|]. intros c Hc. apply BaseLemmas.upd_nth_other. auto. }
    destruct HS as (r' & Es & Lr' & N1 & N2). rewrite Es. cbn [bind]. rewrite E. cbn [bind]. eexists. split; [reflexivity|]. split; [cbn; auto|]. split; [intros q [<-|Hq]; auto|].
    intros [|n] q y Hq Hy; cbn in Hq, Hy.
    + injection Hq as <-. injection Hy as <-. exists r'. auto.
    + cbn [nth_error]. eauto.
Qed.
Lemma set_two k (rows : list (list fl)) v0 v1 : length v0 = length rows -> length v1 = length rows -> (forall r, In r rows -> length r = k) -> 2 <= k ->
  exists rows', (do a <- set_col 0 v0 rows;; set_col 1 v1 a) = Ok rows' /\ length rows' = length rows /\ (forall r, In r rows' -> length r = k) /\
    forall n r x y, nth_error rows n = Some r -> nth_error v0 n = Some x -> nth_error v1 n = Some y ->
      exists r', nth_error rows' n = Some r' /\ nth_error r' 0 = Some (Some x) /\ nth_error r' 1 = Some (Some y) /\ forall c, structured c = false -> nth_error r' c = nth_error r c.
Proof.
  intros L0 L1 H Hk. destruct (set_col_ok 0 v0 rows k L0 H) as (ra & Ea & La & Ha & Na); [lia|]. destruct (set_col_ok 1 v1 ra k) as (rb & Eb & Lb & Hb & Nb); [congruence|auto|lia|].
  exists rb. rewrite Ea. cbn [bind]. split; [exact Eb|]. split; [congruence|]. split; [auto|]. intros n r x y Hr Hx Hy. destruct (Na n r x Hr Hx) as (r1 & E1 & F1 & G1). destruct (Nb n r1 y E1 Hy) as (r2 & E2 & F2 & G2).
  exists r2. split; [auto|]. split; [rewrite G2 by lia; auto|]. split; [auto|]. intros c Hc. unfold structured in Hc. apply Nat.ltb_ge in Hc. rewrite G2, G1 by lia. reflexivity.
Qed.
(** Use tables [w; w; ...], [a; b; ...] for types [3; 3; 1; 1; 1]. *)
Lemma combine_ok ws us w a b W u v rows N k : nth_error ws (w - 1) = Some W -> nth_error us (a - 1) = Some u -> nth_error us (b - 1) = Some v -> w <> 0 -> a <> 0 -> b <> 0 ->
  csr_shape W N (c_ncols R W) -> length u = c_ncols R W -> length v = c_ncols R W -> length rows = N -> (forall r, In r rows -> length r = k) -> 2 <= k ->
  exists rows', combine_structured [3; 3; 1; 1; 1] [w; w; 0; 0; 0] [a; b; 0; 0; 0] ws us rows = Ok rows' /\ length rows' = N /\ (forall r, In r rows' -> length r = k) /\
    forall n r, nth_error rows n = Some r -> exists r', nth_error rows' n = Some r' /\ nth_error r' 0 = Some (Some (rsum (contributions W u n))) /\ nth_error r' 1 = Some (Some (rsum (contributions W v n))) /\
      forall c, structured c = false -> nth_error r' c = nth_error r c.
Proof.
  intros HW Hu Hv Nw Na Nb Sh Lu Lv Lr Hr Hk. unfold combine_structured, enumerate. cbn [combine length seq foldM fst snd Nat.eqb get nth_error bind].
  assert (P : forall {A} (l : list A) q x, q <> 0 -> nth_error l (q - 1) = Some x -> pyget l (Z.of_nat q - 1) = Ok x).
  { intros A l q x Hq Hx. replace (Z.of_nat q - 1)%Z with (Z.of_nat (q - 1)) by lia. rewrite pyget_of_nat. unfold get. rewrite Hx. reflexivity. }
  rewrite (P _ ws w W Nw HW), (P _ us a u Na Hu), (P _ us b v Nb Hv). cbn [bind]. rewrite (wmul_ok W u N _ Sh Lu), (wmul_ok W v N _ Sh Lv). cbn [bind].
  destruct (set_two k rows (wmul W N u) (wmul W N v)) as (rows' & E & L' & H' & HN); [rewrite wmul_len; auto|rewrite wmul_len; auto|auto|auto|].
  exists rows'. split; [|split; [congruence|split; [auto|]]].
  - destruct (set_col 0 (wmul W N u) rows) as [ra|] eqn:Ea; cbn [bind] in E |- *; [|discriminate]. rewrite E. reflexivity.
  - intros n r Hn. assert (Hlt : n < N) by (rewrite <- Lr; apply nth_error_Some; congruence).
    assert (Q : forall z, nth_error (wmul W N z) n = Some (rsum (contributions W z n))).
    { intros z. unfold wmul. rewrite nth_error_map', (nth_error_nth' _ 0) by (rewrite seq_length; auto). rewrite seq_nth by auto. cbn [option_map Nat.add]. f_equal. rewrite (row_apply_entries W _ N (c_ncols R W) n Sh Hlt). reflexivity. }
    destruct (HN n r _ _ Hn (Q u) (Q v)) as (r' & K). exists r'. exact K.
Qed.
