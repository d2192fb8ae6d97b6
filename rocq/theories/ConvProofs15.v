(** * Proofs for C144-C147: which files of AVHRR_to_updated_spec.py the checker accepts (main results). *)
From Coq Require Import Reals Lra.
From Verif Require Import Base BaseLemmas ReaderModel ReaderSpec ReaderMain UncModel UncSpec UncProofs SimModel GNModel WModel WSpec WProofs WProofs2 WProofs3 WProofs4 AvModel AvSpec AvProofs AvProofs2 AvProofs3 AvProofs4 AvProofs5 AvProofs6 AvProofs7
  CheckModel CheckSpec CheckProofs CheckProofs2 CheckProofs3 CheckProofs4 CheckProofs5 IOModel IOSpec IOProofs IOProofs2 ConvModel ConvSpec ConvSpec2 ConvProofs ConvProofs2 ConvProofs3 ConvProofs4 ConvProofs5 ConvProofs6 ConvProofs11 ConvProofs12 ConvProofs13 ConvProofs14.
Open Scope nat_scope.

Lemma zeroed r c : structured c = true -> c < length r -> nth_error (cols_zero structured r) c = Some (Some 0%R).
Proof.
  intros Hs Hc. unfold cols_zero. pose proof (enumerate_nth r c) as Q. destruct (nth_error r c) as [x|] eqn:E; [|apply nth_error_None in E; lia]. cbn [option_map] in Q.
  apply (map_nth_error (fun p => if structured (fst p) then Some 0%R else snd p)) in Q. cbn [fst] in Q. rewrite Hs in Q. exact Q.
Qed.
Lemma czero_col (g : R -> R) nanV rows c col : g 0%R = 0%R -> structured c = true ->
  CheckSpec.is_column (map (map g) (map (map (val nanV)) (map (cols_zero structured) rows))) c col -> Forall (eq 0%R) col.
Proof.
  intros G0 Hs (L & H). apply Forall_forall. intros x Hx. apply In_nth_error in Hx. destruct Hx as (i & Hi).
  destruct (nth_error rows i) as [r|] eqn:Er.
  - pose proof (map_nth_error (map g) _ _ (map_nth_error (map (val nanV)) _ _ (map_nth_error (cols_zero structured) _ _ Er))) as Q. specialize (H i _ Q). rewrite Hi in H. symmetry in H.
    destruct (Nat.lt_ge_cases c (length r)) as [Hc|Hc].
    + pose proof (map_nth_error g _ _ (map_nth_error (val nanV) _ _ (zeroed r c Hs Hc))) as Q'. rewrite H in Q'. cbn [val] in Q'. rewrite G0 in Q'. injection Q' as ->. reflexivity.
    + exfalso. assert (c < length (map g (map (val nanV) (cols_zero structured r)))) by (apply nth_error_Some; congruence). assert (EL : length (map g (map (val nanV) (cols_zero structured r))) = length r) by (etransitivity; [apply map_length|]; etransitivity; [apply map_length|]; unfold cols_zero; etransitivity; [apply map_length|apply enumerate_length]). lia.
  - exfalso. apply nth_error_None in Er. assert (i < length col) by (apply nth_error_Some; congruence). rewrite L, !map_length in H0. lia.
Qed.

Lemma use_types (ref : bool) (m2 : nat) (sd : side) (ut1 ut2 : list nat) (t : Z) (w c : nat) : m2 = 4 \/ m2 = 5 -> (ut1 = (if ref then [1] else firstn m2 [3; 3; 1; 2; 2]) /\ ut2 = firstn m2 [3; 3; 1; 2; 2] \/ ut1 = (if ref then [1] else firstn m2 [3; 3; 1; 1; 1]) /\ ut2 = firstn m2 [3; 3; 1; 1; 1]) ->
  nth_error (map Z.of_nat match sd with Side1 => ut1 | Side2 => ut2 end) c = Some t -> nth_error match sd with Side1 => firstn (m1_of ref m2) (use1 ref) | Side2 => firstn m2 (use2 ref) end c = Some w ->
  (t = 1%Z \/ t = 2%Z \/ t = 3%Z) /\ (w <> 0 <-> t = 3%Z) /\ (t = 3%Z -> structured c = true /\ (sd = Side1 -> ref = false)).
Proof.
  intros Hm Hu Ht Hw. unfold structured, m1_of in *.
  destruct Hm as [-> | ->]; destruct Hu as [(-> & ->)|(-> & ->)]; destruct ref, sd; cbn [use1 use2 firstn map Z.of_nat Pos.of_succ_nat Pos.succ] in Ht, Hw;
    do 6 (destruct c as [|c]; [cbn [nth_error] in Ht, Hw; first [discriminate Ht|injection Ht as <-; injection Hw as <-; cbn; repeat split; intros; first [lia|reflexivity|discriminate|congruence]]|]); destruct c; discriminate.
Qed.

Section AV.
Context (torad : option string -> list fl -> res (list fl)) (f32 : R -> R) (trunc : R -> Z) (nanV : R).
Context (f : avin) (k1 k2 : nat) (band : Z) (bt : list fl) (ref_bt : option (list fl)) (ref : bool) (idx : list nat) (files : list avout).
Hypothesis G : good_input torad f k1 k2 band bt ref_bt.
Hypothesis HR : sensor1_is f ref.
Hypothesis HK : kept f idx.
Hypothesis E : av_main torad f None = Ok files.
Let HI : forall i, In i idx -> i < n_matchups f.
Proof. intros i Hi. apply HK in Hi. apply Hi. Qed.
Let LI : length idx <> 0.
Proof. destruct (gi_some _ _ _ _ _ _ _ G) as (i0 & Hi0 & Hu0). assert (In i0 idx) by (apply (proj2 HK); auto). destruct idx; [destruct H|discriminate]. Qed.
Let m2_of (j : nat) := if Nat.even j then 4 else 5.
Let Hm2 j : m2_of j = 4 \/ m2_of j = 5. Proof. unfold m2_of. destruct (Nat.even j); auto. Qed.

(** The parts of file number [j]. *)
Lemma av_parts j o : nth_error files j = Some o -> let m2 := m2_of j in
  holds f idx (m1_of ref m2) m2 o /\ ((j < 2 /\ full_file f ref idx (m1_of ref m2) m2 o) \/ (2 <= j < 4 /\ structured_file f ref idx (m1_of ref m2) m2 o) \/ (4 <= j /\ random_file f ref idx (m1_of ref m2) m2 o)) /\
  adds_fit o /\ o_adds o <> [] /\ (j < 4 -> exists p W1 u1 v1 W2 u2 v2, ready f k1 k2 band bt ref_bt ref idx p /\ wmats f ref idx p W1 u1 v1 W2 u2 v2 /\ o_W o = Some (cut (m1_of ref m2) m2 (p_W p))).
Proof.
  intros Hj m2. pose proof (av_adds torad f None files o E (nth_error_In _ _ Hj)) as AF.
  destruct (conversion_all torad f k1 k2 band bt ref_bt ref idx files G HR HK E) as (p & n1 & n2 & c1 & c2 & W1 & u1 & v1 & W2 & u2 & v2 & RD & S1 & S2 & WM & C2 & C1 & Q1 & Q2 & EF).
  destruct (p_dirs p) as (d3, d4). cbv zeta in EF.
  assert (X : holds f idx (m1_of ref m2) m2 o /\ ((j < 2 /\ full_file f ref idx (m1_of ref m2) m2 o) \/ (2 <= j < 4 /\ structured_file f ref idx (m1_of ref m2) m2 o) \/ (4 <= j /\ random_file f ref idx (m1_of ref m2) m2 o)) /\ (j < 4 -> o_W o = Some (cut (m1_of ref m2) m2 (p_W p)))).
  { rewrite EF in Hj. unfold m2, m2_of.
    do 2 (destruct j as [|j]; [cbn [nth_error] in Hj; injection Hj as <-; cbn [Nat.even]; split; [apply (holds_ok torad G HK RD); auto|]; split; [left; split; [lia|apply (full_ok torad G HK RD); auto]|reflexivity]|]).
    do 2 (destruct j as [|j]; [cbn [nth_error] in Hj; injection Hj as <-; cbn [Nat.even]; split; [apply (holds_ok torad G HK RD); auto|]; split; [right; left; split; [lia|apply (structured_ok torad G HK RD); auto]|reflexivity]|]).
    do 2 (destruct j as [|j]; [cbn [nth_error] in Hj; injection Hj as <-; cbn [Nat.even]; split; [apply (holds_ok torad G HK RD); auto|]; split; [right; right; split; [lia|eapply (random_ok torad G HK RD); eauto]|lia]|]).
    destruct j; discriminate. }
  destruct X as (X1 & X2 & X3). split; [exact X1|]. split; [exact X2|]. split; [exact AF|].
  split; [intros EA; pose proof (h_idx _ _ _ _ _ X1) as L; rewrite EA in L; discriminate|].
  intros H4. exists p, W1, u1, v1, W2, u2, v2. auto.
Qed.

Theorem av_accepted j o : f32 0%R = 0%R -> j < 4 -> nth_error files j = Some o ->
  exists g mv, o_W o = Some mv /\ av_nc f32 trunc nanV o = Ok g /\ has_file g (mapped f32 (av_data nanV o)) (smv f32 mv) /\ row_pointers g /\
    (check g = Ok [] <-> declared_values (mapped f32 (av_data nanV o)) /\ forall x, In x (u_val R mv) -> (0 < f32 x)%R).
Proof.
  intros F0 Hj4 Hj. destruct (av_parts j o Hj) as (HH & HC & AF & NA & HW). destruct (HW Hj4) as (p & W1 & u1 & v1 & W2 & u2 & v2 & RD & WM & EW).
  pose proof (gi_file _ _ _ _ _ _ _ G) as F. pose proof (Hm2 j) as Hm. set (m2 := m2_of j) in *.
  assert (SH : out_shape o (length idx) (m1_of ref m2) m2).
  { destruct HC as [(_ & HC)|[(_ & HC)|(H4 & _)]]; [eapply full_shape; eauto|eapply structured_shape; eauto|lia]. }
  destruct (av_packed torad f k1 k2 band bt ref_bt ref idx p W1 u1 v1 W2 u2 v2 m2 G HK RD WM Hm) as (ws & us & _ & PK & U1 & U2 & LV). set (mv := cut (m1_of ref m2) m2 (p_W p)) in *.
  assert (PM1 : p_m (av_data nanV o) Side1 = m1_of ref m2) by (cbn [av_data p_m]; apply SH). assert (PM2 : p_m (av_data nanV o) Side2 = m2) by (cbn [av_data p_m]; apply SH).
  assert (PK' : packed mv ws us (length idx) (p_m (av_data nanV o) Side1) (p_m (av_data nanV o) Side2)) by (rewrite PM1, PM2; exact PK).
  destruct (av_write_w f32 trunc nanV o _ _ _ SH LI AF NA mv EW (packed_sized _ _ _ _ _ PK' LV)) as (g & EG & HF).
  exists g, mv. split; [exact EW|]. split; [exact EG|]. split; [exact HF|].
  pose proof (packed_stored f32 _ _ _ _ _ _ PK') as HP. split; [exact (packed_rows _ _ _ _ _ _ _ _ HF HP)|].
  assert (HP' : packed (smv f32 mv) (map (csr_map f32) ws) (map (map f32) us) (length idx) (p_m (mapped f32 (av_data nanV o)) Side1) (p_m (mapped f32 (av_data nanV o)) Side2)) by exact HP.
  rewrite (has_accepted g _ (smv f32 mv) _ _ _ HF HP').
  assert (PM : p_M (mapped f32 (av_data nanV o)) = length idx) by (cbn [mapped av_data p_M]; apply SH).
  pose proof (mapped_shaped f32 _ (av_well_shaped nanV o _ _ _ SH AF)) as WS.
  assert (TY : o_ut1 o = (if ref then [1] else firstn m2 [3; 3; 1; 2; 2]) /\ o_ut2 o = firstn m2 [3; 3; 1; 2; 2] \/ o_ut1 o = (if ref then [1] else firstn m2 [3; 3; 1; 1; 1]) /\ o_ut2 o = firstn m2 [3; 3; 1; 1; 1]).
  { destruct HC as [(_ & HC)|[(_ & HC)|(H4 & _)]]; [left|right|lia]; destruct HC; split; auto; destruct ref; auto. }
  assert (UR : (ref = false -> exists rows, o_Ur1 o = map (cols_zero structured) rows) /\ exists rows, o_Ur2 o = map (cols_zero structured) rows).
  { destruct HC as [(_ & HC)|[(_ & HC)|(H4 & _)]]; [| |lia]; destruct HC as [a b _ _ _ _ _]; rewrite a, b; unfold ur1, ur2; (split; [intros ->|]; eexists; reflexivity). }
  assert (WU : forall sd, wuse (smv f32 mv) sd = match sd with Side1 => firstn (m1_of ref m2) (use1 ref) | Side2 => firstn m2 (use2 ref) end) by (intros [|]; cbn [wuse smv wuse1 wuse2]; auto).
  assert (SU : simple_use (mapped f32 (av_data nanV o)) (wuse (smv f32 mv))).
  { intros sd c t w Ht Hw. rewrite WU in Hw. assert (Ht' : nth_error (map Z.of_nat match sd with Side1 => o_ut1 o | Side2 => o_ut2 o end) c = Some t) by exact Ht.
    destruct (use_types ref m2 sd _ _ t w c Hm TY Ht' Hw) as (A & B & C). split; [exact A|]. split; [exact B|]. intros E3 ur HC'. destruct (C E3) as (SC & SR). cbn [mapped p_Ur av_data] in HC'.
    destruct sd; [destruct (proj1 UR (SR eq_refl)) as (rows & ER)|destruct (proj2 UR) as (rows & ER)]; rewrite ER in HC'; eapply czero_col; eauto. }
  assert (NZ : p_M (mapped f32 (av_data nanV o)) <> 0) by (rewrite PM; exact LI).
  assert (LL : forall sd, matrix (p_Ur (mapped f32 (av_data nanV o)) sd) (p_M (mapped f32 (av_data nanV o))) (p_m (mapped f32 (av_data nanV o)) sd) /\ matrix (p_Us (mapped f32 (av_data nanV o)) sd) (p_M (mapped f32 (av_data nanV o))) (p_m (mapped f32 (av_data nanV o)) sd) /\
     length (p_type (mapped f32 (av_data nanV o)) sd) = p_m (mapped f32 (av_data nanV o)) sd /\ length (wuse (smv f32 mv) sd) = p_m (mapped f32 (av_data nanV o)) sd).
  { intros sd. destruct WS as (WS & _). destruct (WS sd) as (_ & A & B & C & _). split; [exact A|]. split; [exact B|]. split; [exact C|]. pose proof (pk_len _ _ _ _ _ _ HP') as (L1 & L2 & _). destruct sd; [exact L1|exact L2]. }
  pose proof (declared_iff _ _ NZ LL SU) as DI. rewrite PM. cbn [smv u_val].
  assert (UV : (forall x, In x (map f32 (u_val R mv)) -> (0 < x)%R) <-> forall x, In x (u_val R mv) -> (0 < f32 x)%R).
  { split; [intros H x Hx; apply H, in_map, Hx|]. intros H x Hx. apply in_map_iff in Hx. destruct Hx as (y & <- & Hy). auto. }
  cbn [smv u_val] in UV |- *. rewrite UV. tauto.
Qed.

Theorem av_plain_accepted j o : 4 <= j -> nth_error files j = Some o ->
  exists g, o_W o = None /\ av_nc f32 trunc nanV o = Ok g /\ base_file g (mapped f32 (av_data nanV o)) /\ (check g = Ok [] <-> declared_values (mapped f32 (av_data nanV o))).
Proof.
  intros Hj4 Hj. destruct (av_parts j o Hj) as (HH & HC & AF & NA & _). pose proof (gi_file _ _ _ _ _ _ _ G) as F. pose proof (Hm2 j) as Hm. set (m2 := m2_of j) in *.
  assert (RF : random_file f ref idx (m1_of ref m2) m2 o) by (destruct HC as [(? & _)|[(? & _)|(_ & HC)]]; [lia|lia|exact HC]).
  assert (SH : out_shape o (length idx) (m1_of ref m2) m2) by (eapply random_shape; eauto). pose proof (rf_W _ _ _ _ _ _ RF) as EW.
  destruct (av_write_plain f32 trunc nanV o _ _ _ SH LI AF NA EW) as (g & EG & HB). exists g. split; [exact EW|]. split; [exact EG|]. split; [exact HB|].
  rewrite (base_accepted g _ HB). pose proof (mapped_shaped f32 _ (av_well_shaped nanV o _ _ _ SH AF)) as WS.
  assert (PM : p_M (mapped f32 (av_data nanV o)) = length idx) by (cbn [mapped av_data p_M]; apply SH).
  apply declared_iff; [rewrite PM; exact LI| |].
  - intros sd. destruct WS as (WS & _). destruct (WS sd) as (_ & A & B & C & _). split; [exact A|]. split; [exact B|]. split; [exact C|]. apply repeat_length.
  - intros sd c t w Ht Hw. assert (w = 0) by (apply nth_error_In, repeat_spec in Hw; exact Hw). subst w.
    assert (t = 1%Z). { cbn [mapped av_data p_type] in Ht. rewrite (rf_ut1 _ _ _ _ _ _ RF), (rf_ut2 _ _ _ _ _ _ RF) in Ht. destruct sd; rewrite nth_error_map in Ht; destruct (nth_error (repeat 1 _) c) as [x|] eqn:Ex; try discriminate; apply nth_error_In, repeat_spec in Ex; subst x; cbn in Ht; congruence. }
    subst t. split; [auto|]. split; [|discriminate]. split; [congruence|discriminate].
Qed.
End AV.
