(** * Conversion of AVHRR match-up files: contents of the six files.  Proofs only. *)
From Coq Require Import Reals Lra Sorted.
From Verif Require Import Base BaseLemmas ReaderModel UncModel UncSpec UncProofs TransformModel TransformSpec GNModel GNTerms HRModel HRText WModel WSpec WProofs WProofs2 WProofs3 WProofs4 CheckProofs AvModel AvSpec AvProofs AvProofs2 AvProofs3 AvProofs4.
Open Scope nat_scope.

(** Row [n] of the combined uncertainties. *)
Definition combined (W : csr R) (u v : list R) (rows rows' : list (list fl)) : Prop :=
  length rows' = length rows /\ (forall r, In r rows' -> length r = 5) /\
  forall n r, nth_error rows n = Some r -> exists r', nth_error rows' n = Some r' /\ nth_error r' 0 = Some (Some (rsum (contributions W u n))) /\ nth_error r' 1 = Some (Some (rsum (contributions W v n))) /\
      forall c, structured c = false -> nth_error r' c = nth_error r c.
(** W matrices and scan-line uncertainties of the two sensors. *)
Definition wmats (f : avin) (ref : bool) (idx : list nat) (p : prepared) (W1 : csr R) (u1 v1 : list R) (W2 : csr R) (u2 v2 : list R) : Prop :=
  gen_w (at_ 0%R idx (a_t2 f)) (1 / 2) (KA (krows idx (a_uS2 f))) None None = Ok (W2, u2) /\ gen_w (at_ 0%R idx (a_t2 f)) (1 / 2) (KA (krows idx (a_uI2 f))) None None = Ok (W2, v2) /\
  if ref then p_ws p = [W2] /\ p_us p = [u2; v2] else
    gen_w (at_ 0%R idx (a_t1 f)) (1 / 2) (KA (krows idx (a_uS1 f))) None None = Ok (W1, u1) /\ gen_w (at_ 0%R idx (a_t1 f)) (1 / 2) (KA (krows idx (a_uI1 f))) None None = Ok (W1, v1) /\
    p_ws p = [W1; W2] /\ p_us p = [u1; v1; u2; v2].

Section Main.
Variable torad : option string -> list fl -> res (list fl).

Lemma cols_len a b rows : (forall r, In r rows -> length r = 10) -> a <= b <= 10 -> forall r, In r (columns a b rows) -> length r = b - a.
Proof. intros H Hab r Hr. apply in_map_iff in Hr as (q & <- & Hq). unfold slice. rewrite firstn_length, skipn_length, (H q Hq). lia. Qed.
Lemma zrow_len cols r : length (zrow cols r) = length r.
Proof. unfold zrow, enumerate. rewrite map_length, combine_length, seq_length. lia. Qed.

Theorem six_files f k1 k2 band bt ref_bt : av_file f k1 k2 -> bt_variables f band bt ref_bt -> rad_ok torad f bt ref_bt -> (exists i, i < n_matchups f /\ usable f i) ->
  exists (ref : bool) idx p n1 n2 c1 c2 W1 u1 v1 W2 u2 v2, (if ref then is_ref f else not_ref f) /\ kept f idx /\ idx <> [] /\ ready f k1 k2 band bt ref_bt ref idx p /\ p_s1 p = Some n1 /\ p_s2 p = Some n2 /\
    wmats f ref idx p W1 u1 v1 W2 u2 v2 /\ combined W2 u2 v2 (p_Ur2 p) c2 /\ (if ref then c1 = p_Ur1 p else combined W1 u1 v1 (p_Ur1 p) c1) /\
    (forall r, In r (p_X2 p) -> length r = 5) /\ (ref = false -> forall r, In r (p_X1 p) -> length r = 5) /\
    (length (p_Us1 p) = length idx /\ forall r, In r (p_Us1 p) -> length r = if ref then 1 else 5) /\ (length (p_Us2 p) = length idx /\ forall r, In r (p_Us2 p) -> length r = 5) /\
    let m3 := if ref then 1 else 4 in let m4 := if ref then 1 else 5 in
    let '(d3, d4) := p_dirs p in
    let z1 := all_zero (p_Us1 p) in let z2 := all_zero (p_Us2 p) in
    let t1 := if ref then [1] else [3; 3; 1; 1; 1] in let t2 := [3; 3; 1; 1; 1] in let o1 := if ref then [1] else repeat 1 5 in
    av_main torad f None = Ok
     [outf p (dirname d3 "RSW_") m3 4 n1 n2 (p_Ur1 p) (p_Ur2 p) (p_Us1 p) (p_Us2 p) (types1 ref) types2 (Some (p_W p));
      outf p (dirname d4 "RSW_") m4 5 n1 n2 (p_Ur1 p) (p_Ur2 p) (p_Us1 p) (p_Us2 p) (types1 ref) types2 (Some (p_W p));
      outf p (dirname d3 "R_W_") m3 4 n1 n2 (p_Ur1 p) (p_Ur2 p) z1 z2 t1 t2 (Some (p_W p));
      outf p (dirname d4 "R_W_") m4 5 n1 n2 (p_Ur1 p) (p_Ur2 p) z1 z2 t1 t2 (Some (p_W p));
      outf p (dirname d3 "R___") m3 4 n1 n2 c1 c2 z1 z2 o1 (repeat 1 5) None;
      outf p (dirname d4 "R___") m4 5 n1 n2 c1 c2 z1 z2 o1 (repeat 1 5) None].
Proof.
  intros F B RO HU. destruct (prepare_ok torad f k1 k2 band bt ref_bt F B RO HU) as (ref & idx & p & HR & HK & Hne & EP & RD).
  pose proof RD as [r1 r2 r3 r4 r5 r6 r7 r8 r9 r10 r11 r12 r13 r14 r15 r16 r17 r18 r19 (W2 & u2 & v2 & G3 & G4 & GW) r21 r22].
  assert (HI : forall i, In i idx -> i < n_matchups f) by (intros i Hi; apply HK in Hi; apply Hi).
  assert (LI : length idx <> 0) by (destruct idx; [congruence|discriminate]).
  assert (AT : forall l : list (list fl), sized (n_matchups f) 10 l -> forall r, In r (at_ [] idx l) -> length r = 10).
  { intros l Hl r Hr. apply in_map_iff in Hr as (i & <- & Hi). apply (sized10 f idx 10 l Hl HI i Hi). }
  assert (S2 : forall r, In r (p_X2 p) -> length r = 5) by (rewrite r3, <- block_at; intros r Hr; apply (cols_len 5 10 _ (AT _ (af_H f k1 k2 F))) in Hr; [auto|lia]).
  assert (S1 : ref = false -> forall r, In r (p_X1 p) -> length r = 5) by (intros ->; rewrite r2, <- block_at; intros r Hr; apply (cols_len 0 5 _ (AT _ (af_H f k1 k2 F))) in Hr; [auto|lia]).
  assert (AZ : forall cols (l : list (list fl)), sized (n_matchups f) 10 l -> forall r, In r (map (zrow cols) (at_ [] idx l)) -> length r = 10) by (intros cols l Hl r Hr; apply in_map_iff in Hr as (q & <- & Hq); rewrite zrow_len; apply (AT l Hl q Hq)).
  assert (AS : forall l : list (list fl), sized (n_matchups f) 10 l -> forall r, In r (map (fun r => if ref then zrow [0] r else r) (at_ [] idx l)) -> length r = 10) by (intros l Hl r Hr; apply in_map_iff in Hr as (q & <- & Hq); destruct ref; rewrite ?zrow_len; apply (AT l Hl q Hq)).
  assert (Q1 : length (p_Us1 p) = length idx /\ forall r, In r (p_Us1 p) -> length r = if ref then 1 else 5).
  { rewrite r6. split; [unfold columns; rewrite !map_length; apply at_length|]. intros r Hr. apply (cols_len 0 _ _ (AS _ (af_Us f k1 k2 F))) in Hr; [|destruct ref; lia]. destruct ref; auto. }
  assert (Q2 : length (p_Us2 p) = length idx /\ forall r, In r (p_Us2 p) -> length r = 5).
  { rewrite r7. split; [unfold columns; rewrite !map_length; apply at_length|]. intros r Hr. apply (cols_len 5 10 _ (AS _ (af_Us f k1 k2 F))) in Hr; [auto|lia]. }
  assert (U1 : length (p_Ur1 p) = length idx /\ (ref = false -> forall r, In r (p_Ur1 p) -> length r = 5)).
  { rewrite r4. split; [unfold columns; rewrite !map_length; apply at_length|]. intros -> r Hr. apply (cols_len 0 5 _ (AZ _ _ (af_Ur f k1 k2 F))) in Hr; [auto|lia]. }
  assert (U2 : length (p_Ur2 p) = length idx /\ forall r, In r (p_Ur2 p) -> length r = 5).
  { rewrite r5. split; [unfold columns; rewrite !map_length; apply at_length|]. intros r Hr. apply (cols_len 5 10 _ (AZ _ _ (af_Ur f k1 k2 F))) in Hr; [auto|lia]. }
  destruct (get_new_name (a_s1 f)) as [n1|] eqn:N1; [|exfalso; apply (af_s1 f k1 k2 F); auto]. destruct (get_new_name (a_s2 f)) as [n2|] eqn:N2; [|exfalso; apply (af_s2 f k1 k2 F); auto].
  assert (T1 : length (at_ 0%R idx (a_t1 f)) = length idx) by apply at_length. assert (T2 : length (at_ 0%R idx (a_t2 f)) = length idx) by apply at_length.
  pose proof (krows_sized f k1 idx _ (af_uS1 f k1 k2 F) HI) as K1. pose proof (krows_sized f k1 idx _ (af_uI1 f k1 k2 F) HI) as K2.
  pose proof (krows_sized f k2 idx _ (af_uS2 f k1 k2 F) HI) as K3. pose proof (krows_sized f k2 idx _ (af_uI2 f k1 k2 F) HI) as K4.
  destruct (gen_facts _ _ _ _ _ _ T2 LI (af_k2 f k1 k2 F) K3 G3) as (_ & _ & A3 & A4 & _). destruct (gen_facts _ _ _ _ _ _ T2 LI (af_k2 f k1 k2 F) K4 G4) as (_ & _ & _ & B4 & _).
  pose proof (gen_csr_shape _ _ _ _ _ _ _ G3) as Sh2. rewrite A3 in Sh2.
  assert (WR : forall dir m2 m1 ur1 ur2 us1 us2 ut1 ut2 W, (m1 = 4 -> ref = false) -> write_file dir m1 m2 (p_X1 p) (p_X2 p) ur1 ur2 us1 us2 ut1 ut2 (p_K p) (p_Kr p) (p_Ks p) (p_t1 p) (p_t2 p) (p_s1 p) (p_s2 p) (p_adds p) W = Ok (outf p dir m1 m2 n1 n2 ur1 ur2 us1 us2 ut1 ut2 W)).
  { intros. apply write_ok; auto. }
  exists ref, idx, p, n1, n2.
  destruct ref.
  - destruct GW as (GWs & GUs). destruct (combine_ok (p_ws p) (p_us p) 1 1 2 W2 u2 v2 (p_Ur2 p) (length idx) 5) as (c2 & E2 & L2 & H2 & C2); try (rewrite ?GWs, ?GUs; reflexivity); try discriminate; auto; try lia; try apply U2.
    exists (p_Ur1 p), c2, W2, u2, v2, W2, u2, v2. do 6 (split; [auto|]). split; [unfold wmats; auto|]. split; [split; [destruct U2; congruence|auto]|]. split; [reflexivity|]. do 4 (split; [auto|]).
    cbv zeta. destruct (p_dirs p) as (d3 & d4) eqn:ED. unfold av_main. rewrite EP. cbn [bind]. rewrite r1, ED. cbn [combine mapM fst snd].
    rewrite !WR by discriminate. cbn [bind]. change (wuses true) with ([0], [1; 1; 0; 0; 0], [0], [1; 2; 0; 0; 0]). cbn iota.
    change (from3 1 types2) with [3; 3; 1; 1; 1]. change (types1 true) with [1]. rewrite E2.
    change (combine_structured [1] [0] [0] (p_ws p) (p_us p) (p_Ur1 p)) with (@Ok (list (list fl)) (p_Ur1 p)). cbn [bind]. rewrite !WR by discriminate. reflexivity.
  - destruct GW as (W1 & u1 & v1 & G1 & G2 & GWs & GUs).
    destruct (gen_facts _ _ _ _ _ _ T1 LI (af_k1 f k1 k2 F) K1 G1) as (_ & _ & A1 & A2 & _). destruct (gen_facts _ _ _ _ _ _ T1 LI (af_k1 f k1 k2 F) K2 G2) as (_ & _ & _ & B2 & _).
    pose proof (gen_csr_shape _ _ _ _ _ _ _ G1) as Sh1. rewrite A1 in Sh1.
    destruct (combine_ok (p_ws p) (p_us p) 2 3 4 W2 u2 v2 (p_Ur2 p) (length idx) 5) as (c2 & E2 & L2 & H2 & C2); try (rewrite ?GWs, ?GUs; reflexivity); try discriminate; auto; try lia; try apply U2.
    destruct (combine_ok (p_ws p) (p_us p) 1 1 2 W1 u1 v1 (p_Ur1 p) (length idx) 5) as (c1 & E1 & L1 & H1 & C1); try (rewrite ?GWs, ?GUs; reflexivity); try discriminate; auto; try lia; try (apply U1; auto).
    exists c1, c2, W1, u1, v1, W2, u2, v2. do 6 (split; [auto|]). split; [unfold wmats; auto 7|]. split; [split; [destruct U2; congruence|auto]|]. split; [split; [destruct U1; congruence|auto]|]. do 4 (split; [auto|]).
    cbv zeta. destruct (p_dirs p) as (d3 & d4) eqn:ED. unfold av_main. rewrite EP. cbn [bind]. rewrite r1, ED. cbn [combine mapM fst snd].
    rewrite !WR by (discriminate || auto). cbn [bind]. change (wuses false) with ([1; 1; 0; 0; 0], [2; 2; 0; 0; 0], [1; 2; 0; 0; 0], [3; 4; 0; 0; 0]). cbn iota.
    change (from3 1 types2) with [3; 3; 1; 1; 1]. change (from3 1 (types1 false)) with [3; 3; 1; 1; 1]. rewrite E1, E2. cbn [bind]. rewrite !WR by (discriminate || auto). reflexivity.
Qed.
End Main.
