(** * Conversion of AVHRR match-up files: structured uncertainties, limits and combination.  Proofs only. *)
From Coq Require Import Reals Lra Sorted.
From Verif Require Import Base BaseLemmas ReaderModel UncModel UncSpec UncProofs TransformModel TransformSpec GNModel GNTerms HRModel HRText WModel WSpec WProofs WProofs2 WProofs3 WProofs4 CheckProofs AvModel AvSpec AvProofs AvProofs2 AvProofs3 AvProofs4 AvProofs5 AvProofs6.
Open Scope nat_scope.

Lemma averaged_intro mv wuse uuse times N k rows rows' W u u' w j c : nth_error wuse c = Some w -> nth_error uuse c = Some j -> open_w_matrix R mv w = Ok W -> open_u_matrix R mv j = Ok u' ->
  length times = N -> N <> 0 -> k <> 0 -> sized N k rows' -> gen_w times (1 / 2) (KA rows) None None = Ok (W, u) -> gen_w times (1 / 2) (KA rows') None None = Ok (W, u') ->
  averaged_column mv wuse uuse times rows' c.
Proof.
  intros Ew Ej OW OU L HN Hk S' G G'. destruct (gen_facts _ _ _ _ _ _ L HN Hk S' G') as (_ & _ & _ & _ & line & cols & HL & HR & Hu & Hg).
  destruct rows' as [|r rows']; [destruct S' as (S0 & _); cbn in S0; congruence|]. assert (Lr : length r = k) by (apply S'; left; auto).
  exists w, j, W, u', line, cols, r. do 4 (split; [assumption|]). split; [reflexivity|]. rewrite Lr. unfold equal_weights in HR. auto.
Qed.

Section Av.
Variable torad : option string -> list fl -> res (list fl).

Lemma averaged_ok f k1 k2 band bt ref_bt ref idx p W1 u1 v1 W2 u2 v2 dir m2 n1 n2 ur1 ur2 us1 us2 ut1 ut2 : good_input torad f k1 k2 band bt ref_bt -> kept f idx -> ready f k1 k2 band bt ref_bt ref idx p -> wmats f ref idx p W1 u1 v1 W2 u2 v2 -> m2 = 4 \/ m2 = 5 ->
  exists mv, o_W (outf p dir (m1_of ref m2) m2 n1 n2 ur1 ur2 us1 us2 ut1 ut2 (Some (p_W p))) = Some mv /\
    (forall c, c < 2 -> averaged_column mv (wuse2 R mv) (uuse2 R mv) (at_ 0%R idx (a_t2 f)) (scan_lines (a_uS2 f) (a_uI2 f) c idx) c) /\
    (ref = false -> forall c, c < 2 -> averaged_column mv (wuse1 R mv) (uuse1 R mv) (at_ 0%R idx (a_t1 f)) (scan_lines (a_uS1 f) (a_uI1 f) c idx) c) /\
    (* the matrices used for the files without structured effects *)
    (exists w a b, nth_error (wuse2 R mv) 0 = Some w /\ nth_error (wuse2 R mv) 1 = Some w /\ open_w_matrix R mv w = Ok W2 /\ nth_error (uuse2 R mv) 0 = Some a /\ nth_error (uuse2 R mv) 1 = Some b /\ open_u_matrix R mv a = Ok u2 /\ open_u_matrix R mv b = Ok v2) /\
    (ref = false -> exists w a b, nth_error (wuse1 R mv) 0 = Some w /\ nth_error (wuse1 R mv) 1 = Some w /\ open_w_matrix R mv w = Ok W1 /\ nth_error (uuse1 R mv) 0 = Some a /\ nth_error (uuse1 R mv) 1 = Some b /\ open_u_matrix R mv a = Ok u1 /\ open_u_matrix R mv b = Ok v1).
Proof.
  intros G K RD WM Hm. pose proof (gi_file _ _ _ _ _ _ _ G) as F.
  assert (HI : forall i, In i idx -> i < n_matchups f) by (intros i Hi; apply K in Hi; apply Hi).
  assert (LI : length idx <> 0). { destruct (gi_some _ _ _ _ _ _ _ G) as (i & Hi & Hu). assert (Hin : In i idx) by (apply K; auto). destruct idx; [destruct Hin|discriminate]. }
  assert (T1 : length (at_ 0%R idx (a_t1 f)) = length idx) by apply at_length. assert (T2 : length (at_ 0%R idx (a_t2 f)) = length idx) by apply at_length.
  pose proof (krows_sized f k1 idx _ (af_uS1 f k1 k2 F) HI) as K1. pose proof (krows_sized f k1 idx _ (af_uI1 f k1 k2 F) HI) as K2.
  pose proof (krows_sized f k2 idx _ (af_uS2 f k1 k2 F) HI) as K3. pose proof (krows_sized f k2 idx _ (af_uI2 f k1 k2 F) HI) as K4.
  pose proof (r_mv _ _ _ _ _ _ _ _ _ RD) as MV. destruct WM as (G3 & G4 & WM).
  destruct (gen_facts _ _ _ _ _ _ T2 LI (af_k2 f k1 k2 F) K3 G3) as (A1 & A2 & A3 & _).
  eexists. split; [reflexivity|]. cbn [wuse1 wuse2 uuse1 uuse2].
  assert (M2 : forall {A} (x y : A) l, exists l', firstn m2 (x :: y :: l) = x :: y :: l') by (intros A x y l; destruct Hm as [->| ->]; cbn [firstn]; eexists; reflexivity).
  destruct ref; cbn [m1_of].
  - destruct WM as (Ew & Eu). change (wuses true) with ([0], [1; 1; 0; 0; 0], [0], [1; 2; 0; 0; 0]) in MV. cbn iota in MV. rewrite Ew, Eu in MV.
    destruct (codec_roundtrip 0%R [W2] [u2; v2] [0] [1; 1; 0; 0; 0] [0] [1; 2; 0; 0; 0] (length idx)) as (mv & E & X1 & X2 & X3 & X4 & HW & HU); [discriminate|intros w [<-|[]]; auto|].
    rewrite E in MV. injection MV as <-. rewrite X1, X2, X3, X4.
    pose proof (HW 0 W2 eq_refl) as O1. pose proof (HU 0 u2 eq_refl) as O2. pose proof (HU 1 v2 eq_refl) as O3. cbn [Nat.add] in O1, O2, O3.
    destruct (M2 _ 1 1 [0; 0; 0]) as (l & ->). destruct (M2 _ 1 2 [0; 0; 0]) as (l' & ->).
    split; [|split; [discriminate|split; [exists 1, 1, 2; cbn [nth_error]; repeat (split; [first [reflexivity|assumption]|]); assumption|discriminate]]].
    intros c Hc. destruct c as [|[|]]; [| |lia]; unfold scan_lines; cbn [Nat.eqb].
    + apply (averaged_intro _ _ _ _ (length idx) k2 (krows idx (a_uS2 f)) _ W2 u2 u2 1 1); auto. apply (af_k2 f k1 k2 F).
    + apply (averaged_intro _ _ _ _ (length idx) k2 (krows idx (a_uS2 f)) _ W2 u2 v2 1 2); auto. apply (af_k2 f k1 k2 F).
  - destruct WM as (G1 & G2 & Ew & Eu). change (wuses false) with ([1; 1; 0; 0; 0], [2; 2; 0; 0; 0], [1; 2; 0; 0; 0], [3; 4; 0; 0; 0]) in MV. cbn iota in MV. rewrite Ew, Eu in MV.
    destruct (gen_facts _ _ _ _ _ _ T1 LI (af_k1 f k1 k2 F) K1 G1) as (B1 & B2 & B3 & _).
    destruct (codec_roundtrip 0%R [W1; W2] [u1; v1; u2; v2] [1; 1; 0; 0; 0] [2; 2; 0; 0; 0] [1; 2; 0; 0; 0] [3; 4; 0; 0; 0] (length idx)) as (mv & E & X1 & X2 & X3 & X4 & HW & HU); [discriminate|intros w [<-|[<-|[]]]; auto|].
    rewrite E in MV. injection MV as <-. rewrite X1, X2, X3, X4.
    pose proof (HW 0 W1 eq_refl) as O1. pose proof (HW 1 W2 eq_refl) as O2. pose proof (HU 0 u1 eq_refl) as O3. pose proof (HU 1 v1 eq_refl) as O4. pose proof (HU 2 u2 eq_refl) as O5. pose proof (HU 3 v2 eq_refl) as O6. cbn [Nat.add] in O1, O2, O3, O4, O5, O6.
    destruct (M2 _ 1 1 [0; 0; 0]) as (l & ->). destruct (M2 _ 1 2 [0; 0; 0]) as (l' & ->). destruct (M2 _ 2 2 [0; 0; 0]) as (l2 & ->). destruct (M2 _ 3 4 [0; 0; 0]) as (l2' & ->).
    split; [|split; [intros _|split; [exists 2, 3, 4; cbn [nth_error]; repeat (split; [first [reflexivity|assumption]|]); assumption|intros _; exists 1, 1, 2; cbn [nth_error]; repeat (split; [first [reflexivity|assumption]|]); assumption]]];
      (intros c Hc; destruct c as [|[|]]; [| |lia]; unfold scan_lines; cbn [Nat.eqb]).
    + apply (averaged_intro _ _ _ _ (length idx) k2 (krows idx (a_uS2 f)) _ W2 u2 u2 2 3); auto. apply (af_k2 f k1 k2 F).
    + apply (averaged_intro _ _ _ _ (length idx) k2 (krows idx (a_uS2 f)) _ W2 u2 v2 2 4); auto. apply (af_k2 f k1 k2 F).
    + apply (averaged_intro _ _ _ _ (length idx) k1 (krows idx (a_uS1 f)) _ W1 u1 u1 1 1); auto. apply (af_k1 f k1 k2 F).
    + apply (averaged_intro _ _ _ _ (length idx) k1 (krows idx (a_uS1 f)) _ W1 u1 v1 1 2); auto. apply (af_k1 f k1 k2 F).
Qed.

(** ** Temperature limit *)
Theorem limit_keyerror f band bt ref_bt l : bt_variables f band bt ref_bt -> convertible torad f bt ref_bt -> av_main torad f (Some l) = Raise KeyError.
Proof.
  intros B RO. destruct (bt_rename f band bt ref_bt B) as (d0 & cc & Er & Hd0 & Lcc & HO). unfold av_main, prepare. rewrite Er. cbn [bind]. cbv zeta.
  set (d1 := remove "original_indices" d0 ++ [("original_indices"%string, map (fun i => Some (INR i)) (seq 0 (length (a_K f))))]).
  assert (N11 : lookup "BT11"%string d1 = None).
  { unfold d1. rewrite lookup_put. change (String.eqb "original_indices" "BT11") with false. cbn iota. rewrite Hd0. change (String.eqb "BT11" "BT") with false. change (String.eqb "BT11" "ref_BT") with false. cbn iota.
    destruct (String.eqb_spec "BT11" ("BT" ++ cc)) as [|N1]; [reflexivity|]. destruct (String.eqb_spec "BT11" ("ref_BT" ++ cc)) as [|N2]; [reflexivity|].
    apply CheckProofs.lookup_none. intros Hin. destruct (HO _ Hin eq_refl); contradiction. }
  assert (L1 : lookup "ref_BT"%string d1 = ref_bt) by (unfold d1; rewrite lookup_put, Hd0; reflexivity).
  assert (L2 : lookup "BT"%string d1 = Some bt) by (unfold d1; rewrite lookup_put, Hd0; reflexivity).
  destruct (in_dict "ref_BT" d1) eqn:Ein.
  - assert (Hb : exists b, ref_bt = Some b).
    { destruct ref_bt as [b|]; [eauto|]. exfalso. apply CheckProofs.lookup_none in L1. apply L1. unfold in_dict in Ein. apply existsb_exists in Ein as (x & Hx & E). apply String.eqb_eq in E. subst x. auto. }
    destruct Hb as (b & ->). destruct (RO b eq_refl) as ((q1 & E1) & q2 & E2). rewrite (item_ok _ _ _ L1). cbn [bind]. rewrite E1. cbn [bind]. rewrite (item_ok _ _ bt) by (rewrite lookup_put; exact L2). cbn [bind]. rewrite E2. cbn [bind].
    unfold item. rewrite !lookup_put. change (String.eqb "nominal_measurand2" "BT11") with false. change (String.eqb "nominal_measurand1" "BT11") with false. cbn iota. rewrite N11. reflexivity.
  - cbn [bind]. unfold item. rewrite N11. reflexivity.
Qed.

(** ** Sums and quadratic sums *)
Lemma rsum_ge0 l : (forall x, In x l -> (0 <= x)%R) -> (0 <= rsum l)%R.
Proof. induction l as [|x l IH]; intros H; cbn; [lra|]. specialize (IH (fun y Hy => H y (or_intror Hy))). specialize (H x (or_introl eq_refl)). unfold rsum in IH. lra. Qed.
Lemma rsum_ge_in l x : (forall x, In x l -> (0 <= x)%R) -> In x l -> (x <= rsum l)%R.
Proof.
  induction l as [|y l IH]; intros H Hi0; [destruct Hi0|]. destruct Hi0 as [->|Hi]; cbn.
  - pose proof (rsum_ge0 l (fun z Hz => H z (or_intror Hz))). unfold rsum in *. lra.
  - specialize (IH (fun z Hz => H z (or_intror Hz)) Hi). specialize (H y (or_introl eq_refl)). unfold rsum in *. lra.
Qed.
Lemma squares l : (forall x, In x l -> (0 <= x)%R) -> (fold_right Rplus 0 (map (fun x => x * x) l) <= rsum l * rsum l)%R.
Proof.
  induction l as [|x l IH]; intros H; cbn; [lra|]. specialize (IH (fun y Hy => H y (or_intror Hy))). pose proof (rsum_ge0 l (fun z Hz => H z (or_intror Hz))) as Hs. specialize (H x (or_introl eq_refl)). unfold rsum in *.
  assert (0 <= x * fold_right Rplus 0 l)%R by (apply Rmult_le_pos; auto). lra.
Qed.
Lemma squares_strict l : forall i j x y, (forall x, In x l -> (0 <= x)%R) -> i < j -> nth_error l i = Some x -> nth_error l j = Some y -> (0 < x)%R -> (0 < y)%R -> (fold_right Rplus 0 (map (fun x => x * x) l) < rsum l * rsum l)%R.
Proof.
  induction l as [|z l IH]; intros i j x y H Hij Hi Hj Hx Hy; [destruct i; discriminate|]. assert (H' : forall x, In x l -> (0 <= x)%R) by (intros; apply H; right; auto). pose proof (rsum_ge0 l H') as Hs. pose proof (squares l H') as Hq. assert (Hz : (0 <= z)%R) by (apply H; left; auto).
  destruct j as [|j]; [lia|]. cbn [nth_error] in Hj. cbn [map fold_right]. change (rsum (z :: l)) with (z + rsum l)%R. destruct i as [|i].
  - cbn in Hi. injection Hi as ->. pose proof (rsum_ge_in l y H' (nth_error_In _ _ Hj)). assert (0 < x * rsum l)%R by (apply Rmult_lt_0_compat; lra). lra.
  - cbn in Hi. assert (i < j) by lia. specialize (IH i j x y H' H0 Hi Hj Hx Hy). assert (0 <= z * rsum l)%R by (apply Rmult_le_pos; auto). lra.
Qed.
Theorem quadratic_le l : (forall x, In x l -> (0 <= x)%R) -> (quadratic_sum l <= rsum l)%R.
Proof. intros H. unfold quadratic_sum. rewrite <- (sqrt_square (rsum l)) by (apply rsum_ge0; auto). apply sqrt_le_1_alt. apply squares; auto. Qed.
Theorem quadratic_lt l i j x y : (forall x, In x l -> (0 <= x)%R) -> i < j -> nth_error l i = Some x -> nth_error l j = Some y -> (0 < x)%R -> (0 < y)%R -> (quadratic_sum l < rsum l)%R.
Proof.
  intros H Hij Hi Hj Hx Hy. unfold quadratic_sum. rewrite <- (sqrt_square (rsum l)) by (apply rsum_ge0; auto). apply sqrt_lt_1_alt. split; [|eapply squares_strict; eauto].
  clear. induction l as [|z l IH]; cbn; [lra|]. pose proof (Rle_0_sqr z). unfold Rsqr in *. lra.
Qed.

(** ** All together *)
Definition conversion (f : avin) (k1 k2 : nat) (band : Z) (bt : list fl) (ref_bt : option (list fl)) (ref : bool) (idx : list nat) (files : list avout) : Prop :=
  exists p n1 n2 c1 c2 W1 u1 v1 W2 u2 v2, ready f k1 k2 band bt ref_bt ref idx p /\ p_s1 p = Some n1 /\ p_s2 p = Some n2 /\
    wmats f ref idx p W1 u1 v1 W2 u2 v2 /\ combined W2 u2 v2 (p_Ur2 p) c2 /\ (if ref then c1 = p_Ur1 p else combined W1 u1 v1 (p_Ur1 p) c1) /\
    (length (p_Us1 p) = length idx /\ forall r, In r (p_Us1 p) -> length r = if ref then 1 else 5) /\ (length (p_Us2 p) = length idx /\ forall r, In r (p_Us2 p) -> length r = 5) /\
    let '(d3, d4) := p_dirs p in let z1 := all_zero (p_Us1 p) in let z2 := all_zero (p_Us2 p) in
    let t1 := if ref then [1] else [3; 3; 1; 1; 1] in let t2 := [3; 3; 1; 1; 1] in let o1 := if ref then [1] else repeat 1 5 in
    files =
     [outf p (dirname d3 "RSW_") (m1_of ref 4) 4 n1 n2 (p_Ur1 p) (p_Ur2 p) (p_Us1 p) (p_Us2 p) (types1 ref) types2 (Some (p_W p));
      outf p (dirname d4 "RSW_") (m1_of ref 5) 5 n1 n2 (p_Ur1 p) (p_Ur2 p) (p_Us1 p) (p_Us2 p) (types1 ref) types2 (Some (p_W p));
      outf p (dirname d3 "R_W_") (m1_of ref 4) 4 n1 n2 (p_Ur1 p) (p_Ur2 p) z1 z2 t1 t2 (Some (p_W p));
      outf p (dirname d4 "R_W_") (m1_of ref 5) 5 n1 n2 (p_Ur1 p) (p_Ur2 p) z1 z2 t1 t2 (Some (p_W p));
      outf p (dirname d3 "R___") (m1_of ref 4) 4 n1 n2 c1 c2 z1 z2 o1 (repeat 1 5) None;
      outf p (dirname d4 "R___") (m1_of ref 5) 5 n1 n2 c1 c2 z1 z2 o1 (repeat 1 5) None].
Theorem conversion_ex f k1 k2 band bt ref_bt : good_input torad f k1 k2 band bt ref_bt -> exists ref idx files, sensor1_is f ref /\ kept f idx /\ idx <> [] /\ av_main torad f None = Ok files /\ conversion f k1 k2 band bt ref_bt ref idx files.
Proof.
  intros [F B RO HU]. destruct (six_files torad f k1 k2 band bt ref_bt F B RO HU) as (ref & idx & p & n1 & n2 & c1 & c2 & W1 & u1 & v1 & W2 & u2 & v2 & HR & HK & Hne & RD & E1 & E2 & WM & C2 & C1 & _ & _ & Q1 & Q2 & EQ).
  cbv zeta in EQ. destruct (p_dirs p) as (d3, d4) eqn:ED. exists ref, idx. eexists. split; [exact HR|]. split; [exact HK|]. split; [exact Hne|]. split; [exact EQ|].
  exists p, n1, n2, c1, c2, W1, u1, v1, W2, u2, v2. do 8 (split; [assumption|]). rewrite ED. reflexivity.
Qed.
Theorem conversion_all f k1 k2 band bt ref_bt ref idx files : good_input torad f k1 k2 band bt ref_bt -> sensor1_is f ref -> kept f idx -> av_main torad f None = Ok files -> conversion f k1 k2 band bt ref_bt ref idx files.
Proof.
  intros G HR HK E. destruct (conversion_ex _ _ _ _ _ _ G) as (ref' & idx' & files' & HR' & HK' & _ & E' & C). rewrite E in E'. injection E' as <-. rewrite (kept_unique f idx idx' HK HK'), (sensor1_unique f ref ref' HR HR'). exact C.
Qed.
End Av.
