(** Property theorems C98-C105 (conversion of PMH text files).  Vocabulary: PmhSpec.v, UncSpec.v, ReaderSpec.v, WSpec.v.  Model: PmhModel.v.
    [pyfloat], [pyint] are Python's conversions of a word, arbitrary functions. *)
From Coq Require Import Reals Lra.
From Verif Require Import Base BaseLemmas ReaderModel ReaderSpec ReaderProofs UncModel UncSpec UncProofs UncProofs2 UncProofs3 TransformModel EvalModel GNModel SimModel WModel WSpec HRModel PmhModel PmhSpec PmhProofs PmhProofs2 PmhProofs3 PmhProofs4.
Open Scope nat_scope.

Section Props.
Variable pyfloat : text -> res R.
Variable pyint : text -> res Z.

(** C98: the file of the i-th pair holds the rows after those of the pairs before it. *)
Theorem C98_files_hold_the_rows : forall vals w pams uncs dir d atrue' im ns atrue uref vs k,
  open_data_pams pyfloat pyint pams = Ok (im, ns, atrue) -> open_data_uncs pyfloat pyint uncs = Ok (uref, vs, k) ->
  (forall r, In r vals -> length r = w) -> run_conversion pyfloat pyint vals pams uncs dir = Ok (d, atrue') ->
  atrue' = atrue /\ NoDup (map file_name im) /\ forall i names n, nth_error im i = Some names -> nth_error ns i = Some n ->
    exists a b rest f, names = a :: b :: rest /\ (0 < n)%Z /\ find_file (file_name names) d = Some f /\ holds_rows vals uref k vs (rows_before ns i) (Z.to_nat n) a b f.
Proof. exact (conv_rows pyfloat pyint). Qed.

(** C99: the converted files can be read. *)
Theorem C99_converted_files_readable : forall vals w pams uncs dir d atrue' im ns atrue uref vs k fs,
  open_data_pams pyfloat pyint pams = Ok (im, ns, atrue) -> open_data_uncs pyfloat pyint uncs = Ok (uref, vs, k) ->
  (forall r, In r vals -> length r = w) -> run_conversion pyfloat pyint vals pams uncs dir = Ok (d, atrue') -> length im <= length ns -> im <> [] ->
  (forall a b rest, In (a :: b :: rest) im -> a <> b /\ (b = tx "0" -> length vs = 1)) ->
  Forall2 (fun names f => find_file (file_name names) d = Some f) im fs ->
  good_files (map (fun f => uf_d R (p_file f)) fs) /\ (forall f, In f fs -> valid_file (p_file f)) /\
  forall ord, (forall l x, In x (ord l) <-> In x l) -> exists ix u ws us, get_idx R (map (fun f => uf_d R (p_file f)) fs) = Ok ix /\ open_unc R 0%R ord (map p_file fs) ix = Ok (u, ws, us).
Proof.
  intros vals w pams uncs dir d atrue' im ns atrue uref vs k fs E1 E2 Hr HR Hl Hne Hd HF.
  destruct (conv_readable pyfloat pyint _ _ _ _ _ _ _ _ _ _ _ _ _ fs E1 E2 Hr HR Hl Hne Hd HF) as (G1 & G2). split; [exact G1|]. split; [exact G2|]. intros ord Ho.
  destruct (get_idx_ok (map (fun f => uf_d R (p_file f)) fs)) as (ix & Hix & _); [apply G1|]. exists ix.
  destruct (unc_attached 0%R ord Ho (map p_file fs) ix) as (u & ws & us & Hu & _).
  - rewrite map_map. exact G1.
  - intros f Hf. apply in_map_iff in Hf. destruct Hf as (g & <- & Hg). auto.
  - rewrite map_map. exact Hix.
  - exists u, ws, us. auto.
Qed.

(** C100: what the text files say is what is used. *)
Theorem C100_uncertainty_file_read : forall uref vs k lines, uncs_file pyfloat pyint uref vs k lines -> open_data_uncs pyfloat pyint lines = Ok (uref, vs, k).
Proof. exact (uncs_parsed pyfloat pyint). Qed.
Theorem C100_parameter_file_read : forall im ns atrue lines m, pams_file pyfloat pyint im ns atrue lines -> atrue <> [] -> (forall r, In r atrue -> length r = m) ->
  open_data_pams pyfloat pyint lines = Ok (im, ns, atrue).
Proof. exact (pams_parsed pyfloat pyint). Qed.

(** C101: when the conversion succeeds. *)
Theorem C101_converted_iff : forall vals w pams uncs dir im ns atrue uref vs k,
  open_data_pams pyfloat pyint pams = Ok (im, ns, atrue) -> open_data_uncs pyfloat pyint uncs = Ok (uref, vs, k) ->
  (forall r, In r vals -> length r = w) -> 2 * length vs < w -> 1 < length vals ->
  im <> [] -> length im = length ns -> (forall z, In z ns -> (0 < z)%Z) -> rows_before ns (length ns) <= length vals ->
  (forall names, In names im -> 2 <= length names) -> NoDup (map file_name im) ->
  (forall v, In v vs -> v_type v = 3 -> (0 < v_nW v)%Z) -> one_kernel vs ->
  ((exists d, run_conversion pyfloat pyint vals pams uncs dir = Ok (d, atrue)) <-> ((exists v, In v vs /\ v_type v = 3) /\ sizes_fit ns)).
Proof. exact (conv_succeeds pyfloat pyint). Qed.

(** C103: with series of equal size and one kernel, every file represents its averages. *)
Theorem C103_averages_represented : forall vals w pams uncs dir d atrue' im ns atrue uref vs k n kz u0,
  open_data_pams pyfloat pyint pams = Ok (im, ns, atrue) -> open_data_uncs pyfloat pyint uncs = Ok (uref, vs, k) ->
  (forall r, In r vals -> length r = w) -> run_conversion pyfloat pyint vals pams uncs dir = Ok (d, atrue') -> length im <= length ns -> (forall z, In z ns -> z = n) ->
  (forall v, In v vs -> v_type v = 3 -> v_nW v = kz /\ v_uR v = u0) ->
  forall i names, nth_error im i = Some names -> exists a b rest f, names = a :: b :: rest /\ find_file (file_name names) d = Some f /\
    holds_rows vals uref k vs (i * Z.to_nat n) (Z.to_nat n) a b f /\ represents_averages vs a f.
Proof. exact (conv_averages pyfloat pyint). Qed.
End Props.

(** ** Concrete cases: numbers are strings of digits *)
Definition exdigit (c : ascii) : Z := Z.of_nat (nat_of_ascii c) - 48.
Definition exint (t : text) : res Z := Ok (fold_left (fun z c => (10 * z + exdigit c)%Z) t 0%Z).
Definition exfloat (t : text) : res R := do z <- exint t;; Ok (IZR z).
(** Sensors 0-1 and 1-2. *)
Definition expams (n1 n2 : string) : list text := map tx ["matrix Im"; "0 1"; "1 2"; "vector Nm"; n1; n2; "atrue"; "7"; "8"]%string.
(** An averaged covariate and an independent one. *)
Definition exuncs : list text := map tx ["reference"; "3"; "covariate 1 MA:"; "4 2"; "covariate 2 R:"; " 6 "; "K"; "9"]%string.
Definition exvs : list uvar := [mkUvar 4 0 2 3; mkUvar 6 0 0 1].
Definition exrow (x : R) : list R := [x; x + 10; x + 20; x + 30; x + 40]%R.
Definition exvals : list (list R) := [exrow 0; exrow 1; exrow 2; exrow 3].
Definition exim : list (list text) := [[tx "0"; tx "1"]; [tx "1"; tx "2"]].
Lemma expams22 : open_data_pams exfloat exint (expams "2" "2") = Ok (exim, [2; 2]%Z, [[7]; [8]]%R).
Proof. reflexivity. Qed.
Lemma expams23 : open_data_pams exfloat exint (expams "2" "3") = Ok (exim, [2; 3]%Z, [[7]; [8]]%R).
Proof. reflexivity. Qed.
Lemma expams13 : open_data_pams exfloat exint (expams "1" "3") = Ok (exim, [1; 3]%Z, [[7]; [8]]%R).
Proof. reflexivity. Qed.
Lemma exuncs_read : open_data_uncs exfloat exint exuncs = Ok (3%R, exvs, 9%R).
Proof. reflexivity. Qed.
Lemma exvals_rect r : In r (exvals ++ [exrow 4]) -> length r = 5.
Proof. intros [<-|[<-|[<-|[<-|[<-|[]]]]]]; reflexivity. Qed.
Lemma exvals_rect4 r : In r exvals -> length r = 5.
Proof. intros Hr. apply exvals_rect, in_or_app. auto. Qed.
Lemma exim_ok : NoDup (map file_name exim) /\ (forall names, In names exim -> 2 <= length names) /\ exim <> [].
Proof. split; [repeat constructor; cbn; intuition discriminate|]. split; [intros nm [<-|[<-|[]]]; cbn; lia|discriminate]. Qed.
Lemma exvs_ok : (forall v, In v exvs -> v_type v = 3 -> (0 < v_nW v)%Z) /\ one_kernel exvs /\ (exists v, In v exvs /\ v_type v = 3).
Proof.
  split; [intros v [<-|[<-|[]]]; cbn; lia|]. split; [left; intros v v' [<-|[<-|[]]] [<-|[<-|[]]]; cbn; lia|]. exists (mkUvar 4 0 2 3). split; [left|]; reflexivity.
Qed.

(** C98, C99, C103: the four rows are converted to two files of two match-ups. *)
Example C98_example : exists d, run_conversion exfloat exint exvals (expams "2" "2") exuncs [] = Ok (d, [[7]; [8]]%R) /\
  exists f g, find_file (tx "0_1.nc") d = Some f /\ find_file (tx "1_2.nc") d = Some g /\ d_M R (uf_d R (p_file f)) = 2 /\ d_M R (uf_d R (p_file g)) = 2 /\
    represents_averages exvs (tx "0") f /\ represents_averages exvs (tx "1") g /\ good_files [uf_d R (p_file f); uf_d R (p_file g)].
Proof.
  destruct exim_ok as (N1 & N2 & N3), exvs_ok as (V1 & V2 & V3).
  assert (HS : exists d, run_conversion exfloat exint exvals (expams "2" "2") exuncs [] = Ok (d, [[7]; [8]]%R)).
  { apply (proj2 (C101_converted_iff exfloat exint exvals 5 _ _ _ _ _ _ _ _ _ expams22 exuncs_read exvals_rect4 ltac:(cbn; lia) ltac:(cbn; lia) N3 eq_refl ltac:(intros z [<-|[<-|[]]]; lia) ltac:(cbn; lia) N2 N1 V1 V2)).
    split; [exact V3|]. intros [|[|i]] [|[|j]] a b Hij; cbn; intros Ha Hb; try lia; try (destruct i; discriminate); try (destruct j; discriminate); right; congruence. }
  destruct HS as (d & HS). exists d. split; [exact HS|].
  assert (G := C103_averages_represented exfloat exint exvals 5 _ _ _ d _ _ _ _ _ _ _ 2%Z 2%Z 4%R expams22 exuncs_read exvals_rect4 HS (le_n 2) ltac:(intros z [<-|[<-|[]]]; reflexivity)
    ltac:(intros v [<-|[<-|[]]]; cbn; intros Hv; [auto|discriminate])).
  destruct (G 0 _ eq_refl) as (a & b & rest & f & A1 & A2 & A3 & A4). destruct (G 1 _ eq_refl) as (a' & b' & rest' & g & B1 & B2 & B3 & B4).
  injection A1 as <- <- _. injection B1 as <- <- _. exists f, g. split; [exact A2|]. split; [exact B2|]. split; [apply A3|]. split; [apply B3|]. split; [exact A4|]. split; [exact B4|].
  refine (proj1 (C99_converted_files_readable exfloat exint exvals 5 _ _ _ d _ _ _ _ _ _ _ [f; g] expams22 exuncs_read exvals_rect4 HS (le_n 2) N3 _ _)).
  - intros xa xb xr [[= <- <- _]|[[= <- <- _]|[]]]; (split; [discriminate|intros Hb; discriminate Hb]).
  - constructor; [exact A2|]. constructor; [exact B2|]. constructor.
Qed.
(** C100: the example files are of the required form. *)
Example C100_example : uncs_file exfloat exint 3 exvs 9 exuncs.
Proof.
  assert (D : forall w, forallb (fun c => negb (space c)) w = true -> w <> [] -> is_word w). { intros w Hw Hn. split; [auto|]. intros c Hc. rewrite forallb_forall in Hw. specialize (Hw c Hc). destruct (space c); auto; discriminate. }
  assert (W1 : forall w, forallb (fun c => negb (space c)) w = true -> w <> [] -> words w [w]). { intros w Hw Hn. apply (words_last []); [intros c []|auto]. }
  assert (W2 : forall w rest ws, forallb (fun c => negb (space c)) w = true -> w <> [] -> words rest ws -> words (w ++ " "%char :: rest) (w :: ws)). { intros w rest ws Hw Hn Hr. apply (words_cons []); [intros c []|auto|reflexivity|auto]. }
  exists (tx "reference"), (tx "3"), [(tx "covariate 1 MA:", tx "4 2"); (tx "covariate 2 R:", tx " 6 ")], (tx "K"), (tx "9"), (tx "3"), (tx "9").
  split; [reflexivity|]. split; [apply W1; [reflexivity|discriminate]|]. split; [reflexivity|]. split; [apply W1; [reflexivity|discriminate]|]. split; [reflexivity|].
  constructor; [|constructor; [|constructor]]; cbn [fst snd].
  - exists (tx "MA"), ":"%char. split.
    + exists (tx "covariate"), (tx "1"), []. apply (W2 (tx "covariate") (tx "1 MA:")); [reflexivity|discriminate|]. apply (W2 (tx "1") (tx "MA:")); [reflexivity|discriminate|]. apply W1; [reflexivity|discriminate].
    + right. right. split; [reflexivity|]. split; [reflexivity|]. split; [reflexivity|]. exists (tx "4"), (tx "2"), []. split; [|split; reflexivity]. apply (W2 (tx "4") (tx "2")); [reflexivity|discriminate|]. apply W1; [reflexivity|discriminate].
  - exists (tx "R"), ":"%char. split.
    + exists (tx "covariate"), (tx "2"), []. apply (W2 (tx "covariate") (tx "2 R:")); [reflexivity|discriminate|]. apply (W2 (tx "2") (tx "R:")); [reflexivity|discriminate|]. apply W1; [reflexivity|discriminate].
    + left. split; [reflexivity|]. split; [reflexivity|]. split; [reflexivity|]. split; [reflexivity|]. exists (tx "6"). split; [|reflexivity].
      apply (words_cons [" "%char] (tx "6") " "%char [] []); [intros c [<-|[]]; reflexivity|apply D; [reflexivity|discriminate]|reflexivity|]. apply words_nil. intros c [].
Qed.

(** C102: tables with series of different sizes, or without an averaged covariate, are not converted. *)
Theorem C102_different_sizes_refuted : exists vals pams uncs im ns atrue uref vs k,
  open_data_pams exfloat exint pams = Ok (im, ns, atrue) /\ open_data_uncs exfloat exint uncs = Ok (uref, vs, k) /\ length vals = rows_before ns (length ns) /\ (forall r, In r vals -> length r = 2 * length vs + 1) /\
  (exists v, In v vs /\ v_type v = 3 /\ (0 < v_nW v)%Z) /\ forall d, ~ exists r, run_conversion exfloat exint vals pams uncs d = Ok r.
Proof.
  destruct exim_ok as (N1 & N2 & N3), exvs_ok as (V1 & V2 & V3).
  exists (exvals ++ [exrow 4]), (expams "2" "3"), exuncs, exim, [2; 3]%Z, [[7]; [8]]%R, 3%R, exvs, 9%R. split; [exact expams23|]. split; [exact exuncs_read|]. split; [reflexivity|]. split; [exact exvals_rect|].
  split; [exists (mkUvar 4 0 2 3); split; [left; reflexivity|cbn; split; [reflexivity|lia]]|].
  intros dir ((d & at_) & HR). assert (Ha := proj1 (C98_files_hold_the_rows exfloat exint _ 5 _ _ _ _ _ _ _ _ _ _ _ expams23 exuncs_read exvals_rect HR)). subst at_.
  destruct (proj1 (C101_converted_iff exfloat exint (exvals ++ [exrow 4]) 5 _ _ dir _ _ _ _ _ _ expams23 exuncs_read exvals_rect ltac:(cbn; lia) ltac:(cbn; lia) N3 eq_refl ltac:(intros z [<-|[<-|[]]]; lia) ltac:(cbn; lia) N2 N1 V1 V2) (ex_intro _ d HR)) as (_ & Hsz).
  destruct (Hsz 0 1 2%Z 3%Z ltac:(lia) eq_refl eq_refl); lia.
Qed.
Theorem C102_no_averages_refuted : forall pyfloat pyint vals pams uncs dir uref vs k, open_data_uncs pyfloat pyint uncs = Ok (uref, vs, k) -> (forall v, In v vs -> v_type v <> 3) ->
  ~ exists r, run_conversion pyfloat pyint vals pams uncs dir = Ok r.
Proof.
  intros pyfloat pyint vals pams uncs dir uref vs k E Hv ((d & at_) & HR). unfold run_conversion in HR. destruct (open_data_pams pyfloat pyint pams) as [[[im ns] at']|] eqn:E1; cbn [bind] in HR; [|discriminate]. rewrite E in HR. cbn [bind] in HR.
  match type of HR with (if ?b then _ else _) = _ => destruct b end; [discriminate|]. destruct (foldM _ (combine im ns) _) as [st|]; cbn [bind] in HR; [|discriminate].
  unfold make_w in HR. replace (filter (fun v => v_type v =? 3) vs) with (@nil uvar) in HR; [discriminate|]. symmetry. clear -Hv. induction vs as [|v vs IH]; [reflexivity|]. cbn.
  destruct (Nat.eqb_spec (v_type v) 3) as [E|_]; [exfalso; apply (Hv v); [left; auto|auto]|]. apply IH. intros x Hx. apply Hv. right. auto.
Qed.
(** An uncertainty file without averages, of the required form (C100). *)
Example C102_example : open_data_uncs exfloat exint (map tx ["reference"; "3"; "covariate 2 R:"; "6"; "K"; "9"]%string) = Ok (3%R, [mkUvar 6 0 0 1], 9%R).
Proof. reflexivity. Qed.

(** C104: series of one match-up followed by series of three are converted, but the files get a W matrix of three rows. *)
Theorem C104_wrong_matrix_size_refuted : exists vals pams uncs d im ns atrue uref vs k i a b f,
  open_data_pams exfloat exint pams = Ok (im, ns, atrue) /\ open_data_uncs exfloat exint uncs = Ok (uref, vs, k) /\ run_conversion exfloat exint vals pams uncs [] = Ok (d, atrue) /\
  nth_error im i = Some [a; b] /\ find_file (file_name [a; b]) d = Some f /\ ~ represents_averages vs a f.
Proof.
  destruct exim_ok as (N1 & N2 & N3), exvs_ok as (V1 & V2 & V3).
  assert (HS : exists d, run_conversion exfloat exint exvals (expams "1" "3") exuncs [] = Ok (d, [[7]; [8]]%R)).
  { apply (proj2 (C101_converted_iff exfloat exint exvals 5 _ _ _ _ _ _ _ _ _ expams13 exuncs_read exvals_rect4 ltac:(cbn; lia) ltac:(cbn; lia) N3 eq_refl ltac:(intros z [<-|[<-|[]]]; lia) ltac:(cbn; lia) N2 N1 V1 V2)).
    split; [exact V3|]. intros [|[|i]] [|[|j]] a b Hij; cbn; intros Ha Hb; try lia; try (destruct i; discriminate); try (destruct j; discriminate); left; congruence. }
  destruct HS as (d & HS).
  destruct (proj2 (proj2 (C98_files_hold_the_rows exfloat exint _ 5 _ _ _ _ _ _ _ _ _ _ _ expams13 exuncs_read exvals_rect4 HS)) 0 _ _ eq_refl eq_refl) as (a & b & rest & f & A1 & A2 & A3 & A4). injection A1 as <- <- _.
  exists exvals, (expams "1" "3"), exuncs, d, exim, [1; 3]%Z, [[7]; [8]]%R, 3%R, exvs, 9%R, 0, (tx "0"), (tx "1"), f. split; [exact expams13|]. split; [exact exuncs_read|]. split; [exact HS|]. split; [reflexivity|]. split; [exact A3|].
  exact (conv_wrong_size exfloat exint _ 5 _ _ _ _ _ _ _ _ _ _ _ expams13 exuncs_read exvals_rect4 HS eq_refl 0 [tx "1"] 1%Z 3%Z f (tx "0") eq_refl eq_refl eq_refl ltac:(lia) A3).
Qed.
(** Averaged covariates with different uncertainties are converted (the check for this case is only done for different kernels), all with the first one. *)
Definition exuncs2 : list text := map tx ["reference"; "3"; "covariate 1 MA:"; "4 2"; "covariate 2 MA:"; "6 2"; "K"; "9"]%string.
Definition exvs2 : list uvar := [mkUvar 4 0 2 3; mkUvar 6 0 2 3].
Lemma exuncs2_read : open_data_uncs exfloat exint exuncs2 = Ok (3%R, exvs2, 9%R).
Proof. reflexivity. Qed.
Theorem C104_wrong_uncertainty_refuted : exists vals pams uncs d im ns atrue uref vs k,
  open_data_pams exfloat exint pams = Ok (im, ns, atrue) /\ open_data_uncs exfloat exint uncs = Ok (uref, vs, k) /\ run_conversion exfloat exint vals pams uncs [] = Ok (d, atrue) /\ (forall z, In z ns -> z = 2%Z) /\
  forall names a f, In (a :: names) im -> find_file (file_name (a :: names)) d = Some f -> ~ represents_averages vs a f.
Proof.
  destruct exim_ok as (N1 & N2 & N3).
  assert (V1 : forall v, In v exvs2 -> v_type v = 3 -> (0 < v_nW v)%Z) by (intros v [<-|[<-|[]]]; cbn; lia).
  assert (V2 : one_kernel exvs2) by (left; intros v v' [<-|[<-|[]]] [<-|[<-|[]]]; cbn; lia).
  assert (HS : exists d, run_conversion exfloat exint exvals (expams "2" "2") exuncs2 [] = Ok (d, [[7]; [8]]%R)).
  { apply (proj2 (C101_converted_iff exfloat exint exvals 5 _ _ _ _ _ _ _ _ _ expams22 exuncs2_read exvals_rect4 ltac:(cbn; lia) ltac:(cbn; lia) N3 eq_refl ltac:(intros z [<-|[<-|[]]]; lia) ltac:(cbn; lia) N2 N1 V1 V2)).
    split; [exists (mkUvar 4 0 2 3); split; [left|]; reflexivity|]. intros [|[|i]] [|[|j]] a b Hij; cbn; intros Ha Hb; try lia; try (destruct i; discriminate); try (destruct j; discriminate); right; congruence. }
  destruct HS as (d & HS). exists exvals, (expams "2" "2"), exuncs2, d, exim, [2; 2]%Z, [[7]; [8]]%R, 3%R, exvs2, 9%R. split; [exact expams22|]. split; [exact exuncs2_read|]. split; [exact HS|]. split; [intros z [<-|[<-|[]]]; reflexivity|].
  intros names a f Hin Hf. refine (conv_wrong_uncertainty exfloat exint _ 5 _ _ _ _ _ _ _ _ _ _ _ expams22 exuncs2_read exvals_rect4 HS eq_refl names f a (mkUvar 4 0 2 3) (mkUvar 6 0 2 3) _ _ eq_refl eq_refl _ Hin Hf); [left; reflexivity|right; left; reflexivity|cbn; lra].
Qed.

(** C105: rows beyond the announced numbers of match-ups are dropped without notice. *)
Theorem C105_surplus_rows_refuted : forall pyfloat pyint vals w pams uncs dir r extra, (forall x, In x vals -> length x = w) -> 1 < length vals ->
  run_conversion pyfloat pyint vals pams uncs dir = Ok r -> run_conversion pyfloat pyint (vals ++ extra) pams uncs dir = Ok r.
Proof. exact conv_extra. Qed.

Print Assumptions C98_files_hold_the_rows.
Print Assumptions C99_converted_files_readable.
Print Assumptions C100_uncertainty_file_read.
Print Assumptions C100_parameter_file_read.
Print Assumptions C101_converted_iff.
Print Assumptions C102_different_sizes_refuted.
Print Assumptions C102_no_averages_refuted.
Print Assumptions C103_averages_represented.
Print Assumptions C104_wrong_matrix_size_refuted.
Print Assumptions C104_wrong_uncertainty_refuted.
Print Assumptions C105_surplus_rows_refuted.
