(** * Proofs for C152 and C153: importing sensor data, coefficient tables. *)
From Coq Require Import Reals Lra.
From Verif Require Import Base BaseLemmas ReaderModel ReaderProofs SensorModel EvalModel InstModel HRModel HRText PmhModel PmhProofs SdModel SdSpec.
Open Scope nat_scope.

(** ** Importing *)
Section Import.
Context {D : Type}.
Lemma open_fresh (fs : disk (D := D)) s dir name d : lookup name (sys_modules s) = None -> fs dir name = Some d -> open_sensor_data fs s dir name = Ok (d, mkInterp ((name, d) :: sys_modules s) (dir :: sys_path s)).
Proof. intros H F. unfold open_sensor_data, import_module. cbn [sys_modules sys_path find]. rewrite H, F. rewrite F. reflexivity. Qed.
Theorem opens_own (calls : list (disk (D := D) * (string * string))) : forall s ds, NoDup (map call_name calls) -> (forall c, In c calls -> lookup (call_name c) (sys_modules s) = None) -> Forall2 gives calls ds -> opens s calls = map Ok ds.
Proof.
  induction calls as [|(fs, (dir, name)) calls IH]; intros s ds ND FR G; inversion G as [|c d cs ds' G1 G2]; subst; [reflexivity|]. cbn [opens map]. unfold gives in G1. cbn [fst snd] in G1.
  rewrite (open_fresh fs s dir name d (FR _ (or_introl eq_refl)) G1). f_equal. cbn [map] in ND. inversion ND as [|? ? N1 N2]; subst. apply IH; auto. intros c Hc. cbn [sys_modules lookup].
  destruct (String.eqb_spec name (call_name c)) as [E|E]; [exfalso; apply N1; change (call_name (fs, (dir, name))) with name; rewrite E; apply in_map; exact Hc|]. apply FR. right. exact Hc.
Qed.
Lemma open_kept (fs : disk (D := D)) s dir name r : open_sensor_data fs s dir name = Ok r -> forall n d, lookup n (sys_modules s) = Some d -> lookup n (sys_modules (snd r)) = Some d.
Proof.
  unfold open_sensor_data, import_module. cbn [sys_modules sys_path]. intros H n d Hn. destruct (lookup name (sys_modules s)) as [d0|] eqn:E; [injection H as <-; exact Hn|].
  destruct (find _ _) as [p|]; [|discriminate]. destruct (fs p name); [|discriminate]. injection H as <-. cbn [snd sys_modules lookup]. destruct (String.eqb_spec name n) as [-> |]; [congruence|exact Hn].
Qed.
Lemma open_stored (fs : disk (D := D)) s dir name d s' : open_sensor_data fs s dir name = Ok (d, s') -> lookup name (sys_modules s') = Some d.
Proof.
  unfold open_sensor_data, import_module. cbn [sys_modules sys_path]. intros H. destruct (lookup name (sys_modules s)) as [d0|] eqn:E; [injection H as <- <-; exact E|].
  destruct (find _ _) as [p|]; [|discriminate]. destruct (fs p name); [|discriminate]. injection H as <- <-. cbn [sys_modules lookup]. rewrite String.eqb_refl. reflexivity.
Qed.
Lemma opens_cached (calls : list (disk (D := D) * (string * string))) : forall s name d, lookup name (sys_modules s) = Some d -> forall j c, nth_error calls j = Some c -> call_name c = name -> nth_error (opens s calls) j = Some (Ok d).
Proof.
  induction calls as [|(fs, (dir, n)) calls IH]; intros s name d H [|j] c Hj Hc; try discriminate; cbn [opens].
  - injection Hj as <-. unfold call_name in Hc. cbn in Hc. subst n. unfold open_sensor_data, import_module. cbn [sys_modules sys_path]. rewrite H. reflexivity.
  - cbn [nth_error] in Hj. destruct (open_sensor_data fs s dir n) as [(d' & s')|] eqn:E; cbn [nth_error].
    + apply (IH s' name d) with (c := c); auto. exact (open_kept _ _ _ _ _ E _ _ H).
    + apply (IH _ name d) with (c := c); auto.
Qed.
Theorem opens_first (calls : list (disk (D := D) * (string * string))) : forall s i j ci cj d, nth_error calls i = Some ci -> nth_error calls j = Some cj -> i < j -> call_name ci = call_name cj -> nth_error (opens s calls) i = Some (Ok d) -> nth_error (opens s calls) j = Some (Ok d).
Proof.
  induction calls as [|(fs, (dir, n)) calls IH]; intros s i j ci cj d Hi Hj L E R; [destruct i; discriminate|]. destruct j as [|j]; [lia|]. cbn [nth_error opens] in *. destruct i as [|i].
  - injection Hi as <-. unfold call_name in E. cbn in E. destruct (open_sensor_data fs s dir n) as [(d' & s')|] eqn:EO; cbn [nth_error] in *; [|discriminate]. injection R as ->. apply (opens_cached calls s' n d (open_stored _ _ _ _ _ _ EO) j cj Hj). symmetry. exact E.
  - destruct (open_sensor_data fs s dir n) as [(d' & s')|]; cbn [nth_error] in *; [eapply (IH s' i j ci cj)|eapply (IH _ i j ci cj)]; try eassumption; lia.
Qed.
(** A file that does not exist: one of the same name in a directory used before is taken. *)
Theorem opens_elsewhere (fs : disk (D := D)) s dir dir' name d : lookup name (sys_modules s) = None -> fs dir name = None -> sys_path s = [dir'] -> fs dir' name = Some d ->
  open_sensor_data fs s dir name = Ok (d, mkInterp ((name, d) :: sys_modules s) [dir; dir']).
Proof. intros H F P F'. unfold open_sensor_data, import_module. cbn [sys_modules sys_path find]. rewrite H, F, P. cbn [find]. rewrite F'. rewrite F'. reflexivity. Qed.
End Import.

(** ** Coefficients *)
Section Coeff.
Context {T : Type} (pyfloat : text -> res R).
Lemma dget_dset {A} (d : list (text * A)) k v n : dget (dset d k v) n = if teqb k n then Ok v else dget d n.
Proof.
  unfold dget. induction d as [|(k', v') d IH]; cbn [dset find fst]; [destruct (teqb k n); reflexivity|].
  destruct (teqb_spec k' k) as [-> |Hn]; cbn [find fst].
  - destruct (teqb k n); reflexivity.
  - destruct (teqb_spec k' n) as [-> |Hn']; [|exact IH]. destruct (teqb_spec k n); [congruence|reflexivity].
Qed.
Definition stored (rows : list (text * list R)) (d : list (text * list R)) := fold_left (fun d r => dset d (fst r) (snd r)) rows d.
Lemma line_ok k l r d : 1 <= k -> coeff_row pyfloat l r -> coeff_line pyfloat d (k, l) = Ok (dset d (fst r) (snd r)).
Proof.
  intros Hk (w1 & w2 & w3 & rest & x1 & x2 & x3 & E & E1 & E2 & E3 & EC). unfold coeff_line. cbn [fst snd]. destruct k as [|k]; [lia|]. cbn [Nat.eqb]. rewrite E.
  cbn [get nth_error bind]. change (slice 1 4 (fst r :: w1 :: w2 :: w3 :: rest)) with [w1; w2; w3]. cbn [mapM]. rewrite E1, E2, E3. cbn [bind]. rewrite EC. reflexivity.
Qed.
Lemma lines_ok lines : forall k rows d, 1 <= k -> Forall2 (coeff_row pyfloat) lines rows -> foldM (coeff_line pyfloat) (combine (seq k (length lines)) lines) d = Ok (stored rows d).
Proof.
  induction lines as [|l lines IH]; intros k rows d Hk H; inversion H as [|? r ? rows' H1 H2]; subst; [reflexivity|]. cbn [length seq combine foldM]. rewrite (line_ok k l r d Hk H1). change (stored (r :: rows') d) with (stored rows' (dset d (fst r) (snd r))). apply IH; [lia|exact H2].
Qed.
Lemma stored_last rows : forall d n, (In n (map fst rows) -> exists c, last_given rows n c /\ dget (stored rows d) n = Ok c) /\ (~ In n (map fst rows) -> dget (stored rows d) n = dget d n).
Proof.
  induction rows as [|(k, v) rows IH]; intros d n; [split; [intros []|reflexivity]|]. cbn [map fst]. change (stored ((k, v) :: rows) d) with (stored rows (dset d k v)). destruct (IH (dset d k v) n) as (I1 & I2).
  destruct (in_dec (list_eq_dec Ascii.ascii_dec) n (map fst rows)) as [Hi|Hi].
  - split; [|intros H; exfalso; apply H; right; exact Hi]. intros _. destruct (I1 Hi) as (c & (i & L1 & L2) & L3). exists c. split; [|exact L3]. exists (S i). split; [exact L1|]. intros [|j] c' Hj; [lia|]. apply L2. lia.
  - rewrite (I2 Hi), dget_dset. destruct (teqb_spec k n) as [-> |Hn].
    + split; [|intros H; exfalso; apply H; left; reflexivity]. intros _. exists v. split; [|reflexivity]. exists 0. split; [reflexivity|]. intros [|j] c' Hj E; [lia|]. cbn in E. apply Hi. apply nth_error_In in E. apply (in_map fst) in E. exact E.
    + split; [intros [E|E]; contradiction|]. reflexivity.
Qed.
Lemma read_ok header lines rows : Forall2 (coeff_row pyfloat) lines rows -> read_coeff_data pyfloat (header :: lines) = Ok (stored rows []).
Proof. intros H. unfold read_coeff_data, enumerate. cbn [length seq combine foldM]. unfold coeff_line at 1. cbn [fst Nat.eqb]. apply lines_ok; [lia|exact H]. Qed.
Theorem hirs_ok header lines rows : Forall2 (coeff_row pyfloat) lines rows -> (forall s, In s hirs_sensors -> In (tx s) (map fst rows)) ->
  exists t, hirs_table (T := T) pyfloat (header :: lines) = Ok t /\ map fst t = "iasi"%string :: hirs_sensors /\ forall s, In s hirs_sensors -> exists c, last_given rows (tx s) c /\ lookup s t = Some (hirs_entry c).
Proof.
  intros H HS. unfold hirs_table. rewrite (read_ok header lines rows H). cbn [bind].
  assert (Q : forall l, (forall s, In s l -> In (tx s) (map fst rows)) -> exists t, mapM (fun s => do c <- dget (stored rows []) (tx s);; Ok (s, hirs_entry (T := T) c)) l = Ok t /\ map fst t = l /\
     forall s, In s l -> exists c, last_given rows (tx s) c /\ lookup s t = Some (hirs_entry c)).
  { induction l as [|s l IH]; intros Hl; [exists []; split; [reflexivity|split; [reflexivity|intros s []]]|]. destruct IH as (t & E & M & L); [intros; apply Hl; right; assumption|].
    destruct (proj1 (stored_last rows [] (tx s)) (Hl s (or_introl eq_refl))) as (c & L1 & L2). cbn [mapM]. rewrite L2. cbn [bind]. rewrite E. eexists. split; [reflexivity|]. cbn [map fst]. split; [f_equal; exact M|].
    intros s' Hs. cbn [lookup]. destruct (String.eqb_spec s s') as [<- |Hn]; [exists c; auto|]. destruct Hs as [Hs|Hs]; [congruence|]. apply L. exact Hs. }
  destruct (Q hirs_sensors HS) as (t & E & M & L). rewrite E. cbn [bind]. eexists. split; [reflexivity|]. cbn [map fst]. split; [f_equal; exact M|]. intros s Hs. cbn [lookup].
  destruct (String.eqb_spec "iasi" s) as [<- |Hn]; [exfalso; cbn in Hs; repeat (destruct Hs as [Hs|Hs]; [discriminate|]); exact Hs|]. apply L. exact Hs.
Qed.
Theorem hirs_missing header lines rows : Forall2 (coeff_row pyfloat) lines rows -> (exists s, In s hirs_sensors /\ ~ In (tx s) (map fst rows)) -> hirs_table (T := T) pyfloat (header :: lines) = Raise KeyError.
Proof.
  intros H (s & Hs & HN). unfold hirs_table. rewrite (read_ok header lines rows H). cbn [bind].
  assert (G : forall s, ~ In (tx s) (map fst rows) -> dget (stored rows []) (tx s) = Raise KeyError) by (intros s0 H0; rewrite (proj2 (stored_last rows [] (tx s0)) H0); reflexivity).
  assert (Q : forall l, In s l -> mapM (fun s => do c <- dget (stored rows []) (tx s);; Ok (s, hirs_entry (T := T) c)) l = Raise KeyError); [|rewrite Q; [reflexivity|exact Hs]].
  induction l as [|s' l IH]; intros Hl; [destruct Hl|]. cbn [mapM]. destruct (in_dec (list_eq_dec Ascii.ascii_dec) (tx s') (map fst rows)) as [Hi|Hi]; [|rewrite (G s' Hi); reflexivity].
  destruct (proj1 (stored_last rows [] (tx s')) Hi) as (c & _ & L2). rewrite L2. cbn [bind]. destruct Hl as [-> |Hl]; [contradiction|]. rewrite (IH Hl). reflexivity.
Qed.
Theorem hirs_blank header lines rows l rest : Forall2 (coeff_row pyfloat) lines rows -> split l = [] -> hirs_table (T := T) pyfloat (header :: lines ++ l :: rest) = Raise IndexError.
Proof.
  intros H E. unfold hirs_table, read_coeff_data, enumerate. cbn [length seq combine foldM]. unfold coeff_line at 1. cbn [fst Nat.eqb].
  assert (Q : forall k d, 1 <= k -> foldM (coeff_line pyfloat) (combine (seq k (length (lines ++ l :: rest))) (lines ++ l :: rest)) d = Raise IndexError); [|rewrite Q by lia; reflexivity].
  revert rows H. induction lines as [|l' lines IH]; intros rows H k d Hk.
  - cbn [app length seq combine foldM]. unfold coeff_line. cbn [fst snd]. destruct k as [|k]; [lia|]. cbn [Nat.eqb]. rewrite E. reflexivity.
  - inversion H as [|? r ? rows' H1 H2]; subst. cbn [app length seq combine foldM]. rewrite (line_ok k l' r d Hk H1). apply (IH rows' H2). lia.
Qed.
End Coeff.
