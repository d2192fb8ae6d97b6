(** * C148-C153: registered sensor data, with converted files and by itself. *)
From Coq Require Import Reals Lra Permutation QArith.
From Verif Require Import Base BaseLemmas ReaderModel ReaderSpec UncModel SensorModel SensorSpec MuModel SampleModel SampleSpec TransformModel TransformSpec EvalModel EvalSpec GNModel PCModel PCSpec LsmrModel EivModel EivSpec CheckModel CheckSpec WModel
  InstModel HRModel PmhModel AvModel AvSpec PropertiesAv IOModel IOSpec FullModel FullSpec FullProofs5 FullProofs6 Routines PropertiesFull ConvModel ConvSpec ConvSpec2 PropertiesConv SdModel SdSpec SdProofs2 SdProofs3 SdProofs5 SdProofs6 SdProofs7 GNSpec.
Open Scope nat_scope.

Section Avhrr.
Context {T : Type} (torad : option string -> list fl -> res (list fl)) (trunc : R -> Z).
Context (nanV : R) (zeroT : T) (f32 i32 : R -> R) (todate : R -> T) (isfill : R -> bool) (ord : list string -> list string) (ordn : list nat -> list nat).
Variables (cholesky : list (list R) -> res (list (list R))) (solve : list (list R) -> list R -> res (list R))
          (least_squares : nat -> solver T -> list (list R) -> list R -> res (list (list R) * list R))
          (qr_R lstsq_eye : list (list R) -> res (list (list R))) (smp : nat -> list nat -> nat -> list nat).
Variables (tolA tolB eps tol : R) (xs : list vec).
Notation open_matchup := (open_matchup nanV zeroT f32 i32 todate isfill ord ordn).
Notation harmonise := (harmonise zeroT cholesky solve least_squares qr_R lstsq_eye smp tolA tolB eps tol xs).
Notation precondition := (precondition zeroT cholesky solve least_squares qr_R lstsq_eye smp).
Notation converted := (avhrr_converted torad f32 trunc nanV).

Lemma some_rows (F0 : f32 0%R = 0%R) four gs : gs <> [] -> (forall g, In g gs -> converted four g) -> exists f M, In f gs /\ size f "M" M /\ 1 <= M.
Proof.
  intros NE H. destruct gs as [|g gs]; [congruence|]. destruct (converted_brought torad f32 trunc nanV F0 four g (H g (or_introl eq_refl))) as (ref & n1 & n2 & M & t1 & B & _). exists g, M. split; [left; reflexivity|]. split; [exact (br_M _ _ _ _ _ _ _ B)|exact (br_pos _ _ _ _ _ _ _ B)].
Qed.
Lemma all_usable (F0 : f32 0%R = 0%R) four gs : (forall g, In g gs -> converted four g) -> (forall g, In g gs -> check g = Ok []) -> forall g, In g gs -> FullSpec.usable g /\ rows_filled g.
Proof. intros H HC g Hg. destruct (converted_brought torad f32 trunc nanV F0 four g (H g Hg)) as (ref & n1 & n2 & M & t1 & B & _). split; [apply (br_usable _ _ _ _ _ _ _ B), HC, Hg|exact (br_filled _ _ _ _ _ _ _ B)]. Qed.

(** ** C148 *)
(** Match-ups of ATSRs and AVHRRs converted with four quantities, if the checker accepts them, can be opened with the registered three-parameter sensor data and harmonised. *)
Theorem C148_avhrr_end_to_end : f32 0%R = 0%R -> (forall l, Permutation (ordn l) l) -> cholesky_total cholesky -> (0 <= tolA)%R ->
  forall k gs, k = A3 \/ k = A3_scaled -> gs <> [] -> (forall g, In g gs -> converted true g) -> (forall g, In g gs -> check g = Ok []) ->
  exists m sd, open_matchup (dict_of (avhrr_table k)) gs = Ok (m, sd) /\
  forall save a V, length a = length (sd_a T sd) -> spd V (length a) ->
  exists d L, tn_run T m = Ok d /\ cholesky V = Ok L /\ cholesky_factor L V (length a) /\
    harmonised eps xs tol save m (start sd d a L) (harmonise m sd save (Some (a, V))).
Proof.
  intros F0 PM CT HA k gs Hk NE CV HC. pose proof (all_usable F0 true gs CV HC) as AU.
  apply (C118_files_to_result nanV zeroT f32 i32 todate isfill ord ordn cholesky solve least_squares qr_R lstsq_eye smp tolA tolB eps tol xs PM CT HA (dict_of (avhrr_table k)) gs).
  - intros f Hf. apply AU. exact Hf.
  - exact (converted_agree torad f32 trunc nanV F0 true gs CV).
  - exact (converted_describes torad f32 trunc nanV F0 k gs Hk CV).
  - exact (some_rows F0 true gs NE CV).
Qed.

(** ** C149 *)
(** The same with the program's own preconditioner. *)
Theorem C149_avhrr_preconditioned : f32 0%R = 0%R -> (forall l, Permutation (ordn l) l) -> cholesky_total cholesky -> solve_exact solve -> least_squares_total least_squares ->
  (forall J, exists x, qr_R J = Ok x) -> qr_exact qr_R -> (forall M, exists x, lstsq_eye M = Ok x) -> lstsq_exact lstsq_eye -> is_sample smp -> (0 <= tolA)%R ->
  forall k gs, k = A3 \/ k = A3_scaled -> gs <> [] -> (forall g, In g gs -> converted true g) -> (forall g, In g gs -> check g = Ok []) ->
  exists m sd s d' a V st kk Ja, open_matchup (dict_of (avhrr_table k)) gs = Ok (m, sd) /\ precondition m sd = Ok (a, V) /\ length a = length (sd_a T sd) /\
    sample2ind R T 0%R zeroT rms_u smp m (1 # 10)%Q 100000%Z = Ok s /\ tn_run T s = Ok d' /\
    g_m T st = d' /\ g_sd T st = sd /\ g_xyza T st = m_values R T d' ++ a /\ pc_kJ T st = Ok (kk, Ja) /\ length Ja = length a /\
    (independent_columns Ja (list_sum (Nm (m_idx R T s))) ->
     spd V (length a) /\ forall save, exists d L, tn_run T m = Ok d /\ cholesky V = Ok L /\ cholesky_factor L V (length a) /\
       harmonised eps xs tol save m (start sd d a L) (harmonise m sd save None)).
Proof.
  intros F0 PM CT SE LT QT QE LQ LE IS HA k gs Hk NE CV HC. pose proof (all_usable F0 true gs CV HC) as AU.
  apply (C119_own_preconditioner nanV zeroT f32 i32 todate isfill ord ordn cholesky solve least_squares qr_R lstsq_eye smp tolA tolB eps tol xs PM CT SE LT QT QE LQ LE IS HA (dict_of (avhrr_table k)) gs).
  - intros f Hf. apply AU. exact Hf.
  - intros f Hf. apply AU. exact Hf.
  - exact (converted_agree torad f32 trunc nanV F0 true gs CV).
  - exact (converted_describes torad f32 trunc nanV F0 k gs Hk CV).
  - exact (some_rows F0 true gs NE CV).
Qed.

(** ** C150 *)
(** With the six other registered AVHRR sensor data the same files open, but no harmonisation gives a result. *)
Theorem C150_other_models_refuted : f32 0%R = 0%R -> (forall l, Permutation (ordn l) l) -> cholesky_total cholesky -> (0 <= tolA)%R ->
  forall k four gs, k <> A3 -> k <> A3_scaled -> gs <> [] -> (forall g, In g gs -> converted four g) -> (forall g, In g gs -> check g = Ok []) ->
  exists m sd, open_matchup (dict_of (avhrr_table k)) gs = Ok (m, sd) /\
  forall save a V, length a = length (sd_a T sd) -> spd V (length a) -> harmonise m sd save (Some (a, V)) = Raise TypeError.
Proof.
  intros F0 PM CT HA k four gs K1 K2 NE CV HC. pose proof (all_usable F0 four gs CV HC) as AU.
  destruct (six_raise torad nanV zeroT f32 i32 trunc todate isfill ord ordn F0 cholesky tolA tolB eps tol xs PM CT HA k four gs K1 K2 NE CV (fun g Hg => proj1 (AU g Hg)) (some_rows F0 four gs NE CV)) as (m & sd & E & H).
  exists m, sd. split; [exact E|]. intros save a V La SV. unfold FullModel.harmonise. cbn [bind]. exact (H save a V La SV).
Qed.
End Avhrr.
Print Assumptions C148_avhrr_end_to_end.
Print Assumptions C149_avhrr_preconditioned.
Print Assumptions C150_other_models_refuted.

(** The example of PropertiesAv: two AVHRRs (NOAA-19 and NOAA-18), the files without systematic effects. *)
Lemma exav_converted j : j = 2 \/ j = 3 -> exists g, avhrr_converted exrad (fun x => x) (fun _ => 0%Z) 0%R (Nat.even j) g /\ check g = Ok [].
Proof.
  intros Hj. destruct (exav_files false) as (files & E & L). destruct (nth_error files j) as [o|] eqn:Eo; [|apply nth_error_None in Eo; lia].
  assert (Hm : (if Nat.even j then 4 else 5) = 4 \/ (if Nat.even j then 4 else 5) = 5) by (destruct (Nat.even j); auto).
  destruct (C146_avhrr_structured exrad (fun x => x) (fun _ => 0%Z) 0%R _ _ _ _ _ _ false [0; 2] files j o (exav_good false) (exav_ref false) (exav_kept false) E eq_refl ltac:(lia) Eo (exav_positive false _ Hm)) as (g & EG & HC).
  exists g. split; [|exact HC]. exists (exav false), 2, 2, 11%Z, (map Some [280; 290; 300]%R), (Some (map Some [281; 291; 301]%R)), false, files, j, o.
  split; [apply exav_good|]. split; [apply exav_ref|]. split; [split; cbn; tauto|]. auto.
Qed.
Example C148_example : exists g m sd, avhrr_converted exrad (fun x => x) (fun _ => 0%Z) 0%R true g /\ check g = Ok [] /\
  open_matchup (T := nat) 0%R 0 (fun x => x) (fun x => x) (fun _ => 0) (fun _ => false) (fun l => l) (fun l => l) (dict_of (avhrr_table A3)) [g] = Ok (m, sd).
Proof.
  destruct (exav_converted 2 (or_introl eq_refl)) as (g & CV & HC). exists g.
  destruct (C148_avhrr_end_to_end (T := nat) exrad (fun _ => 0%Z) 0%R 0 (fun x => x) (fun x => x) (fun _ => 0) (fun _ => false) (fun l => l) (fun l => l) chol fsolve (fun _ _ _ a => Ok ([a], a)) qr lsq (fun _ l k => firstn k l) 1%R 1%R 1%R (1/1000)%R []
    eq_refl (fun l => Permutation_refl l) chol_total Rle_0_1 A3 [g] (or_introl eq_refl)) as (m & sd & E & _); [discriminate|intros x [<- |[]]; exact CV|intros x [<- |[]]; exact HC|]. exists m, sd. auto.
Qed.
Example C150_example : exists g, avhrr_converted exrad (fun x => x) (fun _ => 0%Z) 0%R false g /\ check g = Ok [] /\ A4 <> A3 /\ A4 <> A3_scaled.
Proof. destruct (exav_converted 3 (or_intror eq_refl)) as (g & CV & HC). exists g. split; [exact CV|]. split; [exact HC|]. split; discriminate. Qed.

(** ** C151 *)
(** Microwave files with good data are converted and accepted; with the registered microwave sensor data they can be opened unless a sensor is one of the MetOp satellites, *)
Theorem C151_microwave_partial : forall (T : Type) nanV (zeroT : T) f32 i32 todate isfill ord ordn toint ft trunc, (forall l, Permutation (ordn l) l) ->
  forall l : list (ncfile * mdata * (side -> instrument)), l <> [] ->
  (forall f p a, In (f, p, a) l -> base_file f p /\ (forall sd, mw_name (a sd) (p_name p sd)) /\ a Side2 <> Ref /\ 2 <= p_M p /\ (forall sd, p_m p sd = mw_covariates (a sd)) /\ mw_good p a) ->
  (forall f p a sd, In (f, p, a) l -> ~ In (p_name p sd) ["ma"; "mb"]%string) ->
  exists gs m sd, mapM (fun x => mw_file ft trunc (fst (fst x))) l = Ok gs /\ (forall g, In g gs -> check g = Ok []) /\ open_matchup nanV zeroT f32 i32 todate isfill ord ordn (dict_of (T := T) (mw_table toint)) gs = Ok (m, sd).
Proof.
  intros. destruct (mw_registered nanV zeroT f32 i32 todate isfill ord ordn toint ft trunc H l H0 H1) as (gs & E & HC & _ & HO). destruct (HO H2) as (m & sd & EO). exists gs, m, sd. auto.
Qed.
(** which the conversion tool calls "ma" and "mb" and the sensor data "A" and "B". *)
Theorem C151_metop_refuted : forall (T : Type) nanV (zeroT : T) f32 i32 todate isfill ord ordn toint ft trunc, (forall l, Permutation (ordn l) l) ->
  forall l : list (ncfile * mdata * (side -> instrument)), l <> [] ->
  (forall f p a, In (f, p, a) l -> base_file f p /\ (forall sd, mw_name (a sd) (p_name p sd)) /\ a Side2 <> Ref /\ 2 <= p_M p /\ (forall sd, p_m p sd = mw_covariates (a sd)) /\ mw_good p a) ->
  (exists f p a sd, In (f, p, a) l /\ In (p_name p sd) ["ma"; "mb"]%string) ->
  exists gs, mapM (fun x => mw_file ft trunc (fst (fst x))) l = Ok gs /\ (forall g, In g gs -> check g = Ok []) /\ open_matchup nanV zeroT f32 i32 todate isfill ord ordn (dict_of (T := T) (mw_table toint)) gs = Raise KeyError.
Proof.
  intros. destruct (mw_registered nanV zeroT f32 i32 todate isfill ord ordn toint ft trunc H l H0 H1) as (gs & E & HC & HO & _). exists gs. auto.
Qed.
Print Assumptions C151_microwave_partial.
Print Assumptions C151_metop_refuted.
(** Both cases among the files of C141: NOAA-18 and -19 open, NOAA-18 and MetOp-A do not. *)
Example C151_example : (forall f p a, In (f, p, a) cx_list -> base_file f p /\ (forall sd, mw_name (a sd) (p_name p sd)) /\ a Side2 <> Ref /\ 2 <= p_M p /\ (forall sd, p_m p sd = mw_covariates (a sd)) /\ mw_good p a) /\
  (forall f p a sd, In (f, p, a) (firstn 1 cx_list) -> ~ In (p_name p sd) ["ma"; "mb"]%string) /\ exists f p a sd, In (f, p, a) cx_list /\ In (p_name p sd) ["ma"; "mb"]%string.
Proof.
  split; [|split].
  - intros f p a Hi. cbn [cx_list map] in Hi. destruct Hi as [Hi|[Hi|[]]]; injection Hi as <- <- <-; (split; [apply cx_base|]; split; [intros [|]; cbn; tauto|]; split; [discriminate|]; split; [cbn; lia|]; split; [reflexivity|apply cx_good; discriminate]).
  - intros f p a sd Hi. cbn [cx_list map firstn] in Hi. destruct Hi as [Hi|[]]. injection Hi as <- <- <-. destruct sd; cbn; intuition discriminate.
  - do 4 eexists. split; [right; left; reflexivity|]. instantiate (1 := Side2). cbn. tauto.
Qed.

(** ** C152 *)
(** Sensor data files with different base names, none of them imported before: each call gives the data of its own file. *)
Theorem C152_own_data_partial : forall (D : Type) (calls : list (disk (D := D) * (string * string))) s ds, NoDup (map call_name calls) -> (forall c, In c calls -> lookup (call_name c) (sys_modules s) = None) -> Forall2 gives calls ds ->
  opens s calls = map Ok ds.
Proof. intros D calls s ds. apply opens_own. Qed.
(** Of files with one base name the first one opened is used for all, whatever the directory and the contents of the file at the later calls. *)
Theorem C152_first_file_refuted : forall (D : Type) (calls : list (disk (D := D) * (string * string))) s i j ci cj d, nth_error calls i = Some ci -> nth_error calls j = Some cj -> i < j -> call_name ci = call_name cj ->
  nth_error (opens s calls) i = Some (Ok d) -> nth_error (opens s calls) j = Some (Ok d).
Proof. intros D calls s i j ci cj d. apply opens_first. Qed.
(** A file that does not exist is replaced by one of the same base name in a directory used before. *)
Theorem C152_missing_file_refuted : forall (D : Type) (fs : disk (D := D)) s dir dir' name d, lookup name (sys_modules s) = None -> fs dir name = None -> sys_path s = [dir'] -> fs dir' name = Some d ->
  exists s', open_sensor_data fs s dir name = Ok (d, s').
Proof. intros D fs s dir dir' name d H1 H2 H3 H4. eexists. eapply opens_elsewhere; eassumption. Qed.
Print Assumptions C152_own_data_partial.
Print Assumptions C152_first_file_refuted.
Print Assumptions C152_missing_file_refuted.
Definition exdisk : disk (D := nat) := fun dir name => if String.eqb name "config" then (if String.eqb dir "/x" then Some 1 else if String.eqb dir "/y" then Some 2 else None) else if String.eqb dir "/y" then Some 3 else None.
Example C152_example : opens (mkInterp [] []) [(exdisk, ("/x", "config")); (exdisk, ("/y", "other")); (exdisk, ("/y", "config")); (exdisk, ("/x", "more"))]%string = [Ok 1; Ok 3; Ok 1; Ok 3].
Proof. reflexivity. Qed.

(** ** C153 *)
(** A table of coefficients with a row of at least three numbers for each sensor: every sensor gets those of its (last) row. *)
Theorem C153_coefficients : forall (T : Type) pyfloat header lines rows, Forall2 (coeff_row pyfloat) lines rows -> (forall s, In s hirs_sensors -> In (tx s) (map fst rows)) ->
  exists t, hirs_table (T := T) pyfloat (header :: lines) = Ok t /\ map fst t = "iasi"%string :: hirs_sensors /\ forall s, In s hirs_sensors -> exists c, last_given rows (tx s) c /\ lookup s t = Some (hirs_entry c).
Proof. intros T pyfloat header lines rows. apply hirs_ok. Qed.
(** Without a row for a sensor, or with an empty line, there is no sensor data. *)
Theorem C153_missing : forall (T : Type) pyfloat header lines rows, Forall2 (coeff_row pyfloat) lines rows -> (exists s, In s hirs_sensors /\ ~ In (tx s) (map fst rows)) -> hirs_table (T := T) pyfloat (header :: lines) = Raise KeyError.
Proof. intros T pyfloat header lines rows. apply hirs_missing. Qed.
Theorem C153_blank : forall (T : Type) pyfloat header lines rows l rest, Forall2 (coeff_row pyfloat) lines rows -> split l = [] -> hirs_table (T := T) pyfloat (header :: lines ++ l :: rest) = Raise IndexError.
Proof. intros T pyfloat header lines rows l rest. apply hirs_blank. Qed.
Print Assumptions C153_coefficients.
Print Assumptions C153_missing.
Print Assumptions C153_blank.
Definition exnum (w : text) : res R := if teqb w (tx "a") then Ok 1%R else if teqb w (tx "b") then Ok 2%R else Raise ValueError.
Example C153_example : exists t, hirs_table (T := nat) exnum (tx "sensor fstar" :: map (fun s => tx (s ++ "  a b b")) hirs_sensors ++ [tx "n19 b b b a"]) = Ok t /\
  lookup "n19"%string t = Some (hirs_entry [2; 2; 2]%R) /\ lookup "tn"%string t = Some (hirs_entry [1; 2; 2]%R).
Proof. eexists. split; [vm_compute; reflexivity|]. split; reflexivity. Qed.
