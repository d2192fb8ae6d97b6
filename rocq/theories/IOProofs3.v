(** * Proofs for C107, C108: reading files. *)
From Coq Require Import Reals Lra.
From Verif Require Import Base BaseLemmas ReaderModel ReaderSpec ReaderProofs ReaderMain UncModel UncSpec UncProofs UncProofs2 UncProofs3 UnckModel SimModel CheckModel CheckSpec CheckProofs CheckProofs2 CheckProofs3 CheckProofs4 CheckProofs5 IOModel IOSpec IOProofs IOProofs2.
Open Scope nat_scope.

Lemma m_vars_in f n v : In (n, v) (m_vars f) <-> exists x, In x (nc_vars f) /\ v_name x = n /\ v_dims x = ["M"]%string /\ ~ In n ["time1"; "time2"; "K"; "Kr"; "Ks"]%string /\
  (v_data x = Arr1 v \/ exists z, v_data x = IArr1 z /\ v = map IZR z).
Proof.
  unfold m_vars. rewrite in_flat_map. split.
  - intros (x & Hx & H). destruct (eql (v_dims x) ["M"%string] && negb (inside (v_name x) ["time1"; "time2"; "K"; "Kr"; "Ks"]%string)) eqn:E; [|destruct H].
    apply andb_prop in E. destruct E as (E1 & E2). apply eql_eq in E1. apply Bool.negb_true_iff in E2. rewrite inside_out in E2.
    exists x. split; [exact Hx|]. destruct (v_data x) as [l|l|l|l|] eqn:Ed; cbn in H; try tauto; destruct H as [H|[]]; injection H as <- <-; do 3 (split; [auto|]); eauto.
  - intros (x & Hx & <- & Ed & En & H). exists x. split; [exact Hx|]. replace (eql (v_dims x) ["M"%string]) with true by (symmetry; apply eql_eq; exact Ed).
    replace (inside (v_name x) ["time1"; "time2"; "K"; "Kr"; "Ks"]%string) with false by (symmetry; apply inside_out; exact En). cbn [andb negb].
    destruct H as [-> |(z & -> & ->)]; left; reflexivity.
Qed.
Lemma m_vars_len f n v : wf_nc f -> In (n, v) (m_vars f) -> size f "M" (length v).
Proof.
  intros (_ & _ & _ & Hf) H. apply m_vars_in in H. destruct H as (x & Hx & _ & Ed & _ & H). specialize (Hf x Hx). unfold fits in Hf. rewrite Ed in Hf.
  destruct H as [E|(z & E & ->)]; rewrite E in Hf; destruct Hf as (_ & d & Q & S); injection Q as <-; [exact S|rewrite map_length; exact S].
Qed.
Lemma m_vars_nodup f : NoDup (map v_name (nc_vars f)) -> NoDup (map fst (m_vars f)).
Proof.
  unfold m_vars. induction (nc_vars f) as [|x l IH]; intros H; [constructor|]. inversion H as [|? ? H1 H2]; subst. specialize (IH H2). cbn [flat_map]. rewrite map_app.
  match goal with |- NoDup (map fst ?a ++ _) => assert (A : a = [] \/ exists y, a = [(v_name x, y)]) end.
  { match goal with |- context [if ?b then _ else _] => destruct b end; [|auto]. destruct (v_data x); eauto. }
  destruct A as [-> |(y & ->)]; [exact IH|]. cbn. constructor; [|exact IH].
  intros Hi. apply H1. apply in_map_iff in Hi. destruct Hi as ((n & v) & E & Hi). cbn in E. subst n. apply in_flat_map in Hi. destruct Hi as (z & Hz & Hi).
  match type of Hi with context [if ?b then _ else _] => destruct b end; [|destruct Hi]. apply in_map_iff. exists z. split; [|exact Hz].
  destruct (v_data z); cbn in Hi; try tauto; destruct Hi as [Hi|[]]; injection Hi as E _; exact E.
Qed.

(** What the reader sees of a file. *)
Definition names_ok (f : ncfile) (d : dataset R) : Prop := file_sensor f Side1 (d_s1 R d) /\ file_sensor f Side2 (d_s2 R d).
Record view (f : ncfile) (uf : ufile R) : Prop := {
  vw_M : size f "M" (d_M R (uf_d R uf));
  vw_m : forall sd, size f ("m" ++ snum sd) (sm (uf_d R uf) sd);
  vw_s : forall sd, file_sensor f sd (sname (uf_d R uf) sd);
  vw_X : forall sd, data f ("X" ++ snum sd) (Arr2 (sX (uf_d R uf) sd));
  vw_wf : wf_dataset (uf_d R uf);
  vw_t : forall sd, exists l, data f ("uncertainty_type" ++ snum sd) (IArr1 l) /\ stypes (uf_u R uf) sd = map Z.to_nat l /\ length l = sm (uf_d R uf) sd;
  vw_ur : forall sd, exists r, data f ("Ur" ++ snum sd) (Arr2 r) /\ sUr (uf_u R uf) sd = Some r /\ UncSpec.shaped r (d_M R (uf_d R uf)) (sm (uf_d R uf) sd);
  vw_us : forall sd, exists r, data f ("Us" ++ snum sd) (Arr2 r) /\ sUs (uf_u R uf) sd = Some r /\ UncSpec.shaped r (d_M R (uf_d R uf)) (sm (uf_d R uf) sd);
  vw_w : (w_variables f /\ exists mv, umat R (uf_u R uf) = Some mv /\ read_matvars f mv) \/ ((forall n, In n w_names -> ~ present f n) /\ umat R (uf_u R uf) = None)
}.

Lemma fl2_decl f n d e : wf_nc f -> declared f n [d; e] float_types -> exists l k, fl2 f n = Ok l /\ data f n (Arr2 l) /\ size f d (length l) /\ size f e k /\ forall r, In r l -> length r = k.
Proof. intros Hf H. destruct (decl_f2 f n d e Hf H) as (l & k & D & S). exists l, k. split; [apply fl2_data; auto|auto]. Qed.
Lemma fl1_decl f n d : wf_nc f -> declared f n [d] float_types -> exists l, fl1 f n = Ok l /\ data f n (Arr1 l) /\ size f d (length l).
Proof. intros Hf H. destruct (decl_f1 f n d Hf H) as (l & D & S). exists l. split; [apply fl1_data; auto|auto]. Qed.
Lemma in1_decl f n d : wf_nc f -> declared f n [d] int_types -> exists l, in1 f n = Ok l /\ data f n (IArr1 l) /\ size f d (length l).
Proof. intros Hf H. destruct (decl_i1 f n d Hf H) as (l & D & S). exists l. split; [apply in1_data; auto|auto]. Qed.
Lemma in2_decl f n d e : wf_nc f -> declared f n [d; e] int_types -> exists l, in2 f n = Ok l /\ data f n (IArr2 l).
Proof. intros Hf H. destruct (decl_i2 f n d e Hf H) as (l & k & D & S). exists l. split; [apply in2_data; auto|auto]. Qed.

Lemma to_matvars_ok f : wf_nc f -> w_or_none f -> exists o, to_matvars f = Ok o /\
  ((w_variables f /\ exists mv, o = Some mv /\ read_matvars f mv) \/ ((forall n, In n w_names -> ~ present f n) /\ o = None)).
Proof.
  intros Hf [HW|HN].
  - pose proof HW as (W1 & W2 & W3 & W4 & W5 & W6 & W7 & W8 & W9 & W10).
    destruct (in1_decl f _ _ Hf W1) as (nnz & E1 & D1 & _). destruct (in2_decl f _ _ _ Hf W2) as (rows & E2 & D2). destruct (in1_decl f _ _ Hf W3) as (col & E3 & D3 & _).
    destruct (fl1_decl f _ _ Hf W4) as (val & E4 & D4 & _). destruct (in1_decl f _ _ Hf W5) as (w1 & E5 & D5 & _). destruct (in1_decl f _ _ Hf W6) as (w2 & E6 & D6 & _).
    destruct (in1_decl f _ _ Hf W7) as (cnt & E7 & D7 & _). destruct (fl1_decl f _ _ Hf W8) as (uval & E8 & D8 & _). destruct (in1_decl f _ _ Hf W9) as (u1 & E9 & D9 & _). destruct (in1_decl f _ _ Hf W10) as (u2 & E10 & D10 & _).
    eexists. split; [unfold to_matvars; rewrite E1, E2, E3, E4, E5, E6, E7, E8, E9, E10; cbn [bind]|].
    + replace (subset _ (names f)) with true; [reflexivity|]. symmetry. apply subset_in. intros x Hx. apply present_in.
      assert (P : forall n d t, declared f n d t -> present f n) by (intros n d t (v & Hv & En & _); exists v; auto).
      destruct Hx as [<-|[<-|[<-|[<-|[]]]]]; eapply P; eassumption.
    + left. split; [exact HW|]. eexists. split; [reflexivity|]. exists nnz, rows, col, val, w1, w2, cnt, uval, u1, u2. split; [|reflexivity]. repeat split; assumption.
  - exists None. split; [|right; auto]. unfold to_matvars. replace (subset _ (names f)) with false; [reflexivity|]. symmetry. apply Bool.not_true_iff_false. intros H.
    rewrite subset_in in H. specialize (H "w_matrix_use1"%string (or_introl eq_refl)). apply present_in in H. apply (HN "w_matrix_use1"%string); [cbn; tauto|exact H].
Qed.

Lemma to_ufile_ok f : wf_nc f -> required f -> w_or_none f -> two_sensors f -> exists uf, to_ufile f = Ok uf /\ view f uf /\ d_s1 R (uf_d R uf) <> d_s2 R (uf_d R uf) /\
  exists kr ks, fl1 f "Kr" = Ok kr /\ fl1 f "Ks" = Ok ks /\ length kr = length ks.
Proof.
  intros Hf HR HW (s1 & s2 & A1 & A2 & Hs). pose proof HR as (R1 & R2 & R3 & R4 & R5 & R6 & R7 & R8 & R9 & R10 & R11 & R12 & R13).
  destruct (fl2_decl f _ _ _ Hf R1) as (x1 & m1 & E1 & D1 & S1 & Q1 & L1). destruct (fl2_decl f _ _ _ Hf R2) as (x2 & m2 & E2 & D2 & S2 & Q2 & L2).
  destruct (fl2_decl f _ _ _ Hf R3) as (r1 & m1a & E3 & D3 & S3 & Q3 & L3). destruct (fl2_decl f _ _ _ Hf R4) as (r2 & m2a & E4 & D4 & S4 & Q4 & L4).
  destruct (fl2_decl f _ _ _ Hf R5) as (u1 & m1b & E5 & D5 & S5 & Q5 & L5). destruct (fl2_decl f _ _ _ Hf R6) as (u2 & m2b & E6 & D6 & S6 & Q6 & L6).
  destruct (fl1_decl f _ _ Hf R7) as (k & E7 & D7 & S7). destruct (fl1_decl f _ _ Hf R8) as (kr & E8 & D8 & S8). destruct (fl1_decl f _ _ Hf R9) as (ks & E9 & D9 & S9).
  destruct (fl1_decl f _ _ Hf R10) as (t1 & E10 & D10 & S10). destruct (fl1_decl f _ _ Hf R11) as (t2 & E11 & D11 & S11).
  destruct (in1_decl f _ _ Hf R12) as (y1 & E12 & D12 & S12). destruct (in1_decl f _ _ Hf R13) as (y2 & E13 & D13 & S13).
  destruct (to_matvars_ok f Hf HW) as (mo & E14 & HM).
  remember (length x1) as M eqn:EM.
  assert (F : forall d a b, size f d a -> size f d b -> b = a) by (intros d a b Ha Hb; eapply size_fun; eauto).
  pose proof (F _ _ _ S1 S2) as F2. pose proof (F _ _ _ S1 S3) as F3. pose proof (F _ _ _ S1 S4) as F4. pose proof (F _ _ _ S1 S5) as F5. pose proof (F _ _ _ S1 S6) as F6. pose proof (F _ _ _ S1 S7) as F7.
  pose proof (F _ _ _ S1 S8) as F8. pose proof (F _ _ _ S1 S9) as F9. pose proof (F _ _ _ S1 S10) as F10. pose proof (F _ _ _ S1 S11) as F11. pose proof (F _ _ _ Q1 S12) as F12. pose proof (F _ _ _ Q2 S13) as F13.
  pose proof (F _ _ _ Q1 Q3) as G3. pose proof (F _ _ _ Q2 Q4) as G4. pose proof (F _ _ _ Q1 Q5) as G5. pose proof (F _ _ _ Q2 Q6) as G6. subst m1a m2a m1b m2b.
  pose proof Hf as (ND & NV & NA & _).
  assert (T1 : attr f "sensor_1_name" = Ok s1) by (unfold attr; rewrite (lookup_nodup _ _ _ NA A1); reflexivity).
  assert (T2 : attr f "sensor_2_name" = Ok s2) by (unfold attr; rewrite (lookup_nodup _ _ _ NA A2); reflexivity).
  pose proof (proj1 (size_ndim f _ _ Hf) S1) as N1. pose proof (proj1 (size_ndim f _ _ Hf) Q1) as N2. pose proof (proj1 (size_ndim f _ _ Hf) Q2) as N3.
  eexists. split.
  { unfold to_ufile, to_dataset, to_unc. rewrite N1, N2, N3, T1, T2, E1, E2, E7, E10, E11, E12, E13, E14. cbn [bind]. reflexivity. }
  split; [|split; [exact Hs|exists kr, ks; split; [exact E8|split; [exact E9|congruence]]]].
  rewrite E3, E4, E5, E6. cbn [opt].
  constructor; cbn [uf_d uf_u d_M].
  - exact S1.
  - intros [|]; assumption.
  - intros [|]; assumption.
  - intros [|]; assumption.
  - unfold wf_dataset. cbn. do 7 (split; [solve [auto | congruence]|]). intros n v Hv. apply m_vars_len in Hv; [|exact Hf]. eapply F; eauto.
  - intros [|]; cbn; [exists y1|exists y2]; auto.
  - intros [|]; cbn; [exists r1|exists r2]; (split; [assumption|split; [reflexivity|split; [congruence|assumption]]]).
  - intros [|]; cbn; [exists u1|exists u2]; (split; [assumption|split; [reflexivity|split; [congruence|assumption]]]).
  - cbn. exact HM.
Qed.

(** ** Opening a set of files that the reader can see through *)
Section Open.
Context {T : Type} (nanV : R) (zeroT : T) (f32 i32 : R -> R) (todate : R -> T) (isfill : R -> bool) (ord : list string -> list string) (ordn : list nat -> list nat)
        (Hordn : forall l x, In x (ordn l) <-> In x l).
Notation open_files := (open_files nanV zeroT f32 i32 todate isfill ord ordn).
Notation openMU := (openMatchUp R T 0%R nanV zeroT f32 i32 todate isfill ord).

Definition kr_ok (f : ncfile) (k : list R) : Prop := exists kr ks, fl1 f "Kr" = Ok kr /\ fl1 f "Ks" = Ok ks /\ unck kr ks = Ok k.
Lemma open_ok fs ufs : mapM to_ufile fs = Ok ufs -> good_files (map (uf_d R) ufs) -> (forall uf, In uf ufs -> valid_file uf) ->
  (forall f, In f fs -> exists kr ks, fl1 f "Kr" = Ok kr /\ fl1 f "Ks" = Ok ks /\ length kr = length ks) ->
  exists o, open_files fs = Ok o /\ openMU (map (uf_d R) ufs) = Ok (o_mu o) /\
    (forall i f, nth_error fs i = Some f -> exists k, nth_error (o_unck o) i = Some k /\ kr_ok f k) /\
    forall n uf sd cov, 1 <= n -> nth_error ufs (n - 1) = Some uf -> 1 <= cov <= sm (uf_d R uf) sd ->
      exists b s ty u, nth_error (get_block_idxs (mu_idx R T (o_mu o))) b = Some (s, n, cov) /\ nth_error (sensors (mu_idx R T (o_mu o))) s = Some (sname (uf_d R uf) sd) /\
        nth_error (stypes (uf_u R uf) sd) (cov - 1) = Some ty /\ nth_error (o_unc o) b = Some (Some u) /\ as_declared uf sd cov ty (u_kind R u) (o_w o) (o_u o).
Proof.
  intros E HG HV HK.
  destruct (columns_returned 0%R nanV zeroT f32 i32 todate isfill ord _ HG) as (mu & Emu & _).
  destruct (layout _ HG) as (ix & Eix & L).
  assert (Hix : mu_idx R T mu = ix).
  { clear - Emu Eix. revert Emu. unfold omu, openMatchUp. rewrite Eix. cbn [bind]. repeat (match goal with |- bind ?x _ = _ -> _ => destruct x; cbn [bind]; [|discriminate] end). intros [= <-]. reflexivity. }
  destruct (unc_attached 0%R ordn Hordn ufs ix HG HV Eix) as (uncs & ws & us & Eu & Lu & HU).
  assert (EK : exists kl, mapM (fun f => do kr <- fl1 f "Kr";; do ks <- fl1 f "Ks";; unck kr ks) fs = Ok kl /\ forall i f, nth_error fs i = Some f -> exists k, nth_error kl i = Some k /\ kr_ok f k).
  { clear - HK. induction fs as [|f fs IH]; [exists []; split; [reflexivity|intros [|i] f H; discriminate]|].
    destruct IH as (kl & E & H); [intros; apply HK; right; auto|]. destruct (HK f (or_introl eq_refl)) as (kr & ks & E1 & E2 & EL).
    assert (EU : exists u, unck kr ks = Ok u) by (unfold unck; rewrite EL, Nat.eqb_refl; eauto). destruct EU as (u & EU).
    exists (u :: kl). cbn [mapM]. rewrite E1, E2. cbn [bind]. rewrite EU. cbn [bind]. rewrite E. split; [reflexivity|].
    intros [|i] f' Hf'; [injection Hf' as <-; exists u; split; [reflexivity|exists kr, ks; auto]|exact (H i f' Hf')]. }
  destruct EK as (kl & EK & HKL).
  exists (mkOpened mu uncs ws us kl). split; [|split; [exact Emu|split; [exact HKL|]]].
  - unfold omu in Emu. unfold IOModel.open_files. rewrite E. cbn [bind]. rewrite Emu. cbn [bind]. rewrite Hix, Eu. cbn [bind]. rewrite EK. reflexivity.
  - cbn [o_mu o_unc o_w o_u]. rewrite Hix. intros n uf sd cov Hn Huf Hc. cbv zeta in L. destruct L as (L1 & L2 & L3 & L4 & _ & _ & LU).
    assert (FH : file_has (map (uf_d R) ufs) (sname (uf_d R uf) sd) n cov (uf_d R uf) sd).
    { split; [exact Hn|]. split; [|split; [reflexivity|exact Hc]]. rewrite nth_error_map, Huf. reflexivity. }
    destruct (LU _ _ _ _ _ FH) as (b & ((s & B1 & B2 & B3 & B4) & _)).
    assert (HB : nth_error (get_block_idxs ix) b = Some (s, n, cov)). { unfold get_block_idxs, zip3. rewrite !UncProofs2.nth_error_combine, B1, B3, B4. reflexivity. }
    destruct (HU b s n cov HB) as (name & f' & sd' & ty & u & U1 & U2 & U3 & U4 & U5 & U6 & U7 & U8).
    rewrite Huf in U3. injection U3 as <-. rewrite B2 in U1. injection U1 as <-.
    assert (sd' = sd).
    { destruct HG as (_ & _ & HD). destruct (HD (uf_d R uf)) as (_ & HD'). { apply in_map. eapply nth_error_In; exact Huf. }
      unfold distinct_sensors in HD'. destruct sd, sd'; cbn in U4; try reflexivity; exfalso; apply HD'; congruence. }
    subst sd'. exists b, s, ty, u. auto.
Qed.
End Open.
