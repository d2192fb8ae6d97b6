(** Proofs for C117: opening usable files with sensor data. *)
From Coq Require Import Reals Permutation Lra.
From Verif Require Import Base BaseLemmas ReaderModel ReaderSpec ReaderProofs ReaderMain UncModel UncSpec UncProofs UncProofs2 UncProofs3 UnckModel MuModel SampleSpec
  CheckModel CheckSpec CheckProofs CheckProofs2 CheckProofs3 CheckProofs4 CheckProofs5 IOModel IOSpec IOProofs IOProofs2 IOProofs3 IOProofs4
  FullModel FullSpec FullProofs FullProofs2 FullProofs3.
Open Scope nat_scope.

Section Open.
Context {T : Type} (nanV : R) (zeroT : T) (f32 i32 : R -> R) (todate : R -> T) (isfill : R -> bool) (ord : list string -> list string) (ordn : list nat -> list nat).
Context (PM : forall l, Permutation (ordn l) l).
Notation open_files := (open_files nanV zeroT f32 i32 todate isfill ord ordn).
Notation openMU := (openMatchUp R T 0%R nanV zeroT f32 i32 todate isfill ord).

(** The parts of the object opened from usable files. *)
Record parts (fs : list ncfile) (ufs : list (ufile R)) (mu : matchup R T) (uncs : list (unc R)) (ws : list (csr R)) (us : list (list R)) (k : list (list R)) : Prop := {
  pa_len : length ufs = length fs;
  pa_view : forall i uf, nth_error ufs i = Some uf -> exists f, nth_error fs i = Some f /\ view f uf /\ valid_file uf;
  pa_good : good_files (map (uf_d R) ufs);
  pa_open : open_files fs = Ok (mkOpened mu (map Some uncs) (map Some ws) (map Some us) k);
  pa_mu : openMU (map (uf_d R) ufs) = Ok mu;
  pa_idx : get_idx R (map (uf_d R) ufs) = Ok (mu_idx R T mu);
  pa_io : idx_ok (map (uf_d R) ufs) (mu_idx R T mu);
  pa_unc : open_unc R 0%R ordn ufs (mu_idx R T mu) = Ok (map Some uncs, map Some ws, map Some us);
  pa_klen : length k = length fs;
  pa_k : forall i u, nth_error k i = Some u -> exists f, nth_error fs i = Some f /\ kr_ok f u;
  pa_us : forall i U, nth_error us i = Some U -> exists f mv u, In f ufs /\ umat R (uf_u R f) = Some mv /\ open_u_matrix R mv u = Ok U;
  pa_ulen : length uncs = length (n_sensor (mu_idx R T mu));
  pa_block : forall b s n c, nth_error (get_block_idxs (mu_idx R T mu)) b = Some (s, n, c) ->
      exists name f sd ty u,
        nth_error (sensors (mu_idx R T mu)) s = Some name /\ 1 <= n /\ nth_error ufs (n - 1) = Some f /\
        sname (uf_d R f) sd = name /\ 1 <= c <= sm (uf_d R f) sd /\
        nth_error (stypes (uf_u R f) sd) (c - 1) = Some ty /\
        nth_error uncs b = Some u /\ as_declared f sd c ty (u_kind R u) (map Some ws) (map Some us)
}.

Lemma usable_acceptable f : usable f -> wf_nc f /\ acceptable f.
Proof. intros U. split; [apply (us_wf _ U)|]. apply check_iff; [apply (us_wf _ U)|apply (us_check _ U)]. Qed.

Lemma opened_parts fs : fs <> [] -> (forall f, In f fs -> usable f) -> agree fs -> exists ufs mu uncs ws us k, parts fs ufs mu uncs ws us k.
Proof.
  intros Hne H Hag.
  assert (Hord : forall l x, In x (ordn l) <-> In x l).
  { intros l x. split; apply Permutation_in; [apply PM|apply Permutation_sym, PM]. }
  destruct (mapM_rel to_ufile (fun f uf => view f uf /\ d_s1 R (uf_d R uf) <> d_s2 R (uf_d R uf) /\ valid_file uf) fs) as (ufs & E & L & N).
  { intros f Hi. pose proof (H f Hi) as U. destruct (usable_acceptable f U) as (Hf & Hc). pose proof Hc as (HR & HW & HS & _).
    destruct (to_ufile_ok f Hf HR) as (uf & Eu & V & D & _); [destruct HW as [(HW & _)|HW]; [left; exact HW|right; exact HW]|exact HS|].
    exists uf. split; [exact Eu|]. split; [exact V|]. split; [exact D|]. eapply accepted_valid; eauto; [intros Q; apply (us_rows _ U Q)|apply (us_two _ U)]. }
  assert (INV : forall i uf, nth_error ufs i = Some uf -> exists f, nth_error fs i = Some f /\ view f uf /\ d_s1 R (uf_d R uf) <> d_s2 R (uf_d R uf) /\ valid_file uf).
  { intros i uf Hi. destruct (nth_error fs i) as [f|] eqn:Ef.
    - destruct (N i f Ef) as (uf' & Hi' & Q). rewrite Hi in Hi'. injection Hi' as <-. exists f. split; [reflexivity|exact Q].
    - apply nth_error_None in Ef. assert (i < length ufs) by (apply nth_error_Some; congruence). lia. }
  assert (INV' : forall uf, In uf ufs -> exists f, In f fs /\ view f uf /\ d_s1 R (uf_d R uf) <> d_s2 R (uf_d R uf) /\ valid_file uf).
  { intros uf Hi. apply In_nth_error in Hi. destruct Hi as (i & Hi). destruct (INV i uf Hi) as (f & Hf & Q). exists f. split; [eapply nth_error_In; exact Hf|exact Q]. }
  assert (HG : good_files (map (uf_d R) ufs)).
  { split; [|split].
    - intros Q. apply map_eq_nil in Q. subst ufs. destruct fs; [auto|discriminate].
    - intros d d' sd sd' Hd Hd' En. apply in_map_iff in Hd. destruct Hd as (u1 & <- & I1). apply in_map_iff in Hd'. destruct Hd' as (u2 & <- & I2).
      destruct (INV' u1 I1) as (f1 & J1 & V1 & _). destruct (INV' u2 I2) as (f2 & J2 & V2 & _).
      apply (Hag f1 f2 sd sd' (sname (uf_d R u1) sd)); [auto|auto|apply (vw_s _ _ V1)|rewrite En; apply (vw_s _ _ V2)|apply (vw_m _ _ V1)|apply (vw_m _ _ V2)].
    - intros d Hd. apply in_map_iff in Hd. destruct Hd as (u1 & <- & I1). destruct (INV' u1 I1) as (f1 & J1 & V1 & D1 & _). split; [apply (vw_wf _ _ V1)|exact D1]. }
  destruct (columns_returned 0%R nanV zeroT f32 i32 todate isfill ord _ HG) as (mu & Emu & _).
  destruct (omu_opened 0%R nanV zeroT f32 i32 todate isfill ord _ mu (proj2 (proj2 HG)) Emu) as (OP & _).
  destruct (get_idx_ok (map (uf_d R) ufs) (proj1 HG)) as (ix & Eix & _).
  assert (Hix : mu_idx R T mu = ix).
  { clear - Emu Eix. revert Emu. unfold omu, openMatchUp. rewrite Eix. cbn [bind]. repeat (match goal with |- bind ?x _ = _ -> _ => destruct x; cbn [bind]; [|discriminate] end). intros [= <-]. reflexivity. }
  rewrite <- Hix in Eix.
  destruct (open_unc_filled 0%R ordn PM ufs (mu_idx R T mu) HG) as (uncs & ws & us & Eu & Lu & HUs & HB).
  { intros uf Hi. destruct (INV' uf Hi) as (f & _ & _ & _ & Q). exact Q. }
  { intros uf Hi. destruct (INV' uf Hi) as (f & Hf & V & _ & _). destruct (usable_acceptable f (H f Hf)) as (A1 & A2). exact (accepted_typed f uf A1 A2 V). }
  { exact Eix. }
  destruct (mapM_rel (fun f => do kr <- fl1 f "Kr";; do ks <- fl1 f "Ks";; unck kr ks) (fun f u => kr_ok f u) fs) as (k & Ek & Lk & Nk).
  { intros f Hi. destruct (usable_acceptable f (H f Hi)) as (Hf & Hc). pose proof Hc as (HR & HW & HS & _).
    destruct (to_ufile_ok f Hf HR) as (uf & _ & _ & _ & (kr & ks & K1 & K2 & K3)); [destruct HW as [(HW & _)|HW]; [left; exact HW|right; exact HW]|exact HS|].
    destruct (unck kr ks) as [u|e] eqn:Q.
    - exists u. rewrite K1, K2. cbn [bind]. split; [exact Q|]. exists kr, ks. auto.
    - exfalso. revert Q. unfold unck. rewrite K3, Nat.eqb_refl. discriminate. }
  exists ufs, mu, uncs, ws, us, k. constructor; auto.
  - intros i uf Hi. destruct (INV i uf Hi) as (f & Q1 & Q2 & _ & Q3). exists f. auto.
  - unfold IOModel.open_files. rewrite E. cbn [bind]. unfold omu in Emu. rewrite Emu. cbn [bind]. rewrite Eu. cbn [bind]. rewrite Ek. reflexivity.
  - exact (op_idx _ _ _ _ _ _ _ _ _ OP).
  - intros i u Hi. destruct (nth_error fs i) as [f|] eqn:Ef.
    + destruct (Nk i f Ef) as (u' & Hu' & Q). rewrite Hi in Hu'. injection Hu' as <-. exists f. auto.
    + apply nth_error_None in Ef. assert (i < length k) by (apply nth_error_Some; congruence). lia.
Qed.
End Open.
