(** * Proofs for C107-C109. *)
From Coq Require Import Reals Lra.
From Verif Require Import Base BaseLemmas ReaderModel ReaderSpec ReaderProofs ReaderMain UncModel UncSpec UncProofs UncProofs2 UncProofs3 UnckModel SimModel CheckModel CheckSpec CheckProofs CheckProofs2 CheckProofs3 CheckProofs4 CheckProofs5 IOModel IOSpec IOProofs IOProofs2 IOProofs3.
Open Scope nat_scope.

Lemma nth_side {A B} (g : A -> B) (a1 a2 : list A) sd col x : nth_error (match sd with Side1 => a1 | Side2 => a2 end) col = Some x ->
  nth_error (map g a1 ++ map g a2) (match sd with Side1 => col | Side2 => length a1 + col end) = Some (g x) /\ nth_error (a1 ++ a2) (match sd with Side1 => col | Side2 => length a1 + col end) = Some x.
Proof.
  intros H. destruct sd.
  - assert (col < length a1) by (apply nth_error_Some; congruence). rewrite !nth_error_app1 by (rewrite ?map_length; lia). rewrite nth_error_map, H. auto.
  - rewrite !nth_error_app2 by (rewrite ?map_length; lia). rewrite map_length. replace (length a1 + col - length a1) with col by lia. rewrite nth_error_map, H. auto.
Qed.

Lemma accepted_valid f uf : wf_nc f -> acceptable f -> (w_variables f -> row_pointers f) -> two_rows f -> view f uf -> valid_file uf.
Proof.
  intros Hf HA HP H2 V. pose proof HA as (HR & HW & _ & _ & _ & HAs).
  intros sd. destruct (vw_t _ _ V sd) as (ts & Dt & Et & Lt). split; [rewrite Et, map_length; exact Lt|].
  assert (Hlen : forall mv, umat R (uf_u R uf) = Some mv -> length (swuse mv sd) = sm (uf_d R uf) sd /\ length (suuse mv sd) = sm (uf_d R uf) sd).
  { intros mv Em. destruct (vw_w _ _ V) as [(HWv & mv' & Em' & Hr)|(_ & Em')]; [|congruence]. rewrite Em in Em'. injection Em' as <-.
    destruct Hr as (nnz & rows & col & val & w1 & w2 & cnt & uval & u1 & u2 & (_ & _ & _ & _ & Dw1 & Dw2 & _ & _ & Du1 & Du2) & ->).
    pose proof HWv as (_ & _ & _ & _ & W5 & W6 & _ & _ & W9 & W10).
    destruct (in1_decl f _ _ Hf W5) as (a & _ & Da & Sa). destruct (in1_decl f _ _ Hf W6) as (b & _ & Db & Sb). destruct (in1_decl f _ _ Hf W9) as (c & _ & Dc & Sc). destruct (in1_decl f _ _ Hf W10) as (d & _ & Dd & Sd).
    pose proof (data_unique _ _ _ _ Hf Dw1 Da) as X1. pose proof (data_unique _ _ _ _ Hf Dw2 Db) as X2. pose proof (data_unique _ _ _ _ Hf Du1 Dc) as X3. pose proof (data_unique _ _ _ _ Hf Du2 Dd) as X4. injection X1 as ->. injection X2 as ->. injection X3 as ->. injection X4 as ->.
    pose proof (vw_m _ _ V Side1) as M1. pose proof (vw_m _ _ V Side2) as M2. cbn [IOSpec.snum append] in M1, M2.
    destruct sd; cbn [swuse suuse wuse1 wuse2 uuse1 uuse2]; rewrite !map_length; split; eapply size_fun; eauto. }
  split; [exact Hlen|].
  intros cov ty Hc Ety. rewrite Et in Ety. rewrite nth_error_map in Ety. destruct (nth_error ts (cov - 1)) as [t|] eqn:Ett; [|discriminate]. cbn in Ety. injection Ety as <-.
  assert (Hlt : cov - 1 < sm (uf_d R uf) sd) by (rewrite <- Lt; apply nth_error_Some; congruence).
  assert (HAss : assigned f (IOSpec.snum sd) (cov - 1)). { destruct HAs as (HA1 & HA2). pose proof (vw_m _ _ V sd) as Hm. destruct sd; [eapply HA1; eauto|eapply HA2; eauto]. }
  destruct HAss as (ts' & t' & urs & uss & ur & us & w & D1 & E1 & D2 & E2 & D3 & E3 & E4 & F & U).
  pose proof (data_unique _ _ _ _ Hf D1 Dt) as X1. injection X1 as ->. rewrite Ett in E1. injection E1 as <-.
  destruct (vw_ur _ _ V sd) as (r & _ & Er & Sr). destruct (vw_us _ _ V sd) as (s & _ & Es & Ss).
  assert (MATS : (0 < w)%Z -> exists mv w ui W Uv, umat R (uf_u R uf) = Some mv /\ nth_error (swuse mv sd) (cov - 1) = Some w /\ w <> 0 /\ open_w_matrix R mv w = Ok W /\
      nth_error (suuse mv sd) (cov - 1) = Some ui /\ ui <> 0 /\ open_u_matrix R mv ui = Ok Uv).
  { intros Hw. destruct E4 as [(l & Dl & El)|(_ & ->)]; [|lia].
    destruct (vw_w _ _ V) as [(HWv & mv & Em & Hr)|(HN & _)].
    2:{ exfalso. destruct Dl as (v & Hv & En & _). apply (HN ("w_matrix_use" ++ IOSpec.snum sd)%string); [destruct sd; cbn; tauto|exists v; auto]. }
    destruct HW as [(_ & HWc)|HN]. 2:{ exfalso. destruct Dl as (v & Hv & En & _). apply (HN ("w_matrix_use" ++ IOSpec.snum sd)%string); [destruct sd; cbn; tauto|exists v; auto]. }
    destruct (Hlen mv Em) as (Lw & Lu).
    pose proof Hr as (nnz & rows & col & val & w1 & w2 & cnt & uval & u1 & u2 & (_ & _ & _ & _ & Dw1 & Dw2 & _ & _ & Du1 & Du2) & Emv).
    set (wl := match sd with Side1 => w1 | Side2 => w2 end). set (ul := match sd with Side1 => u1 | Side2 => u2 end).
    assert (Q : l = wl). { destruct sd; cbn in Dl; [pose proof (data_unique _ _ _ _ Hf Dl Dw1) as X|pose proof (data_unique _ _ _ _ Hf Dl Dw2) as X]; injection X as ->; reflexivity. }
    subst l. assert (Sw : swuse mv sd = map Z.to_nat wl) by (rewrite Emv; destruct sd; reflexivity). assert (Su : suuse mv sd = map Z.to_nat ul) by (rewrite Emv; destruct sd; reflexivity).
    destruct (nth_error ul (cov - 1)) as [u|] eqn:Eu. 2:{ exfalso. apply nth_error_None in Eu. rewrite Su, map_length in Lu. lia. }
    assert (L12 : length w1 = length u1).
    { destruct HWv as (_ & _ & _ & _ & W5 & _ & _ & _ & W9 & _). destruct (in1_decl f _ _ Hf W5) as (a & _ & Da & Sa). destruct (in1_decl f _ _ Hf W9) as (c & _ & Dc & Sc).
      pose proof (data_unique _ _ _ _ Hf Dw1 Da) as X1. pose proof (data_unique _ _ _ _ Hf Du1 Dc) as X3. injection X1 as ->. injection X3 as ->. eapply size_fun; eauto. }
    destruct (nth_side Z.to_nat w1 w2 sd (cov - 1) w El) as (N1 & N2). destruct (nth_side Z.to_nat u1 u2 sd (cov - 1) u Eu) as (N3 & N4). rewrite <- L12 in N3, N4.
    destruct (reading f mv (d_M R (uf_d R uf)) (match sd with Side1 => cov - 1 | Side2 => length w1 + (cov - 1) end) (Z.to_nat w) (Z.to_nat u) Hf HA HWv (HP HWv) Hr (vw_M _ _ V)) as (W & Uv & O1 & O2 & _).
    { rewrite Emv. exact N1. } { rewrite Emv. exact N3. } { lia. }
    exists mv, (Z.to_nat w), (Z.to_nat u), W, Uv. split; [exact Em|]. split; [rewrite Sw, nth_error_map, El; reflexivity|]. split; [lia|]. split; [exact O1|]. split; [rewrite Su, nth_error_map, Eu; reflexivity|]. split; [|exact O2].
    destruct HWc as (Mx & nw & nu & nr & nn & nru & nnz' & rows' & col' & w1' & w2' & cnt' & uval' & u1' & u2' & (_ & _ & _ & _ & _ & _ & _ & _ & _ & Dw1' & Dw2' & _ & _ & Du1' & Du2') & _ & _ & HNw & HNu & _ & _ & _ & H0 & _).
    pose proof (data_unique _ _ _ _ Hf Dw1 Dw1') as X1. pose proof (data_unique _ _ _ _ Hf Dw2 Dw2') as X2. pose proof (data_unique _ _ _ _ Hf Du1 Du1') as X3. pose proof (data_unique _ _ _ _ Hf Du2 Du2') as X4. injection X1 as <-. injection X2 as <-. injection X3 as <-. injection X4 as <-.
    pose proof (proj1 HNu u (nth_error_In _ _ N4)) as U0. assert (u <> 0%Z) by (intros Z0; apply (H0 _ _ _ N2 N4) in Z0; lia). lia. }
  unfold valid_decl. destruct F as [(-> & _)|[(-> & _)|[(-> & F & _)|(-> & F & _)]]]; cbn [Z.to_nat Pos.to_nat].
  - exists r. auto.
  - split; [exists r; auto|exists s; auto].
  - exact (MATS F).
  - split; [exact (MATS F)|]. split; [exists s; auto|]. apply (H2 sd ts _ Dt); [eapply nth_error_In; exact Ett|apply (vw_M _ _ V)].
Qed.

Lemma mapM_rel {A B} (g : A -> res B) (P : A -> B -> Prop) l : (forall x, In x l -> exists y, g x = Ok y /\ P x y) ->
  exists l', mapM g l = Ok l' /\ length l' = length l /\ forall i x, nth_error l i = Some x -> exists y, nth_error l' i = Some y /\ P x y.
Proof.
  induction l as [|x l IH]; intros H; [exists []; split; [reflexivity|split; [reflexivity|intros [|i] x Hx; discriminate]]|].
  destruct IH as (l' & E & L & N); [intros; apply H; right; auto|]. destruct (H x (or_introl eq_refl)) as (y & Ey & Py).
  exists (y :: l'). cbn [mapM]. rewrite Ey. cbn [bind]. rewrite E. split; [reflexivity|]. split; [cbn; lia|].
  intros [|i] z Hz; [injection Hz as <-; exists y; auto|exact (N i z Hz)].
Qed.

Section Main.
Context {T : Type} (nanV : R) (zeroT : T) (f32 i32 : R -> R) (todate : R -> T) (isfill : R -> bool) (ord : list string -> list string) (ordn : list nat -> list nat).
Notation open_files := (open_files nanV zeroT f32 i32 todate isfill ord ordn).

Theorem accepted_open : (forall l x, In x (ordn l) <-> In x l) -> forall fs, fs <> [] ->
  (forall f, In f fs -> wf_nc f /\ check f = Ok [] /\ (w_variables f -> row_pointers f) /\ two_rows f) -> agree fs ->
  exists o, open_files fs = Ok o /\
  forall n f sd s m cov rows, 1 <= n -> nth_error fs (n - 1) = Some f -> file_sensor f sd s -> size f ("m" ++ IOSpec.snum sd) m -> 1 <= cov <= m -> data f ("X" ++ IOSpec.snum sd) (Arr2 rows) ->
    exists col b k u ts t, ReaderSpec.is_column rows cov col /\ getVariableData R T (o_mu o) cov s (Some n) = Ok (map f32 col) /\
      nth_error (get_block_idxs (mu_idx R T (o_mu o))) b = Some (k, n, cov) /\ nth_error (sensors (mu_idx R T (o_mu o))) k = Some s /\
      nth_error (o_unc o) b = Some (Some u) /\ data f ("uncertainty_type" ++ IOSpec.snum sd) (IArr1 ts) /\ nth_error ts (cov - 1) = Some t /\ Z.of_nat (typeID R (u_kind R u)) = t.
Proof.
  intros Hord fs Hne H Hag.
  destruct (mapM_rel to_ufile (fun f uf => view f uf /\ d_s1 R (uf_d R uf) <> d_s2 R (uf_d R uf) /\ valid_file uf) fs) as (ufs & E & L & N).
  { intros f Hi. destruct (H f Hi) as (Hf & Hc & HP & H2). apply (check_iff f Hf) in Hc. pose proof Hc as (HR & HW & HS & _).
    destruct (to_ufile_ok f Hf HR) as (uf & Eu & V & D & _); [destruct HW as [(HW & _)|HW]; [left; exact HW|right; exact HW]|exact HS|].
    exists uf. split; [exact Eu|]. split; [exact V|]. split; [exact D|]. eapply accepted_valid; eauto. }
  assert (INV : forall uf, In uf ufs -> exists f, In f fs /\ view f uf /\ d_s1 R (uf_d R uf) <> d_s2 R (uf_d R uf) /\ valid_file uf).
  { intros uf Hi. apply In_nth_error in Hi. destruct Hi as (i & Hi). destruct (nth_error fs i) as [f|] eqn:Ef.
    - destruct (N i f Ef) as (uf' & Hi' & Q). rewrite Hi in Hi'. injection Hi' as <-. exists f. split; [eapply nth_error_In; exact Ef|exact Q].
    - apply nth_error_None in Ef. assert (i < length ufs) by (apply nth_error_Some; congruence). lia. }
  assert (HG : good_files (map (uf_d R) ufs)).
  { split; [|split].
    - intros Q. apply map_eq_nil in Q. subst ufs. destruct fs; [auto|discriminate].
    - intros d d' sd sd' Hd Hd' En. apply in_map_iff in Hd. destruct Hd as (u1 & <- & I1). apply in_map_iff in Hd'. destruct Hd' as (u2 & <- & I2).
      destruct (INV u1 I1) as (f1 & J1 & V1 & _). destruct (INV u2 I2) as (f2 & J2 & V2 & _).
      apply (Hag f1 f2 sd sd' (sname (uf_d R u1) sd)); [auto|auto|apply (vw_s _ _ V1)|rewrite En; apply (vw_s _ _ V2)|apply (vw_m _ _ V1)|apply (vw_m _ _ V2)].
    - intros d Hd. apply in_map_iff in Hd. destruct Hd as (u1 & <- & I1). destruct (INV u1 I1) as (f1 & J1 & V1 & D1 & _). split; [apply (vw_wf _ _ V1)|exact D1]. }
  destruct (open_ok nanV zeroT f32 i32 todate isfill ord ordn Hord fs ufs E HG) as (o & Eo & Emu & _ & HU).
  { intros uf Hi. destruct (INV uf Hi) as (f & _ & _ & _ & Q). exact Q. }
  { intros f Hi. destruct (H f Hi) as (Hf & Hc & _). apply (check_iff f Hf) in Hc. destruct Hc as (HR & HW & HS & _). destruct (to_ufile_ok f Hf HR) as (uf & _ & _ & _ & Q); [destruct HW as [(HW & _)|HW]; [left; exact HW|right; exact HW]|exact HS|exact Q]. }
  exists o. split; [exact Eo|].
  intros n f sd s m cov rows Hn Ef Hs Hm Hc HD. destruct (N (n - 1) f Ef) as (uf & Euf & V & _ & _).
  destruct (H f (nth_error_In _ _ Ef)) as (Hf & _).
  pose proof (size_fun _ _ _ _ Hf Hm (vw_m _ _ V sd)) as Em. subst m.
  assert (Es : s = sname (uf_d R uf) sd). { pose proof (vw_s _ _ V sd) as Q. destruct Hf as (_ & _ & NA & _). unfold file_sensor in *. apply (lookup_nodup _ _ _ NA) in Hs. apply (lookup_nodup _ _ _ NA) in Q. congruence. }
  pose proof (data_unique _ _ _ _ Hf HD (vw_X _ _ V sd)) as X. injection X as ->.
  destruct (columns_returned 0%R nanV zeroT f32 i32 todate isfill ord _ HG) as (mu & Emu' & HC & _).
  assert (mu = o_mu o) by (unfold omu in Emu'; rewrite Emu' in Emu; injection Emu; auto). subst mu.
  destruct (HC s n cov (uf_d R uf) sd) as (col & C1 & C2). { split; [exact Hn|]. rewrite nth_error_map, Euf. auto. }
  destruct (HU n uf sd cov Hn Euf Hc) as (b & k & ty & u & B1 & B2 & B3 & B4 & B5).
  destruct (vw_t _ _ V sd) as (ts & Dt & Et & _). rewrite Et, nth_error_map in B3. destruct (nth_error ts (cov - 1)) as [t|] eqn:Ett; [|discriminate]. cbn in B3. injection B3 as <-.
  exists col, b, k, u, ts, t. rewrite Es. do 7 (split; [first [exact C1|exact B1|exact B2|exact B4|exact Dt|exact Ett|rewrite <- Es; exact C2]|]).
  unfold as_declared in B5. destruct (u_kind R u); cbn [typeID]; destruct B5 as (B5 & _); lia.
Qed.
End Main.
