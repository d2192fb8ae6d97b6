(** * Proofs for C106: which written files the checker accepts. *)
From Coq Require Import Reals Lra.
From Verif Require Import Base BaseLemmas ReaderModel ReaderSpec ReaderMain UncModel SimModel CheckModel CheckSpec CheckProofs CheckProofs2 CheckProofs3 CheckProofs4 IOModel IOSpec IOProofs.
Open Scope nat_scope.

Section W.
Context (f32 : R -> R) (trunc : R -> Z).
Notation file_of := (file_of f32 trunc).

Lemma col_conv (rows : list (list R)) cov c : 1 <= cov -> ReaderSpec.is_column rows cov c <-> CheckSpec.is_column rows (cov - 1) c.
Proof. intros _. unfold ReaderSpec.is_column, CheckSpec.is_column. tauto. Qed.

Lemma file_data p n a : In (n, a) (map (fun v => (v_name v, v_data v)) (std_vars p)) -> data (file_of p) n a.
Proof.
  intros H. apply in_map_iff in H. destruct H as (v & E & Hv). injection E as <- <-. exists v. split; [|auto]. unfold file_of; cbn [nc_vars]. apply in_app_iff. auto.
Qed.
Lemma file_decl p n dm tys : (exists t, In t tys /\ In (n, dm, t) (map (fun v => (v_name v, v_dims v, v_dtype v)) (std_vars p))) -> declared (file_of p) n dm tys.
Proof.
  intros (t & Ht & H). apply in_map_iff in H. destruct H as (v & E & Hv). injection E as <- <- <-. exists v. split; [unfold file_of; cbn [nc_vars]; apply in_app_iff; auto|auto].
Qed.
Lemma file_required p : required (file_of p).
Proof.
  unfold required. repeat (match goal with |- _ /\ _ => split end); apply file_decl; (first [exists "float64"%string; split; [cbn; tauto|cbn; tauto]|exists "int32"%string; split; [cbn; tauto|cbn; tauto]]).
Qed.
Lemma file_now p n : well_shaped p -> In n w_names -> ~ present (file_of p) n.
Proof.
  intros (_ & _ & _ & _ & _ & HA) Hn (v & Hv & En). unfold file_of in Hv; cbn [nc_vars] in Hv. apply in_app_iff in Hv. destruct Hv as [Hv|Hv].
  - cbn in Hv. repeat (destruct Hv as [<-|Hv]; [cbn in En; subst n; cbn in Hn; intuition discriminate|]). destruct Hv.
  - apply in_map_iff in Hv. destruct Hv as (w & <- & Hv). cbn in En. apply (HA w Hv). rewrite En. unfold format_names. apply in_app_iff. auto.
Qed.
Lemma side_in n sd : (n ++ snum sd = match sd with Side1 => n ++ "1" | Side2 => n ++ "2" end)%string.
Proof. destruct sd; reflexivity. Qed.
Lemma d_type p sd : data (file_of p) ("uncertainty_type" ++ snum sd) (IArr1 (p_type p sd)).
Proof. apply file_data. destruct sd; cbn; tauto. Qed.
Lemma d_ur p sd : data (file_of p) ("Ur" ++ snum sd) (Arr2 (p_Ur p sd)).
Proof. apply file_data. destruct sd; cbn; tauto. Qed.
Lemma d_us p sd : data (file_of p) ("Us" ++ snum sd) (Arr2 (p_Us p sd)).
Proof. apply file_data. destruct sd; cbn; tauto. Qed.
Lemma d_w (p : mdata) sd : In ("w_matrix_use" ++ snum sd)%string w_names.
Proof. destruct sd; cbn; tauto. Qed.
Lemma d_m p sd : size (file_of p) ("m" ++ snum sd) (p_m p sd).
Proof. destruct sd; cbn; tauto. Qed.

Lemma assigned_iff p sd col : well_shaped p -> col < p_m p sd ->
  (assigned (file_of p) (snum sd) col <->
   exists ty ur us, nth_error (p_type p sd) col = Some ty /\ ReaderSpec.is_column (p_Ur p sd) (col + 1) ur /\ ReaderSpec.is_column (p_Us p sd) (col + 1) us /\
     p_M p <> 0 /\ ((ty = 1%Z /\ Forall (Rlt 0) ur /\ Forall (eq 0%R) us) \/ (ty = 2%Z /\ Forall (Rlt 0) ur /\ Forall (Rlt 0) us))).
Proof.
  intros Hw Hc. pose proof (file_wf f32 trunc p Hw) as Hf. pose proof Hw as (Hs & _). destruct (Hs sd) as (_ & (A2 & C2) & (A3 & C3) & A4 & A5).
  unfold assigned. split.
  - intros (ts & t & urs & uss & ur & us & w & D1' & E1 & D2' & E2 & D3' & E3 & E4 & F & U).
    pose proof (data_unique _ _ _ _ Hf D1' (d_type p sd)) as Q1. injection Q1 as ->.
    pose proof (data_unique _ _ _ _ Hf D2' (d_ur p sd)) as Q2. injection Q2 as ->.
    pose proof (data_unique _ _ _ _ Hf D3' (d_us p sd)) as Q3. injection Q3 as ->.
    assert (w = 0%Z). { destruct E4 as [(l & (v & Hv & En & _) & _)|(_ & H)]; [|exact H]. exfalso. apply (file_now p _ Hw (d_w p sd)). exists v. auto. }
    subst w. exists t, ur, us. split; [exact E1|]. rewrite !col_conv by lia. replace (col + 1 - 1) with col by lia. split; [exact E2|]. split; [exact E3|].
    assert (F' : (t = 1%Z /\ Forall (Rlt 0) ur /\ Forall (eq 0%R) us) \/ (t = 2%Z /\ Forall (Rlt 0) ur /\ Forall (Rlt 0) us)).
    { destruct F as [F|[F|[(_ & F & _)|(_ & F & _)]]]; [auto|auto|lia|lia]. }
    split; [|exact F']. intros HM. destruct E2 as (L2 & _). destruct E3 as (L3 & _). rewrite A2, HM in L2. rewrite A3, HM in L3.
    destruct ur; [|discriminate]. destruct us; [|discriminate].
    assert (X1 : 1%Z = t) by (apply U; left; split; [reflexivity|split; constructor]). assert (X2 : 2%Z = t) by (apply U; right; left; split; [reflexivity|split; constructor]). lia.
  - intros (ty & ur & us & E1 & E2 & E3 & HM & F). rewrite !col_conv in E2, E3 by lia. replace (col + 1 - 1) with col in * by lia.
    exists (p_type p sd), ty, (p_Ur p sd), (p_Us p sd), ur, us, 0%Z. split; [apply d_type|]. split; [exact E1|]. split; [apply d_ur|]. split; [exact E2|]. split; [apply d_us|]. split; [exact E3|].
    split; [right; split; [apply (file_now p _ Hw (d_w p sd))|reflexivity]|]. split; [unfold form; tauto|].
    destruct E3 as (L3 & _). rewrite A3 in L3. destruct us as [|u us]; [cbn in L3; lia|].
    intros t' [(-> & G1 & G2)|[(-> & G1 & G2)|[(_ & G & _)|(_ & G & _)]]]; [| |lia|lia]; destruct F as [(-> & F1 & F2)|(-> & F1 & F2)]; auto; inversion F2; inversion G2; subst; lra.
Qed.

Lemma column_ex (rows : list (list R)) n m col : matrix rows n m -> col < m -> exists c, ReaderSpec.is_column rows (col + 1) c.
Proof. intros (_ & H) Hc. destruct (columns_exist rows m H col Hc) as (c & E). exists c. apply col_conv; [lia|]. replace (col + 1 - 1) with col by lia. exact E. Qed.

Theorem accepted p : well_shaped p -> (check (file_of p) = Ok [] <-> good_values p).
Proof.
  intros Hw. pose proof (file_wf f32 trunc p Hw) as Hf. rewrite (check_iff _ Hf). pose proof Hw as (Hs & HK & HKr & HKs & _).
  assert (HAs : all_assigned (file_of p) <-> forall sd cov ty ur us, 1 <= cov -> nth_error (p_type p sd) (cov - 1) = Some ty -> ReaderSpec.is_column (p_Ur p sd) cov ur -> ReaderSpec.is_column (p_Us p sd) cov us ->
    p_M p <> 0 /\ ((ty = 1%Z /\ Forall (Rlt 0) ur /\ Forall (eq 0%R) us) \/ (ty = 2%Z /\ Forall (Rlt 0) ur /\ Forall (Rlt 0) us))).
  { assert (EQ : all_assigned (file_of p) <-> forall sd col, col < p_m p sd -> assigned (file_of p) (snum sd) col).
    { unfold all_assigned. split.
      - intros (H1 & H2) sd col Hc. destruct sd; [apply (H1 _ col (d_m p Side1) Hc)|apply (H2 _ col (d_m p Side2) Hc)].
      - intros H. split; intros m col Hm Hc; [pose proof (size_fun _ _ _ _ Hf Hm (d_m p Side1)); subst m; exact (H Side1 col Hc)|pose proof (size_fun _ _ _ _ Hf Hm (d_m p Side2)); subst m; exact (H Side2 col Hc)]. }
    rewrite EQ. split.
    - intros H sd cov ty ur us Hc E1 E2 E3. assert (Hl : cov - 1 < p_m p sd). { destruct (Hs sd) as (_ & _ & _ & L & _). rewrite <- L. apply nth_error_Some. congruence. }
      apply (assigned_iff p sd (cov - 1) Hw Hl) in H; [|exact Hl]. destruct H as (ty' & ur' & us' & E1' & E2' & E3' & HM & F). replace (cov - 1 + 1) with cov in * by lia.
      rewrite E1 in E1'. injection E1' as <-.
      assert (ur' = ur) by (eapply nth_error_ext; intros i; destruct E2 as (L & E2); destruct E2' as (L' & E2'); destruct (nth_error (p_Ur p sd) i) as [r|] eqn:Er; [rewrite (E2 _ _ Er), (E2' _ _ Er); reflexivity|apply nth_error_None in Er; rewrite !(proj2 (nth_error_None _ _)) by lia; reflexivity]).
      assert (us' = us) by (eapply nth_error_ext; intros i; destruct E3 as (L & E3); destruct E3' as (L' & E3'); destruct (nth_error (p_Us p sd) i) as [r|] eqn:Er; [rewrite (E3 _ _ Er), (E3' _ _ Er); reflexivity|apply nth_error_None in Er; rewrite !(proj2 (nth_error_None _ _)) by lia; reflexivity]).
      subst. auto.
    - intros H sd col Hc. apply assigned_iff; [exact Hw|exact Hc|]. destruct (Hs sd) as (_ & MR & MS & L & _).
      destruct (nth_error (p_type p sd) col) as [ty|] eqn:Et; [|apply nth_error_None in Et; lia].
      destruct (column_ex _ _ _ col MR Hc) as (ur & E2). destruct (column_ex _ _ _ col MS Hc) as (us & E3).
      exists ty, ur, us. do 3 (split; [auto|]). apply (H sd (col + 1) ty ur us); [lia|replace (col + 1 - 1) with col by lia; exact Et|exact E2|exact E3]. }
  assert (HKu : k_uncertainties (file_of p) <-> forall i r s, nth_error (p_Kr p) i = Some r -> nth_error (p_Ks p) i = Some s -> (0 <= r /\ 0 <= s /\ (0 < r \/ 0 < s))%R).
  { assert (Dr : data (file_of p) "Kr" (Arr1 (p_Kr p))) by (apply file_data; cbn; tauto). assert (Ds : data (file_of p) "Ks" (Arr1 (p_Ks p))) by (apply file_data; cbn; tauto).
    unfold k_uncertainties. split.
    - intros H. apply H; auto.
    - intros H kr ks H1 H2. pose proof (data_unique _ _ _ _ Hf H1 Dr) as Q1. pose proof (data_unique _ _ _ _ Hf H2 Ds) as Q2. injection Q1 as ->. injection Q2 as ->. exact H. }
  assert (HT : two_sensors (file_of p) <-> p_name p Side1 <> p_name p Side2).
  { unfold two_sensors, file_of. cbn [nc_attrs attrs_of]. split.
    - intros (a & b & Ha & Hb & H). cbn in Ha, Hb. destruct Ha as [E|[E|[]]]; [injection E as <-|discriminate]. destruct Hb as [E|[E|[]]]; [discriminate|injection E as <-]. exact H.
    - intros H. exists (p_name p Side1), (p_name p Side2). cbn. tauto. }
  unfold acceptable, good_values. rewrite HAs, HKu, HT. split; [tauto|].
  intros (H1 & H2 & H3). split; [apply file_required|]. split; [right; intros n Hn; apply file_now; auto|]. split; [exact H1|]. split; [exact H2|]. split; [|exact H3].
  assert (HU : forall sd rows r x, rows = p_Ur p sd \/ rows = p_Us p sd -> In r rows -> In x r -> (0 <= x)%R).
  { intros sd rows r x Hr Hi Hx. destruct (Hs sd) as (_ & MR & MS & L & _). apply In_nth_error in Hi. destruct Hi as (i & Hi). apply In_nth_error in Hx. destruct Hx as (col & Hx).
    assert (Hl : length r = p_m p sd). { apply nth_error_In in Hi. destruct Hr as [-> | ->]; [apply MR|apply MS]; exact Hi. }
    assert (Hc : col < p_m p sd) by (rewrite <- Hl; apply nth_error_Some; congruence).
    destruct (nth_error (p_type p sd) col) as [ty|] eqn:Et; [|apply nth_error_None in Et; lia].
    destruct (column_ex _ _ _ col MR Hc) as (ur & E2). destruct (column_ex _ _ _ col MS Hc) as (us & E3).
    assert (Et' : nth_error (p_type p sd) (col + 1 - 1) = Some ty) by (replace (col + 1 - 1) with col by lia; exact Et).
    destruct (H3 sd (col + 1) ty ur us ltac:(lia) Et' E2 E3) as (_ & F).
    assert (P : forall c, ReaderSpec.is_column rows (col + 1) c -> In x c). { intros c (_ & E). specialize (E i r Hi). replace (col + 1 - 1) with col in E by lia. rewrite Hx in E. eapply nth_error_In. exact E. }
    destruct Hr as [-> | ->].
    - specialize (P ur E2). destruct F as [(_ & F & _)|(_ & F & _)]; rewrite Forall_forall in F; specialize (F x P); lra.
    - specialize (P us E3). destruct F as [(_ & _ & F)|(_ & _ & F)]; rewrite Forall_forall in F; specialize (F x P); lra. }
  intros n rows r x Hn HD Hr Hx.
  assert (Q : exists sd, rows = p_Ur p sd \/ rows = p_Us p sd).
  { destruct Hn as [<-|[<-|[<-|[<-|[]]]]].
    - pose proof (data_unique _ _ _ _ Hf HD (d_ur p Side1)) as Q. injection Q as ->. exists Side1; auto.
    - pose proof (data_unique _ _ _ _ Hf HD (d_ur p Side2)) as Q. injection Q as ->. exists Side2; auto.
    - pose proof (data_unique _ _ _ _ Hf HD (d_us p Side1)) as Q. injection Q as ->. exists Side1; auto.
    - pose proof (data_unique _ _ _ _ Hf HD (d_us p Side2)) as Q. injection Q as ->. exists Side2; auto. }
  destruct Q as (sd & Q). eapply HU; eauto.
Qed.
End W.
