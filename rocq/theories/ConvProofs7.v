(** * Proofs for C142: which files of pmh2fiduceo.py the checker accepts. *)
From Coq Require Import Reals Lra.
From Verif Require Import Base BaseLemmas ReaderModel ReaderSpec ReaderMain UncModel UncSpec UncProofs SimModel GNModel WModel WSpec WProofs WProofs2 WProofs3 WProofs4 CheckModel CheckSpec CheckProofs CheckProofs2 CheckProofs3 CheckProofs4 CheckProofs5 HRModel PmhModel PmhSpec PmhProofs PmhProofs2 PmhProofs3 IOModel IOSpec IOProofs IOProofs2 ConvModel ConvSpec ConvProofs ConvProofs2 ConvProofs3 ConvProofs4 ConvProofs5 ConvProofs6.
Open Scope nat_scope.

Lemma const_col l n m g c x col : constant_rows (Some l) n m g -> c < m -> g c = Some x -> CheckSpec.is_column l c col -> col = repeat x n.
Proof.
  intros (l' & [= <-] & L & H) Hc Hg (Lc & E). apply nth_error_ext. intros i. destruct (Nat.lt_ge_cases i n) as [Hi|Hi].
  - rewrite repeat_nth by exact Hi. destruct (nth_error l i) as [r|] eqn:Er; [|apply nth_error_None in Er; lia]. rewrite (E i r Er). destruct (H i r Er) as (_ & H2). rewrite (H2 c Hc). exact Hg.
  - rewrite !(proj2 (nth_error_None _ _)); [reflexivity|rewrite repeat_length; lia|lia].
Qed.
Lemma fall_pos (x : R) n : n <> 0 -> (Forall (Rlt 0) (repeat x n) <-> (0 < x)%R).
Proof. intros Hn. rewrite Forall_forall. apply repeat_pos. exact Hn. Qed.
Lemma fall_zero (x : R) n : n <> 0 -> (Forall (eq 0%R) (repeat x n) <-> x = 0%R).
Proof. intros Hn. rewrite Forall_forall. split; [intros H; symmetry; apply H; destruct n; [lia|left; auto]|intros -> y Hy; apply repeat_spec in Hy; auto]. Qed.
Lemma form_repeat t r s w n : n <> 0 -> (form t (repeat r n) (repeat s n) (Z.of_nat w) <->
  (t = 1%Z /\ 0 < r /\ s = 0)%R \/ (t = 2%Z /\ 0 < r /\ 0 < s)%R \/ (t = 3%Z /\ w <> 0 /\ s = 0%R) \/ (t = 4%Z /\ w <> 0 /\ (0 < s)%R)).
Proof.
  intros Hn. unfold form. rewrite !fall_pos, !fall_zero by exact Hn.
  assert (HW : (0 < Z.of_nat w)%Z <-> w <> 0) by lia. rewrite HW. tauto.
Qed.
(** The uncertainties of one variable as the file states them. *)
Definition v_ok (v : uvar) : Prop := v_type v <> 3 -> (0 < v_uR v)%R /\ (v_type v = 2 -> (0 < v_uS v)%R).
Lemma var_form v n : n <> 0 -> (v_type v = 1 \/ v_type v = 2 \/ v_type v = 3) -> (v_type v <> 2 -> v_uS v = 0%R) ->
  (only_form (Z.of_nat (v_type v)) (repeat (random_part v) n) (repeat (v_uS v) n) (if v_type v =? 3 then 1 else 0) <-> v_ok v).
Proof.
  intros Hn Ht Hs. unfold only_form, v_ok, random_part. rewrite (form_repeat _ _ _ _ n Hn).
  assert (G : forall t, form t (repeat (if v_type v =? 3 then 0%R else v_uR v) n) (repeat (v_uS v) n) (Z.of_nat (if v_type v =? 3 then 1 else 0)) -> _) by (intros t; exact (proj1 (form_repeat t _ _ _ n Hn))).
  destruct Ht as [E|[E|E]]; rewrite E in *; cbn [Nat.eqb] in *.
  - rewrite (Hs ltac:(lia)) in *. split; [intros (A & _) _; split; [intuition (lra || lia)|lia]|]. intros A. specialize (A ltac:(lia)). split; [left; intuition|]. intros t Hf. specialize (G t Hf). intuition (try lia; try lra).
  - split; [intros (A & _) _; intuition (lra || lia)|]. intros A. specialize (A ltac:(lia)). destruct A as (A1 & A2). specialize (A2 eq_refl). split; [right; left; auto|]. intros t Hf. specialize (G t Hf). intuition (try lia; try lra).
  - rewrite (Hs ltac:(lia)) in *. split; [intros _ A; lia|]. intros _. split; [right; right; left; auto|]. intros t Hf. specialize (G t Hf). intuition (try lia; try lra).
Qed.
Lemma ref_form uref n : n <> 0 -> (only_form 1 (repeat uref n) (repeat 0%R n) 0 <-> (0 < uref)%R).
Proof.
  intros Hn. unfold only_form. rewrite (form_repeat _ _ _ _ n Hn). split; [intros (A & _); intuition (lra || lia)|]. intros A. split; [left; auto|]. intros t Hf. apply (form_repeat t _ _ _ n Hn) in Hf. intuition (try lia; try lra).
Qed.
Lemma text_name a b : a <> b <-> string_of_list_ascii a <> string_of_list_ascii b.
Proof. split; [intros H E; apply H; rewrite <- (list_ascii_of_string_of_list_ascii a), E; apply list_ascii_of_string_of_list_ascii|intros H ->; apply H; reflexivity]. Qed.

Section P.
Context (pyfloat : text -> res R) (pyint : text -> res Z) (f32 : R -> R) (trunc : R -> Z).
Lemma pmh_parts vals w pams uncs dir d at_ im ns at' uref vs k : open_data_pams pyfloat pyint pams = Ok (im, ns, at') -> open_data_uncs pyfloat pyint uncs = Ok (uref, vs, k) ->
  (forall r, In r vals -> length r = w) -> run_conversion pyfloat pyint vals pams uncs dir = Ok (d, at_) -> length im = length ns ->
  forall i a b rest n last f, nth_error im i = Some (a :: b :: rest) -> nth_error ns i = Some n -> nth_error ns (length ns - 1) = Some last -> find_file (file_name (a :: b :: rest)) d = Some f ->
  (0 < n)%Z /\ (0 < last)%Z /\ holds_rows vals uref k vs (PmhSpec.rows_before ns i) (Z.to_nat n) a b f /\
  exists v0 W, nth_error (filter (fun v => v_type v =? 3) vs) 0 = Some v0 /\ wf_csr W /\ last_column_used W /\ c_nrows R W = Z.to_nat last /\ c_ncols R W <> 0 /\
    umat R (uf_u R (p_file f)) = Some (mkMatvars R (if is_ref a then [0] else uses vs) (uses vs) (if is_ref a then [0] else uses vs) (uses vs)
      [length (c_indices R W)] [c_indptr R W] (c_indices R W) (c_data R W) [c_ncols R W] (repeat (v_uR v0) (c_ncols R W))).
Proof.
  intros E1 E2 Hr HR Hlen i a b rest n last f Hi Hz Hlast Hf.
  destruct (conv_rows _ _ _ _ _ _ _ _ _ _ _ _ _ _ _ E1 E2 Hr HR) as (_ & ND & HC). destruct (HC i _ n Hi Hz) as (a' & b' & rest' & f' & G1 & G2 & G3 & G4). injection G1 as <- <- <-. rewrite Hf in G3. injection G3 as <-.
  assert (Hin : In (a :: b :: rest) im) by (eapply nth_error_In; eauto).
  split; [exact G2|]. split.
  { destruct (HC (length ns - 1)) with (names := nth (length ns - 1) im []) (n := last) as (? & ? & ? & ? & _ & G & _); [apply nth_error_nth'; assert (length ns - 1 < length ns) by (apply nth_error_Some; congruence); lia|exact Hlast|]. exact G. }
  split; [exact G4|].
  destruct (run_inv _ _ _ _ _ _ _ _ _ _ _ _ _ _ E1 E2 HR) as (_ & Hl & st & mv & F1 & F2 & F3).
  assert (Lc : length (combine im ns) = length ns) by (rewrite combine_length; lia).
  assert (Hne : combine im ns <> []). { intros E. rewrite E in Lc. cbn in Lc. destruct im; [destruct Hin|cbn in Hlen; lia]. }
  assert (Hlen' : 1 < length vals) by (destruct Hl; [contradiction|auto]). rewrite (rect_hd vals w Hr) in F1 by lia.
  destruct (write_all_inv vals w uref k vs Hr (uncs_typed _ _ _ _ _ _ E2) (combine im ns) (mkCstate 0 (KrF k) dir None) st eq_refl F1) as (_ & _ & W3 & _).
  destruct (W3 Hne) as (m & M1 & M2 & _ & p & M3 & M4).
  rewrite M2 in F2. destruct (make_w_packed _ _ _ F2) as (v0 & W & V1 & V2 & V3 & V4 & V5 & V6). rewrite seq_length in V4.
  destruct (append_all_inv _ _ _ _ _ F3) as (_ & _ & _ & A4). destruct (A4 _ Hin) as (a' & rest' & f' & B1 & B2 & B3 & B4). injection B1 as <- <-. rewrite Hf in B4. injection B4 as Ef.
  exists v0, W. split; [exact V1|]. split; [exact V2|]. split; [exact V3|]. split; [|split; [exact V5|rewrite Ef, V6; reflexivity]].
  rewrite V4. rewrite Lc in M3. destruct p as [nm z]. cbn in M4. subst z.
  assert (nth_error ns (length ns - 1) = Some (Z.of_nat m)) as Q.
  { clear -M3 Hlen. remember (length ns - 1) as i eqn:Ei. clear Ei. revert i ns Hlen M3. induction im as [|x im IH]; intros [|i] [|y ns] Hlen; cbn in *; try discriminate; [congruence|]. intros E. apply (IH i ns); auto. }
  rewrite Hlast in Q. injection Q as ->. lia.
Qed.
End P.
