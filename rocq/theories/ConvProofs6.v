(** * Proofs for C141-C143: converted files can be opened; which files of pmh2fiduceo.py the checker accepts. *)
From Coq Require Import Reals Lra.
From Verif Require Import Base BaseLemmas ReaderModel ReaderSpec ReaderMain UncModel UncSpec UncProofs SimModel GNModel WModel WSpec WProofs WProofs2 WProofs3 WProofs4 CheckModel CheckSpec CheckProofs CheckProofs2 CheckProofs3 CheckProofs4 CheckProofs5 HRModel PmhModel PmhSpec PmhProofs PmhProofs2 PmhProofs3 IOModel IOSpec IOProofs IOProofs2 ConvModel ConvSpec ConvProofs ConvProofs2 ConvProofs3 ConvProofs4 ConvProofs5.
Open Scope nat_scope.

Lemma last_map {A B} (g : A -> B) l d : last (map g l) (g d) = g (last l d).
Proof. induction l as [|x [|y l] IH]; [reflexivity|reflexivity|]. exact IH. Qed.
Lemma packed_rows f p mv ws us r m1 m2 : has_file f p mv -> packed mv ws us r m1 m2 -> row_pointers f.
Proof.
  intros Hf Hp nnz rows k l n D1 D2 H1 H2. pose proof (hf_wf _ _ _ Hf) as Hw.
  pose proof (data_unique _ _ _ _ Hw D1 (hf_nnz _ _ _ Hf)) as Q1. pose proof (data_unique _ _ _ _ Hw D2 (hf_row _ _ _ Hf)) as Q2. unfold zs1 in Q1. injection Q1 as ->. injection Q2 as ->.
  rewrite (pk_nnz _ _ _ _ _ _ Hp), map_map, nth_error_map in H2. rewrite (pk_row _ _ _ _ _ _ Hp), map_map, nth_error_map in H1.
  destruct (nth_error ws k) as [w|] eqn:E; [|discriminate]. cbn in H1, H2. injection H1 as <-. injection H2 as <-.
  destruct (proj2 (pk_w _ _ _ _ _ _ Hp) w (nth_error_In _ _ E)) as ((A & B & C & D) & _). destruct (c_indptr R w) as [|x l]; [discriminate|]. cbn in B. injection B as ->. split; [reflexivity|].
  change 0%Z with (Z.of_nat 0). rewrite last_map, D, C. lia.
Qed.

(** Values stored. *)
Definition csr_map (g : R -> R) (w : csr R) : csr R := mkCsr R (map g (c_data R w)) (c_indices R w) (c_indptr R w) (c_nrows R w) (c_ncols R w).
Lemma packed_stored g mv ws us r m1 m2 : packed mv ws us r m1 m2 -> packed (smv g mv) (map (csr_map g) ws) (map (map g) us) r m1 m2.
Proof.
  intros Hp. constructor; cbn [smv w_nnz w_row w_col w_val u_row_count u_val wuse1 wuse2 uuse1 uuse2]; rewrite ?map_map, ?map_length; try apply Hp.
  - rewrite (pk_val _ _ _ _ _ _ Hp), concat_map, map_map. reflexivity.
  - rewrite (pk_cnt _ _ _ _ _ _ Hp). apply map_ext. intros. symmetry. apply map_length.
  - rewrite (pk_uval _ _ _ _ _ _ Hp), concat_map. reflexivity.
  - destruct (pk_w _ _ _ _ _ _ Hp) as (A & B). split; [destruct ws; [congruence|discriminate]|]. intros w Hw. apply in_map_iff in Hw. destruct Hw as (w0 & <- & Hw). destruct (B w0 Hw) as ((C1 & C2 & C3 & C4) & C5 & C6).
    split; [|split; [exact C5|exact C6]]. unfold wf_csr, csr_map. cbn [c_data c_indices c_indptr c_nrows c_ncols]. rewrite map_length. auto.
  - intros i k u W H1 H2 H3. rewrite nth_error_map in H3. destruct (nth_error ws k) as [W0|] eqn:E; [|discriminate]. cbn in H3. injection H3 as <-.
    destruct (pk_size _ _ _ _ _ _ Hp i k u W0 H1 H2 E) as (U & A & B). exists (map g U). rewrite nth_error_map, A. split; [reflexivity|]. rewrite map_length. exact B.
Qed.

Lemma has_ext f p q mv : p_M q = p_M p -> p_m q = p_m p -> p_name q = p_name p -> p_X q = p_X p -> (forall sd, p_Ur q sd = p_Ur p sd) -> p_Us q = p_Us p -> (forall sd, p_type q sd = p_type p sd) ->
  p_time q = p_time p -> p_K q = p_K p -> p_Kr q = p_Kr p -> p_Ks q = p_Ks p -> has_file f p mv -> has_file f q mv.
Proof. intros E1 E2 E3 E4 E5 E6 E7 E8 E9 E10 E11 H. constructor; intros; rewrite ?E1, ?E2, ?E3, ?E4, ?E5, ?E6, ?E7, ?E8, ?E9, ?E10, ?E11; apply H. Qed.

(** ** Microwave files *)
Lemma clear_converted a rows n : matrix rows n (mw_covariates a) -> clear a rows = map (fun r => repeat 0%R (averaged a) ++ skipn (averaged a) r) rows.
Proof.
  intros (_ & H). unfold clear. apply map_ext_in. intros r Hr. rewrite (H r Hr). destruct a; reflexivity.
Qed.
Lemma types_converted a : map Z.of_nat (mw_types a) = map (mw_type_of a) (seq 0 (mw_covariates a)).
Proof. destruct a; reflexivity. Qed.
Section Mw.
Context (f32 : R -> R) (trunc : R -> Z).
Theorem mw_accepted' f p a : base_file f p -> mw_name (a Side1) (p_name p Side1) -> mw_name (a Side2) (p_name p Side2) -> a Side2 <> Ref -> p_M p <> 0 -> (forall sd, p_m p sd = mw_covariates (a sd)) ->
  exists g mv, mw_file f32 trunc f = Ok g /\ has_file g (mw_converted p a) mv /\ row_pointers g /\ (check g = Ok [] <-> mw_good p a).
Proof.
  intros Hb N1 N2 Hr2 HM Hm. destruct (mw_accepted f32 trunc f p a Hb N1 N2 Hr2 HM Hm) as (g & mv & E & HF & HC). destruct (mw_result f32 trunc f p a Hb N1 N2 Hr2 HM Hm) as (g' & mv' & ws & us & E' & HF' & Hp & _).
  assert (g' = g) by congruence. subst g'. exists g, mv. split; [exact E|]. split; [|split; [exact (packed_rows _ _ _ _ _ _ _ _ HF' Hp)|exact HC]].
  revert HF. apply has_ext; try reflexivity.
  - intros sd. assert (MAT : matrix (p_Ur p sd) (p_M p) (mw_covariates (a sd))) by (rewrite <- Hm; destruct (base_mat f p sd) as (A & _); try apply Hb; exact A).
    pose proof (clear_converted (a sd) _ _ MAT) as EC. destruct sd; symmetry; exact EC.
  - intros sd. pose proof (types_converted (a sd)) as EC. destruct sd; symmetry; exact EC.
Qed.
End Mw.

(** ** PMH tables *)
Lemma make_w_packed vs t mv : make_w vs (Some t) = Ok mv -> exists v0 W, nth_error (filter (fun v => v_type v =? 3) vs) 0 = Some v0 /\ wf_csr W /\ last_column_used W /\ c_nrows R W = length t /\ c_ncols R W <> 0 /\
  mv = mkMatvars R [] [] [] [] [length (c_indices R W)] [c_indptr R W] (c_indices R W) (c_data R W) [c_ncols R W] (repeat (v_uR v0) (c_ncols R W)).
Proof.
  intros H. destruct (make_w_inv _ _ _ H) as (v0 & V1 & V2 & Ht & W & u & EG & _ & _ & HN & line & cols & HL & HR & Hu & Hx). exists v0, W. split; [exact V1|].
  destruct (gen_format _ _ _ _ _ (eqw (Z.to_nat (v_nW v0))) W u line cols EG ltac:(rewrite map_length; exact HR)) as (Fa & Fb).
  assert (Hc : cols <> []).
  { intros ->. destruct HR as (_ & _ & _ & HC & _). apply (proj2 (HC (line 0%nat))). exists 0. split; [destruct t; [congruence|cbn; lia]|].
    unfold weight. rewrite Z.sub_diag. cbn [Z.leb Z.compare Z.to_nat]. unfold eqw. assert (Hk' : 0 < Z.to_nat (v_nW v0)) by lia. rewrite (nth_error_nth _ _ 0%R (nth_repeat' _ _ 0 Hk')).
    unfold Rdiv. rewrite Rmult_1_l. apply Rinv_neq_0_compat. apply not_0_INR. lia. }
  pose proof (Fb Hc) as Hlc. assert (Ec : c_ncols R W = length cols) by apply HR. split; [exact Fa|]. split; [exact Hlc|]. split; [exact HN|]. split; [rewrite Ec; destruct cols; [congruence|discriminate]|].
  assert (Eu : u = repeat (v_uR v0) (c_ncols R W)).
  { rewrite Ec, <- Hu. apply (nth_ext _ _ 0%R 0%R); [rewrite repeat_length; auto|]. intros n Hn. rewrite (Hx (nth n u 0%R)) by (apply nth_In; auto). symmetry. apply nth_error_nth, repeat_nth. auto. }
  unfold make_w in H. rewrite (proj2 (get_ok _ _ _) V1) in H. cbn [bind] in H. match type of H with (if ?b then _ else _) = _ => destruct b end; [discriminate|].
  destruct (Z.ltb_spec (v_nW v0) 0) as [|_]; [discriminate|]. rewrite EG in H. cbn [bind] in H.
  assert (A1 : [W] <> []) by discriminate. assert (A2 : forall w, In w [W] -> wf_csr w /\ c_nrows R w = length t /\ last_column_used w) by (intros w [<- |[]]; auto).
  rewrite (pack_mv _ _ _ _ _ _ _ (length t) A1 A2 H). cbn [map concat]. rewrite !app_nil_r, Eu, repeat_length. reflexivity.
Qed.
Lemma filter0 vs v0 : nth_error (filter (fun v => v_type v =? 3) vs) 0 = Some v0 -> exists c, nth_error vs c = Some v0 /\ v_type v0 = 3 /\ forall c' v', c' < c -> nth_error vs c' = Some v' -> v_type v' <> 3.
Proof.
  induction vs as [|v vs IH]; [discriminate|]. cbn [filter]. destruct (Nat.eqb_spec (v_type v) 3) as [E|E].
  - cbn. intros [= <-]. exists 0. repeat split; auto. intros c' v' H. lia.
  - intros H. destruct (IH H) as (c & A & B & C). exists (S c). split; [exact A|]. split; [exact B|]. intros [|c'] v' Hc Hv; [cbn in Hv; congruence|]. apply (C c'); [lia|exact Hv].
Qed.
(** Only type 2 has a systematic uncertainty. *)
Section P.
Context (pyfloat : text -> res R) (pyint : text -> res Z).
Definition plain_us (vs : list uvar) : Prop := forall v, In v vs -> v_type v <> 2 -> v_uS v = 0%R.
Lemma read_var_us ty line v : read_var pyfloat pyint ty line = Ok v -> v_type v <> 2 -> v_uS v = 0%R.
Proof.
  unfold read_var. intros E. destruct (teqb ty (tx "R")); [|destruct (teqb ty (tx "RS")); [|destruct (teqb ty (tx "MA")); [|discriminate]]];
  repeat (match type of E with bind ?x _ = _ => destruct x as [?|] eqn:?; cbn [bind] in E; [|discriminate] end); injection E as <-; cbn; intros; congruence.
Qed.
Lemma uncs_us lines uref vs k : open_data_uncs pyfloat pyint lines = Ok (uref, vs, k) -> plain_us vs.
Proof.
  unfold open_data_uncs.
  destruct (foldM (unc_line pyfloat pyint (length lines - 1)) (enumerate lines) (mkUstate None None None [])) as [st|] eqn:E; cbn [bind]; [|discriminate].
  assert (G : forall l s s', foldM (unc_line pyfloat pyint (length lines - 1)) l s = Ok s' -> plain_us (s_vars s) -> plain_us (s_vars s')).
  { clear. induction l as [|[i line] l IH]; intros s s'; cbn [foldM]; [intros [= <-]; auto|].
    destruct (unc_line pyfloat pyint (length lines - 1) s (i, line)) as [s1|] eqn:E; cbn [bind]; [|discriminate]. intros HF Hs. apply (IH _ _ HF). clear IH HF.
    unfold unc_line in E. destruct ((i =? 0) || (i + 1 =? length lines - 1)); [injection E as <-; auto|].
    destruct (i =? 1); [destruct (float_line pyfloat line); cbn [bind] in E; [injection E as <-; auto|discriminate]|].
    destruct (i =? length lines - 1); [destruct (float_line pyfloat line); cbn [bind] in E; [injection E as <-; auto|discriminate]|].
    destruct (Nat.even i); [destruct (type_word line); cbn [bind] in E; [injection E as <-; auto|discriminate]|].
    destruct (s_type s) as [t|]; [|discriminate]. destruct (read_var pyfloat pyint t line) as [v|] eqn:Ev; cbn [bind] in E; [|discriminate]. injection E as <-. cbn [s_vars].
    intros w Hw. apply in_app_or in Hw. destruct Hw as [Hw|[<-|[]]]; [auto|]. eapply read_var_us; eauto. }
  destruct (s_ref st), (s_kr st); try discriminate. intros [= <- <- <-]. apply (G _ _ _ E). intros v [].
Qed.
End P.
