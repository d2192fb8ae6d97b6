(** * Proofs for C144-C147: additional variables of AVHRR files, values of their uncertainty vectors. *)
From Coq Require Import Reals Lra.
From Verif Require Import Base BaseLemmas ReaderModel ReaderMain UncModel UncSpec TransformModel TransformProofs EvalModel GNModel SimModel SimProofs WModel WSpec WProofs WProofs2 AvModel AvSpec AvProofs AvProofs2.
Open Scope nat_scope.

(** ** Uncertainty vectors *)
Lemma gen_from_rows times dt rows wt ks W u ws : (1 / 100 < dt)%R -> kernel (KA rows) wt ks = Ok ws -> gen_w times dt (KA rows) wt ks = Ok (W, u) ->
  (forall r, In r rows -> length r = length ws) -> (forall r x, In r rows -> In x r -> (0 < x)%R) -> forall v, In v u -> exists r, In r rows /\ In v r.
Proof.
  intros Hd Hk H HLr Hpo. unfold gen_w in H. rewrite Hk in H. cbn [bind] in H. destruct (column_positions times dt) as [pos|] eqn:Ep; [|discriminate]. cbn [bind] in H.
  destruct (pymax _) as [mx|] eqn:Em in H; [|discriminate]. cbn [bind] in H.
  assert (HK : forall x, In x (repeat ws (length pos)) -> length x = length ws) by (intros x Hx; apply repeat_spec in Hx; subst; auto).
  rewrite flat_map_const, (kmat_new (length ws) pos (repeat ws (length pos)) (mx + 1) HK (repeat_length _ _)) in H. cbn [bind] in H.
  destruct (positions_ok times dt pos Hd Ep) as (line & mn & HL & Hlen & Hpos). set (w := kmat (length ws) pos (repeat ws (length pos)) (mx + 1)) in *.
  destruct (mapM _ (seq 0 (length pos))) as [UA|] eqn:EU in H; [|discriminate]. cbn [bind] in H.
  assert (LU : length UA = length pos) by (rewrite (mapM_length _ _ _ EU), seq_length; auto).
  assert (NU : forall i, i < length pos -> exists r, nth_error rows i = Some r /\ nth_error UA i = Some r /\ length r = length ws).
  { intros i Hi. destruct (mapM_nth _ _ _ i i EU) as (r' & E & E'); [rewrite (nth_error_nth' _ 0) by (rewrite seq_length; auto); rewrite seq_nth; auto|]. destruct (get rows i) as [r|] eqn:Er; [|discriminate]. cbn [bind] in E. apply get_ok in Er.
    pose proof (HLr r (nth_error_In _ _ Er)) as L. unfold row_of in E. rewrite L, Nat.eqb_refl in E. injection E as <-. exists r. auto. }
  assert (KU : forall x, In x UA -> length x = length ws).
  { intros x Hx. apply In_nth_error in Hx. destruct Hx as (i & Hi). assert (i < length pos) by (rewrite <- LU; apply nth_error_Some; congruence). destruct (NU i H0) as (r & _ & E & L). congruence. }
  rewrite (kmat_new (length ws) pos UA (mx + 1) KU LU) in H. cbn [bind] in H. destruct (mapM _ (seq 0 (c_ncols R _))) as [uv|] eqn:Ev in H; [|discriminate]. injection H as <- <-.
  intros v Hv. apply In_nth_error in Hv. destruct Hv as (n & Hv).
  assert (Hn : n < length (nonzero_columns w)).
  { assert (n < length uv) by (apply nth_error_Some; congruence). rewrite (mapM_length _ _ _ Ev), seq_length in H. exact H. }
  destruct (nth_error (nonzero_columns w) n) as [j|] eqn:Ej; [|apply nth_error_None in Ej; lia].
  destruct (mapM_nth _ _ _ n n Ev) as (v' & E & Enth). { rewrite (nth_error_nth' _ 0) by (rewrite seq_length; auto). rewrite seq_nth; auto. }
  rewrite Hv in Enth. injection Enth as <-. set (l := map _ _) in E.
  assert (Hj : In j (nonzero_columns w)) by (eapply nth_error_In; eauto). apply used_iff in Hj. destruct Hj as (_ & i0 & Hi0 & En0). change (c_nrows R w) with (length pos) in Hi0.
  assert (EU' : forall i p, nth_error pos i = Some p -> exists r, nth_error rows i = Some r /\ length r = length ws /\ csr_entry (csr_select (kmat (length ws) pos UA (mx + 1)) (nonzero_columns w)) i n = weight r (Z.of_nat j - Z.of_nat p)).
  { intros i p Hp. assert (Hi : i < length pos) by (apply nth_error_Some; congruence). destruct (NU i Hi) as (r & E1 & E3 & Lr).
    exists r. split; [auto|]. split; [auto|]. rewrite (select_entry _ _ i n j (used_nodup w)) by auto. apply (kmat_entry (length ws) pos UA (mx + 1) i p r j KU Hp E3). }
  assert (VAL : forall r z, In r rows -> weight r z = 0%R \/ In (weight r z) r).
  { intros r z Hr. unfold weight. destruct (Z.leb_spec 0 z); [|auto]. destruct (nth_error r (Z.to_nat z)) as [y|] eqn:Ey; [|left; apply nth_overflow, nth_error_None; auto]. right. rewrite (nth_error_nth _ _ 0%R Ey). eapply nth_error_In; eauto. }
  destruct (nth_error pos i0) as [p0|] eqn:Ep0; [|apply nth_error_None in Ep0; lia].
  destruct (EU' i0 p0 Ep0) as (r0 & R0 & L0 & W0).
  assert (G0 : In (weight r0 (Z.of_nat j - Z.of_nat p0)) r0).
  { unfold w in En0. rewrite (kmat_entry (length ws) pos _ _ i0 p0 ws j HK Ep0) in En0 by (apply repeat_nth; auto). pose proof (weight_range _ _ En0) as RW.
    destruct (nth_error r0 (Z.to_nat (Z.of_nat j - Z.of_nat p0))) as [y|] eqn:Ey; [|apply nth_error_None in Ey; lia].
    unfold weight. replace (0 <=? Z.of_nat j - Z.of_nat p0)%Z with true by (symmetry; apply Z.leb_le; lia). rewrite (nth_error_nth _ _ 0%R Ey). eapply nth_error_In; eauto. }
  pose proof (Hpo r0 _ (nth_error_In _ _ R0) G0) as P0.
  assert (Hin : In (weight r0 (Z.of_nat j - Z.of_nat p0)) l). { unfold l. apply in_map_iff. exists i0. rewrite W0. split; [reflexivity|apply in_seq; lia]. }
  destruct (rmax_ok l) as (v' & Ev' & Iv & Mv); [intros Enil; rewrite Enil in Hin; destruct Hin|]. rewrite E in Ev'. injection Ev' as <-.
  specialize (Mv _ Hin). unfold l in Iv. apply in_map_iff in Iv. destruct Iv as (i & Ei & Hi). apply in_seq in Hi. destruct (nth_error pos i) as [p|] eqn:Epi; [|apply nth_error_None in Epi; lia].
  destruct (EU' i p Epi) as (r & Hr & Lr & Wr). rewrite Wr in Ei. exists r. split; [eapply nth_error_In; eauto|]. destruct (VAL r (Z.of_nat j - Z.of_nat p)%Z (nth_error_In _ _ Hr)) as [E0|E0]; [|congruence]. exfalso. rewrite E0 in Ei. subst v. lra.
Qed.

(** ** Additional variables *)
Lemma NoDup_app'_local {A} (l m : list A) : NoDup l -> NoDup m -> (forall x, In x l -> ~ In x m) -> NoDup (l ++ m).
Proof. induction l as [|a l IH]; intros H1 H2 H; [exact H2|]. cbn. inversion H1; subst. constructor; [rewrite in_app_iff; intros [Hi|Hi]; [auto|apply (H a); cbn; auto]|]. apply IH; auto. intros x Hx. apply H. right; auto. Qed.
Section A.
Variable torad : option string -> list fl -> res (list fl).
Lemma sel_length {A B} mask (l : list A) (l' : list B) : length mask = length l -> length mask = length l' -> length (sel mask l) = length (sel mask l').
Proof. unfold sel. revert l l'. induction mask as [|b m IH]; intros [|x l] [|y l'] H H'; try discriminate; [reflexivity|]. cbn in *. destruct b; cbn; rewrite (IH l l') by lia; reflexivity. Qed.

Definition adds_ok (n : nat) (d : dict) : Prop := NoDup (map fst d) /\ forall x, In x d -> In (fst x) (map snd renamed) /\ length (snd x) = n.
Lemma kept_names d mask l : forall x, In x (kept_vars d mask l) -> In (fst x) (map snd l).
Proof. unfold kept_vars. induction l as [|[a b] l IH]; cbn; [intros x []|]. intros x Hx. destruct (lookup a d); cbn in Hx; [destruct Hx as [<- |Hx]; auto|auto]. Qed.
Lemma returned_adds (d : dict) mask d' n (K : list fl) : return_additional_variables d mask = Ok d' -> length mask = length K -> length (sel mask K) = n -> adds_ok n d'.
Proof.
  intros H HK Hn. unfold return_additional_variables in H.
  assert (G : forall l acc d', foldM (fun acc p => match lookup (fst p) d with Some v => do v' <- masked mask v;; Ok (acc ++ [(snd p, v')]) | None => Ok acc end) l acc = Ok d' ->
     NoDup (map snd l) -> NoDup (map fst acc) -> (forall x, In x (map fst acc) -> ~ In x (map snd l)) -> (forall x : string * list fl, In x acc -> length (snd x) = n) ->
     NoDup (map fst d') /\ forall x, In x d' -> (In x acc \/ In (fst x) (map snd l)) /\ length (snd x) = n).
  { clear H d'. induction l as [|[a b] l IH]; intros acc d'; cbn [foldM map fst snd].
    - intros [= <-] _ ND _ HL. split; [exact ND|]. intros x Hx. split; [auto|auto].
    - intros H ND NA DJ HL. inversion ND as [|? ? N1 N2]; subst.
      destruct (lookup a d) as [v|]; cbn [bind] in H.
      + destruct (masked mask v) as [v'|] eqn:Ev; cbn [bind] in H; [|discriminate]. apply masked_ok in Ev. destruct Ev as (L & ->).
        destruct (IH _ _ H N2) as (A & B).
        * rewrite map_app. cbn [map fst]. apply NoDup_app'_local; [exact NA| |]. { constructor; [intros []|constructor]. } intros x Hx [<- |[]]. apply (DJ b Hx). left. reflexivity.
        * intros x Hx. rewrite map_app in Hx. apply in_app_or in Hx. destruct Hx as [Hx|[<- |[]]]; [intros Hi; apply (DJ x Hx); right; exact Hi|exact N1].
        * intros x Hx. apply in_app_or in Hx. destruct Hx as [Hx|[<- |[]]]; [auto|]. cbn [snd]. apply sel_length; auto.
        * split; [exact A|]. intros x Hx. destruct (B x Hx) as ([C|C] & D); (split; [|exact D]); [|right; right; exact C]. apply in_app_or in C. destruct C as [C|[<- |[]]]; [auto|]. right. left. reflexivity.
      + destruct (IH _ _ H N2 NA) as (A & B); [intros x Hx Hi; apply (DJ x Hx); right; exact Hi|exact HL|]. split; [exact A|]. intros x Hx. destruct (B x Hx) as ([C|C] & D); (split; [|exact D]); [left; exact C|right; right; exact C]. }
  destruct (G renamed [] d' H renamed_nodup) as (A & B); [constructor|intros x []|intros x []|]. split; [exact A|]. intros x Hx. destruct (B x Hx) as ([[]|C] & D). auto.
Qed.

Lemma prepare_adds f lim p : prepare torad f lim = Ok p -> adds_ok (length (p_K p)) (p_adds p) /\ length (p_X1 p) = length (p_K p) /\ length (p_X2 p) = length (p_K p).
Proof.
  intros H. unfold prepare in H. destruct (rename_bt (a_adds f)) as [[band d0]|] eqn:E0; cbn [bind] in H; [|discriminate].
  repeat (match type of H with bind ?x _ = _ => destruct x as [?|] eqn:?; cbn [bind] in H; [|discriminate] end).
  destruct (wuses _) as [[[w1 w2] uu1] uu2]. repeat (match type of H with bind ?x _ = _ => destruct x as [?|] eqn:?; cbn [bind] in H; [|discriminate] end).
  injection H as <-. cbn [p_adds p_K p_X1 p_X2].
  repeat match goal with E : masked _ _ = Ok _ |- _ => apply masked_ok in E; destruct E as (? & ->) end.
  split; [eapply (returned_adds _ _ _ _ (a_K f)); eauto; congruence|]. unfold columns. split; (etransitivity; [apply map_length|]; apply sel_length; congruence).
Qed.
Lemma write_adds dir m1 m2 X1 X2 r1 r2 s1 s2 t1 t2 K Kr Ks ti1 ti2 n1 n2 adds W o n : write_file dir m1 m2 X1 X2 r1 r2 s1 s2 t1 t2 K Kr Ks ti1 ti2 n1 n2 adds W = Ok o ->
  adds_ok n adds -> length X1 = n -> length X2 = n -> length K = n ->
  NoDup (map fst (o_adds o)) /\ forall x, In x (o_adds o) -> In (fst x) (map snd renamed ++ ["To1"; "To2"]%string) /\ length (snd x) = length (o_K o).
Proof.
  intros H (ND & HA) L1 L2 LK. unfold write_file in H.
  destruct (if m1 =? 4 then _ else _) as [To1|] eqn:E1; cbn [bind] in H; [|discriminate]. destruct (if m2 =? 4 then _ else _) as [To2|] eqn:E2; cbn [bind] in H; [|discriminate].
  destruct n1 as [n1|]; [|discriminate]. destruct n2 as [n2|]; [|discriminate]. injection H as <-. cbn [o_adds o_K].
  assert (T : forall (b : bool) (nm : string) (rows : list (list fl)) (To : dict), (if b then do c <- last_col rows;; Ok [(nm, c)] else Ok []) = Ok To -> length rows = n -> To = [] \/ exists c, To = [(nm, c)] /\ length c = n).
  { intros [|] nm rows To HT L; [|left; congruence]. right. destruct (last_col rows) as [c|] eqn:Ec; cbn [bind] in HT; [|discriminate]. injection HT as <-. exists c. split; [reflexivity|]. unfold last_col in Ec. rewrite (mapM_length _ _ _ Ec). exact L. }
  pose proof (T _ _ _ _ E1 L1) as T1. pose proof (T _ _ _ _ E2 L2) as T2. clear T E1 E2.
  assert (NR : forall x, In x adds -> fst x <> "To1"%string /\ fst x <> "To2"%string). { intros x Hx. destruct (HA x Hx) as (Hi & _). split; intros E; rewrite E in Hi; cbn in Hi; intuition discriminate. }
  assert (N1 : ~ In "To1"%string (map fst adds)) by (intros Hi; apply in_map_iff in Hi; destruct Hi as (x & E & Hx); destruct (NR x Hx); congruence).
  assert (N2 : ~ In "To2"%string (map fst adds)) by (intros Hi; apply in_map_iff in Hi; destruct Hi as (x & E & Hx); destruct (NR x Hx); congruence).
  split.
  - rewrite !map_app. apply NoDup_app'_local; [exact ND| |].
    + destruct T1 as [-> |(c & -> & _)], T2 as [-> |(c' & -> & _)]; cbn; repeat constructor; cbn; intuition discriminate.
    + intros x Hx Hi. destruct T1 as [-> |(c & -> & _)], T2 as [-> |(c' & -> & _)]; cbn in Hi; intuition (subst; auto).
  - intros x Hx. rewrite in_app_iff. apply in_app_or in Hx. destruct Hx as [Hx|Hx]; [destruct (HA x Hx); split; [auto|congruence]|].
    destruct T1 as [-> |(c & -> & LC)], T2 as [-> |(c' & -> & LC')]; cbn in Hx; intuition (subst; cbn; auto; try congruence).
Qed.
Theorem av_adds f lim files o : av_main torad f lim = Ok files -> In o files ->
  NoDup (map fst (o_adds o)) /\ forall x, In x (o_adds o) -> In (fst x) (map snd renamed ++ ["To1"; "To2"]%string) /\ length (snd x) = length (o_K o).
Proof.
  intros H Ho. unfold av_main in H. destruct (prepare torad f lim) as [p|] eqn:Ep; cbn [bind] in H; [|discriminate]. destruct (prepare_adds f lim p Ep) as (A & L1 & L2).
  destruct (p_dirs p) as [d3 d4]. destruct (wuses (p_ref p)) as [[[w1 w2] uu1] uu2].
  repeat (match type of H with bind ?x _ = _ => destruct x as [?|] eqn:?; cbn [bind] in H; [|discriminate] end). injection H as <-.
  assert (G : forall l g fs, mapM g l = Ok fs -> (forall (x : string * (nat * nat)) o, g x = Ok o -> NoDup (map fst (o_adds o)) /\ forall x, In x (o_adds o) -> In (fst x) (map snd renamed ++ ["To1"; "To2"]%string) /\ length (snd x) = length (o_K o)) ->
     forall o, In o fs -> NoDup (map fst (o_adds o)) /\ forall x, In x (o_adds o) -> In (fst x) (map snd renamed ++ ["To1"; "To2"]%string) /\ length (snd x) = length (o_K o)).
  { clear. induction l as [|x l IH]; intros g fs HF HG o; cbn [mapM] in HF; [injection HF as <-; intros []|]. destruct (g x) as [y|] eqn:Ey; cbn [bind] in HF; [|discriminate].
    destruct (mapM g l) as [ys|] eqn:Ys; cbn [bind] in HF; [|discriminate]. injection HF as <-. intros [<- |Hi]; [eapply HG; eauto|eapply IH; eauto]. }
  assert (W : forall dir m1 m2 r1 r2 s1 s2 t1 t2 W o, write_file dir m1 m2 (p_X1 p) (p_X2 p) r1 r2 s1 s2 t1 t2 (p_K p) (p_Kr p) (p_Ks p) (p_t1 p) (p_t2 p) (p_s1 p) (p_s2 p) (p_adds p) W = Ok o ->
     NoDup (map fst (o_adds o)) /\ forall x, In x (o_adds o) -> In (fst x) (map snd renamed ++ ["To1"; "To2"]%string) /\ length (snd x) = length (o_K o)) by (intros; eapply write_adds; eauto).
  apply in_app_or in Ho. destruct Ho as [Ho|Ho]; [|apply in_app_or in Ho; destruct Ho as [Ho|Ho]];
    match goal with E : mapM _ _ = Ok ?l, _ : In o ?l |- _ => apply (G _ _ _ E); [intros x o'; apply W|exact Ho] end.
Qed.
End A.
