From Verif Require Import Base BaseLemmas ReaderModel ReaderSpec ReaderProofs ReaderMain UncModel UncSpec UncProofs UncProofs2.

(** If a property holds initially and every successful step keeps it, it holds at the end. *)
Lemma foldM_keep {S A} (f : S -> A -> res S) (P : S -> Prop) l s s' :
  P s -> (forall s a s', In a l -> P s -> f s a = Ok s' -> P s') -> foldM f l s = Ok s' -> P s'.
Proof.
  revert s. induction l as [|a l IH]; cbn; intros s Hs Hk E; [injection E as <-; auto|].
  destruct (f s a) as [s1|e] eqn:Ef; [|discriminate].
  apply (IH s1); [apply (Hk s a); auto|intros; eapply Hk; eauto|auto].
Qed.

Section P.
Context {V : Type} (zeroV : V).

Definition fresh (n : nat) (l : list (option (unc V))) : Prop :=
  length l = n /\ forall i u, nth_error l i = Some (Some u) -> u_sysi V u = None.

Lemma fresh_set n l b k l' : fresh n l -> setitem b (Some (mkUnc V k None)) l = Ok l' -> fresh n l'.
Proof.
  intros (H1 & H2) E. unfold setitem in E. destruct (b <? length l) eqn:Eb; [|discriminate].
  injection E as <-. split; [rewrite upd_length; auto|].
  intros i u Hu. destruct (Nat.eq_dec b i) as [->|Hn].
  - apply Nat.ltb_lt in Eb. rewrite upd_nth_same in Hu by auto. injection Hu as <-. reflexivity.
  - rewrite upd_nth_other in Hu by auto. eauto.
Qed.

Lemma read_unc_fresh n ix wix uix i f sd ns st ic st' :
  fresh n (st_unc V st) -> read_unc V zeroV ix wix uix i f sd ns st ic = Ok st' -> fresh n (st_unc V st').
Proof.
  intros Hf. unfold read_unc. destruct ic as [ic [[ty wj] uj]].
  destruct (index _ _ _) as [b|]; cbn [bind]; [|discriminate].
  repeat match goal with
  | |- Ok _ = Ok _ -> _ => let H := fresh "E" in intros H; injection H as <-; auto
  | |- Raise _ = Ok _ -> _ => discriminate
  | |- (match ?t with 0 => _ | S _ => _ end) = _ -> _ => destruct t
  | |- context [setitem b ?v (st_unc V st)] => let E := fresh "Es" in destruct (setitem b v (st_unc V st)) eqn:E; cbn [bind]
  | |- context [bind ?m _] => match m with bind _ _ => fail 1 | _ => destruct m; cbn [bind] end
  | |- (let '(_, _) := ?p in _) = _ -> _ => destruct p
  end; cbn [st_unc]; eauto using fresh_set.
Qed.

Lemma number_sys_all_some keys (us us' : list (option (unc V))) :
  number_sys V keys us = Ok us' -> length us = length keys -> forall i o, nth_error us i = Some o -> exists u, o = Some u.
Proof.
  unfold number_sys. intros E Hl.
  destruct (foldM (number_step V) (enumerate keys) ([], us)) as [[sys u2]|] eqn:Ef; [|discriminate].
  clear E.
  assert (G : forall l (sys : list (nat * nat)) u r, foldM (number_step V) l (sys, u) = Ok r ->
     forall i key, In (i, key) l -> (forall j, i <= j -> nth_error u j = nth_error us j) ->
     (exists pre post, l = pre ++ (i, key) :: post /\ forall p, In p pre -> fst p < i) ->
     exists v, nth_error us i = Some (Some v)).
  { intros l. induction l as [|[i0 k0] l IH]; cbn [foldM]; intros sys0 u r E i key Hin Hj (pre & post & Hpp & Hpre); [destruct Hin|].
    destruct (number_step V (sys0, u) (i0, k0)) as [[sys1 u1]|] eqn:Es; [|discriminate].
    destruct pre as [|p pre].
    - injection Hpp as -> -> ->. unfold number_step in Es.
      destruct (get u i) as [o|] eqn:Eg; [|discriminate]. cbn [bind] in Es.
      apply get_ok in Eg. rewrite Hj in Eg by lia. destruct o; [eauto|discriminate].
    - cbn in Hpp. injection Hpp as <- ->. assert (i0 < i) by (apply (Hpre (i0, k0)); left; auto).
      apply (IH sys1 u1 r E i key).
      + apply in_or_app; right; left; auto.
      + intros j Hij. rewrite <- Hj by auto.
        unfold number_step in Es. destruct (get u i0) as [[o|]|]; cbn [bind] in Es; try discriminate.
        destruct (_ || _); [destruct (mem _ _ _); [destruct (index _ _ _); cbn [bind] in Es; [|discriminate]|]|];
          injection Es as <- <-; try (rewrite upd_nth_other by lia); reflexivity.
      + exists pre, post. split; [auto|]. intros p Hp. apply Hpre; right; auto. }
  intros i o Ho.
  assert (Hi : i < length keys) by (rewrite <- Hl; apply nth_error_Some; congruence).
  destruct (nth_error keys i) as [key|] eqn:Ek; [|apply nth_error_None in Ek; lia].
  destruct (G _ _ _ _ Ef i key) as (v & Hv).
  - apply in_enumerate; auto.
  - auto.
  - assert (He : nth_error (enumerate keys) i = Some (i, key)) by (rewrite enumerate_nth, Ek; reflexivity).
    destruct (nth_error_split _ _ He) as (pre & post & Hs & Hlen). exists pre, post. split; [auto|].
    intros [p q] Hp. apply In_nth_error in Hp as (m & Hm).
    assert (m < length pre) by (apply nth_error_Some; congruence).
    assert (Hm' : nth_error (enumerate keys) m = Some (p, q)) by (rewrite Hs, nth_error_app1 by auto; auto).
    rewrite enumerate_nth in Hm'. destruct (nth_error keys m); [|discriminate]. cbn in Hm'.
    injection Hm' as <- _. cbn. lia.
  - rewrite Ho in Hv. injection Hv as ->. eauto.
Qed.

Lemma has_sys_systematic (u : unc V) : has_sys u = true <-> systematic u.
Proof. unfold has_sys, systematic. destruct (u_kind V u); cbn; split; intros; auto; try discriminate; try contradiction. Qed.

(** C05, for what openMatchUp leaves in the object. *)
Theorem numbering_opened ord fs ix uncs ws us :
  good_files (map (uf_d V) fs) -> get_idx V (map (uf_d V) fs) = Ok ix ->
  open_unc V zeroV ord fs ix = Ok (uncs, ws, us) ->
  length uncs = length (n_sensor ix) /\
  (forall b o, nth_error uncs b = Some o -> exists u, o = Some u) /\
  exists n,
   (forall b u, nth_error uncs b = Some (Some u) ->
       (systematic u -> exists k, u_sysi V u = Some k /\ 1 <= k <= n) /\
       (~ systematic u -> u_sysi V u = None)) /\
   (forall b b' u u' k k' s s' c c',
      nth_error uncs b = Some (Some u) -> nth_error uncs b' = Some (Some u') ->
      u_sysi V u = Some k -> u_sysi V u' = Some k' ->
      nth_error (n_sensor ix) b = Some s -> nth_error (n_sensor ix) b' = Some s' ->
      nth_error (n_cov ix) b = Some c -> nth_error (n_cov ix) b' = Some c' ->
      (k = k' <-> (s = s' /\ c = c'))) /\
   (forall k, 1 <= k <= n -> exists b u, nth_error uncs b = Some (Some u) /\ u_sysi V u = Some k).
Proof.
  intros Hg Hix E.
  destruct (layout _ Hg) as (ix' & Hix' & HL). rewrite Hix in Hix'. injection Hix' as <-.
  cbv zeta in HL. destruct HL as (_ & Lc & Ln & _).
  unfold open_unc in E. destruct (open_matrix_idxs V ord fs) as [wix uix].
  destruct (foldM _ _ _) as [st|] eqn:Ef; cbn [bind] in E; [|discriminate].
  destruct (number_sys V _ _) as [us'|] eqn:En; cbn [bind] in E; [|discriminate]. injection E as <- <- <-.
  assert (Fr : fresh (length (n_sensor ix)) (st_unc V st)).
  { eapply (foldM_keep _ (fun s => fresh (length (n_sensor ix)) (st_unc V s))); [| |exact Ef].
    - cbn. split; [rewrite repeat_length; auto|]. intros i u Hu. apply nth_error_In, repeat_spec in Hu. discriminate.
    - intros s [i f] s' _ Hs E. destruct (get (Im ix) i) as [pr|]; cbn [bind] in E; [|discriminate].
      eapply (foldM_keep _ (fun s => fresh (length (n_sensor ix)) (st_unc V s))); [exact Hs| |exact E].
      intros s1 [sd ns] s1' _ Hs1 E1.
      eapply (foldM_keep _ (fun s => fresh (length (n_sensor ix)) (st_unc V s))); [exact Hs1| |exact E1].
      intros s2 ic s2' _ Hs2 E2. eapply read_unc_fresh; eauto. }
  destruct Fr as (Hl & Hfr).
  assert (Hlk : length (st_unc V st) = length (combine (n_sensor ix) (n_cov ix))).
  { rewrite combine_length, Lc, Nat.min_id. auto. }
  pose proof (number_sys_all_some _ _ _ En Hlk) as Hsome.
  assert (Hall : forall i o, nth_error (st_unc V st) i = Some o -> exists u, o = Some u /\ u_sysi V u = None).
  { intros i o Ho. destruct (Hsome i o Ho) as (u & ->). exists u; split; [auto|eauto]. }
  destruct (numbering _ _ us' Hlk Hall En) as (Hl' & n & H1 & H2 & H3).
  split; [congruence|].
  assert (Back : forall b o, nth_error us' b = Some o -> exists u u', o = Some u' /\ nth_error (st_unc V st) b = Some (Some u) /\ nth_error us' b = Some (Some u')).
  { intros b o Ho. assert (b < length us') by (apply nth_error_Some; congruence).
    destruct (nth_error (st_unc V st) b) as [o'|] eqn:Eo; [|apply nth_error_None in Eo; lia].
    destruct (Hsome _ _ Eo) as (u & ->). destruct (H1 b u Eo) as (u' & Hu' & _).
    exists u, u'. rewrite Ho in Hu'. injection Hu' as ->. auto. }
  split.
  { intros b o Ho. destruct (Back b o Ho) as (_ & u' & -> & _). eauto. }
  exists n. split; [|split].
  - intros b u Hu. destruct (Back _ _ Hu) as (u0 & u' & Eu & Hu0 & _). injection Eu as <-.
    destruct (H1 b u0 Hu0) as (u2 & Hu2 & Hk & Ha & Hb). rewrite Hu in Hu2. injection Hu2 as <-.
    assert (Hsys : systematic u <-> has_sys u0 = true).
    { rewrite has_sys_systematic. unfold systematic. rewrite Hk. tauto. }
    split; intros Hs.
    + apply Ha. apply Hsys; auto.
    + apply Hb. destruct (has_sys u0); [exfalso; apply Hs, Hsys; auto|auto].
  - intros b b' u u' k k' s s' c c' Hb Hb' Hk Hk' Hs Hs' Hc Hc'.
    rewrite (H2 b b' u u' k k' (s, c) (s', c')); auto; try (rewrite nth_error_combine; try rewrite Hs, Hc; try rewrite Hs', Hc'; reflexivity).
    split; [intros Heq; injection Heq; auto|intros (-> & ->); auto].
  - exact H3.
Qed.
End P.
