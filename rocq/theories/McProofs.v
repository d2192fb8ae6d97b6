(** Proofs about the Monte Carlo statistics. *)
From Verif Require Import Base BaseLemmas TransformModel McModel McSpec.
From Coq Require Import Reals Lra.
Open Scope nat_scope.

Section Scalar.
Local Open Scope R_scope.
Lemma rsum_app l l' : rsum (l ++ l') = rsum l + rsum l'.
Proof. unfold rsum. induction l as [|a l IH]; cbn [app fold_right]; [lra|]. rewrite IH. lra. Qed.
Lemma rsum_cons a l : rsum (a :: l) = a + rsum l.
Proof. reflexivity. Qed.

Lemma len_pos {A} (l : list A) : l <> [] -> 0 < INR (length l).
Proof. intros H. apply lt_0_INR. destruct l; [congruence|cbn; lia]. Qed.
Lemma average_sum l : l <> [] -> rsum l = average l * INR (length l).
Proof. intros H. unfold average. pose proof (len_pos l H). field. lra. Qed.

Definition SS (l : list R) : R := rsum (map (fun x => (x - average l) ^ 2) l).

Lemma sq_expand l c : rsum (map (fun x => (x - c) ^ 2) l) =
  rsum (map (fun x => x ^ 2) l) - 2 * c * rsum l + INR (length l) * c ^ 2.
Proof.
  induction l as [|a l IH]; [unfold rsum; cbn; ring|].
  cbn [map]. rewrite !rsum_cons, IH. cbn [length]. rewrite S_INR. ring.
Qed.
Lemma sq_shift l c : l <> [] -> rsum (map (fun x => (x - c) ^ 2) l) = SS l + INR (length l) * (average l - c) ^ 2.
Proof. intros H. unfold SS. rewrite !sq_expand, (average_sum l H). ring. Qed.

Lemma average_snoc l x : l <> [] -> average (l ++ [x]) = new_mean (S (length l)) (average l) x.
Proof.
  intros H. unfold new_mean. unfold average at 1. rewrite rsum_app, app_length. cbn [length].
  rewrite (average_sum l H), rsum_cons. change (rsum []) with 0.
  replace (length l + 1)%nat with (S (length l)) by lia. rewrite !S_INR. pose proof (len_pos l H). field. lra.
Qed.
Lemma SS_snoc l x : l <> [] ->
  SS (l ++ [x]) = SS l + INR (length l) * (average l - average (l ++ [x])) ^ 2 + (x - average (l ++ [x])) ^ 2.
Proof.
  intros H. unfold SS at 1. rewrite map_app, rsum_app. cbn [map]. rewrite rsum_cons. change (rsum []) with 0.
  rewrite (sq_shift l _ H). ring.
Qed.
Lemma SS_one x : SS [x] = 0.
Proof. unfold SS, average, rsum. cbn. field. Qed.

Lemma variance_step l x v : l <> [] -> (INR (length l) - 1) * v = SS l ->
  (INR (length (l ++ [x])) - 1) * new_variance (S (length l)) (average l) v x = SS (l ++ [x]).
Proof.
  intros H Hv. rewrite (SS_snoc l x H), <- Hv. unfold new_variance. rewrite <- (average_snoc l x H).
  rewrite app_length. cbn [length]. replace (length l + 1)%nat with (S (length l)) by lia.
  rewrite S_INR. pose proof (len_pos l H). field. lra.
Qed.
End Scalar.

Definition stats_inv (m : nat) (pre : list (list R)) (st : option (nat * list R * list R)) : Prop :=
  match st with
  | None => pre = []
  | Some (k, e, v) => k = length pre /\ pre <> [] /\ length e = m /\ length v = m /\
      forall j, j < m -> nth j e 0%R = average (at_position j pre) /\
        ((INR (length pre) - 1) * nth j v 0)%R = SS (at_position j pre)
  end.

Lemma nth_combine {A B} (a : list A) (b : list B) x y j : length a = length b ->
  nth j (combine a b) (x, y) = (nth j a x, nth j b y).
Proof. intros H. apply combine_nth. exact H. Qed.

Lemma loop_inv m : forall xs pre st, (forall x, In x (pre ++ xs) -> length x = m) -> stats_inv m pre st ->
  exists st', foldM mc_step xs st = Ok st' /\ stats_inv m (pre ++ xs) st'.
Proof.
  induction xs as [|x xs IH]; intros pre st Hl Hi.
  - exists st. rewrite app_nil_r. auto.
  - cbn [foldM]. assert (Hx : length x = m) by (apply Hl, in_or_app; right; left; reflexivity).
    assert (E : exists st1, mc_step st x = Ok st1 /\ stats_inv m (pre ++ [x]) st1).
    { destruct st as [[[k e] v]|]; cbn [stats_inv] in Hi; unfold mc_step.
      - destruct Hi as (-> & Hne & He & Hv & H). rewrite Hx, He, Nat.eqb_refl.
        eexists. split; [reflexivity|]. cbn [stats_inv].
        split; [rewrite app_length; cbn; lia|]. split; [destruct pre; discriminate|].
        split; [rewrite map_length, combine_length; lia|].
        split; [rewrite map_length, !combine_length; lia|].
        intros j Hj. destruct (H j Hj) as (H1 & H2).
        assert (Ha : at_position j (pre ++ [x]) = at_position j pre ++ [nth j x 0%R]) by (unfold at_position; rewrite map_app; reflexivity).
        assert (Hp : at_position j pre <> []) by (unfold at_position; destruct pre; [congruence|discriminate]).
        assert (Hlen : length (at_position j pre) = length pre) by apply map_length.
        rewrite Ha. split.
        + rewrite (average_snoc _ _ Hp), Hlen, <- H1.
          rewrite (nth_indep _ 0%R ((fun p => new_mean (S (length pre)) (fst p) (snd p)) (0%R, 0%R)))
            by (rewrite map_length, combine_length; lia).
          rewrite (map_nth (fun p => new_mean (S (length pre)) (fst p) (snd p))), nth_combine by lia. reflexivity.
        + rewrite app_length. cbn [length].
          pose proof (variance_step (at_position j pre) (nth j x 0%R) (nth j v 0%R) Hp) as E.
          rewrite app_length in E. cbn [length] in E. rewrite !Hlen in E. rewrite <- (E H2). f_equal.
          rewrite (nth_indep _ 0%R ((fun p => new_variance (S (length pre)) (fst (fst p)) (snd (fst p)) (snd p)) ((0%R, 0%R), 0%R)))
            by (rewrite map_length, !combine_length; lia).
          rewrite (map_nth (fun p => new_variance (S (length pre)) (fst (fst p)) (snd (fst p)) (snd p))).
          rewrite nth_combine by (rewrite combine_length; lia). rewrite nth_combine by lia.
          cbn [fst snd]. rewrite H1. reflexivity.
      - subst pre. eexists. split; [reflexivity|]. cbn [stats_inv app].
        split; [reflexivity|]. split; [discriminate|]. split; [exact Hx|].
        split; [rewrite repeat_length; exact Hx|].
        intros j Hj. cbn [at_position map]. split.
        + unfold average, rsum. cbn. field.
        + rewrite SS_one. cbn [length]. change (INR 1) with 1%R. ring. }
    destruct E as (st1 & -> & Hi1).
    destruct (IH (pre ++ [x]) st1) as (st' & E' & Hi').
    { intros y Hy. apply Hl. rewrite <- app_assoc in Hy. exact Hy. }
    { exact Hi1. }
    rewrite <- app_assoc in Hi'. exists st'. auto.
Qed.

Theorem residual_statistics trials m : trials <> [] -> (forall x, In x trials -> length x = m) ->
  exists e v, mc_residuals trials = Ok (Some (length trials, e, v)) /\
    length e = m /\ length v = m /\
    forall j, j < m -> nth j e 0%R = average (at_position j trials) /\
      (2 <= length trials -> nth j v 0%R = sample_variance (at_position j trials)).
Proof.
  intros Hne Hl. destruct (loop_inv m trials [] None Hl eq_refl) as (st & E & Hi).
  cbn [app] in Hi. unfold stats_inv in Hi. destruct st as [[[k e] v]|]; [|congruence].
  destruct Hi as (-> & _ & He & Hv & H). exists e, v. split; [exact E|]. split; [exact He|]. split; [exact Hv|].
  intros j Hj. destruct (H j Hj) as (H1 & H2). split; [exact H1|]. intros H3.
  unfold sample_variance. fold (SS (at_position j trials)). rewrite <- H2.
  unfold at_position. rewrite map_length. apply le_INR in H3. change (INR 2) with 2%R in H3. field. lra.
Qed.

(** ** Parameters *)
Lemma filter_rows zerob m outs : decides_zero zerob ->
  (forall a, In (Some a) outs -> length a = m /\ exists x, In x a /\ x <> 0%R) ->
  exists rows, mapM (fun o : option (list R) =>
      match o with
      | None => Ok (repeat 0%R m)
      | Some a => if length a =? m then Ok a else match a with [x] => Ok (repeat x m) | _ => Raise ValueError end
      end) outs = Ok rows /\ filter (fun r => negb (forallb zerob r)) rows = finished outs.
Proof.
  intros Hz. induction outs as [|o outs IH]; intros H; [exists []; split; reflexivity|].
  destruct IH as (rows & E & Hf); [intros a Ha; apply H; right; exact Ha|].
  cbn [mapM]. destruct o as [a|].
  - destruct (H a (or_introl eq_refl)) as (Hl & x & Hx & Hn). rewrite Hl, Nat.eqb_refl. cbn [bind]. rewrite E. cbn [bind].
    eexists. split; [reflexivity|]. cbn [filter finished]. rewrite Hf.
    assert (forallb zerob a = false) as ->; [|reflexivity].
    destruct (forallb zerob a) eqn:Ef; [|reflexivity]. rewrite forallb_forall in Ef.
    exfalso. apply Hn, Hz, Ef, Hx.
  - cbn [bind]. rewrite E. cbn [bind]. eexists. split; [reflexivity|]. cbn [filter finished]. rewrite Hf.
    assert (forallb zerob (repeat 0%R m) = true) as ->; [|reflexivity].
    apply forallb_forall. intros x Hx. apply repeat_spec in Hx. apply Hz. exact Hx.
Qed.

Theorem parameters_of_trials zerob outs a0 rest : decides_zero zerob -> outs = Some a0 :: rest ->
  (forall a, In (Some a) outs -> length a = length a0 /\ exists x, In x a /\ x <> 0%R) ->
  get_parameters_mc outs zerob = Ok (finished outs).
Proof.
  intros Hz -> H. unfold get_parameters_mc. cbn [get nth_error].
  destruct (filter_rows zerob (length a0) (Some a0 :: rest) Hz H) as (rows & E & Hf).
  change (get (Some a0 :: rest) 0) with (Ok (Some a0)). cbn [bind]. rewrite E. cbn [bind]. rewrite Hf. reflexivity.
Qed.

Lemma std_cov l : 2 <= length l ->
  ((np_std l) ^ 2 * INR (length l))%R = (np_cov l l * (INR (length l) - 1))%R.
Proof.
  intros H. unfold np_std, np_cov. apply le_INR in H. change (INR 2) with 2%R in H.
  assert (E : rsum (map (fun p => ((fst p - np_mean l) * (snd p - np_mean l))%R) (combine l l)) =
              rsum (map (fun x => ((x - np_mean l) ^ 2)%R) l)).
  { generalize (np_mean l). intros c. clear H. induction l as [|a l IH]; [reflexivity|].
    cbn [combine map]. rewrite !rsum_cons, IH. cbn [fst snd]. ring. }
  rewrite E. set (q := rsum _).
  assert (Hq : (0 <= q)%R).
  { unfold q. generalize (np_mean l). intros c. clear. induction l as [|a l IH]; [unfold rsum; cbn; lra|].
    cbn [map]. rewrite rsum_cons. pose proof (pow2_ge_0 (a - c)). lra. }
  assert (Hs : ((sqrt (q / INR (length l))) ^ 2 = q / INR (length l))%R).
  { rewrite <- Rsqr_pow2. apply Rsqr_sqrt. apply Rmult_le_pos; [exact Hq|]. left. apply Rinv_0_lt_compat. lra. }
  rewrite Hs. field. lra.
Qed.
