(** Proofs: the matrices of a match-up dataset, and the whole of the reader. *)
From Verif Require Import Base FoModel FoSpec FoProofs FoProofs2 FrModel FrSpec FrProofs FrProofs2.
From Coq Require Import QArith Qabs.
Open Scope nat_scope.
Open Scope list_scope.

Ltac stepn E x e :=
  match type of E with bind ?y _ = _ => destruct y as [x|] eqn:e; cbn [bind] in E; [|discriminate] end.

Lemma add_v_room : forall big u m st is n st' is' n',
  foldM (fun acc mk =>
    let '(st, is, m_final) := acc in
    do rows <- section u (m_final + 1) (m_final + Z.of_nat mk);;
    let '(st, i) := add_v_matrix big st rows in
    Ok (st, is ++ [i], m_final + Z.of_nat mk)%Z) m (st, is, n) = Ok (st', is', n') ->
  ~ In 0%Z is' -> length m = 0 \/ length (st_v st) + length m <= st_capacity st.
Proof.
  intros big u. induction m as [|mk m IH]; intros st is n st' is' n' E N; [now left|]. right.
  cbn [foldM] in E.
  destruct (section u (n + 1) (n + Z.of_nat mk)) as [rows|]; cbn [bind] in E; [|discriminate].
  unfold add_v_matrix at 1 in E.
  destruct (add_to (st_capacity st) (map (sq big) rows) (st_v st)) as [l i] eqn:Ea.
  assert (Keep : forall m st is n st' is' n' x,
    foldM (fun acc mk =>
      let '(st, is, m_final) := acc in
      do rows <- section u (m_final + 1) (m_final + Z.of_nat mk);;
      let '(st, i) := add_v_matrix big st rows in
      Ok (st, is ++ [i], m_final + Z.of_nat mk)%Z) m (st, is, n) = Ok (st', is', n') -> In x is -> In x is').
  { clear. induction m as [|mk m IH]; intros st is n st' is' n' x E Hx; cbn [foldM] in E.
    - injection E as _ <- _. exact Hx.
    - destruct (section u (n + 1) (n + Z.of_nat mk)) as [rows|]; cbn [bind] in E; [|discriminate].
      destruct (add_v_matrix big st rows) as [st1 i]. apply (IH _ _ _ _ _ _ x E). apply in_app_iff. now left. }
  assert (Ni : i <> 0%Z).
  { intros ->. apply N. apply (Keep _ _ _ _ _ _ _ _ E). apply in_app_iff. right. now left. }
  destruct (add_to_grows _ _ _ _ _ _ Ea Ni) as (-> & -> & Hc).
  destruct (IH _ _ _ _ _ _ E N) as [Z0|L]; cbn [length]; [lia|].
  cbn [st_v st_capacity] in L. rewrite app_length in L. cbn in L. lia.
Qed.

Lemma add_w_room : forall s ja a m ps st is n st' is' n',
  foldM (fun acc p =>
    let '(st, is, n_final) := acc in
    let '(iak, nnzk) := p in
    do jak <- section ja (n_final + 1) (n_final + nnzk);;
    do ak <- section a (n_final + 1) (n_final + nnzk);;
    do w <- new_banded_matrix m s (maxval jak) iak jak ak;;
    let '(st, i) := add_w_matrix st w in
    Ok (st, is ++ [i], n_final + nnzk)%Z) ps (st, is, n) = Ok (st', is', n') ->
  ~ In 0%Z is' -> length ps = 0 \/ length (st_w st) + length ps <= st_capacity st.
Proof.
  intros s ja a m. induction ps as [|[iak nnzk] ps IH]; intros st is n st' is' n' E N; [now left|]. right.
  cbn [foldM] in E.
  destruct (section ja (n + 1) (n + nnzk)) as [jak|]; cbn [bind] in E; [|discriminate].
  destruct (section a (n + 1) (n + nnzk)) as [ak|]; cbn [bind] in E; [|discriminate].
  destruct (new_banded_matrix m s (maxval jak) iak jak ak) as [w|]; cbn [bind] in E; [|discriminate].
  unfold add_w_matrix at 1 in E.
  destruct (add_to (st_capacity st) w (st_w st)) as [l i] eqn:Ea.
  assert (Keep : forall ps st is n st' is' n' x,
    foldM (fun acc p =>
      let '(st, is, n_final) := acc in
      let '(iak, nnzk) := p in
      do jak <- section ja (n_final + 1) (n_final + nnzk);;
      do ak <- section a (n_final + 1) (n_final + nnzk);;
      do w <- new_banded_matrix m s (maxval jak) iak jak ak;;
      let '(st, i) := add_w_matrix st w in
      Ok (st, is ++ [i], n_final + nnzk)%Z) ps (st, is, n) = Ok (st', is', n') -> In x is -> In x is').
  { clear. induction ps as [|[iak nnzk] ps IH]; intros st is n st' is' n' x E Hx; cbn [foldM] in E.
    - injection E as _ <- _. exact Hx.
    - destruct (section ja (n + 1) (n + nnzk)) as [jak|]; cbn [bind] in E; [|discriminate].
      destruct (section a (n + 1) (n + nnzk)) as [ak|]; cbn [bind] in E; [|discriminate].
      destruct (new_banded_matrix m s (maxval jak) iak jak ak) as [w|]; cbn [bind] in E; [|discriminate].
      destruct (add_w_matrix st w) as [st1 i]. apply (IH _ _ _ _ _ _ x E). apply in_app_iff. now left. }
  assert (Ni : i <> 0%Z).
  { intros ->. apply N. apply (Keep _ _ _ _ _ _ _ _ E). apply in_app_iff. right. now left. }
  destruct (add_to_grows _ _ _ _ _ _ Ea Ni) as (-> & -> & Hc).
  destruct (IH _ _ _ _ _ _ E N) as [Z0|L]; cbn [length]; [lia|].
  cbn [st_w st_capacity] in L. rewrite app_length in L. cbn in L. lia.
Qed.

Lemma idx_from_nth : forall n k t i, nth_error (idx_from n k) t = Some i -> t < k /\ i = (Z.of_nat (n + t) + 1)%Z.
Proof.
  intros n k t i H. unfold idx_from in H. rewrite nth_error_map in H.
  destruct (nth_error (seq n k) t) as [x|] eqn:E; [|discriminate]. cbn in H. injection H as <-.
  assert (Ht : t < k). { rewrite <- (seq_length k n). apply nth_error_Some. congruence. }
  split; [exact Ht|]. rewrite (nth_error_nth' _ 0) in E by now rewrite seq_length.
  rewrite seq_nth in E by exact Ht. injection E as <-. reflexivity.
Qed.

Lemma existsb_zero : forall l, existsb (fun x => (x =? 0)%Z) l = false -> ~ In 0%Z l.
Proof.
  intros l E H. rewrite <- not_true_iff_false in E. apply E. apply existsb_exists. exists 0%Z. now split.
Qed.

Lemma Forall2_nth : forall (A B : Type) (P : A -> B -> Prop) l m t x, Forall2 P l m -> nth_error m t = Some x ->
  exists y, nth_error l t = Some y /\ P y x.
Proof.
  intros A B P l m t x F. revert t x. induction F as [|a b l m Hab F IH]; intros [|t] x E; cbn in E; try discriminate.
  - injection E as <-. now exists a.
  - now apply IH.
Qed.
Lemma Forall2_nth_l : forall (A B : Type) (P : A -> B -> Prop) l m t x, Forall2 P l m -> nth_error l t = Some x ->
  exists y, nth_error m t = Some y /\ P x y.
Proof.
  intros A B P l m t x F. revert t x. induction F as [|a b l m Hab F IH]; intros [|t] x E; cbn in E; try discriminate.
  - injection E as <-. now exists b.
  - now apply IH.
Qed.

Lemma read_matrices_ok : forall big ds s st st' vi wi base vs mats, 0 < s -> has_matrices ds base vs mats ->
  read_matrices big ds s st = Ok (st', vi, wi) ->
  grows st st' /\ indices_ok (variances big) vs (st_v st') vi /\ indices_ok (w_matrix s) mats (st_w st') wi.
Proof.
  intros big ds s st st' vi wi base vs mats Hs (Cu & Cw & Ru & Vu & Nw & Rw & Jw & Vw & Hm & Hb) E.
  unfold read_matrices in E. destruct ((0 <? dv_u_count ds) && (0 <? dv_w_count ds)) eqn:C.
  2: { injection E as <- <- <-. split; [apply grows_refl|]. split; intros [|k] i h; discriminate. }
  apply andb_true_iff in C. destruct C as [C1 C2]. apply Nat.ltb_lt in C1, C2.
  do 4 step E. step E. destruct a3 as [st1 vi1]. destruct (existsb (fun x => (x =? 0)%Z) vi1) eqn:Zv; [discriminate|].
  do 4 step E. step E. destruct a7 as [st2 wi2]. destruct (existsb (fun x => (x =? 0)%Z) wi2) eqn:Zw; [discriminate|].
  injection E as <- <- <-. apply existsb_zero in Zv, Zw.
  rewrite Ru, Vu in E4. rewrite Nw, Rw, Jw, Vw in E9.
  assert (Hvc : length (st_v st) + length vs <= st_capacity st).
  { pose proof E4 as E. unfold add_v_matrices in E. stepn E c Ef. destruct c as [[s1 i1] n1]. injection E as <- <-.
    destruct (add_v_room _ _ _ _ _ _ _ _ _ Ef Zv) as [L|L]; rewrite map_length in L; lia. }
  rewrite (add_v_storage big st vs Hvc) in E4. injection E4 as <- <-.
  assert (Hne : mats <> []) by (intros ->; cbn in Cw; lia).
  set (st1 := mkStore (st_capacity st) (st_b st) (st_d st) (st_v st ++ map (map (sq big)) vs) (st_w st)) in *.
  assert (Hwc : length (st_w st1) + length mats <= st_capacity st1).
  { pose proof E9 as E. unfold add_w_matrices in E. stepn E c Ec0. destruct c as [ia ja]. stepn E c Ef. destruct c as [[s1 i1] n1].
    injection E as <- <-.
    pose proof (crs_ok mats (dv_M ds) base Hne (fun r h => proj1 (Hm r h)) Hb) as Ec. rewrite Ec in Ec0.
    injection Ec0 as <- <-.
    destruct (add_w_room _ _ _ _ _ _ _ _ _ _ _ Ef Zw) as [L|L]; rewrite combine_length, !map_length, Nat.min_id in L; [|exact L].
    destruct mats; [congruence|discriminate]. }
  destruct (w_storage st1 (dv_M ds) s base mats Hs Hne Hb Hm Hwc) as (ws & F & Ew).
  rewrite Ew in E9. injection E9 as <- <-. cbn [st_capacity st_b st_d st_v st_w].
  split; [|split].
  - split; [reflexivity|]. cbn [st_b st_d st_v st_w]. repeat split; eexists; try reflexivity; symmetry; apply app_nil_r.
  - intros k i H. apply idx_from_nth in H. destruct H as [Hk ->].
    destruct (nth_error vs k) as [u|] eqn:Eu; [|apply nth_error_None in Eu; lia].
    exists u, (map (sq big) u). split; [reflexivity|]. split; [apply variances_sq|].
    exists (length (st_v st) + k). split; [reflexivity|]. rewrite nth_error_app2 by lia.
    replace (length (st_v st) + k - length (st_v st)) with k by lia. now rewrite nth_error_map, Eu.
  - intros k i H. apply idx_from_nth in H. destruct H as [Hk ->].
    destruct (nth_error mats k) as [rows|] eqn:Er; [|apply nth_error_None in Er; lia].
    destruct (Forall2_nth_l _ _ _ _ _ _ _ F Er) as (w & Ew' & Pw). exists rows, w. split; [reflexivity|]. split; [exact Pw|].
    exists (length (st_w st1) + k). split; [reflexivity|]. rewrite nth_error_app2 by (unfold st1; cbn; lia).
    replace (length (st_w st1) + k - length (st_w st)) with k by (unfold st1; cbn; lia). exact Ew'.
Qed.

Lemma used_types_all : forall jb i r types ui, all_columns jb i -> used_types jb i r types = Ok ui ->
  length ui = r /\ forall l, l < r -> nth_error ui l = nth_error types l.
Proof.
  intros jb i r types ui Ha E. unfold used_types in E. apply mapM_nth in E. destruct E as [L G].
  unfold one_to in L. rewrite map_length, seq_length in L. split; [exact L|]. intros l Hl.
  destruct (G l _ (one_to_nth r l Hl)) as (y & Ey & Fy). rewrite (used_all jb i _ Ha) in Fy. cbn [bind] in Fy.
  apply (fget_nth _ _ l _ _ eq_refl) in Fy. congruence.
Qed.

Lemma read_k_ok : forall big ds s hj vhj,
  records (dv_M ds) (dv_K ds) -> records (dv_M ds) (dv_Kr ds) -> records (dv_M ds) (dv_Ks ds) ->
  read_k big ds s = Ok (hj, vhj) ->
  thinned s (or_default (dv_K ds) (repeat (Fin 0) (dv_M ds))) hj /\
  length vhj = (dv_M ds + s - 1) / s /\
  forall t a b, nth_error (or_default (dv_Kr ds) (repeat (Fin 1) (dv_M ds))) (t * s) = Some (Fin a) ->
    nth_error (or_default (dv_Ks ds) (repeat (Fin 0) (dv_M ds))) (t * s) = Some (Fin b) ->
    (a * a + b * b <= big * big)%Q -> nth_error vhj t = Some (Fin (a * a + b * b)).
Proof.
  intros big ds s hj vhj R1 R2 R3 E. unfold read_k in E. cbv zeta in E.
  apply (or_records _ _ _ (Fin 0)) in R1. apply (or_records _ _ _ (Fin 1)) in R2. apply (or_records _ _ _ (Fin 0)) in R3.
  set (k := or_default (dv_K ds) _) in *. set (kr := or_default (dv_Kr ds) _) in *. set (ks := or_default (dv_Ks ds) _) in *.
  do 10 step E. stepn E dh EH. stepn E dr ER. stepn E dc EC. injection E as <- <-.
  destruct (every_thinned _ _ _ _ _ EH R1) as (_ & T1 & _).
  destruct (every_thinned _ _ _ _ _ ER R2) as (_ & T2 & L2).
  destruct (every_thinned _ _ _ _ _ EC R3) as (_ & T3 & L3).
  split; [exact T1|]. split; [rewrite map_length, combine_length; lia|].
  intros t x y Ha Hb Hle. rewrite nth_error_map.
  rewrite <- T2 in Ha. rewrite <- T3 in Hb.
  assert (Ec : nth_error (combine dr dc) t = Some (Fin x, Fin y)).
  { clear - Ha Hb. revert dc t Ha Hb. induction dr as [|x0 xs IH]; intros [|y0 ys] [|t] Ha Hb; cbn in *; try discriminate.
    - injection Ha as ->. now injection Hb as ->.
    - now apply IH. }
  rewrite Ec. cbn. apply Qle_bool_iff in Hle. now rewrite Hle.
Qed.

Lemma read_pos_ok : forall o M s p, 0 < s -> records M o ->
  read_pos o M s (M / s + Nat.min 1 (M mod s)) = Ok p ->
  positions s M o p /\ length p = (M + s - 1) / s.
Proof.
  intros [l|] M s p Hs Hr E; cbn in *.
  - destruct (every_thinned _ _ _ _ _ E Hr) as (_ & T & L). now split.
  - injection E as <-. split; [|rewrite repeat_length; now apply act_steps].
    intros t v H. apply nth_error_In in H. now apply repeat_spec in H.
Qed.

Definition assocs_of (big : Q) (common : bool) (s : nat) vs mats st' (ds : dataset) (ri rj : nat) (mu : matchup) : Prop :=
  covariances_of big common s vs mats st' (dv_1 ds) (dv_M ds) ri (mu_ui mu) (mu_ic mu) (mu_iv mu) (mu_iw mu) /\
  covariances_of big common s vs mats st' (dv_2 ds) (dv_M ds) rj (mu_uj mu) (mu_jc mu) (mu_jv mu) (mu_jw mu).

Lemma setup_covariances : forall big jb i r M s sv vs mats vi wi st0 st1 a st2 ui,
  all_columns jb i -> shaped_side M sv ->
  indices_ok (variances big) vs (st_v st0) vi -> indices_ok (w_matrix s) mats (st_w st0) wi ->
  grows st0 st1 ->
  setup big jb i r M s (or_default (sv_Ur sv) (full (sv_m sv) M (Fin 0)))
    (or_default (sv_Us sv) (full (sv_m sv) M (Fin 0))) (sv_u_use sv) (sv_w_use sv) vi wi
    (or_default (sv_types sv) (repeat 1%Z (sv_m sv)) ++ repeat 0%Z (sv_m sv)) st1 = Ok a ->
  grows (a_store a) st2 -> used_types jb i r (a_types a) = Ok ui ->
  grows st0 (a_store a) /\
  covariances_of big (jb_common jb) s vs mats st2 sv M r ui (a_ic a) (a_iv a) (a_iw a).
Proof.
  intros big jb i r M s sv vs mats vi wi st0 st1 a st2 ui Ha Hsv Hv Hw Hg E Hg2 Eu.
  destruct (setup_done big jb i r M s sv vs mats vi wi _ st0 Ha Hsv Hv Hw a st1 Hg E) as (G & _ & _ & C).
  split; [exact G|]. destruct (used_types_all _ _ _ _ _ Ha Eu) as [_ U].
  destruct Hsv as (_ & _ & _ & Ht & _). apply (or_records _ _ _ 1%Z) in Ht.
  intros l ty Hl Hm Ety.
  destruct (C l ty Hl Hm) as (x & b & c & d & E1 & E2 & E3 & E4 & K).
  { rewrite nth_error_app1 by lia. exact Ety. }
  exists x, b, c, d. rewrite U by exact Hl. repeat (split; [assumption|]).
  exact (covariance_grows _ _ _ _ _ _ _ _ _ _ _ _ _ _ _ Hg2 K).
Qed.

Lemma setup_grows : forall big jb i r M s ur us uu wu vi wi types st a,
  setup big jb i r M s ur us uu wu vi wi types st = Ok a -> grows st (a_store a).
Proof.
  intros big jb i r M s ur us uu wu vi wi types st a E. unfold setup in E.
  set (a0 := mkAssoc st types _ _ _) in E. change st with (a_store a0). clearbody a0. clear st types.
  revert a0 E. induction (one_to r) as [|z l IH]; intros a0 E; [cbn in E; injection E as <-; apply grows_refl|].
  cbn [foldM] in E. destruct (setup_column big jb i M s ur us uu wu vi wi a0 z) as [a1|] eqn:E1; [|discriminate].
  apply (grows_trans _ (a_store a1)); [|now apply IH]. clear IH E.
  assert (I : forall types (d : list fnum) z a1, (let '(st, idx) := add_d_matrix big (a_store a0) d in set_ic a0 st types z idx) = Ok a1 ->
    grows (a_store a0) (a_store a1)).
  { clear. intros types d z a1 E. unfold add_d_matrix in E.
    destruct (add_to (st_capacity (a_store a0)) (map (sq big) d) (st_d (a_store a0))) as [l idx] eqn:Ea.
    unfold set_ic in E. stepn E c Ec. destruct (idx =? 0)%Z eqn:Ez; [discriminate|]. apply Z.eqb_neq in Ez. injection E as <-.
    destruct (add_to_grows _ _ _ _ _ _ Ea Ez) as (-> & _). cbn [a_store].
    split; [reflexivity|]. cbn [st_b st_d st_v st_w]. repeat split; eexists; try reflexivity; symmetry; apply app_nil_r. }
  unfold setup_column in E1. stepn E1 ty Ety.
  destruct (ty =? 1)%Z. { stepn E1 c Ec. stepn E1 co Eco. stepn E1 d Ed. exact (I _ _ _ _ E1). }
  destruct (ty =? 2)%Z.
  { destruct (negb (jb_common jb)).
    - stepn E1 tps Ett. stepn E1 c Ec. stepn E1 co Eco. stepn E1 d Ed. exact (I _ _ _ _ E1).
    - stepn E1 c Ec. stepn E1 co Eco. stepn E1 cs Ecs. stepn E1 d Ed. stepn E1 u Eu. unfold add_b_matrix in E1.
      destruct (add_to (st_capacity (a_store a0)) (map (sq big) d, u) (st_b (a_store a0))) as [l' idx] eqn:Ea.
      unfold set_ic in E1. stepn E1 cc Ecc. destruct (idx =? 0)%Z eqn:Ez; [discriminate|]. apply Z.eqb_neq in Ez.
      injection E1 as <-. destruct (add_to_grows _ _ _ _ _ _ Ea Ez) as (-> & _). cbn [a_store].
      split; [reflexivity|]. cbn [st_b st_d st_v st_w]. repeat split; eexists; try reflexivity; symmetry; apply app_nil_r. }
  destruct (ty =? 3)%Z.
  { stepn E1 c Ec. stepn E1 u Eu. stepn E1 v Ev. stepn E1 iv Eiv. stepn E1 w Ew. stepn E1 x Ex. stepn E1 iw Eiw.
    injection E1 as <-. apply grows_refl. }
  destruct (ty =? 4)%Z.
  { stepn E1 tps Ett. stepn E1 c Ec. stepn E1 u Eu. stepn E1 v Ev. stepn E1 iv Eiv. stepn E1 w Ew. stepn E1 x Ex. stepn E1 iw Eiw.
    injection E1 as <-. apply grows_refl. }
  injection E1 as <-. apply grows_refl.
Qed.

Lemma read_records : forall big jb ss rg st ds i j s rg' st',
  good_registry rg -> shaped ds ->
  read_matchup_dataset big jb ss rg st ds i j s = Ok (rg', st') ->
  acceptable rg i j /\ good_registry rg' /\ rg_capacity rg' = rg_capacity rg /\
  exists mu ri rj, rg_matchups rg' = rg_matchups rg ++ [mu] /\ mu_i mu = i /\ mu_j mu = j /\
    get_sensor_r ss i = Ok ri /\ get_sensor_r ss j = Ok rj /\ mu_ri mu = ri /\ mu_rj mu = rj /\
    records_of big jb i j s ds ri rj mu.
Proof.
  intros big jb ss rg st ds i j s rg' st' Hg (H1 & H2 & HK & HKr & HKs) E.
  unfold read_matchup_dataset in E. cbv zeta in E.
  stepn E ri Eri. stepn E rj Erj. stepn E c1 Ec1. stepn E c2 Ec2. stepn E act Eact.
  assert (Hs : 0 < s /\ act = dv_M ds / s + Nat.min 1 (dv_M ds mod s)).
  { destruct s as [|s']; [discriminate|]. split; [lia|]. now injection Eact as <-. }
  destruct Hs as [Hs Hact]. clear Eact.
  destruct (acceptable_dec rg i j) as [Ha|Ha].
  2: { rewrite add_matchup_no in E by exact Ha. discriminate. }
  destruct (add_matchup_yes rg i j act ri rj Hg Ha) as (mu0 & _ & _ & _ & _ & _ & Eadd).
  rewrite Eadd in E. clear Eadd. cbv beta iota in E.
  change (S (length (rg_matchups rg)) =? 0) with false in E. cbv iota in E.
  stepn E u1 Eu1. stepn E u2 Eu2. stepn E qi Eqi. stepn E qj Eqj. stepn E u3 Eu3. stepn E u4 Eu4.
  stepn E mm Emm. destruct mm as [[st1 vi] wi].
  stepn E a1 Ea1. stepn E a2 Ea2. stepn E ui Eui. stepn E uj Euj. stepn E kk Ekk. destruct kk as [hj vhj].
  stepn E n1 En1. stepn E n2 En2. stepn E n3 En3. stepn E n4 En4.
  stepn E ti Eti. stepn E tj Etj. stepn E pi Epi. stepn E pj Epj. stepn E l El.
  injection E as <- <-.
  cbn [rg_matchups rg_capacity rg_start rg_final] in El |- *.
  rewrite (fset_mid _ (rg_matchups rg) mu0 []) in El by lia. injection El as <-.
  destruct (read_k_ok _ _ _ _ _ HK HKr HKs Ekk) as (Kh & Kl & Kv).
  rewrite Hact in Epi, Epj.
  destruct (read_pos_ok _ _ _ _ Hs (proj2 (proj2 (proj2 (proj2 (proj2 H1))))) Epi) as [P1 _].
  destruct (read_pos_ok _ _ _ _ Hs (proj2 (proj2 (proj2 (proj2 (proj2 H2))))) Epj) as [P2 _].
  destruct (every_thinned _ _ _ _ _ Eti (proj1 (proj2 (proj2 (proj2 (proj2 H1)))))) as (_ & T1 & _).
  destruct (every_thinned _ _ _ _ _ Etj (proj1 (proj2 (proj2 (proj2 (proj2 H2)))))) as (_ & T2 & _).
  apply telemetry_all in Eqi; [|exact H1]. apply telemetry_all in Eqj; [|exact H2].
  set (mu := mkMatchup i j act ri rj qi qj hj vhj ti tj pi pj ui uj (a_ic a1) (a_ic a2) (a_iv a1) (a_iv a2)
               (a_iw a1) (a_iw a2)).
  split; [exact Ha|]. split; [exact (good_snoc rg mu i j Hg Ha eq_refl eq_refl)|]. split; [reflexivity|].
  exists mu, ri, rj. repeat (split; [first [reflexivity|assumption]|]).
  unfold records_of. cbv zeta.
  split; [intro t; change (mu_m mu) with act; rewrite Hact; now apply act_count|].
  split; [exact Eqi|]. split; [exact Eqj|]. split; [exact Kh|].
  split; [change (mu_m mu) with act; rewrite Hact, act_steps by exact Hs; exact Kl|].
  split; [exact Kv|]. repeat (split; [assumption|]). exact P2.
Qed.

Lemma read_ok : forall big jb ss rg st ds i j s rg' st' base vs mats,
  good_registry rg -> shaped ds -> all_columns jb i -> all_columns jb j -> has_matrices ds base vs mats ->
  read_matchup_dataset big jb ss rg st ds i j s = Ok (rg', st') ->
  acceptable rg i j /\ good_registry rg' /\ rg_capacity rg' = rg_capacity rg /\ grows st st' /\
  exists mu ri rj, rg_matchups rg' = rg_matchups rg ++ [mu] /\ mu_i mu = i /\ mu_j mu = j /\
    get_sensor_r ss i = Ok ri /\ get_sensor_r ss j = Ok rj /\ mu_ri mu = ri /\ mu_rj mu = rj /\
    records_of big jb i j s ds ri rj mu /\
    assocs_of big (jb_common jb) s vs mats st' ds ri rj mu.
Proof.
  intros big jb ss rg st ds i j s rg' st' base vs mats Hg (H1 & H2 & HK & HKr & HKs) Hi Hj Hmat E.
  unfold read_matchup_dataset in E. cbv zeta in E.
  stepn E ri Eri. stepn E rj Erj. stepn E c1 Ec1. stepn E c2 Ec2. stepn E act Eact.
  assert (Hs : 0 < s /\ act = dv_M ds / s + Nat.min 1 (dv_M ds mod s)).
  { destruct s as [|s']; [discriminate|]. split; [lia|]. now injection Eact as <-. }
  destruct Hs as [Hs Hact]. clear Eact.
  destruct (acceptable_dec rg i j) as [Ha|Ha].
  2: { rewrite add_matchup_no in E by exact Ha. discriminate. }
  destruct (add_matchup_yes rg i j act ri rj Hg Ha) as (mu0 & _ & _ & _ & _ & _ & Eadd).
  rewrite Eadd in E. clear Eadd. cbv beta iota in E.
  change (S (length (rg_matchups rg)) =? 0) with false in E. cbv iota in E.
  stepn E u1 Eu1. stepn E u2 Eu2. stepn E qi Eqi. stepn E qj Eqj. stepn E u3 Eu3. stepn E u4 Eu4.
  stepn E mm Emm. destruct mm as [[st1 vi] wi].
  stepn E a1 Ea1. stepn E a2 Ea2. stepn E ui Eui. stepn E uj Euj. stepn E kk Ekk. destruct kk as [hj vhj].
  stepn E n1 En1. stepn E n2 En2. stepn E n3 En3. stepn E n4 En4.
  stepn E ti Eti. stepn E tj Etj. stepn E pi Epi. stepn E pj Epj. stepn E l El.
  injection E as <- <-.
  cbn [rg_matchups rg_capacity rg_start rg_final] in El |- *.
  rewrite (fset_mid _ (rg_matchups rg) mu0 []) in El by lia. injection El as <-.
  destruct (read_matrices_ok _ _ _ _ _ _ _ _ _ _ Hs Hmat Emm) as (G0 & Iv & Iw).
  pose proof (setup_grows _ _ _ _ _ _ _ _ _ _ _ _ _ _ _ Ea2) as G2.
  destruct (setup_covariances _ _ _ _ _ _ _ _ _ _ _ _ _ _ _ _ Hi H1 Iv Iw (grows_refl _) Ea1 G2 Eui) as [G1 C1].
  destruct (setup_covariances _ _ _ _ _ _ _ _ _ _ _ _ _ _ _ _ Hj H2 Iv Iw G1 Ea2 (grows_refl _) Euj) as [G3 C2].
  destruct (read_k_ok _ _ _ _ _ HK HKr HKs Ekk) as (Kh & Kl & Kv).
  rewrite Hact in Epi, Epj.
  destruct (read_pos_ok _ _ _ _ Hs (proj2 (proj2 (proj2 (proj2 (proj2 H1))))) Epi) as [P1 _].
  destruct (read_pos_ok _ _ _ _ Hs (proj2 (proj2 (proj2 (proj2 (proj2 H2))))) Epj) as [P2 _].
  destruct (every_thinned _ _ _ _ _ Eti (proj1 (proj2 (proj2 (proj2 (proj2 H1)))))) as (_ & T1 & _).
  destruct (every_thinned _ _ _ _ _ Etj (proj1 (proj2 (proj2 (proj2 (proj2 H2)))))) as (_ & T2 & _).
  apply telemetry_all in Eqi; [|exact H1]. apply telemetry_all in Eqj; [|exact H2].
  set (mu := mkMatchup i j act ri rj qi qj hj vhj ti tj pi pj ui uj (a_ic a1) (a_ic a2) (a_iv a1) (a_iv a2)
               (a_iw a1) (a_iw a2)).
  split; [exact Ha|]. split; [exact (good_snoc rg mu i j Hg Ha eq_refl eq_refl)|]. split; [reflexivity|].
  split; [exact (grows_trans _ _ _ G0 G3)|].
  exists mu, ri, rj. repeat (split; [first [reflexivity|assumption]|]). split; [|split; [exact C1|exact C2]].
  unfold records_of. cbv zeta.
  split; [intro t; change (mu_m mu) with act; rewrite Hact; now apply act_count|].
  split; [exact Eqi|]. split; [exact Eqj|]. split; [exact Kh|].
  split; [change (mu_m mu) with act; rewrite Hact, act_steps by exact Hs; exact Kl|].
  split; [exact Kv|]. repeat (split; [assumption|]). exact P2.
Qed.

(** ** Checks of the values *)
Lemma stop_if_ok : forall b x, stop_if b = Ok x -> b = false.
Proof. intros [|] x E; [discriminate|reflexivity]. Qed.

Lemma representable_ok : forall big l u1 u2, assert_not_nan l = Ok u1 -> assert_not_huge big l = Ok u2 ->
  forall v, In v l -> representable big v.
Proof.
  intros big l u1 u2 N G v Hv. apply stop_if_ok in N, G.
  assert (Hn : is_nan v = false).
  { destruct (is_nan v) eqn:E; [|reflexivity]. rewrite <- N. symmetry. apply existsb_exists. now exists v. }
  assert (Hh : is_huge big v = false).
  { destruct (is_huge big v) eqn:E; [|reflexivity]. rewrite <- G. symmetry. apply existsb_exists. now exists v. }
  destruct v as [q| |]; try discriminate. exists q. split; [reflexivity|].
  cbn in Hh. apply negb_false_iff in Hh. now apply Qle_bool_iff.
Qed.

Lemma finite_ok : forall l u1 u2, assert_not_nan l = Ok u1 -> assert_not_infinite l = Ok u2 ->
  forall v, In v l -> exists q, v = Fin q.
Proof.
  intros l u1 u2 _ G v Hv. apply stop_if_ok in G. apply negb_false_iff in G. rewrite forallb_forall in G.
  specialize (G v Hv). destruct v as [q| |]; try discriminate. now exists q.
Qed.

Lemma check_both_ok : forall big x1 x2 u, check_both big x1 x2 = Ok u ->
  all_representable big x1 /\ all_representable big x2.
Proof.
  intros big x1 x2 u E. unfold check_both in E.
  stepn E e1 E1. stepn E e2 E2. stepn E e3 E3. stepn E e4 E4. stepn E e5 E5.
  split; intros c v Hc Hv.
  - apply (representable_ok big _ _ _ E1 E5). apply in_concat. now exists c.
  - apply (representable_ok big _ _ _ E2 E). apply in_concat. now exists c.
Qed.
Lemma check_both'_ok : forall big x1 x2 u, check_both' big x1 x2 = Ok u ->
  all_representable big x1 /\ forall c v, In c x2 -> In v c -> exists q, v = Fin q.
Proof.
  intros big x1 x2 u E. unfold check_both' in E.
  stepn E e1 E1. stepn E e2 E2. stepn E e3 E3. stepn E e4 E4. stepn E e5 E5.
  split; intros c v Hc Hv.
  - apply (representable_ok big _ _ _ E1 E5). apply in_concat. now exists c.
  - apply (finite_ok _ _ _ E2 E4). apply in_concat. now exists c.
Qed.

Lemma some_default : forall (A : Type) (o : option A) x d, o = Some x -> or_default o d = x.
Proof. intros A o x d ->. reflexivity. Qed.

Lemma read_checked : forall big jb ss rg st ds i j s r,
  read_matchup_dataset big jb ss rg st ds i j s = Ok r ->
  all_representable big (sv_X (dv_1 ds)) /\ all_representable big (sv_X (dv_2 ds)) /\
  (forall x, sv_Ur (dv_1 ds) = Some x -> all_representable big x) /\
  (forall x, sv_Us (dv_1 ds) = Some x -> all_representable big x) /\
  (forall x, sv_Us (dv_2 ds) = Some x -> jb_common jb = false -> all_representable big x) /\
  (forall x c v, sv_Ur (dv_2 ds) = Some x -> In c x -> In v c -> exists q, v = Fin q) /\
  (forall x c v, sv_Us (dv_2 ds) = Some x -> In c x -> In v c -> exists q, v = Fin q) /\
  (forall x v, dv_K ds = Some x -> In v x -> representable big v) /\
  (forall x v, dv_Kr ds = Some x -> In v x -> representable big v /\ ~ exists q, v = Fin q /\ (q == 0)%Q) /\
  (forall x v, dv_Ks ds = Some x -> In v x -> representable big v).
Proof.
  intros big jb ss rg st ds i j s r E.
  unfold read_matchup_dataset in E. cbv zeta in E.
  stepn E ri Eri. stepn E rj Erj. stepn E c1 Ec1. stepn E c2 Ec2. stepn E act Eact.
  destruct (add_matchup rg i j act ri rj) as [rg1 id]. destruct (id =? 0); [discriminate|].
  stepn E u1 Eu1. stepn E u2 Eu2. stepn E qi Eqi. stepn E qj Eqj. stepn E u3 Eu3. stepn E u4 Eu4.
  stepn E mm Emm. destruct mm as [[st1 vi] wi].
  stepn E a1 Ea1. stepn E a2 Ea2. stepn E ui Eui. stepn E uj Euj. stepn E kk Ekk. destruct kk as [hj vhj]. clear E.
  apply check_both_ok in Eu1. destruct Eu1 as [X1 X2].
  apply check_both'_ok in Eu3. destruct Eu3 as [R1 R2]. apply check_both'_ok in Eu4. destruct Eu4 as [S1 S2].
  unfold read_k in Ekk. cbv zeta in Ekk.
  stepn Ekk k1 K1. stepn Ekk k2 K2. stepn Ekk k3 K3. stepn Ekk k4 K4. stepn Ekk k5 K5. stepn Ekk k6 K6.
  stepn Ekk k7 K7. stepn Ekk k8 K8. stepn Ekk k9 K9. stepn Ekk k0 K0. clear Ekk.
  split; [exact X1|]. split; [exact X2|].
  split; [intros x Ex; now rewrite (some_default _ _ _ _ Ex) in R1|].
  split; [intros x Ex; now rewrite (some_default _ _ _ _ Ex) in S1|].
  split. { intros x Ex Ec. rewrite Ec in Eu2. apply check_both_ok in Eu2. destruct Eu2 as [_ D].
    now rewrite (some_default _ _ _ _ Ex) in D. }
  split; [intros x c v Ex; rewrite (some_default _ _ _ _ Ex) in R2; apply R2|].
  split; [intros x c v Ex; rewrite (some_default _ _ _ _ Ex) in S2; apply S2|].
  split; [intros x v Ex; rewrite (some_default _ _ _ _ Ex) in *; exact (representable_ok _ _ _ _ K1 K7 v)|].
  split; [|intros x v Ex; rewrite (some_default _ _ _ _ Ex) in *; exact (representable_ok _ _ _ _ K3 K9 v)].
  intros x v Ex Hv. rewrite (some_default _ _ _ _ Ex) in *. split; [exact (representable_ok _ _ _ _ K2 K8 v Hv)|].
  intros (q & -> & Zq). apply stop_if_ok in K0. rewrite <- not_true_iff_false in K0. apply K0.
  apply existsb_exists. exists (Fin q). split; [exact Hv|]. now apply Qeq_bool_iff.
Qed.
