(** Registered sensor data: descriptions and microwave thermometers. *)
From Coq Require Import String Reals Lra Lia.
From Verif Require Import Base UncModel SensorModel ReaderModel InstModel SdModel SdSpec2.
Open Scope nat_scope.
Open Scope R_scope.
Open Scope list_scope.

Section P.
Context {T : Type} (toint : R -> Z).
Let cA : list R := mw_const [1; 1; 1; 1; 1; 0; 1].
Let cM : list R := mw_const [2; 1; 1; 1; 1].

Lemma pyA : pyget cA (-9) = Ok 1 /\ pyget cA (-8) = Ok 1 /\ pyget cA (-7) = Ok 1 /\ pyget cA (-6) = Ok 0 /\ pyget cA (-5) = Ok 1.
Proof. repeat split. Qed.
Lemma pyM : pyget cM (-9) = Ok 2 /\ pyget cM (-8) = Ok 1 /\ pyget cM (-7) = Ok 1 /\ pyget cM (-6) = Ok 1 /\ pyget cM (-5) = Ok 1.
Proof. repeat split. Qed.

Lemma mw_amsub c0 : pyget c0 (-9) = Ok 1 /\ pyget c0 (-8) = Ok 1 /\ pyget c0 (-7) = Ok 1 /\ pyget c0 (-6) = Ok 0 /\ pyget c0 (-5) = Ok 1 ->
  forall i cs ci t1 t2 t3 t4 t5 ce tl u p, mw_3 c0 i [cs; ci; t1; t2; t3; u; t5; ce; tl] p = mw_3 c0 i [cs; ci; t1; t2; t3; t4; t5; ce; tl] p.
Proof.
  intros (E1 & E2 & E3 & E4 & E5) i cs ci t1 t2 t3 t4 t5 ce tl u p.
  unfold mw_3. cbn [get nth_error bind]. rewrite E1, E2, E3, E4, E5. cbn [bind].
  replace (1 * t1 + 1 * t2 + 1 * t3 + 0 * u + 1 * t5) with (1 * t1 + 1 * t2 + 1 * t3 + 0 * t4 + 1 * t5) by ring. reflexivity.
Qed.
Lemma mw_mhs c0 : pyget c0 (-9) = Ok 2 /\ pyget c0 (-8) = Ok 1 /\ pyget c0 (-7) = Ok 1 /\ pyget c0 (-6) = Ok 1 /\ pyget c0 (-5) = Ok 1 ->
  forall i cs ci t1 t2 t3 t4 t5 u1 u2 u3 u4 u5 ce tl p,
  (2 * t1 + t2 + t3 + t4 + t5) / 6 = (2 * u1 + u2 + u3 + u4 + u5) / 6 ->
  mw_3 c0 i [cs; ci; t1; t2; t3; t4; t5; ce; tl] p = mw_3 c0 i [cs; ci; u1; u2; u3; u4; u5; ce; tl] p.
Proof.
  intros (E1 & E2 & E3 & E4 & E5) i cs ci t1 t2 t3 t4 t5 u1 u2 u3 u4 u5 ce tl p E.
  unfold mw_3. cbn [get nth_error bind]. rewrite E1, E2, E3, E4, E5. cbn [bind].
  replace (2 * t1 + 1 * t2 + 1 * t3 + 1 * t4 + 1 * t5) with (2 * u1 + 1 * u2 + 1 * u3 + 1 * u4 + 1 * u5) by lra. reflexivity.
Qed.

Lemma rows_same X Y c (l : list Z) p : length (hd [] X) = length (hd [] Y) ->
  (forall i k, (i < length (hd [] X))%nat -> mw_3 c k (map (fun col => nth i col 0) X) p = mw_3 c k (map (fun col => nth i col 0) Y) p) ->
  mw_3_rows c l (rows_of X) p = mw_3_rows c l (rows_of Y) p.
Proof.
  intros H E. unfold mw_3_rows, rows_of. rewrite <- H. revert E. generalize (length (hd [] X)). intros n E.
  assert (G : forall m s l, (s + m <= n)%nat ->
    mapM (fun q => mw_3 c (fst q) (snd q) p) (combine l (map (fun i => map (fun col => nth i col 0) X) (seq s m))) =
    mapM (fun q => mw_3 c (fst q) (snd q) p) (combine l (map (fun i => map (fun col => nth i col 0) Y) (seq s m)))).
  { induction m as [|m IH]; intros s [|z l'] L; try reflexivity. cbn [seq map combine mapM fst snd]. rewrite E by lia. rewrite IH by lia. reflexivity. }
  rewrite G by lia. reflexivity.
Qed.

Lemma amsub_fourth X col a l al t : length X = 9%nat ->
  s_model _ _ _ _ (g_entry (amsub_entry (T := T) toint)) (upd 5 col X) a (s_const _ _ _ _ (g_entry (amsub_entry (T := T) toint))) (Some l) al t =
  s_model _ _ _ _ (g_entry (amsub_entry (T := T) toint)) X a (s_const _ _ _ _ (g_entry (amsub_entry (T := T) toint))) (Some l) al t.
Proof.
  intros L. cbn [amsub_entry reg g_entry s_model s_const mw_function]. fold cA.
  rewrite (rows_same (upd 5 col X) X).
  - reflexivity.
  - destruct X; reflexivity.
  - intros i k _. do 9 (destruct X as [|? X]; [discriminate L|]). destruct X; [|discriminate L]. cbn [upd map]. apply (mw_amsub _ pyA).
Qed.
Lemma mhs_mean_only X Y a l al t : length X = 9%nat -> length Y = 9%nat ->
  (forall k, In k [0; 1; 7; 8]%nat -> nth k X [] = nth k Y []) -> (forall i, mhs_mean X i = mhs_mean Y i) ->
  s_model _ _ _ _ (g_entry (mhs_entry (T := T) toint)) X a (s_const _ _ _ _ (g_entry (mhs_entry (T := T) toint))) (Some l) al t =
  s_model _ _ _ _ (g_entry (mhs_entry (T := T) toint)) Y a (s_const _ _ _ _ (g_entry (mhs_entry (T := T) toint))) (Some l) al t.
Proof.
  intros L L' E M. cbn [mhs_entry reg g_entry s_model s_const mw_function]. fold cM.
  do 9 (destruct X as [|? X]; [discriminate L|]). destruct X; [|discriminate L].
  do 9 (destruct Y as [|? Y]; [discriminate L'|]). destruct Y; [|discriminate L'].
  pose proof (E 0%nat (or_introl eq_refl)) as E0. pose proof (E 1%nat (or_intror (or_introl eq_refl))) as E1.
  pose proof (E 7%nat (or_intror (or_intror (or_introl eq_refl)))) as E7. pose proof (E 8%nat (or_intror (or_intror (or_intror (or_introl eq_refl))))) as E8.
  cbn in E0, E1, E7, E8. subst.
  match goal with |- _ = bind (mw_3_rows _ _ (rows_of ?y) _) _ => rewrite (rows_same _ y) | |- context [rows_of (?a0 :: ?a1 :: ?x)] => match goal with |- context [rows_of (a0 :: a1 :: ?y)] => assert_fails (constr_eq x y); rewrite (rows_same (a0 :: a1 :: x) (a0 :: a1 :: y)) end end.
  - reflexivity.
  - reflexivity.
  - intros i k _. cbn [map]. apply (mw_mhs _ pyM). specialize (M i). unfold mhs_mean in M. cbn in M. exact M.
Qed.
End P.

(** Descriptions. *)
Ltac names := repeat constructor; cbn; intuition discriminate.
Lemma avhrr_described {T} k p : described (avhrr_entry (T := T) k p).
Proof. destruct k; (split; [reflexivity|split; [reflexivity|]]); names. Qed.
Lemma ref_described {T} l n : described (reg (T := T) [] [] ref_function 1 [l] [n]).
Proof. split; [reflexivity|split; [reflexivity|]]. names. Qed.
Lemma hirs_described {T} c : described (hirs_entry (T := T) c).
Proof. split; [reflexivity|split; [reflexivity|]]. names. Qed.
Lemma mw_described {T} toint : described (amsub_entry (T := T) toint) /\ described (mhs_entry (T := T) toint).
Proof. split; (split; [reflexivity|split; [reflexivity|]]); names. Qed.
Lemma mapM_keys {A B C} (f : A -> res C) (g : A -> C -> B) l : forall r, mapM (fun s => do c <- f s;; Ok (g s c)) l = Ok r ->
  forall x, In x r -> exists s c, In s l /\ x = g s c.
Proof.
  induction l as [|s l IH]; intros r H x Hx; cbn in H; [injection H as <-; destruct Hx|].
  destruct (f s) as [c|]; cbn in H; [|discriminate]. destruct (mapM _ l) as [r'|] eqn:E; cbn in H; [|discriminate].
  injection H as <-. destruct Hx as [<-|Hx]; [exists s, c; cbn; auto|]. destruct (IH _ eq_refl x Hx) as (s' & c' & I & ->). exists s', c'. cbn. auto.
Qed.
Lemma mapM_fst {A B C} (f : A -> res C) (g : C -> B) l : forall r, mapM (fun s => do c <- f s;; Ok (s, g c)) l = Ok r -> map fst r = l.
Proof.
  induction l as [|s l IH]; intros r H; cbn in H; [injection H as <-; reflexivity|].
  destruct (f s) as [c|]; cbn in H; [|discriminate]. destruct (mapM _ l) as [r'|] eqn:E; cbn in H; [|discriminate].
  injection H as <-. cbn. f_equal. now apply IH.
Qed.
Lemma all_described {T} toint s (r : registered (T := T)) :
  (forall k, In (s, r) (avhrr_table k) -> described r) /\ (In (s, r) sim3_table -> described r) /\
  (In (s, r) test_table -> described r) /\ (In (s, r) (mw_table toint) -> described r) /\
  (forall pyfloat lines t, hirs_table pyfloat lines = Ok t -> In (s, r) t -> described r).
Proof.
  split; [|split; [|split; [|split]]].
  - intros k H. unfold avhrr_table in H. apply in_app_or in H. destruct H as [H|H]; apply in_map_iff in H; destruct H as (x & E & _).
    + assert (r = ref_entry) as -> by congruence. apply ref_described.
    + match type of E with (_, ?y) = _ => assert (r = y) as -> by congruence end. apply avhrr_described.
  - intros H. unfold sim3_table in H. destruct H as [E|H].
    + assert (r = sim_ref) as -> by congruence. apply ref_described.
    + apply in_map_iff in H. destruct H as (x & E & _). match type of E with (_, ?y) = _ => assert (r = y) as -> by congruence end. apply avhrr_described.
  - intros H. unfold test_table in H. apply in_app_or in H. destruct H as [H|H]; apply in_map_iff in H; destruct H as (x & E & _).
    + assert (r = ref_entry) as -> by congruence. apply ref_described.
    + match type of E with (_, ?y) = _ => assert (r = y) as -> by congruence end. apply avhrr_described.
  - intros H. unfold mw_table in H. destruct (mw_described (T := T) toint) as [DA DM].
    repeat (destruct H as [E|H]; [match type of E with (_, ?y) = _ => assert (r = y) as -> by congruence end; first [exact DA|exact DM|apply ref_described]|]).
    destruct H.
  - intros pf lines t H I. unfold hirs_table in H. destruct (read_coeff_data pf lines) as [d|]; cbn [bind] in H; [|discriminate].
    destruct (mapM _ hirs_sensors) as [l|] eqn:E; cbn [bind] in H; [|discriminate]. 
    match type of H with Ok ?y = Ok _ => assert (t = y) as -> by congruence end. destruct I as [I|I].
    + match type of I with (_, ?y) = _ => assert (r = y) as -> by congruence end. split; [reflexivity|split; [reflexivity|]]. names.
    + destruct (mapM_keys _ (fun s c => (s, hirs_entry c)) _ _ E _ I) as (s' & c & _ & Eq).
      match type of Eq with _ = (_, ?y) => assert (r = y) as -> by congruence end. apply hirs_described.
Qed.
Lemma all_once {T} toint :
  (forall k, NoDup (map fst (avhrr_table (T := T) k))) /\ NoDup (map fst (sim3_table (T := T))) /\
  NoDup (map fst (test_table (T := T))) /\ NoDup (map fst (mw_table (T := T) toint)) /\
  (forall pyfloat lines t, hirs_table (T := T) pyfloat lines = Ok t -> NoDup (map fst t)).
Proof.
  split; [|split; [|split; [|split]]].
  - intros k. unfold avhrr_table. rewrite map_app, !map_map. cbn [fst]. rewrite !map_id. names.
  - unfold sim3_table. cbn [map fst]. names.
  - unfold test_table. rewrite map_app, !map_map. cbn [fst]. rewrite !map_id. names.
  - unfold mw_table. cbn [map fst]. names.
  - intros pf lines t H. unfold hirs_table in H. destruct (read_coeff_data pf lines) as [d|]; cbn [bind] in H; [|discriminate].
    destruct (mapM _ hirs_sensors) as [l|] eqn:E; cbn [bind] in H; [|discriminate].
    match type of H with Ok ?y = Ok _ => assert (t = y) as -> by congruence end. cbn [map fst]. rewrite (mapM_fst _ hirs_entry _ _ E). names.
Qed.
