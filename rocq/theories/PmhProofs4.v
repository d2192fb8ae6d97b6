From Coq Require Import Reals Lra.
From Verif Require Import Base BaseLemmas ReaderModel ReaderSpec UncModel UncSpec TransformModel EvalModel GNModel SimModel WModel WSpec HRModel PmhModel PmhSpec PmhProofs.
Open Scope nat_scope.

(** ** Splitting lines *)
Lemma split_spaces sp s : (forall c, In c sp -> space c = true) -> split_go [] (sp ++ s) = split_go [] s.
Proof. induction sp as [|c sp IH]; intros Hs; cbn [app split_go]; [reflexivity|]. rewrite (Hs c) by (left; auto). cbn [flush app]. apply IH. intros d Hd. apply Hs. right. auto. Qed.
Lemma split_word w : forall acc s, (forall c, In c w -> space c = false) -> split_go acc (w ++ s) = split_go (acc ++ w) s.
Proof.
  induction w as [|c w IH]; intros acc s Hs; cbn [app split_go]; [rewrite app_nil_r; reflexivity|]. rewrite (Hs c) by (left; auto). rewrite IH by (intros d Hd; apply Hs; right; auto).
  rewrite <- app_assoc. reflexivity.
Qed.
Lemma split_words line ws : words line ws -> split line = ws.
Proof.
  unfold split. induction 1 as [sp Hs|sp w c rest ws Hs (Hw1 & Hw2) Hc _ IH|sp w Hs (Hw1 & Hw2)].
  - rewrite <- (app_nil_r sp). rewrite split_spaces by auto. reflexivity.
  - rewrite split_spaces by auto. rewrite split_word by auto. cbn [app split_go]. rewrite Hc, IH. destruct w; [congruence|reflexivity].
  - rewrite split_spaces by auto. rewrite <- (app_nil_r w) at 1. rewrite split_word by auto. cbn [app split_go]. destruct w; [congruence|reflexivity].
Qed.

Section Text.
Variable pyfloat : text -> res R.
Variable pyint : text -> res Z.

Lemma float_words line w : words line [w] -> float_line pyfloat line = pyfloat w.
Proof. intros Hw. unfold float_line. rewrite (split_words _ _ Hw). reflexivity. Qed.
Lemma describes_type v title nums : describes pyfloat pyint v title nums -> exists ty, type_word title = Ok ty /\ read_var pyfloat pyint ty nums = Ok v.
Proof.
  intros (ty & c & (w1 & w2 & rest & Hw) & Hd). exists ty. split; [unfold type_word; rewrite (split_words _ _ Hw); cbn [get nth_error bind]; rewrite removelast_last; reflexivity|].
  destruct v as [uR uS nW t]. cbn [v_type v_uS v_nW v_uR] in Hd. unfold read_var.
  destruct Hd as [(-> & -> & -> & -> & w & Hn & Hf)|[(-> & -> & -> & a & b & r & Hn & Ha & Hb)|(-> & -> & -> & a & b & r & Hn & Ha & Hb)]].
  - change (teqb (tx "R") (tx "R")) with true. cbn [bind]. rewrite (float_words _ _ Hn), Hf. reflexivity.
  - change (teqb (tx "RS") (tx "R")) with false. change (teqb (tx "RS") (tx "RS")) with true. cbn [bind]. rewrite (split_words _ _ Hn). cbn [get nth_error bind]. rewrite Ha. cbn [bind]. rewrite Hb. reflexivity.
  - change (teqb (tx "MA") (tx "R")) with false. change (teqb (tx "MA") (tx "RS")) with false. change (teqb (tx "MA") (tx "MA")) with true. cbn [bind]. rewrite (split_words _ _ Hn). cbn [get nth_error bind]. rewrite Ha. cbn [bind]. rewrite Hb. reflexivity.
Qed.

Lemma body_ok N body vs : Forall2 (fun v (p : text * text) => describes pyfloat pyint v (fst p) (snd p)) vs body ->
  forall s st, Nat.even s = true -> 2 <= s -> s + 2 * length body <= N - 1 ->
  exists ty, foldM (unc_line pyfloat pyint N) (combine (seq s (2 * length body)) (concat (map (fun p => [fst p; snd p]) body))) st = Ok (mkUstate (s_ref st) (s_kr st) ty (s_vars st ++ vs)).
Proof.
  induction 1 as [|v [title nums] vs body Hd _ IH]; intros s st He Hs HN.
  - exists (s_type st). cbn. rewrite app_nil_r. destruct st; reflexivity.
  - cbn [fst snd] in Hd. destruct (describes_type _ _ _ Hd) as (ty & E1 & E2).
    cbn [length map concat fst snd app] in *. replace (2 * S (length body)) with (S (S (2 * length body))) in * by lia. cbn [seq combine foldM].
    assert (U1 : unc_line pyfloat pyint N st (s, title) = Ok (mkUstate (s_ref st) (s_kr st) (Some ty) (s_vars st))).
    { unfold unc_line. replace ((s =? 0) || (s + 1 =? N)) with false by (symmetry; apply orb_false_iff; split; apply Nat.eqb_neq; lia).
      replace (s =? 1) with false by (symmetry; apply Nat.eqb_neq; lia). replace (s =? N) with false by (symmetry; apply Nat.eqb_neq; lia). rewrite He, E1. reflexivity. }
    rewrite U1. cbn [bind].
    assert (U2 : unc_line pyfloat pyint N (mkUstate (s_ref st) (s_kr st) (Some ty) (s_vars st)) (S s, nums) = Ok (mkUstate (s_ref st) (s_kr st) (Some ty) (s_vars st ++ [v]))).
    { unfold unc_line. replace ((S s =? 0) || (S s + 1 =? N)) with false by (symmetry; apply orb_false_iff; split; apply Nat.eqb_neq; lia).
      replace (S s =? 1) with false by (symmetry; apply Nat.eqb_neq; lia). replace (S s =? N) with false by (symmetry; apply Nat.eqb_neq; lia). rewrite Nat.even_succ. rewrite <- Nat.negb_even, He. cbn [negb s_type s_ref s_kr s_vars]. rewrite E2. reflexivity. }
    rewrite U2. cbn [bind]. destruct (IH (S (S s)) (mkUstate (s_ref st) (s_kr st) (Some ty) (s_vars st ++ [v]))) as (ty' & E3); [cbn; auto|lia|lia|].
    exists ty'. rewrite E3. cbn [s_ref s_kr s_vars]. rewrite <- app_assoc. reflexivity.
Qed.
Lemma concat_pairs (body : list (text * text)) : length (concat (map (fun p => [fst p; snd p]) body)) = 2 * length body.
Proof. induction body; cbn; [reflexivity|]. rewrite IHbody. lia. Qed.
Lemma combine_app' {A B} (a c : list A) : forall (b d : list B), length a = length b -> combine (a ++ c) (b ++ d) = combine a b ++ combine c d.
Proof. induction a as [|x a IH]; intros [|y b] d; cbn; try discriminate; [reflexivity|]. intros [= E]. f_equal. auto. Qed.

Lemma uncs_parsed uref vs k lines : uncs_file pyfloat pyint uref vs k lines -> open_data_uncs pyfloat pyint lines = Ok (uref, vs, k).
Proof.
  intros (t1 & l1 & body & t2 & l2 & w1 & w2 & -> & A1 & A2 & B1 & B2 & HF). set (bl := concat (map (fun p => [fst p; snd p]) body)).
  assert (Lb : length bl = 2 * length body) by apply concat_pairs. unfold open_data_uncs, enumerate.
  assert (Hlen : length ([t1; l1] ++ bl ++ [t2; l2]) = 4 + 2 * length body) by (rewrite !app_length; cbn [length]; lia). rewrite Hlen.
  replace (seq 0 (4 + 2 * length body)) with ([0; 1] ++ seq 2 (2 * length body) ++ [2 + 2 * length body; 3 + 2 * length body]).
  2:{ replace (4 + 2 * length body) with (2 + (2 * length body + 2)) by lia. rewrite (seq_app 2). cbn [seq Nat.add]. f_equal. rewrite seq_app. reflexivity. }
  replace (4 + 2 * length body - 1) with (3 + 2 * length body) by lia. remember (3 + 2 * length body) as N eqn:EN. remember (2 + 2 * length body) as N1 eqn:EN1.
  rewrite combine_app' by reflexivity. rewrite combine_app' by (rewrite seq_length; auto). rewrite !foldM_app.
  assert (H0 : foldM (unc_line pyfloat pyint N) (combine [0; 1] [t1; l1]) (mkUstate None None None []) = Ok (mkUstate (Some uref) None None [])).
  { cbn [combine foldM unc_line]. cbn [Nat.eqb orb bind]. replace (1 + 1 =? N) with false by (symmetry; apply Nat.eqb_neq; lia). rewrite (float_words _ _ A1), A2. reflexivity. }
  rewrite H0. cbn [bind].
  destruct (body_ok N body vs HF 2 (mkUstate (Some uref) None None [])) as (ty & E); [reflexivity|lia|lia|]. fold bl in E. rewrite foldM_app, E. cbn [bind s_ref s_kr s_vars app].
  assert (H1 : foldM (unc_line pyfloat pyint N) (combine [N1; N] [t2; l2]) (mkUstate (Some uref) None ty vs) = Ok (mkUstate (Some uref) (Some k) ty vs)).
  { cbn [combine foldM unc_line].
    replace ((N1 =? 0) || (N1 + 1 =? N)) with true by (symmetry; apply orb_true_iff; right; apply Nat.eqb_eq; lia). cbn [bind].
    replace ((N =? 0) || (N + 1 =? N)) with false by (symmetry; apply orb_false_iff; split; apply Nat.eqb_neq; lia).
    replace (N =? 1) with false by (symmetry; apply Nat.eqb_neq; lia). rewrite Nat.eqb_refl, (float_words _ _ B1), B2. reflexivity. }
  rewrite H1. reflexivity.
Qed.

(** ** data_pams.txt *)
Lemma plain_lines ls : forall im nm data, (forall l, In l ls -> plain l) -> fold_left pams_line ls (im, nm, data) = (im, nm, data ++ map split ls).
Proof.
  induction ls as [|l ls IH]; intros im nm data Hp; cbn [fold_left map]; [rewrite app_nil_r; reflexivity|]. destruct (Hp l (or_introl eq_refl)) as (P1 & P2 & P3).
  unfold pams_line at 2. rewrite P1, P2, P3. rewrite IH by (intros x Hx; apply Hp; right; auto). rewrite <- app_assoc. reflexivity.
Qed.
Lemma mapM_F2 {A B} (f : A -> res B) l r : Forall2 (fun a b => f a = Ok b) l r -> mapM f l = Ok r.
Proof. induction 1 as [|a b l r E _ IH]; cbn [mapM]; [reflexivity|]. rewrite E, IH. reflexivity. Qed.
Lemma F2_in_r {A B} (P : A -> B -> Prop) l r : Forall2 P l r -> forall b, In b r -> exists a, In a l /\ P a b.
Proof. induction 1 as [|a b l r E _ IH]; intros x Hx; [destruct Hx|]. destruct Hx as [<-|Hx]; [exists a; split; [left|]; auto|]. destruct (IH x Hx) as (y & Y1 & Y2). exists y. split; [right|]; auto. Qed.
Lemma F2_impl {A B} (P Q : A -> B -> Prop) l r : (forall a b, P a b -> Q a b) -> Forall2 P l r -> Forall2 Q l r.
Proof. intros HI. induction 1; constructor; auto. Qed.
Lemma F2_flip_map {A B C} (P : A -> C -> Prop) (Q : A -> B -> Prop) (f : B -> C) (l : list A) (r : list B) : (forall a b, Q a b -> P a (f b)) -> Forall2 Q l r -> Forall2 P l (map f r).
Proof. intros HI. induction 1; cbn; constructor; auto. Qed.

Lemma pams_parsed im ns atrue lines m : pams_file pyfloat pyint im ns atrue lines -> atrue <> [] -> (forall r, In r atrue -> length r = m) ->
  open_data_pams pyfloat pyint lines = Ok (im, ns, atrue).
Proof.
  intros (t1 & l1 & t2 & l2 & t3 & l3 & -> & T1 & T2 & T2' & T3 & T3' & T3'' & F1 & F2 & F3) Hne Hm. unfold open_data_pams.
  assert (P1 : forall l, In l l1 -> plain l) by (intros l Hl; destruct (F2_in_r _ _ _ F1 l Hl) as (? & _ & ? & _); auto).
  assert (P2 : forall l, In l l2 -> plain l) by (intros l Hl; destruct (F2_in_r _ _ _ F2 l Hl) as (? & _ & ? & _); auto).
  assert (P3 : forall l, In l l3 -> plain l) by (intros l Hl; destruct (F2_in_r _ _ _ F3 l Hl) as (? & _ & ? & _); auto).
  cbn [fold_left]. unfold pams_line at 2. rewrite T1. rewrite fold_left_app, (plain_lines l1) by auto. cbn [fold_left app]. unfold pams_line at 2. rewrite T2, T2'.
  rewrite fold_left_app, (plain_lines l2) by auto. cbn [fold_left app]. unfold pams_line at 2. rewrite T3, T3', T3''. rewrite (plain_lines l3) by auto. cbn [app].
  assert (E1 : map split l1 = im). { clear -F1. induction F1 as [|p l im l1 (_ & Hw) _ IH]; cbn; [reflexivity|]. rewrite (split_words _ _ Hw), IH. reflexivity. }
  assert (E2 : mapM (fun r => do w <- get r 0;; pyint w) (map split l2) = Ok ns).
  { clear -F2. induction F2 as [|n l ns l2 (_ & w & rest & Hw & Hn) _ IH]; cbn [map mapM]; [reflexivity|]. rewrite (split_words _ _ Hw). cbn [get nth_error bind]. rewrite Hn. cbn [bind]. rewrite IH. reflexivity. }
  rewrite E1, E2. cbn [bind].
  assert (E3 : forall n, (forall r, In r atrue -> length r = n) -> mapM (true_row pyfloat n) (map split l3) = Ok atrue).
  { clear -F3. intros n. induction F3 as [|row l atrue l3 (_ & ws & Hw & Hr) _ IH]; intros Hn; cbn [map mapM]; [reflexivity|]. rewrite (split_words _ _ Hw). unfold true_row at 1.
    rewrite (mapM_F2 _ _ _ Hr). cbn [bind]. rewrite (Hn row) by (left; auto). rewrite Nat.ltb_irrefl, Nat.sub_diag. cbn [repeat]. rewrite app_nil_r. cbn [bind].
    rewrite IH by (intros r Hr'; apply Hn; right; auto). reflexivity. }
  destruct F3 as [|row l atrue' l3' (_ & ws & Hw & Hr) F3]; [congruence|]. cbn [map get nth_error bind].
  assert (El : length (split l) = length row). { rewrite (split_words _ _ Hw). clear -Hr. induction Hr; cbn; auto. }
  rewrite El, (Hm row) by (left; auto). rewrite <- (map_cons split l l3'). rewrite (E3 m) by auto. reflexivity.
Qed.
End Text.
