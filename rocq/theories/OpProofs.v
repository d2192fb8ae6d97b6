(** * Proofs for the operators.  Proofs only. *)
From Coq Require Import Reals Lra Permutation.
From Verif Require Import Base BaseLemmas ReaderModel HRModel OpModel OpSpec.
Open Scope nat_scope.

(** ** Elements *)
Lemma parse_name i j : i < 10 -> j < 10 ->
  (do ci <- from_end 8 (element_name i j);; int_char ci) = Ok i /\ (do cj <- from_end 6 (element_name i j);; int_char cj) = Ok j.
Proof.
  intros Hi Hj. do 10 (destruct i as [|i]; [do 10 (destruct j as [|j]; [split; vm_compute; reflexivity|]); lia|]). lia.
Qed.
Lemma bind_assoc {A B C} (m : res A) (f : A -> res B) (g : B -> res C) : (do b <- (do a <- m;; f a);; g b) = (do a <- m;; do b <- f a;; g b).
Proof. destruct m; reflexivity. Qed.
Lemma upd_nth_same {A} (l : list A) i v d : i < length l -> nth i (upd i v l) d = v.
Proof. revert i. induction l; intros [|i] H; cbn in *; try lia; auto. apply IHl. lia. Qed.
Lemma upd_nth_other {A} (l : list A) i j v d : i <> j -> nth j (upd i v l) d = nth j l d.
Proof. revert i j. induction l; intros [|i] [|j] H; cbn; auto; try lia. Qed.
Lemma upd_len {A} (l : list A) i v : length (upd i v l) = length l.
Proof. revert i. induction l; intros [|i]; cbn; auto. Qed.

Definition square n (m : list (list R)) := length m = n /\ forall i, i < n -> length (nth i m []) = n.
Definition ent (m : list (list R)) i j := nth j (nth i m []) 0%R.
Lemma set2_ok n i j v m : square n m -> i < n -> j < n -> exists m', set2 i j v m = Ok m' /\ square n m' /\
  forall i' j', ent m' i' j' = if (i =? i') && (j =? j') then v else ent m i' j'.
Proof.
  intros (L & Lr) Hi Hj. unfold set2. rewrite (proj2 (get_ok _ _ _) (nth_error_nth' m [] (n := i) ltac:(lia))). cbn [bind].
  unfold setitem at 1. rewrite Lr by lia. destruct (Nat.ltb_spec j n); [|lia]. cbn [bind]. unfold setitem. rewrite L. destruct (Nat.ltb_spec i n); [|lia].
  eexists. split; [reflexivity|]. split.
  - split; [rewrite upd_len; auto|]. intros k Hk. destruct (Nat.eq_dec i k) as [->|N]; [rewrite upd_nth_same by lia; rewrite upd_len; auto|rewrite upd_nth_other by auto; auto].
  - intros i' j'. unfold ent. destruct (Nat.eqb_spec i i') as [->|N]; cbn [andb]; [rewrite upd_nth_same by lia|rewrite upd_nth_other by auto; auto].
    destruct (Nat.eqb_spec j j') as [->|N]; [rewrite upd_nth_same by (rewrite Lr; lia); auto|rewrite upd_nth_other by auto; auto].
Qed.

Definition all_pairs n := flat_map (fun i => map (fun j => (i, j)) (seq 0 n)) (seq 0 n).
Lemma in_all_pairs n i j : In (i, j) (all_pairs n) <-> i < n /\ j < n.
Proof.
  unfold all_pairs. rewrite in_flat_map. split.
  - intros (k & Hk & H). apply in_map_iff in H. destruct H as (l & E & Hl). injection E as -> ->. apply in_seq in Hk. apply in_seq in Hl. lia.
  - intros (Hi & Hj). exists i. split; [apply in_seq; lia|]. apply in_map_iff. exists j. split; [auto|]. apply in_seq. lia.
Qed.
Lemma all_pairs_len n : length (all_pairs n) = n * n.
Proof.
  unfold all_pairs. assert (G : forall l : list nat, length (flat_map (fun i : nat => map (fun j => (i, j)) (seq 0 n)) l) = length l * n).
  { induction l as [|a l IH]; cbn [flat_map length]; [auto|]. rewrite app_length, map_length, seq_length, IH. lia. }
  rewrite G, seq_length. reflexivity.
Qed.
Lemma files_pairs n c files : element_files n c files -> exists ps, files = map (fun p => (element_name (fst p) (snd p), c (fst p) (snd p))) ps /\ Permutation ps (all_pairs n).
Proof.
  intros H. unfold element_files in H.
  assert (E : flat_map (fun i => map (fun j => (element_name i j, c i j)) (seq 0 n)) (seq 0 n) = map (fun p => (element_name (fst p) (snd p), c (fst p) (snd p))) (all_pairs n)).
  { unfold all_pairs. generalize (seq 0 n) at 2 4. intros l. induction l as [|i l IH]; [reflexivity|]. cbn [flat_map]. rewrite map_app, map_map, IH. reflexivity. }
  rewrite E in H. apply Permutation_map_inv in H. destruct H as (ps & -> & H). exists ps. split; [auto|]. apply Permutation_sym. auto.
Qed.

Lemma zero_square n : square n (repeat (repeat 0%R n) n).
Proof.
  split; [apply repeat_length|]. intros i Hi. rewrite (nth_indep _ [] (repeat 0%R n)) by (rewrite repeat_length; auto). rewrite nth_repeat. apply repeat_length.
Qed.
Lemma nth_repeat_any {A} (a : A) k m d : nth k (repeat a m) d = if k <? m then a else d.
Proof. revert k. induction m as [|m IH]; intros [|k]; cbn; auto. rewrite IH. reflexivity. Qed.
Lemma zero_ent n i j : ent (repeat (repeat 0%R n) n) i j = 0%R.
Proof. unfold ent. rewrite nth_repeat_any. destruct (i <? n); [rewrite nth_repeat_any; destruct (j <? n); auto|destruct j; auto]. Qed.

Definition estep := fun (m : list (list R)) (f : string * R) =>
    do ci <- from_end 8 (fst f);; do i <- int_char ci;;
    do cj <- from_end 6 (fst f);; do j <- int_char cj;;
    set2 i j (snd f) m.
Lemma estep_eq m i j v : i < 10 -> j < 10 -> estep m (element_name i j, v) = set2 i j v m.
Proof.
  intros Hi Hj. destruct (parse_name i j Hi Hj) as (A & B). unfold estep. cbn [fst snd]. rewrite <- bind_assoc, A. cbn [bind]. rewrite <- bind_assoc, B. reflexivity.
Qed.
Lemma fold_elements n (c : nat -> nat -> R) ps : n <= 10 -> (forall i j, In (i, j) ps -> i < n /\ j < n) -> forall m, square n m ->
  exists m', foldM estep (map (fun p => (element_name (fst p) (snd p), c (fst p) (snd p))) ps) m = Ok m' /\ square n m' /\
    forall i j, (In (i, j) ps -> ent m' i j = c i j) /\ (~ In (i, j) ps -> ent m' i j = ent m i j).
Proof.
  intros Hn. induction ps as [|(i, j) ps IH]; intros Hp m Hm; cbn [map foldM]; [exists m; repeat split; try apply Hm; intros []|].
  destruct (Hp i j (or_introl eq_refl)) as (Hi & Hj). cbn [fst snd]. rewrite estep_eq by lia. destruct (set2_ok n i j (c i j) m Hm Hi Hj) as (m1 & E & S1 & V1). rewrite E.
  destruct (IH (fun i j H => Hp i j (or_intror H)) m1 S1) as (m2 & E2 & S2 & V2). exists m2. split; [auto|]. split; [auto|]. intros i' j'. destruct (V2 i' j') as (A & B).
  assert (Dec : {In (i', j') ps} + {~ In (i', j') ps}) by (apply in_dec; decide equality; apply Nat.eq_dec).
  split.
  - intros [H|H]; [|auto]. injection H as -> ->. destruct Dec as [D|D]; [auto|]. rewrite B by auto. rewrite V1, !Nat.eqb_refl. reflexivity.
  - intros H. rewrite B by (intros D; apply H; right; auto). rewrite V1. destruct (Nat.eqb_spec i i') as [->|]; [|reflexivity]. destruct (Nat.eqb_spec j j') as [->|]; [|reflexivity].
    destruct H. left. auto.
Qed.

Lemma sqrt_files n c files : element_files n c files -> Nat.sqrt (length files) = n.
Proof.
  intros H. destruct (files_pairs n c files H) as (ps & -> & P). rewrite map_length, (Permutation_length P), all_pairs_len. apply Nat.sqrt_square.
Qed.
Theorem elements_combined n c files : n <= 10 -> element_files n c files -> exists m, combine_elements files = Ok m /\ is_matrix n (fun i j => (c i j + c j i) / 2)%R m.
Proof.
  intros Hn H. pose proof (sqrt_files n c files H) as Es. unfold combine_elements. rewrite Es. cbv zeta.
  destruct (files_pairs n c files H) as (ps & -> & P).
  assert (HP : forall i j, In (i, j) ps <-> i < n /\ j < n).
  { intros i j. rewrite <- in_all_pairs. split; intros HH; [exact (Permutation_in _ P HH)|exact (Permutation_in _ (Permutation_sym P) HH)]. }
  destruct (fold_elements n c ps Hn (fun i j H => proj1 (HP i j) H) _ (zero_square n)) as (m & E & S & V).
  change (foldM _ ?l ?z) with (foldM estep l z). rewrite E. cbn [bind]. eexists. split; [reflexivity|]. split; [rewrite map_length, seq_length; auto|].
  intros i Hi. eexists. split; [rewrite nth_error_map', (nth_error_nth' _ 0) by (rewrite seq_length; auto); rewrite seq_nth by auto; reflexivity|].
  split; [rewrite map_length, seq_length; auto|]. intros j Hj. rewrite nth_error_map', (nth_error_nth' _ 0) by (rewrite seq_length; auto). rewrite seq_nth by auto. cbn [option_map plus].
  do 2 f_equal. f_equal.
  - apply (V i j). apply HP. auto.
  - apply (V j i). apply HP. auto.
Qed.

(** More than ten parameters. *)
Lemma foldM_bad {S A} (f : S -> A -> res S) (I : S -> Prop) e l : (forall s a, In a l -> I s -> f s a = Raise e \/ exists s', f s a = Ok s' /\ I s') ->
  (exists a, In a l /\ forall s, I s -> f s a = Raise e) -> forall s, I s -> foldM f l s = Raise e.
Proof.
  induction l as [|x l IH]; intros Hs (a & Ha & Hb) s Hi; [destruct Ha|]. cbn [foldM]. destruct Ha as [->|Ha].
  - rewrite Hb by auto. reflexivity.
  - destruct (Hs s x (or_introl eq_refl) Hi) as [->|(s' & -> & Hi')]; [reflexivity|]. apply IH; auto. intros; apply Hs; auto. right; auto. eauto.
Qed.
Lemma name_rev i j : exists t, rev (tx (element_name i j)) = "t"%char :: "a"%char :: "d"%char :: "."%char :: "]"%char :: rev (tx (str_nat j)) ++ ","%char :: rev (tx (str_nat i)) ++ t /\ 20 < length t.
Proof.
  exists (rev (tx "parameter_covariance_matrix[")). split; [|cbn; lia]. unfold element_name.
  assert (TA : forall a b, tx (a ++ b)%string = tx a ++ tx b). { unfold tx. induction a as [|ch a IH]; intros b; cbn; [reflexivity|]. rewrite IH. reflexivity. }
  rewrite !TA, !rev_app_distr. cbn. rewrite <- !app_assoc. reflexivity.
Qed.
Lemma from_end_total k i j : k <= 20 -> exists ch, from_end k (element_name i j) = Ok ch.
Proof.
  intros Hk. destruct (name_rev i j) as (t & E & L). unfold from_end.
  destruct (nth_error (rev (tx (element_name i j))) (k - 1)) as [ch|] eqn:En; [exists ch; apply get_ok; auto|]. exfalso. apply nth_error_None in En. rewrite E in En.
  cbn [length] in En. rewrite app_length in En. cbn [length] in En. rewrite app_length in En. lia.
Qed.
Lemma int_char_cases ch : (exists d, int_char ch = Ok d /\ d < 10) \/ int_char ch = Raise ValueError.
Proof.
  unfold int_char. cbv zeta. destruct ((48 <=? nat_of_ascii ch) && (nat_of_ascii ch <=? 57)) eqn:E; [|auto]. left. apply andb_true_iff in E. destruct E as (A & B).
  apply Nat.leb_le in A. apply Nat.leb_le in B. eexists. split; [reflexivity|lia].
Qed.
Theorem too_many_elements n c files : 10 < n -> element_files n c files -> combine_elements files = Raise ValueError.
Proof.
  intros Hn H. pose proof (sqrt_files n c files H) as Es. unfold combine_elements. rewrite Es. cbv zeta.
  change (foldM _ ?l ?z) with (foldM estep l z). rewrite (foldM_bad estep (square n) ValueError); [reflexivity| | |apply zero_square].
  - intros s f Hf Hs. destruct (files_pairs n c files H) as (ps & -> & P). apply in_map_iff in Hf. destruct Hf as ((i & j) & <- & Hp). cbn [fst snd]. unfold estep. cbn [fst snd].
    destruct (from_end_total 8 i j ltac:(lia)) as (c8 & ->). destruct (from_end_total 6 i j ltac:(lia)) as (c6 & ->). cbn [bind].
    destruct (int_char_cases c8) as [(a & -> & Ha)| ->]; [|left; reflexivity]. cbn [bind].
    destruct (int_char_cases c6) as [(b & -> & Hb)| ->]; [|left; reflexivity]. cbn [bind].
    destruct (set2_ok n a b (c i j) s Hs ltac:(lia) ltac:(lia)) as (m' & -> & S' & _). right. eauto.
  - exists (element_name 0 10, c 0 10). split.
    + eapply Permutation_in; [apply Permutation_sym; exact H|]. apply in_flat_map. exists 0. split; [apply in_seq; lia|]. apply in_map_iff. exists 10. split; [auto|]. apply in_seq. lia.
    + intros s Hs. unfold estep. cbn [fst snd]. replace (from_end 8 (element_name 0 10)) with (Ok ","%char) by (vm_compute; reflexivity). cbn [bind].
      replace (int_char ","%char) with (@Raise nat ValueError) by (vm_compute; reflexivity). reflexivity.
Qed.

(** ** Running mean and variance *)
Lemma vop_nth f a b t : length a = length b -> t < length a -> nth t (vop f a b) 0%R = f (nth t a 0%R) (nth t b 0%R).
Proof.
  unfold vop. revert b t. induction a as [|x a IH]; intros [|y b] t H Ht; cbn in *; try lia. destruct t; [reflexivity|]. apply IH; lia.
Qed.
Lemma vop_len f a b : length a = length b -> length (vop f a b) = length a.
Proof. intros H. unfold vop. rewrite map_length, combine_length. lia. Qed.
Lemma map_nth0 (f : R -> R) l t : t < length l -> nth t (map f l) 0%R = f (nth t l 0%R).
Proof. intros H. rewrite (nth_indep _ 0%R (f 0%R)) by (rewrite map_length; auto). apply map_nth. Qed.

Definition sstep (n : nat) (e v x : R) : R * R :=
  let mu := (e + (x - e) / INR n)%R in (mu, (((INR n - 2) * v + (INR n - 1) * ((e - mu) * (e - mu)) + (x - mu) * (x - mu)) / (INR n - 1))%R).
Lemma step_comp n w e var k t : length e = w -> length var = w -> length k = w -> t < w ->
  length (fst (mc_step n (e, var) k)) = w /\ length (snd (mc_step n (e, var) k)) = w /\
  (nth t (fst (mc_step n (e, var) k)) 0%R, nth t (snd (mc_step n (e, var) k)) 0%R) = sstep n (nth t e 0%R) (nth t var 0%R) (nth t k 0%R).
Proof.
  intros He Hv Hk Ht. unfold mc_step. cbn [fst snd].
  set (mu := vop _ e k). assert (Lmu : length mu = w) by (unfold mu; rewrite vop_len; congruence).
  assert (Nmu : nth t mu 0%R = (nth t e 0 + (nth t k 0 - nth t e 0) / INR n)%R) by (unfold mu; rewrite vop_nth by (congruence || lia); reflexivity).
  split; [auto|]. split.
  - rewrite map_length. rewrite !vop_len; rewrite ?vop_len, ?map_length; rewrite ?vop_len, ?map_length; congruence.
  - unfold sstep. cbv zeta. rewrite Nmu. f_equal. rewrite map_nth0.
    2:{ rewrite !vop_len; rewrite ?vop_len, ?map_length; rewrite ?vop_len, ?map_length; congruence || lia. }
    f_equal. rewrite vop_nth. 2:{ rewrite !vop_len; rewrite ?vop_len, ?map_length; rewrite ?vop_len, ?map_length; congruence. } 2:{ rewrite !vop_len; rewrite ?vop_len, ?map_length; rewrite ?vop_len, ?map_length; congruence || lia. }
    rewrite vop_nth. 2:{ rewrite ?vop_len, ?map_length; congruence. } 2:{ rewrite map_length. lia. }
    rewrite map_nth0 by lia. rewrite (vop_nth _ e mu) by (congruence || lia). rewrite (vop_nth _ k mu) by (congruence || lia). rewrite Nmu. reflexivity.
Qed.

(** Sums of squares: the state after [n] trials. *)
Definition sums t xs := total (comp t) xs.
Definition sq t xs := total (fun x => comp t x * comp t x)%R xs.
Lemma total_app f xs ys : total f (xs ++ ys) = (total f xs + total f ys)%R.
Proof. induction xs as [|x xs IH]; cbn [total app fold_right]; [unfold total; cbn; lra|]. change (fold_right _ _ (xs ++ ys)) with (total f (xs ++ ys)). rewrite IH. unfold total. lra. Qed.
Lemma total_dev t m xs : total (fun x => (comp t x - m) * (comp t x - m))%R xs = (sq t xs - 2 * m * sums t xs + INR (length xs) * (m * m))%R.
Proof.
  induction xs as [|x xs IH]; [unfold total, sq, sums, total; cbn; lra|]. cbn [length]. rewrite S_INR. unfold sq, sums in *. cbn [total fold_right].
  change (fold_right (fun x s => ((comp t x - m) * (comp t x - m) + s)%R) 0%R xs) with (total (fun x => (comp t x - m) * (comp t x - m))%R xs). rewrite IH. unfold total. lra.
Qed.
(** State after trials xs (n >= 1): mean, and (n-1) var = Sum x^2 - n mean^2. *)
Definition sinv (t : nat) (xs : list (list R)) (st : R * R) : Prop :=
  fst st = mean_of t xs /\ ((INR (length xs) - 1) * snd st = sq t xs - INR (length xs) * (mean_of t xs * mean_of t xs))%R.
Lemma sinv_step t xs x st : xs <> [] -> sinv t xs st -> sinv t (xs ++ [x]) (sstep (S (length xs)) (fst st) (snd st) (comp t x)).
Proof.
  intros Hne (E1 & E2). set (n := length xs) in *. assert (Hn : (1 <= n)%nat) by (destruct xs; [congruence|subst n; cbn; lia]).
  assert (Hn0 : (INR n > 0)%R) by (apply lt_0_INR; lia). assert (Hn1 : (INR n + 1 <> 0)%R) by lra.
  assert (Lx : length (xs ++ [x]) = S n) by (rewrite app_length; cbn; lia).
  assert (Sx : sums t (xs ++ [x]) = (sums t xs + comp t x)%R) by (unfold sums; rewrite total_app; unfold total; cbn; lra).
  assert (Qx : sq t (xs ++ [x]) = (sq t xs + comp t x * comp t x)%R) by (unfold sq; rewrite total_app; unfold total; cbn; lra).
  assert (M : mean_of t (xs ++ [x]) = (fst st + (comp t x - fst st) / (INR n + 1))%R).
  { unfold mean_of. fold (sums t (xs ++ [x])). rewrite Sx, Lx, S_INR, E1. unfold mean_of. fold (sums t xs). fold n. field. split; lra. }
  assert (Sm : sums t xs = (INR n * fst st)%R). { rewrite E1. unfold mean_of. fold (sums t xs) n. field. lra. }
  unfold sinv, sstep. cbv zeta. cbn [fst snd]. rewrite Lx, S_INR. split; [rewrite M; reflexivity|]. rewrite M, Qx.
  rewrite E1 in *. set (m := mean_of t xs) in *. set (q := sq t xs) in *. set (y := comp t x) in *. set (v := snd st) in *.
  assert (Ev : q = ((INR n - 1) * v + INR n * (m * m))%R) by lra. rewrite Ev. field. split; lra.
Qed.
Lemma loop_inv t w ts : t < w -> forall xs e var, xs <> [] -> length e = w -> length var = w -> (forall k, In k ts -> length k = w) ->
  sinv t xs (nth t e 0%R, nth t var 0%R) ->
  let r := mc_loop (S (length xs)) (e, var) ts in sinv t (xs ++ ts) (nth t (fst r) 0%R, nth t (snd r) 0%R) /\ length (fst r) = w /\ length (snd r) = w.
Proof.
  intros Ht. induction ts as [|k ts IH]; intros xs e var Hne He Hv Hk I; cbn [mc_loop]; cbv zeta.
  - rewrite app_nil_r. cbn [fst snd]. auto.
  - assert (Lk : length k = w) by (apply Hk; left; auto). destruct (step_comp (S (length xs)) w e var k t He Hv Lk Ht) as (L1 & L2 & E).
    pose proof (sinv_step t xs k _ Hne I) as I2. cbn [fst snd] in I2. unfold comp in I2. rewrite <- E in I2.
    destruct (mc_step (S (length xs)) (e, var) k) as (e2, v2). cbn [fst snd] in *.
    specialize (IH (xs ++ [k]) e2 v2). rewrite app_length in IH. cbn [length] in IH. rewrite Nat.add_1_r, <- app_assoc in IH. cbn [app] in IH. apply IH; auto.
    + destruct xs; discriminate.
    + intros; apply Hk; right; auto.
Qed.
Theorem running_stats w trials e var : (forall k, In k trials -> length k = w) -> mc_stats trials = Some (e, var) ->
  length e = w /\ length var = w /\ forall t, t < w -> nth t e 0%R = mean_of t trials /\ (2 <= length trials -> nth t var 0%R = sample_variance t trials).
Proof.
  intros Hk H. destruct trials as [|k ts]; [discriminate|]. cbn [mc_stats] in H. injection H as H. unfold mc_first in H.
  assert (Lk : length k = w) by (apply Hk; left; auto).
  assert (I0 : forall t, t < w -> sinv t [k] (nth t k 0%R, nth t (map (fun _ => 0%R) k) 0%R)).
  { intros t Ht. rewrite map_nth0 by lia. unfold sinv, mean_of, sq, total, comp. cbn. split; field. }
  assert (G : forall t, t < w -> sinv t (k :: ts) (nth t e 0%R, nth t var 0%R) /\ length e = w /\ length var = w).
  { intros t Ht. pose proof (loop_inv t w ts Ht [k] k (map (fun _ => 0%R) k)) as L. cbv zeta in L. cbn [length app] in L. rewrite H in L. cbn [fst snd] in L. apply L; auto; [discriminate|rewrite map_length; auto|intros; apply Hk; right; auto]. }
  assert (LL : length e = w /\ length var = w).
  { destruct w as [|w]; [|destruct (G 0 ltac:(lia)) as (_ & A); exact A]. clear G I0. revert H. generalize 2. revert k Lk Hk. assert (Z : forall ts n st, (forall k, In k ts -> length k = 0) -> length (fst st) = 0 -> length (snd st) = 0 -> length (fst (mc_loop n st ts)) = 0 /\ length (snd (mc_loop n st ts)) = 0).
    { induction ts0 as [|x l IH]; intros n (a, b) Hx A B; cbn [mc_loop]; [auto|]. apply IH; [intros; apply Hx; right; auto| |]; unfold mc_step; cbn [fst snd] in *; destruct a; [|discriminate| |discriminate]; destruct b; try discriminate; reflexivity. }
    intros k Lk Hk n H. specialize (Z ts n (k, map (fun _ => 0%R) k) (fun x Hx => Hk x (or_intror Hx)) Lk). rewrite H in Z. apply Z. cbn. rewrite map_length. auto. }
  destruct LL as (L1 & L2). split; [auto|]. split; [auto|]. intros t Ht. destruct (G t Ht) as ((E1 & E2) & _). cbn [fst snd] in *. split; [auto|]. intros Hn.
  unfold sample_variance. rewrite total_dev. set (xs := k :: ts) in *. assert (Hn1 : (INR (length xs) - 1 > 0)%R). { apply le_INR in Hn. assert (H2 : INR 2 = 2%R) by (cbn; lra). rewrite H2 in Hn. clearbody xs. lra. }
  assert (Es : sums t xs = (INR (length xs) * mean_of t xs)%R). { unfold mean_of. fold (sums t xs). field. lra. }
  rewrite Es. apply (Rmult_eq_reg_l (INR (length xs) - 1)%R); [|lra]. rewrite E2. field. lra.
Qed.

Lemma zero_row_spec row : zero_row row = true <-> forall x, In x row -> x = 0%R.
Proof. unfold zero_row. rewrite forallb_forall. split; intros H x Hx; specialize (H x Hx); destruct (Req_EM_T x 0); auto; discriminate. Qed.
Theorem trial_parameters n_a trials : (forall a, In (Some a) trials -> exists x, In x a /\ x <> 0%R) ->
  mc_parameters n_a trials = flat_map (fun t => match t with Some a => [a] | None => [] end) trials.
Proof.
  unfold mc_parameters. induction trials as [|t trials IH]; intros H; [reflexivity|]. cbn [map filter flat_map]. destruct t as [a|].
  - destruct (zero_row a) eqn:E.
    + exfalso. destruct (H a (or_introl eq_refl)) as (x & Hx & Nx). rewrite zero_row_spec in E. auto.
    + cbn [negb app]. f_equal. apply IH. intros; apply H; right; auto.
  - replace (zero_row (repeat 0%R n_a)) with true. + cbn [negb app]. apply IH. intros; apply H; right; auto.
    + symmetry. apply zero_row_spec. intros x Hx. apply repeat_spec in Hx. auto.
Qed.

(** ** Command line *)
Lemma truthy_given o : truthy o = true <-> given o.
Proof.
  unfold truthy, given. destruct o as [s|]; [|split; [discriminate|intros (s & E & _); discriminate]].
  destruct (String.eqb_spec s ""); cbn [negb]; split; try discriminate; eauto. intros (s' & E & N). congruence.
Qed.
Lemma truthy_missing o : truthy o = false <-> missing o.
Proof. unfold missing. rewrite <- truthy_given. destruct (truthy o); split; try discriminate; try tauto; congruence. Qed.
Theorem accepted_documented so a : parse_ok so a = true <-> documented so a /\ ~ (c_verbose a = true /\ c_quiet a = true).
Proof.
  unfold parse_ok, documented. rewrite <- !truthy_given, <- !truthy_missing.
  assert (S : (so = true -> truthy (c_pc_input a) = false /\ truthy (c_save_pc a) = false /\ truthy (c_gn_input a) = false /\ truthy (c_save_gn a) = false) <->
    so && (truthy (c_save_pc a) || truthy (c_pc_input a) || truthy (c_gn_input a) || truthy (c_save_gn a)) = false).
  { destruct so; cbn [andb]; [|split; [auto|discriminate]]. destruct (truthy (c_pc_input a)), (truthy (c_save_pc a)), (truthy (c_gn_input a)), (truthy (c_save_gn a)); cbn; intuition discriminate. }
  rewrite S. generalize (so && (truthy (c_save_pc a) || truthy (c_pc_input a) || truthy (c_gn_input a) || truthy (c_save_gn a))). intros sb.
  destruct (truthy (c_job a)), (truthy (c_in a)), (truthy (c_sensor a)), (truthy (c_out a)), sb, (c_verbose a), (c_quiet a); cbn; intuition (try discriminate; auto).
Qed.
