(** Proofs for TrainModel: the averages over the window and the map shown. *)
From Verif Require Import Base BaseLemmas TransformModel TransformProofs TrainModel TrainSpec TrainProofs.
From Coq Require Import Reals Lra.
Open Scope nat_scope.
Open Scope list_scope.

Lemma rsum_concat {A} (g : A -> R) ll : rsum (map g (concat ll)) = rsum (map (fun l => rsum (map g l)) ll).
Proof.
  induction ll as [|l ll IH]; [reflexivity|]. cbn [concat map]. rewrite map_app, rsum_app, rsum_cons, IH. reflexivity.
Qed.
Lemma rsum_zero {A} (g : A -> R) l : (forall a, In a l -> g a = 0%R) -> rsum (map g l) = 0%R.
Proof.
  induction l as [|a l IH]; intros H; [reflexivity|]. cbn [map]. rewrite rsum_cons, (H a (or_introl eq_refl)), IH; [lra|].
  intros b Hb. apply H. right. exact Hb.
Qed.
Lemma list_seq {A} (d : A) l : l = map (fun k => nth k l d) (seq 0 (length l)).
Proof.
  induction l as [|a l IH]; [reflexivity|]. cbn [length seq map nth]. f_equal. rewrite <- seq_shift, map_map. exact IH.
Qed.
Lemma enumerate_seq {A} (d : A) l : enumerate l = map (fun k => (k, nth k l d)) (seq 0 (length l)).
Proof.
  unfold enumerate. rewrite (list_seq d l) at 2. generalize (seq 0 (length l)) as ks.
  induction ks as [|k ks IH]; [reflexivity|]. cbn. f_equal. exact IH.
Qed.
Lemma rsum_range (g : nat -> R) lo s n : lo + s <= n ->
  rsum (map (fun k => if (lo <=? k) && (k <? lo + s) then g k else 0%R) (seq 0 n)) = rsum (map g (seq lo s)).
Proof.
  intros H. replace n with (lo + (s + (n - lo - s))) by lia. rewrite !seq_app, !map_app, !rsum_app, Nat.add_0_l.
  rewrite rsum_zero; [|intros k Hk; apply in_seq in Hk; destruct (Nat.leb_spec lo k); [lia|reflexivity]].
  rewrite (rsum_zero _ (seq (lo + s) _)); [|intros k Hk; apply in_seq in Hk; destruct (Nat.ltb_spec k (lo + s)); [lia|rewrite andb_false_r; reflexivity]].
  rewrite (rsum_ext _ g); [lra|]. intros k Hk. apply in_seq in Hk.
  destruct (Nat.leb_spec lo k); [|lia]. destruct (Nat.ltb_spec k (lo + s)); [reflexivity|lia].
Qed.
Lemma rsum_square (g : nat * nat -> R) rs cs :
  rsum (map g (list_prod rs cs)) = rsum (map (fun r => rsum (map (fun c => g (r, c)) cs)) rs).
Proof.
  induction rs as [|r rs IH]; [reflexivity|]. cbn [list_prod map]. rewrite map_app, rsum_app, IH, rsum_cons, map_map. reflexivity.
Qed.
Lemma shape_grid (h : nat * nat -> R -> R) w rows cols : shape w rows cols ->
  rsum (map (fun p => rsum (map (fun q => h (fst p, fst q) (snd q)) (enumerate (snd p)))) (enumerate w))
  = rsum (map (fun r => rsum (map (fun c => h (r, c) (pixel w r c)) (seq 0 cols))) (seq 0 rows)).
Proof.
  intros Hs. rewrite (enumerate_seq [] w), map_map, (proj1 Hs). apply rsum_ext. intros r Hr. apply in_seq in Hr.
  cbn [fst snd]. rewrite (enumerate_seq 0%R), map_map, (shape_row w rows cols) by (auto; lia). reflexivity.
Qed.

(** Sum over an image that is 0 outside the square. *)
Lemma grid_square (h : nat * nat -> R -> R) data w rows cols r0 c0 s : shape w rows cols ->
  r0 + s <= rows -> c0 + s <= cols -> (forall p, h p 0%R = 0%R) ->
  (forall r c, r < rows -> c < cols ->
     pixel w r c = if ((r0 <=? r) && (r <? r0 + s)) && ((c0 <=? c) && (c <? c0 + s)) then pixel data r c else 0%R) ->
  rsum (map (fun p => rsum (map (fun q => h (fst p, fst q) (snd q)) (enumerate (snd p)))) (enumerate w))
  = rsum (map (fun p => h p (pixel data (fst p) (snd p))) (square r0 c0 s)).
Proof.
  intros Hs Hr Hc H0 Hp. rewrite (shape_grid h w rows cols Hs). unfold square. rewrite rsum_square. cbn [fst snd].
  rewrite <- (rsum_range (fun r => rsum (map (fun c => h (r, c) (pixel data r c)) (seq c0 s))) r0 s rows Hr).
  apply rsum_ext. intros r Hr'. apply in_seq in Hr'.
  destruct ((r0 <=? r) && (r <? r0 + s)) eqn:E.
  - rewrite <- (rsum_range (fun c => h (r, c) (pixel data r c)) c0 s cols Hc).
    apply rsum_ext. intros c Hc'. apply in_seq in Hc'. rewrite Hp, E by lia. cbn [andb].
    destruct ((c0 <=? c) && (c <? c0 + s)); [reflexivity|apply H0].
  - apply rsum_zero. intros c Hc'. apply in_seq in Hc'. rewrite Hp, E by lia. cbn [andb]. apply H0.
Qed.
Lemma concat_grid (h : R -> R) w :
  rsum (map h (concat w)) = rsum (map (fun p => rsum (map (fun q => h (snd q)) (enumerate (snd p)))) (enumerate w)).
Proof.
  rewrite rsum_concat. rewrite (enumerate_seq [] w), map_map. rewrite (list_seq [] w) at 1. rewrite map_map.
  f_equal. apply map_ext. intros r. cbn [snd]. generalize (nth r w []) as l. intros l.
  rewrite (enumerate_seq 0%R l), map_map. rewrite (list_seq 0%R l) at 1. rewrite map_map. reflexivity.
Qed.

Lemma rsum_filter (h : R -> R) (eqb : R -> R -> bool) l : decides eqb -> h 0%R = 0%R ->
  rsum (map h (filter (fun x => negb (eqb x 0%R)) l)) = rsum (map h l).
Proof.
  intros He H0. induction l as [|x l IH]; [reflexivity|]. cbn [filter].
  destruct (eqb x 0%R) eqn:E; cbn [negb map]; rewrite !rsum_cons, ?IH; [|reflexivity].
  apply He in E. subst x. rewrite H0. lra.
Qed.
Lemma length_filter (f : R -> bool) l :
  INR (length (filter f l)) = rsum (map (fun x => if f x then 1%R else 0%R) l).
Proof.
  induction l as [|x l IH]; [reflexivity|]. cbn [filter map]. rewrite rsum_cons.
  destruct (f x); [|rewrite IH; lra]. cbn [length]. rewrite S_INR, IH. lra.
Qed.
Lemma rsum_ones {A} (l : list A) : rsum (map (fun _ => 1%R) l) = INR (length l).
Proof. induction l as [|x l IH]; [reflexivity|]. cbn [map length]. rewrite rsum_cons, S_INR, IH. lra. Qed.
Lemma indices_sum eqb (g : nat * nat -> R) im :
  rsum (map g (nonzero_indices eqb im))
  = rsum (map (fun p => rsum (map (fun q => if eqb (snd q) 0%R then 0%R else g (fst p, fst q)) (enumerate (snd p)))) (enumerate im)).
Proof.
  unfold nonzero_indices. rewrite rsum_concat, map_map. f_equal. apply map_ext. intros p. rewrite map_map.
  generalize (enumerate (snd p)). intros l. induction l as [|q l IH]; [reflexivity|]. cbn [filter].
  cbn [map]. rewrite rsum_cons. destruct (eqb (snd q) 0%R); cbn [negb map]; [rewrite IH; lra|].
  rewrite rsum_cons, IH. reflexivity.
Qed.

Lemma map_shape (f : R -> R) im rows cols : shape im rows cols -> shape (map (map f) im) rows cols.
Proof.
  intros H. split; [rewrite map_length; apply H|]. intros l Hl. apply in_map_iff in Hl as (l' & <- & Hl).
  rewrite map_length. apply H. exact Hl.
Qed.
Lemma map_pixel (f : R -> R) im rows cols r c : shape im rows cols -> r < rows -> c < cols ->
  pixel (map (map f) im) r c = f (pixel im r c).
Proof.
  intros H Hr Hc. unfold pixel. change (@nil R) with (map f []) at 1. rewrite map_nth.
  rewrite (nth_indep _ 0%R (f 0%R)) by (rewrite map_length, (shape_row im rows cols); auto). apply map_nth.
Qed.

Section Averages.
Variables (eqb : R -> R -> bool) (data w : image) (rows cols r0 c0 s : nat).
Hypothesis He : decides eqb.
Hypothesis Hw : shape w rows cols.
Hypothesis Hd : shape data rows cols.
Hypothesis Hr : r0 + s <= rows.
Hypothesis Hc : c0 + s <= cols.
Hypothesis Hp : forall r c, r < rows -> c < cols ->
  pixel w r c = if ((r0 <=? r) && (r <? r0 + s)) && ((c0 <=? c) && (c <? c0 + s)) then pixel data r c else 0%R.
Hypothesis Hpos : forall r c, r < rows -> c < cols -> (0 < pixel data r c)%R.

Lemma in_square p : In p (square r0 c0 s) -> fst p < rows /\ snd p < cols.
Proof.
  destruct p as [r c]. unfold square. rewrite in_prod_iff, !in_seq. cbn [fst snd]. lia.
Qed.
Lemma square_length : length (square r0 c0 s) = s ^ 2.
Proof. unfold square. rewrite prod_length, !seq_length. cbn. lia. Qed.

Lemma sum_nonzero (h : R -> R) : h 0%R = 0%R ->
  rsum (map h (nonzero_values eqb w)) = rsum (map h (values data (square r0 c0 s))).
Proof.
  intros H0. unfold nonzero_values. rewrite (rsum_filter h eqb _ He H0), concat_grid.
  rewrite (grid_square (fun _ => h) data w rows cols r0 c0 s Hw Hr Hc (fun _ => H0) Hp).
  unfold values. rewrite map_map. reflexivity.
Qed.
Lemma eqb_false x : (0 < x)%R -> eqb x 0%R = false.
Proof. intros H. destruct (eqb x 0%R) eqn:E; [|reflexivity]. apply He in E. lra. Qed.
Lemma eqb_zero : eqb 0%R 0%R = true.
Proof. apply He. reflexivity. Qed.
Lemma count_nonzero : INR (length (nonzero_values eqb w)) = INR (s ^ 2).
Proof.
  unfold nonzero_values. rewrite length_filter, concat_grid.
  rewrite (grid_square (fun _ x => if negb (eqb x 0%R) then 1%R else 0%R) data w rows cols r0 c0 s Hw Hr Hc).
  - rewrite (rsum_ext _ (fun _ => 1%R)).
    + rewrite rsum_ones, square_length. reflexivity.
    + intros p H. apply in_square in H. rewrite eqb_false; [reflexivity|]. apply Hpos; apply H.
  - intros p. rewrite eqb_zero. reflexivity.
  - exact Hp.
Qed.
Lemma idv_ok : idv_avg eqb w (s ^ 2) = average_independent (values data (square r0 c0 s)).
Proof.
  unfold idv_avg, average_independent. rewrite sum_nonzero by (cbn; lra). unfold values at 3. rewrite map_length, square_length. reflexivity.
Qed.
Lemma cm_ok : cm_avg eqb w = average_common (values data (square r0 c0 s)).
Proof.
  unfold cm_avg, average_common. rewrite count_nonzero. unfold values at 2. rewrite map_length, square_length.
  f_equal. rewrite <- (map_id (nonzero_values eqb w)), <- (map_id (values _ _)). apply (sum_nonzero (fun x => x)). reflexivity.
Qed.
Lemma str_found : str_avg eqb w (s ^ 2) =
  sqrt (2 / INR (s ^ 2) * rsum (map (fun p => INR (fst p + snd p)%nat) (square r0 c0 s)))%R.
Proof.
  unfold str_avg. f_equal. f_equal; [unfold Rdiv; lra|]. rewrite indices_sum.
  rewrite (grid_square (fun p x => if eqb x 0%R then 0%R else INR (fst p + snd p)%nat) (map (map (fun x => x ^ 2)%R) data)
             (map (map (fun x => x ^ 2)%R) w) rows cols r0 c0 s).
  - apply rsum_ext. intros p H. apply in_square in H. rewrite (map_pixel _ data rows cols) by (auto; apply H).
    rewrite eqb_false; [reflexivity|]. apply pow_lt. apply Hpos; apply H.
  - apply map_shape. exact Hw.
  - exact Hr.
  - exact Hc.
  - intros p. rewrite eqb_zero. reflexivity.
  - intros r c Hr' Hc'. rewrite (map_pixel _ w rows cols), (map_pixel _ data rows cols), Hp by assumption.
    destruct (((r0 <=? r) && (r <? r0 + s)) && ((c0 <=? c) && (c <? c0 + s))); [reflexivity|cbn; lra].
Qed.
End Averages.
