(** Proofs for TrainModel: the window. *)
From Verif Require Import Base BaseLemmas TransformModel TrainModel TrainSpec.
From Coq Require Import Reals Lra.
Open Scope nat_scope.
Open Scope list_scope.

Lemma axis_ok n i : (- Z.of_nat n <= i)%Z -> (i < Z.of_nat n)%Z ->
  axis n i = Ok (Z.to_nat (i mod Z.of_nat n)) /\ Z.to_nat (i mod Z.of_nat n) < n.
Proof.
  intros H1 H2. unfold axis. pose proof (Z.mod_pos_bound i (Z.of_nat n) ltac:(lia)) as Hb.
  destruct (Z.leb_spec 0 i).
  - destruct (Z.ltb_spec i (Z.of_nat n)); [|lia]. rewrite Z.mod_small by lia. split; [reflexivity|lia].
  - destruct (Z.leb_spec 0 (Z.of_nat n + i)); [|lia].
    assert (E : (i mod Z.of_nat n = Z.of_nat n + i)%Z).
    { symmetry. apply Z.mod_unique with (q := (-1)%Z); [left; lia|lia]. }
    rewrite E. split; [reflexivity|lia].
Qed.
Lemma axis_cases n i : axis n i = Raise IndexError \/ exists k, axis n i = Ok k.
Proof.
  unfold axis. destruct (0 <=? i)%Z; [destruct (i <? Z.of_nat n)%Z|destruct (0 <=? Z.of_nat n + i)%Z]; eauto.
Qed.
Lemma axis_bad n i : (i < - Z.of_nat n \/ Z.of_nat n <= i)%Z -> axis n i = Raise IndexError.
Proof.
  intros H. unfold axis. destruct (Z.leb_spec 0 i).
  - destruct (Z.ltb_spec i (Z.of_nat n)); [lia|reflexivity].
  - destruct (Z.leb_spec 0 (Z.of_nat n + i)); [lia|reflexivity].
Qed.
Lemma foldM_raises {S A} (f : S -> A -> res S) e l :
  (forall s a, f s a = Raise e \/ exists s', f s a = Ok s') ->
  (exists a, In a l /\ forall s, f s a = Raise e) -> forall s, foldM f l s = Raise e.
Proof.
  intros Hf. induction l as [|b l IH]; intros (a & Hi & Ha) s; [destruct Hi|].
  cbn [foldM]. destruct Hi as [<- |Hi].
  - rewrite Ha. reflexivity.
  - destruct (Hf s b) as [-> |(s' & ->)]; [reflexivity|]. apply IH. eauto.
Qed.
Lemma foldM_cases {S A} (f : S -> A -> res S) e l :
  (forall s a, f s a = Raise e \/ exists s', f s a = Ok s') ->
  forall s, foldM f l s = Raise e \/ exists s', foldM f l s = Ok s'.
Proof.
  intros Hf. induction l as [|b l IH]; intros s; cbn [foldM]; [eauto|].
  destruct (Hf s b) as [-> |(s' & ->)]; [auto|apply IH].
Qed.

(** ** Pixels *)
Lemma shape_row im rows cols r : shape im rows cols -> r < rows -> length (nth r im []) = cols.
Proof. intros (Hl & Hr) H. apply Hr. apply nth_In. lia. Qed.
Lemma shape_cols im rows cols : shape im rows cols -> 0 < rows -> n_cols im = cols.
Proof. intros H Hr. unfold n_cols. eapply shape_row; eauto. Qed.
Lemma nth_upd {A} i j (v d : A) l : i < length l -> nth j (upd i v l) d = if j =? i then v else nth j l d.
Proof.
  revert i j. induction l as [|a l IH]; intros i j H; [cbn in H; lia|].
  destruct i as [|i], j as [|j]; cbn [upd nth Nat.eqb]; try reflexivity.
  apply IH. cbn in H. lia.
Qed.
Lemma set_shape im rows cols r c v : shape im rows cols -> r < rows -> shape (set_pixel r c v im) rows cols.
Proof.
  intros Hs Hr. split.
  - unfold set_pixel. rewrite upd_length. apply Hs.
  - intros l Hl. unfold set_pixel in Hl. apply (In_nth _ _ []) in Hl as (k & Hk & <-).
    rewrite upd_length in Hk. rewrite nth_upd by (rewrite (proj1 Hs); lia).
    destruct (Nat.eqb_spec k r).
    + rewrite upd_length. eapply shape_row; eauto.
    + eapply shape_row; eauto. rewrite <- (proj1 Hs). exact Hk.
Qed.
Lemma pixel_set im rows cols r c v a b : shape im rows cols -> r < rows -> c < cols ->
  pixel (set_pixel r c v im) a b = if (a =? r) && (b =? c) then v else pixel im a b.
Proof.
  intros Hs Hr Hc. unfold pixel, set_pixel. rewrite nth_upd by (rewrite (proj1 Hs); lia).
  destruct (Nat.eqb_spec a r) as [-> |]; cbn [andb]; [|reflexivity].
  rewrite nth_upd by (rewrite (shape_row im rows cols); auto). reflexivity.
Qed.


Section Window.
Variables (data : image) (rows cols size0 size1 : nat) (c0 c1 : Z).
Hypothesis Hsh : shape data rows cols.
Notation x0 := (first_taken size1 c1).
Notation y0 := (first_taken size0 c0).
Notation rf i := (Z.to_nat ((x0 + Z.of_nat i) mod Z.of_nat rows)).
Notation cf j := (Z.to_nat ((y0 + Z.of_nat j) mod Z.of_nat cols)).
Notation step i := (fun w j =>
      do r <- axis (n_rows data) ((c1 - Z.of_nat (size1 / 2)) + Z.of_nat i - 1)%Z;;
      do c <- axis (n_cols data) ((c0 - Z.of_nat (size0 / 2)) + Z.of_nat j - 1)%Z;;
      Ok (set_pixel r c (pixel data r c) w)).

Lemma inner_ok i js : fits_wrapped rows size1 c1 -> fits_wrapped cols size0 c0 -> i < size1 ->
  (forall j, In j js -> j < size0) -> forall w, shape w rows cols ->
  exists w', foldM (step i) js w = Ok w' /\ shape w' rows cols /\
    forall a b, (a = rf i /\ (exists j, In j js /\ b = cf j) -> pixel w' a b = pixel data a b) /\
      (~ (a = rf i /\ exists j, In j js /\ b = cf j) -> pixel w' a b = pixel w a b).
Proof.
  intros Hr Hc Hi. induction js as [|j js IH]; intros Hj w Hw; cbn [foldM].
  - exists w. split; [reflexivity|]. split; [exact Hw|]. intros a b. split; [|reflexivity].
    intros (_ & j & [] & _).
  - assert (j < size0) as Hj0 by (apply Hj; left; reflexivity).
    destruct Hr as (Hr1 & Hr2), Hc as (Hc1 & Hc2).
    assert (Hrows : 0 < rows) by lia. assert (Hn : n_rows data = rows) by apply Hsh.
    assert (Hm : n_cols data = cols) by (eapply shape_cols; eauto).
    destruct (axis_ok rows (x0 + Z.of_nat i)%Z) as (E1 & L1); [lia|lia|].
    destruct (axis_ok cols (y0 + Z.of_nat j)%Z) as (E2 & L2); [lia|lia|].
    assert (Es : (do r <- axis (n_rows data) (c1 - Z.of_nat (size1 / 2) + Z.of_nat i - 1)%Z;;
                  do c <- axis (n_cols data) (c0 - Z.of_nat (size0 / 2) + Z.of_nat j - 1)%Z;;
                  Ok (set_pixel r c (pixel data r c) w)) = Ok (set_pixel (rf i) (cf j) (pixel data (rf i) (cf j)) w)).
    { replace (c1 - Z.of_nat (size1 / 2) + Z.of_nat i - 1)%Z with (x0 + Z.of_nat i)%Z by (unfold first_taken; lia).
      replace (c0 - Z.of_nat (size0 / 2) + Z.of_nat j - 1)%Z with (y0 + Z.of_nat j)%Z by (unfold first_taken; lia).
      rewrite Hn, Hm, E1, E2. reflexivity. }
    rewrite Es.
    destruct (IH (fun j H => Hj j (or_intror H)) (set_pixel (rf i) (cf j) (pixel data (rf i) (cf j)) w)) as (w' & Ew & Hs & Hp).
    { apply set_shape; assumption. }
    exists w'. split; [exact Ew|]. split; [exact Hs|]. intros a b. destruct (Hp a b) as (P1 & P2).
    assert (Ein : {a = rf i /\ exists j, In j js /\ b = cf j} + {~ (a = rf i /\ exists j, In j js /\ b = cf j)}).
    { destruct (Nat.eq_dec a (rf i)) as [Ea|Ea]; [|right; intros (E & _); auto].
      destruct (in_dec Nat.eq_dec b (map (fun j => cf j) js)) as [Hb|Hb].
      - left. split; [exact Ea|]. apply in_map_iff in Hb as (j' & Hb & Hj'). eauto.
      - right. intros (_ & j' & Hj' & Hb'). apply Hb. apply in_map_iff. eauto. }
    rewrite (pixel_set w rows cols) in P2 by assumption.
    split.
    + intros (Ea & j' & Hj' & Eb). destruct Ein as [Ein|Ein]; [auto|]. rewrite (P2 Ein).
      destruct Hj' as [<- |Hj']; [|exfalso; apply Ein; eauto].
      rewrite Ea, Eb, !Nat.eqb_refl. reflexivity.
    + intros Hno. rewrite P2.
      * destruct (Nat.eqb_spec a (rf i)) as [Ea|]; [|reflexivity].
        destruct (Nat.eqb_spec b (cf j)) as [Eb|]; [|reflexivity].
        exfalso. apply Hno. split; [exact Ea|]. exists j. split; [left; reflexivity|exact Eb].
      * intros (Ea & j' & Hj' & Eb). apply Hno. split; [exact Ea|]. exists j'. split; [right; exact Hj'|exact Eb].
Qed.

Lemma outer_ok is : fits_wrapped rows size1 c1 -> fits_wrapped cols size0 c0 ->
  (forall i, In i is -> i < size1) -> forall w, shape w rows cols ->
  exists w', foldM (fun w i => foldM (step i) (seq 0 size0) w) is w = Ok w' /\ shape w' rows cols /\
    forall a b, ((exists i, In i is /\ a = rf i) /\ (exists j, j < size0 /\ b = cf j) -> pixel w' a b = pixel data a b) /\
      (~ ((exists i, In i is /\ a = rf i) /\ exists j, j < size0 /\ b = cf j) -> pixel w' a b = pixel w a b).
Proof.
  intros Hr Hc. induction is as [|i is IH]; intros Hi w Hw; cbn [foldM].
  - exists w. split; [reflexivity|]. split; [exact Hw|]. intros a b. split; [|reflexivity].
    intros ((i & [] & _) & _).
  - destruct (inner_ok i (seq 0 size0) Hr Hc (Hi i (or_introl eq_refl))) with (w := w) as (w1 & E1 & S1 & P1).
    { intros j Hj. apply in_seq in Hj. lia. }
    { exact Hw. }
    rewrite E1. destruct (IH (fun i H => Hi i (or_intror H)) w1 S1) as (w' & E2 & S2 & P2).
    exists w'. split; [exact E2|]. split; [exact S2|]. intros a b.
    destruct (P1 a b) as (A1 & B1), (P2 a b) as (A2 & B2).
    assert (Dc : {exists j, j < size0 /\ b = cf j} + {~ exists j, j < size0 /\ b = cf j}).
    { destruct (in_dec Nat.eq_dec b (map (fun j => cf j) (seq 0 size0))) as [Hb|Hb].
      - left. apply in_map_iff in Hb as (j & Hb & Hj). apply in_seq in Hj. exists j. split; [lia|auto].
      - right. intros (j & Hj & Hb'). apply Hb. apply in_map_iff. exists j. split; [auto|]. apply in_seq. lia. }
    assert (Dr : {exists i, In i is /\ a = rf i} + {~ exists i, In i is /\ a = rf i}).
    { destruct (in_dec Nat.eq_dec a (map (fun i => rf i) is)) as [Hb|Hb].
      - left. apply in_map_iff in Hb as (k & Hb & Hk). eauto.
      - right. intros (k & Hk & Hb'). apply Hb. apply in_map_iff. eauto. }
    assert (Cs : (exists j, j < size0 /\ b = cf j) -> exists j, In j (seq 0 size0) /\ b = cf j).
    { intros (j & Hj & Eb). exists j. split; [apply in_seq; lia|exact Eb]. }
    assert (Cs' : (exists j, In j (seq 0 size0) /\ b = cf j) -> exists j, j < size0 /\ b = cf j).
    { intros (j & Hj & Eb). exists j. split; [apply in_seq in Hj; lia|exact Eb]. }
    split.
    + intros ((k & Hk & Ea) & Hb). destruct Dr as [Dr|Dr]; [auto|].
      rewrite B2 by (intros (H & _); auto). apply A1.
      destruct Hk as [Hk|Hk]; [subst k|exfalso; apply Dr; eauto]. auto.
    + intros Hno. rewrite B2.
      * apply B1. intros (Ea & Hb). apply Hno. split; [exists i; split; [left; reflexivity|exact Ea]|auto].
      * intros ((k & Hk & Ea) & Hb). apply Hno. split; [exists k; split; [right; exact Hk|exact Ea]|exact Hb].
Qed.

Lemma zeros_shape : shape (map (map (fun _ => 0%R)) data) rows cols.
Proof.
  split; [rewrite map_length; apply Hsh|]. intros l Hl. apply in_map_iff in Hl as (l' & <- & Hl).
  rewrite map_length. apply Hsh. exact Hl.
Qed.
Lemma zeros_pixel a b : pixel (map (map (fun _ => 0%R)) data) a b = 0%R.
Proof.
  unfold pixel. change (@nil R) with (map (fun _ : R => 0%R) []). rewrite map_nth.
  generalize (nth a data []). intros l. revert b. induction l as [|x l IH]; intros [|b]; cbn; auto.
Qed.

Lemma taken_iff n s c k : 0 < n ->
  (exists i, i < s /\ k = Z.to_nat ((first_taken s c + Z.of_nat i) mod Z.of_nat n)) <-> taken n s c k.
Proof.
  intros Hn. unfold taken. split; intros (i & Hi & E); exists i; (split; [exact Hi|]);
    pose proof (Z.mod_pos_bound (first_taken s c + Z.of_nat i) (Z.of_nat n) ltac:(lia)); lia.
Qed.

Lemma window_ok : 0 < rows -> 0 < cols -> fits_wrapped rows size1 c1 -> fits_wrapped cols size0 c0 ->
  exists w, window data size0 size1 c0 c1 = Ok w /\ shape w rows cols /\
    forall a b, (taken rows size1 c1 a /\ taken cols size0 c0 b -> pixel w a b = pixel data a b) /\
      (~ (taken rows size1 c1 a /\ taken cols size0 c0 b) -> pixel w a b = 0%R).
Proof.
  intros Hn Hm Hr Hc.
  destruct (outer_ok (seq 0 size1) Hr Hc) with (w := map (map (fun _ : R => 0%R)) data) as (w & E & Hs & Hp).
  { intros i Hi. apply in_seq in Hi. lia. }
  { apply zeros_shape. }
  exists w. split; [exact E|]. split; [exact Hs|]. intros a b. destruct (Hp a b) as (A & B).
  assert (Q : (exists i, In i (seq 0 size1) /\ a = rf i) <-> taken rows size1 c1 a).
  { rewrite <- taken_iff by exact Hn. split; intros (i & Hi & Ei); exists i; (split; [|exact Ei]).
    - apply in_seq in Hi. lia.
    - apply in_seq. lia. }
  pose proof (taken_iff cols size0 c0 b Hm) as Q'. rewrite zeros_pixel in B.
  split; intros H.
  - apply A. split; [apply Q|apply Q']; apply H.
  - apply B. intros (H1 & H2). apply H. split; [apply Q|apply Q']; assumption.
Qed.

Lemma window_bad : 0 < rows -> 0 < size0 -> 0 < size1 ->
  ~ (fits_wrapped rows size1 c1 /\ fits_wrapped cols size0 c0) ->
  window data size0 size1 c0 c1 = Raise IndexError.
Proof.
  intros Hn H0 H1 Hno. unfold window.
  assert (Hr : n_rows data = rows) by apply Hsh.
  assert (Hm : n_cols data = cols) by (eapply shape_cols; eauto).
  assert (Hs : forall i w j, step i w j = Raise IndexError \/ exists w', step i w j = Ok w').
  { intros i w j.
    destruct (axis_cases (n_rows data) (c1 - Z.of_nat (size1 / 2) + Z.of_nat i - 1)%Z) as [-> |(r & ->)]; [left; reflexivity|].
    cbn [bind].
    destruct (axis_cases (n_cols data) (c0 - Z.of_nat (size0 / 2) + Z.of_nat j - 1)%Z) as [-> |(c & ->)]; [left; reflexivity|].
    right. eexists. reflexivity. }
  assert (G : exists i j, i < size1 /\ j < size0 /\
     (axis (n_rows data) (c1 - Z.of_nat (size1 / 2) + Z.of_nat i - 1)%Z = Raise IndexError \/
      axis (n_cols data) (c0 - Z.of_nat (size0 / 2) + Z.of_nat j - 1)%Z = Raise IndexError)).
  { rewrite Hr, Hm. unfold fits_wrapped in Hno.
    assert (D : (first_taken size1 c1 < - Z.of_nat rows \/ Z.of_nat rows < first_taken size1 c1 + Z.of_nat size1 \/
                 first_taken size0 c0 < - Z.of_nat cols \/ Z.of_nat cols < first_taken size0 c0 + Z.of_nat size0)%Z) by lia.
    unfold first_taken in D. destruct D as [D|[D|[D|D]]].
    - exists 0, 0. split; [lia|]. split; [lia|]. left. apply axis_bad. lia.
    - exists (size1 - 1), 0. split; [lia|]. split; [lia|]. left. apply axis_bad. lia.
    - exists 0, 0. split; [lia|]. split; [lia|]. right. apply axis_bad. lia.
    - exists 0, (size0 - 1). split; [lia|]. split; [lia|]. right. apply axis_bad. lia. }
  destruct G as (i & j & Hi & Hj & G).
  apply foldM_raises.
  - intros w k. apply foldM_cases. apply Hs.
  - exists i. split; [apply in_seq; lia|]. intros w. apply foldM_raises; [apply Hs|].
    exists j. split; [apply in_seq; lia|]. intros w'.
    destruct G as [-> |G]; [reflexivity|].
    destruct (axis_cases (n_rows data) (c1 - Z.of_nat (size1 / 2) + Z.of_nat i - 1)%Z) as [-> |(r & ->)]; [reflexivity|].
    cbn [bind]. rewrite G. reflexivity.
Qed.
End Window.

(** ** The rest of the image *)
Lemma nth_combine {A B} (a : list A) (b : list B) n d1 d2 : length a = length b ->
  nth n (combine a b) (d1, d2) = (nth n a d1, nth n b d2).
Proof. intros. apply combine_nth. assumption. Qed.
Lemma outside_shape eqb data w rows cols : shape data rows cols -> shape w rows cols -> shape (outside eqb data w) rows cols.
Proof.
  intros H1 H2. split.
  - unfold outside. rewrite map_length, combine_length, (proj1 H1), (proj1 H2). lia.
  - intros l Hl. apply in_map_iff in Hl as ((x & y) & <- & Hl). cbn [fst snd]. rewrite map_length, combine_length.
    pose proof (in_combine_l _ _ _ _ Hl) as Hx. pose proof (in_combine_r _ _ _ _ Hl) as Hy.
    rewrite (proj2 H1 x Hx), (proj2 H2 y Hy). lia.
Qed.
Lemma outside_pixel eqb data w rows cols r c : shape data rows cols -> shape w rows cols -> r < rows -> c < cols ->
  pixel (outside eqb data w) r c = if eqb (pixel data r c) (pixel w r c) then 0%R else pixel data r c.
Proof.
  intros H1 H2 Hr Hc. unfold pixel, outside.
  set (g := fun p : list R * list R => map (fun q : R * R => if eqb (fst q) (snd q) then 0%R else fst q) (combine (fst p) (snd p))).
  rewrite (nth_indep _ [] (g ([], []))) by (rewrite map_length, combine_length, (proj1 H1), (proj1 H2); lia).
  rewrite map_nth. rewrite combine_nth by (rewrite (proj1 H1), (proj1 H2); reflexivity).
  unfold g at 1. cbn [fst snd].
  set (h := fun q : R * R => if eqb (fst q) (snd q) then 0%R else fst q).
  assert (L1 : length (nth r data []) = cols) by (eapply shape_row; eauto).
  assert (L2 : length (nth r w []) = cols) by (eapply shape_row; eauto).
  rewrite (nth_indep _ 0%R (h (0%R, 0%R))) by (rewrite map_length, combine_length; lia).
  rewrite map_nth, combine_nth by lia. reflexivity.
Qed.

(** The whole of [scan]. *)
Lemma scan_ok eqb data rows cols size0 size1 c0 c1 : decides eqb -> shape data rows cols -> 0 < rows -> 0 < cols ->
  fits_wrapped rows size1 c1 -> fits_wrapped cols size0 c0 ->
  exists w m, scan eqb data size0 size1 c0 c1 = Ok (w, m) /\ shape w rows cols /\ shape m rows cols /\
    divided data w m (fun r c => taken rows size1 c1 r /\ taken cols size0 c0 c).
Proof.
  intros He Hs Hn Hm Hr Hc.
  destruct (window_ok data rows cols size0 size1 c0 c1 Hs Hn Hm Hr Hc) as (w & E & Hw & Hp).
  exists w, (outside eqb data w). unfold scan. rewrite E. split; [reflexivity|]. split; [exact Hw|].
  split; [apply outside_shape; assumption|]. intros r c Hr' Hc'.
  assert (Hn' : n_rows data = rows) by apply Hs. assert (Hm' : n_cols data = cols) by (eapply shape_cols; eauto).
  rewrite Hn' in Hr'. rewrite Hm' in Hc'. rewrite (outside_pixel eqb data w rows cols) by assumption.
  destruct (Hp r c) as (A & B). split; intros H.
  - rewrite (A H). split; [reflexivity|]. rewrite (proj2 (He _ _) eq_refl). reflexivity.
  - rewrite (B H). split; [reflexivity|]. destruct (eqb (pixel data r c) 0%R) eqn:E0; [|reflexivity].
    apply He in E0. symmetry. exact E0.
Qed.
