(** Proofs: the time stamps. *)
From Verif Require Import Base FtModel FtSpec.
From Coq Require Import QArith Qround.
Open Scope string_scope.
Open Scope nat_scope.
Open Scope list_scope.
Open Scope Z_scope.

Definition rd (jdn : Z) : date :=
  let f := jdn + 1401 + ((4 * jdn + 274277) / 146097 * 3) / 4 - 38 in
  let e := 4 * f + 3 in
  let g := (e mod 1461) / 4 in
  let h := 5 * g + 2 in
  let day := (h mod 153) / 5 + 1 in
  let month := (h / 153 + 2) mod 12 + 1 in
  mkDate (e / 1461 - 4716 + (14 - month) / 12) month day.

Lemma quot_div : forall a b, 0 <= a -> 0 < b -> Z.quot a b = a / b.
Proof. intros. apply Z.quot_div_nonneg; lia. Qed.
Lemma rem_mod : forall a b, 0 <= a -> 0 < b -> Z.rem a b = a mod b.
Proof. intros. apply Z.rem_mod_nonneg; lia. Qed.

Lemma richards_rd : forall jdn, 0 <= jdn ->
  richards jdn = (d_year (rd jdn), d_month (rd jdn), d_day (rd jdn)).
Proof.
  intros jdn H. unfold richards, rd. cbn [d_year d_month d_day].
  rewrite (quot_div (4 * jdn + 274277)) by lia.
  assert (Hq : 0 <= (4 * jdn + 274277) / 146097) by (apply Z.div_pos; lia).
  rewrite (quot_div (_ * 3) 4) by lia.
  assert (Hr : 0 <= (4 * jdn + 274277) / 146097 * 3 / 4) by (apply Z.div_pos; lia).
  set (f := jdn + 1401 + (4 * jdn + 274277) / 146097 * 3 / 4 + -38).
  replace (jdn + 1401 + (4 * jdn + 274277) / 146097 * 3 / 4 - 38) with f by (unfold f; lia).
  assert (Hf : 0 <= f) by (unfold f; lia). clearbody f. clear Hq Hr.
  rewrite (rem_mod (4 * f + 3)), (quot_div (4 * f + 3)) by lia.
  assert (H1 : 0 <= (4 * f + 3) mod 1461 < 1461) by (apply Z.mod_pos_bound; lia).
  rewrite (quot_div ((4 * f + 3) mod 1461)) by lia.
  assert (H2 : 0 <= (4 * f + 3) mod 1461 / 4) by (apply Z.div_pos; lia).
  set (g := (4 * f + 3) mod 1461 / 4) in *. clearbody g.
  rewrite (rem_mod (5 * g + 2)), (quot_div (5 * g + 2)) by lia.
  assert (H3 : 0 <= (5 * g + 2) mod 153 < 153) by (apply Z.mod_pos_bound; lia).
  rewrite (quot_div ((5 * g + 2) mod 153)) by lia.
  assert (H4 : 0 <= (5 * g + 2) / 153) by (apply Z.div_pos; lia).
  rewrite (rem_mod ((5 * g + 2) / 153 + 2)) by lia.
  assert (H5 : 0 <= ((5 * g + 2) / 153 + 2) mod 12 < 12) by (apply Z.mod_pos_bound; lia).
  rewrite (quot_div (12 + 2 - _)) by lia. reflexivity.
Qed.

Definition shift_year (k : Z) (d : date) : date := mkDate (d_year d + 400 * k) (d_month d) (d_day d).

Lemma rd_period : forall jdn k, rd (jdn + 146097 * k) = shift_year k (rd jdn).
Proof.
  intros jdn k. unfold rd, shift_year. cbn [d_year d_month d_day].
  replace (4 * (jdn + 146097 * k) + 274277) with (4 * jdn + 274277 + (4 * k) * 146097) by lia.
  rewrite Z.div_add by lia.
  replace (((4 * jdn + 274277) / 146097 + 4 * k) * 3)
    with ((4 * jdn + 274277) / 146097 * 3 + (3 * k) * 4) by lia.
  rewrite Z.div_add by lia.
  set (f := jdn + 1401 + (4 * jdn + 274277) / 146097 * 3 / 4 - 38).
  replace (4 * (jdn + 146097 * k + 1401 + ((4 * jdn + 274277) / 146097 * 3 / 4 + 3 * k) - 38) + 3)
    with (4 * f + 3 + (400 * k) * 1461) by (unfold f; lia).
  rewrite Z.mod_add, Z.div_add by lia.
  f_equal. lia.
Qed.

Lemma leap_shift : forall y k, leap (y + 400 * k) = leap y.
Proof.
  intros y k. unfold leap.
  replace ((y + 400 * k) mod 4) with (y mod 4)
    by (replace (y + 400 * k) with (y + (100 * k) * 4) by lia; now rewrite Z.mod_add by lia).
  replace ((y + 400 * k) mod 100) with (y mod 100)
    by (replace (y + 400 * k) with (y + (4 * k) * 100) by lia; now rewrite Z.mod_add by lia).
  replace ((y + 400 * k) mod 400) with (y mod 400)
    by (replace (y + 400 * k) with (y + k * 400) by lia; now rewrite Z.mod_add by lia).
  reflexivity.
Qed.
Lemma days_shift : forall y k m, days_in_month (y + 400 * k) m = days_in_month y m.
Proof. intros y k m. unfold days_in_month. now rewrite leap_shift. Qed.
Lemma next_shift : forall k d, next_date (shift_year k d) = shift_year k (next_date d).
Proof.
  intros k [y m d]. unfold next_date, shift_year. cbn [d_year d_month d_day].
  rewrite days_shift. destruct (d <? days_in_month y m); [reflexivity|].
  destruct (m <? 12); cbn [d_year d_month d_day]; [reflexivity|]. f_equal. lia.
Qed.
Lemma valid_shift : forall k d, valid_date (shift_year k d) <-> valid_date d.
Proof.
  intros k [y m d]. unfold valid_date, shift_year. cbn [d_year d_month d_day].
  now rewrite days_shift.
Qed.

(** One period of 400 years, checked by computation. *)
Definition date_eqb (a b : date) : bool :=
  (d_year a =? d_year b) && (d_month a =? d_month b) && (d_day a =? d_day b).
Definition good_day (z : Z) : bool :=
  let d := rd z in
  (1 <=? d_month d) && (d_month d <=? 12) && (1 <=? d_day d)
  && (d_day d <=? days_in_month (d_year d) (d_month d)) && date_eqb (rd (z + 1)) (next_date d).
Fixpoint good_days (n : nat) (z : Z) : bool :=
  match n with O => true | S n' => good_day z && good_days n' (z + 1) end.

Lemma period_good : good_days (Z.to_nat 146097) 0 = true.
Proof. vm_compute. reflexivity. Qed.

Lemma good_days_spec : forall n z, good_days n z = true ->
  forall x, z <= x < z + Z.of_nat n -> good_day x = true.
Proof.
  induction n as [|n IH]; intros z H x Hx; [lia|].
  cbn [good_days] in H. apply andb_true_iff in H. destruct H as [H1 H2].
  destruct (Z.eq_dec x z) as [->|Hne]; [exact H1|].
  apply (IH _ H2). lia.
Qed.

Lemma rd_good : forall z, valid_date (rd z) /\ rd (z + 1) = next_date (rd z).
Proof.
  intro z. pose proof (Z.mod_pos_bound z 146097 ltac:(lia)) as Hb.
  pose proof (Z.div_mod z 146097 ltac:(lia)) as Hd.
  set (r := z mod 146097) in *. set (k := z / 146097) in *.
  assert (E : z = r + 146097 * k) by lia. rewrite E.
  replace (r + 146097 * k + 1) with ((r + 1) + 146097 * k) by lia.
  rewrite !rd_period, next_shift, valid_shift.
  assert (G : good_day r = true).
  { apply (good_days_spec _ _ period_good). rewrite Z2Nat.id by lia. lia. }
  unfold good_day in G. rewrite !andb_true_iff, !Z.leb_le in G.
  destruct G as [[[[G1 G2] G3] G4] G5]. split; [unfold valid_date; lia|].
  unfold date_eqb in G5. rewrite !andb_true_iff, !Z.eqb_eq in G5.
  destruct G5 as [[G5 G6] G7]. f_equal.
  destruct (rd (r + 1)) as [a b c], (next_date (rd r)) as [a' b' c']. cbn in *. congruence.
Qed.

Lemma later_rd : forall n z, later n (rd z) = rd (z + Z.of_nat n).
Proof.
  induction n as [|n IH]; intro z; cbn [later].
  - f_equal. lia.
  - rewrite IH, <- (proj2 (rd_good _)). f_equal. lia.
Qed.

Lemma rd_epoch : rd 2440588 = unix_epoch.
Proof. reflexivity. Qed.

Lemma rd_falls_on : forall n, falls_on n (rd (2440588 + n)).
Proof.
  intro n. split; [apply rd_good|]. split; intro H.
  - rewrite <- rd_epoch, later_rd. f_equal. rewrite Z2Nat.id by lia. lia.
  - rewrite later_rd, Z2Nat.id by lia. rewrite <- rd_epoch. f_equal. lia.
Qed.

Lemma julian_floor : forall uts : Q, int32_time uts ->
  julian_day uts = Ok (2440588 + Qfloor uts / 86400).
Proof.
  intros uts H. unfold julian_day, floor32.
  assert (E : Qfloor ((4881175 # 2) + uts / 86400 + (1 # 2)) = 2440588 + Qfloor uts / 86400).
  { assert (Eq : ((4881175 # 2) + uts / 86400 + (1 # 2) == 2440588 + uts / 86400)%Q) by field.
    rewrite Eq. destruct uts as [a b].
    change (Qfloor (a # b)) with (a / Zpos b).
    rewrite Z.div_div by lia.
    unfold Qdiv, Qmult, Qinv, Qplus, Qfloor. cbn [Qnum Qden inject_Z].
    rewrite Z.mul_1_r. rewrite Pos2Z.inj_mul.
    replace (Zpos (1 * (b * 86400))) with (Zpos b * 86400) by lia.
    replace (2440588 * (Zpos b * 86400) + a * Zpos 1) with (2440588 * (Zpos b * 86400) + a) by lia.
    rewrite Z.div_add_l by lia. reflexivity. }
  rewrite E. unfold int32_time in H.
  assert (B : -24856 <= Qfloor uts / 86400 <= 24856).
  { split; [apply Z.div_le_lower_bound|apply Z.div_le_upper_bound]; lia. }
  replace (-2147483648 <=? 2440588 + Qfloor uts / 86400) with true by (symmetry; apply Z.leb_le; lia).
  replace (2440588 + Qfloor uts / 86400 <=? 2147483647) with true by (symmetry; apply Z.leb_le; lia).
  reflexivity.
Qed.

Lemma clock_spec : forall t,
  clock t = (t mod 86400 / 3600, t mod 3600 / 60, t mod 60).
Proof.
  intro t. unfold clock.
  assert (E : (if Z.rem t 86400 <? 0 then Z.rem t 86400 + 86400 else Z.rem t 86400) = t mod 86400).
  { pose proof (Z.quot_rem t 86400 ltac:(lia)) as Q.
    destruct (Z.rem t 86400 <? 0) eqn:L.
    - apply Z.ltb_lt in L. pose proof (Z.rem_bound_abs t 86400 ltac:(lia)) as Hab.
      apply (Z.mod_unique t 86400 (Z.quot t 86400 - 1)); [left; lia|lia].
    - apply Z.ltb_ge in L. pose proof (Z.rem_bound_abs t 86400 ltac:(lia)) as Hab.
      apply (Z.mod_unique t 86400 (Z.quot t 86400)); [left; lia|lia]. }
  rewrite E. pose proof (Z.mod_pos_bound t 86400 ltac:(lia)) as Hb.
  pose proof (Z.div_mod t 86400 ltac:(lia)) as Hd.
  set (r := t mod 86400) in *. set (k := t / 86400) in *.
  assert (E1 : t mod 3600 = r mod 3600).
  { replace t with (r + (24 * k) * 3600) by lia. now rewrite Z.mod_add by lia. }
  assert (E2 : t mod 60 = r mod 60).
  { replace t with (r + (1440 * k) * 60) by lia. now rewrite Z.mod_add by lia. }
  rewrite E1, E2. clear E E1 E2 Hd. clearbody r k.
  rewrite (quot_div r 3600) by lia.
  pose proof (Z.div_mod r 3600 ltac:(lia)) as D1.
  pose proof (Z.mod_pos_bound r 3600 ltac:(lia)) as B1.
  replace (r - r / 3600 * 3600) with (r mod 3600) by lia.
  rewrite (quot_div (r mod 3600) 60) by lia.
  f_equal.
  pose proof (Z.div_mod (r mod 3600) 60 ltac:(lia)) as D2.
  assert (E : (r mod 3600) mod 60 = r mod 60).
  { replace (r mod 3600) with (r + (- (60 * (r / 3600))) * 60) by lia. now rewrite Z.mod_add by lia. }
  lia.
Qed.

Lemma dec_nth : forall z, 0 <= z < 10 ->
  dec z = nth (Z.to_nat z) ["0";"1";"2";"3";"4";"5";"6";"7";"8";"9"] "".
Proof.
  intros z H. assert (C : z = 0 \/ z = 1 \/ z = 2 \/ z = 3 \/ z = 4 \/ z = 5 \/ z = 6 \/ z = 7 \/ z = 8 \/ z = 9) by lia.
  repeat (destruct C as [C|C]; [subst z; reflexivity|]). subst z. reflexivity.
Qed.

Lemma zeros_decimals : forall w z, zeros_dec w z = decimals w z.
Proof.
  induction w as [|w IH]; intro z; [reflexivity|].
  cbn [zeros_dec decimals]. rewrite IH, dec_nth by (apply Z.mod_pos_bound; lia). reflexivity.
Qed.

Lemma sapp_assoc : forall a b c : string, ((a ++ b) ++ c = a ++ (b ++ c))%string.
Proof. induction a as [|x a IH]; intros b c; cbn; [reflexivity|]. now rewrite IH. Qed.

Lemma decimals_app : forall b a x y, 0 <= y < 10 ^ Z.of_nat b ->
  decimals (a + b) (x * 10 ^ Z.of_nat b + y) = (decimals a x ++ decimals b y)%string.
Proof.
  induction b as [|b IH]; intros a x y H.
  - cbn [decimals]. rewrite Nat.add_0_r. cbn in H.
    replace (x * 10 ^ Z.of_nat 0 + y) with x by (cbn; lia).
    clear. induction (decimals a x) as [|c s IHs]; cbn; [reflexivity|]. now rewrite <- IHs.
  - rewrite <- plus_n_Sm. cbn [decimals].
    rewrite Nat2Z.inj_succ in *. rewrite Z.pow_succ_r in * by lia.
    set (p := 10 ^ Z.of_nat b) in *. assert (Hp : 0 < p) by (unfold p; apply Z.pow_pos_nonneg; lia).
    replace (x * (10 * p) + y) with (y + (x * p) * 10) by lia.
    rewrite Z.div_add, Z.mod_add by lia.
    replace (y / 10 + x * p) with (x * p + y / 10) by lia.
    rewrite IH.
    + now rewrite sapp_assoc.
    + split; [apply Z.div_pos; lia|]. apply Z.div_lt_upper_bound; lia.
Qed.

Lemma iso_correct : forall uts, int32_time uts ->
  exists d, falls_on (Qfloor uts / 86400) d /\
    iso_date_and_time uts =
      Ok (iso_text d (Qfloor uts mod 86400 / 3600) (Qfloor uts mod 3600 / 60) (Qfloor uts mod 60)).
Proof.
  intros uts H. set (n := Qfloor uts / 86400). exists (rd (2440588 + n)).
  split; [apply rd_falls_on|].
  unfold iso_date_and_time. rewrite (julian_floor _ H). cbn [bind]. fold n.
  assert (B : -24856 <= n <= 24856).
  { unfold int32_time in H. unfold n. split; [apply Z.div_le_lower_bound|apply Z.div_le_upper_bound]; lia. }
  rewrite richards_rd by lia.
  assert (F : floor32 uts = Ok (Qfloor uts)).
  { unfold floor32, int32_time in *.
    replace (-2147483648 <=? Qfloor uts) with true by (symmetry; apply Z.leb_le; lia).
    replace (Qfloor uts <=? 2147483647) with true by (symmetry; apply Z.leb_le; lia). reflexivity. }
  rewrite F. cbn [bind]. rewrite clock_spec. f_equal.
  set (t := Qfloor uts) in *.
  destruct (rd_good (2440588 + n)) as [[Vm Vd] _].
  assert (Dm : days_in_month (d_year (rd (2440588 + n))) (d_month (rd (2440588 + n))) <= 31).
  { unfold days_in_month. repeat match goal with |- context [if ?b then _ else _] => destruct b end; lia. }
  assert (Y : 0 <= d_year (rd (2440588 + n)) < 10000).
  { unfold rd. cbn [d_year]. 
    set (jdn := 2440588 + n) in *.
    assert (Hj : 2415732 <= jdn <= 2465444) by lia. clearbody jdn. clear - Hj.
    assert (H1 : 0 <= (4 * jdn + 274277) / 146097 <= 100).
    { split; [apply Z.div_pos; lia|apply Z.div_le_upper_bound; lia]. }
    assert (H2 : 0 <= (4 * jdn + 274277) / 146097 * 3 / 4 <= 75).
    { split; [apply Z.div_pos; lia|apply Z.div_le_upper_bound; lia]. }
    set (q := (4 * jdn + 274277) / 146097 * 3 / 4) in *. clearbody q.
    set (e := 4 * (jdn + 1401 + q - 38) + 3). assert (He : 9000000 <= e <= 10000000) by (unfold e; lia).
    clearbody e.
    assert (H3 : 6000 <= e / 1461 <= 7000).
    { split; [apply Z.div_le_lower_bound|apply Z.div_le_upper_bound]; lia. }
    assert (H4 : 0 <= ((5 * (e mod 1461 / 4) + 2) / 153 + 2) mod 12 < 12) by (apply Z.mod_pos_bound; lia).
    set (m := ((5 * (e mod 1461 / 4) + 2) / 153 + 2) mod 12) in *.
    assert (H5 : 0 <= (14 - (m + 1)) / 12 <= 2).
    { split; [apply Z.div_pos; lia|apply Z.div_le_upper_bound; lia]. }
    lia. }
  destruct (rd (2440588 + n)) as [y m d]. cbn [d_year d_month d_day] in *.
  pose proof (Z.mod_pos_bound t 86400 ltac:(lia)) as T1.
  pose proof (Z.mod_pos_bound t 3600 ltac:(lia)) as T2.
  pose proof (Z.mod_pos_bound t 60 ltac:(lia)) as T3.
  assert (H1 : 0 <= t mod 86400 / 3600 < 24) by (split; [apply Z.div_pos; lia|apply Z.div_lt_upper_bound; lia]).
  assert (H2 : 0 <= t mod 3600 / 60 < 60) by (split; [apply Z.div_pos; lia|apply Z.div_lt_upper_bound; lia]).
  unfold edit_i, iso_text. cbn [d_year d_month d_day].
  set (hh := t mod 86400 / 3600) in *. set (mi := t mod 3600 / 60) in *. set (ss := t mod 60) in *.
  change (10 ^ Z.of_nat 8) with 100000000. change (10 ^ Z.of_nat 6) with 1000000.
  replace ((0 <=? y * 10000 + m * 100 + d) && (y * 10000 + m * 100 + d <? 100000000)) with true
    by (symmetry; apply andb_true_iff; rewrite Z.leb_le, Z.ltb_lt; lia).
  replace ((0 <=? hh * 10000 + mi * 100 + ss) && (hh * 10000 + mi * 100 + ss <? 1000000)) with true
    by (symmetry; apply andb_true_iff; rewrite Z.leb_le, Z.ltb_lt; lia).
  rewrite !zeros_decimals.
  replace (y * 10000 + m * 100 + d) with ((y * 10 ^ Z.of_nat 2 + m) * 10 ^ Z.of_nat 2 + d) by (cbn; lia).
  replace (hh * 10000 + mi * 100 + ss) with ((hh * 10 ^ Z.of_nat 2 + mi) * 10 ^ Z.of_nat 2 + ss) by (cbn; lia).
  change 8%nat with ((4 + 2) + 2)%nat. change 6%nat with ((2 + 2) + 2)%nat.
  rewrite (decimals_app 2 (4 + 2)) by (cbn; lia). rewrite (decimals_app 2 4) by (cbn; lia).
  rewrite (decimals_app 2 (2 + 2)) by (cbn; lia). rewrite (decimals_app 2 2) by (cbn; lia).
  rewrite !sapp_assoc. reflexivity.
Qed.
