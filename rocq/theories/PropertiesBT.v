(** * C46, C77: radiances and brightness temperatures (tools/convert_bt_to_radiance.py). *)
From Coq Require Import Reals Lra.
From Verif Require Import Base BaseLemmas BTModel BTSpec BTProofs.
Open Scope R_scope.

(** ** C46 *)
(** The channels of every known instrument: three, the third of which may be missing; the band corrections keep physical temperatures positive. *)
Theorem C46_instruments : forall instr c, convertBT instr = Ok c ->
  (forall k, (1 <= k <= 3)%nat <-> exists n a b, channel c k n a b) /\
  (forall k n a b, channel c k n a b -> (0 < n /\ 0 < a /\ 0 < b) \/ (k = 3%nat /\ n < 0)).
Proof.
  intros s c H. apply convert_ok in H. destruct c as [[|n1 [|n2 [|n3 [|]]]] [|a1 [|a2 [|a3 [|]]]] [|b1 [|b2 [|b3 [|]]]]]; try contradiction. cbn in H. split.
  - intros k. split.
    + intros Hk. destruct k as [|[|[|[|k]]]]; [lia| | | |lia]; [exists n1, a1, b1|exists n2, a2, b2|exists n3, a3, b3]; (split; [lia|]; cbn; auto).
    + intros (n & a & b & Hk & Hn & _). split; [exact Hk|]. cbn in Hn. assert (k - 1 < 3)%nat by (apply (nth_error_Some [n1; n2; n3]); congruence). lia.
  - intros k n a b (Hk & Hn & Ha & Hb). destruct k as [|[|[|[|k]]]]; [lia| | | |cbn in Hn; destruct k; discriminate]; cbn in Hn, Ha, Hb; injection Hn as <-; injection Ha as <-; injection Hb as <-.
    + left; lra. + left; lra. + destruct H as (_ & _ & [H|H]); [left; lra|right; split; [reflexivity|lra]].
Qed.
(** An array of up to three dimensions: every positive temperature is converted to the radiance of the channel's band, anything else gives nan. *)
Theorem C46_array : forall instr c k n a b nd xs, convertBT instr = Ok c -> channel c k n a b -> 0 < n -> (1 <= nd <= 3)%nat ->
  exists ys, temp2rad c (Array nd xs) (Z.of_nat k) = Ok (Array nd ys) /\ converts (band_radiance n a b) xs ys.
Proof. intros instr c k n a b nd xs _. apply temp2rad_array. Qed.
(** A number. *)
Theorem C46_number : forall instr c k n a b T, convertBT instr = Ok c -> channel c k n a b -> 0 < n -> 0 < T ->
  temp2rad c (Scalar (Some T)) (Z.of_nat k) = Ok (Scalar (Some (band_radiance n a b T))).
Proof. intros instr c k n a b T H HC Hn HT. destruct (channel_pos _ _ _ _ _ _ H HC Hn). apply temp2rad_scalar; auto; lra. Qed.
(** Radiances are positive and increase with temperature. *)
Theorem C46_increasing : forall instr c k n a b T T', convertBT instr = Ok c -> channel c k n a b -> 0 < n -> 0 < T -> T < T' ->
  0 < band_radiance n a b T < band_radiance n a b T'.
Proof. intros instr c k n a b T T' H HC Hn HT HTT. destruct (channel_pos _ _ _ _ _ _ H HC Hn). apply band_mono; auto; lra. Qed.
(** Missing channels and unknown instruments raise an exception. *)
Theorem C46_missing : (forall instr c k n a b d, convertBT instr = Ok c -> channel c k n a b -> n < 0 -> temp2rad c d (Z.of_nat k) = Raise OtherError) /\
  (forall instr, ~ In instr (map fst band_table) -> convertBT instr = Raise OtherError) /\ (forall instr, In instr (map fst band_table) -> exists c, convertBT instr = Ok c).
Proof. split; [intros instr c k n a b d _; apply temp2rad_absent|]. split; [exact convert_unknown|]. intros s Hs. apply convert_known, Hs. Qed.
Print Assumptions C46_instruments.
Print Assumptions C46_array.
Print Assumptions C46_number.
Print Assumptions C46_increasing.
Print Assumptions C46_missing.
Example C46_example : exists c, convertBT "n16"%string = Ok c /\ channel c 2 (919600 / 1000) (693914 / 1000000) (998170 / 1000000) /\ 0 < 919600 / 1000.
Proof. eexists. split; [reflexivity|]. split; [|lra]. split; [lia|]. split; [|split]; reflexivity. Qed.
Example C46_example_missing : exists c, convertBT "n10"%string = Ok c /\ channel c 3 (- 1) (- 1) (- 1).
Proof. eexists. split; [reflexivity|]. split; [lia|]. split; [|split]; reflexivity. Qed.

(** ** C77 *)
(** [rad2temp] converts nothing: every call for an existing channel raises. *)
Theorem C77_rad2temp_refuted : forall instr c k n a b d, convertBT instr = Ok c -> channel c k n a b -> 0 < n -> rad2temp c d (Z.of_nat k) = Raise NameError.
Proof. intros instr c k n a b d _. apply rad2temp_raises. Qed.
(** With the undefined name replaced by the argument, it inverts [temp2rad]. *)
Theorem C77_inverse_partial : forall instr c k n a b, convertBT instr = Ok c -> channel c k n a b -> 0 < n ->
  (forall T, 0 < T -> exists r, 0 < r /\ temp2rad c (Scalar (Some T)) (Z.of_nat k) = Ok (Scalar (Some r)) /\ rad2temp_body c (Scalar (Some r)) (Z.of_nat k) = Ok (Scalar (Some T))) /\
  (forall nd xs, (2 <= nd <= 3)%nat -> (forall x, In x xs -> match x with Some T => 0 < T | None => True end) ->
     exists rs, temp2rad c (Array nd xs) (Z.of_nat k) = Ok (Array nd rs) /\ rad2temp_body c (Array nd rs) (Z.of_nat k) = Ok (Array nd xs)).
Proof.
  intros s c k n a b H HC Hn. destruct (channel_pos _ _ _ _ _ _ H HC Hn) as [Ha Hb]. split.
  - intros T HT. exists (band_radiance n a b T). assert (P : 0 < band_radiance n a b T) by (apply (band_mono n a b T (T + 1)); lra). split; [exact P|]. split; [apply temp2rad_scalar; auto; lra|].
    rewrite (body_scalar _ _ _ _ _ _ HC Hn P), inverse1 by lra. reflexivity.
  - intros nd xs Hd Hx. destruct (temp2rad_array c k n a b nd xs HC Hn ltac:(lia)) as (rs & E & Lr & Cr). exists rs. split; [exact E|].
    destruct (body_array c k n a b nd rs HC Hn Hd) as (ys & E' & Ly & Cy). rewrite E'. do 2 f_equal. apply nth_error_ext. intros i.
    destruct (nth_error xs i) as [x|] eqn:X.
    + assert (i < length xs)%nat by (apply nth_error_Some; congruence). destruct (nth_error rs i) as [r|] eqn:Rr; [|apply nth_error_None in Rr; lia]. destruct (nth_error ys i) as [y|] eqn:Y; [|apply nth_error_None in Y; lia].
      specialize (Cr i x r X Rr). specialize (Cy i r y Rr Y). f_equal. specialize (Hx x (nth_error_In _ _ X)). destruct x as [T|].
      * destruct Cr as [Cr _]. rewrite (Cr Hx) in Cy. destruct Cy as [Cy _]. rewrite Cy by (apply (band_mono n a b T (T + 1)); lra). f_equal. apply inverse1; lra.
      * subst r. exact Cy.
    + apply nth_error_None in X. apply nth_error_None. lia.
Qed.
Print Assumptions C77_rad2temp_refuted.
Print Assumptions C77_inverse_partial.
