(** The microwave sounders: mirrored scan positions. *)
From Coq Require Import String Reals Lra Lia.
From Verif Require Import Base UncModel SensorModel ReaderModel InstModel SdModel SdSpec2 SdProofs8.
Open Scope nat_scope.
Open Scope R_scope.
Open Scope list_scope.

Definition tail_ok (c : list R) (w1 w2 w3 w4 w5 : R) : Prop :=
  (pyget c (-9) = Ok w1 /\ pyget c (-8) = Ok w2 /\ pyget c (-7) = Ok w3 /\ pyget c (-6) = Ok w4 /\ pyget c (-5) = Ok w5) /\
  pyget c (-4) = Ok (IZR 183310000000) /\ pyget c (-3) = Ok 0 /\ pyget c (-2) = Ok 1 /\ pyget c (-1) = Ok 0.
Lemma tail_A : tail_ok (mw_const [1; 1; 1; 1; 1; 0; 1]) 1 1 1 0 1.
Proof. split; [exact pyA|]. repeat split. Qed.
Lemma tail_M : tail_ok (mw_const [2; 1; 1; 1; 1]) 2 1 1 1 1.
Proof. split; [exact pyM|]. repeat split. Qed.
Lemma gain w i : (0 <= i < 90)%Z -> pyget (mw_const w) i = Ok 1.
Proof.
  intros I. unfold pyget. destruct (Z.leb_spec 0 i) as [_|?]; [|lia]. unfold get, mw_const.
  rewrite nth_error_app1 by (rewrite repeat_length; lia). rewrite nth_error_repeat by lia. reflexivity.
Qed.
Lemma gain_90 w ws : pyget (mw_const (w :: ws)) 90 = Ok w.
Proof. unfold pyget. cbn [Z.leb Z.compare]. unfold get, mw_const. reflexivity. Qed.

Lemma angle i : cos (2 * (PI * (1111 / 1000) * (IZR (91 - i) - 455 / 10) / 180)) = cos (2 * (PI * (1111 / 1000) * (IZR i - 455 / 10) / 180)).
Proof. rewrite <- (cos_neg (2 * (PI * (1111 / 1000) * (IZR i - 455 / 10) / 180))). f_equal. rewrite minus_IZR. lra. Qed.

Lemma mirror_row c i x p : pyget c (91 - i) = pyget c i -> mw_3 c (91 - i) x p = mw_3 c i x p.
Proof. intros E. unfold mw_3. rewrite E. cbv zeta. rewrite angle. reflexivity. Qed.

Lemma edge_row c w1 w2 w3 w4 w5 x a1 a2 a3 : tail_ok c w1 w2 w3 w4 w5 -> length x = 9%nat -> pyget c 1 = Ok 1 -> pyget c 90 = Ok 2 ->
  exists m j m' j', mw_3 c 1 x [a1; a2; a3] = Ok (m, j) /\ mw_3 c 90 x [a1; a2; a3] = Ok (m', j') /\ m' = (m + background) / 2.
Proof.
  intros ((E1 & E2 & E3 & E4 & E5) & E6 & E7 & E8 & E9) L G1 G2.
  do 9 (destruct x as [|? x]; [discriminate L|]). clear L.
  unfold mw_3. cbn [get nth_error bind]. rewrite E1, E2, E3, E4, E5, E6, E7, E8, E9, G1, G2. cbn [bind]. cbv zeta.
  do 4 eexists. split; [reflexivity|]. split; [reflexivity|].
  pose proof (angle 1) as A. change (91 - 1)%Z with 90%Z in A. rewrite A. unfold background.
  replace (0 + 1 * TCMB) with TCMB by ring.
  set (k := C ^ 2 / _). set (q := planck _ TCMB). lra.
Qed.

Section P.
Context {T : Type} (toint : R -> Z).
Lemma one c l x p : x <> [] -> mw_3_rows c [l] (rows_of (one_row x)) p = do q <- mw_3 c l x p;; Ok ([fst q], [snd q]).
Proof.
  intros N. unfold mw_3_rows, rows_of, one_row.
  assert (H : length (hd [] (map (fun v : R => [v]) x)) = 1%nat) by (destruct x; [congruence|reflexivity]).
  rewrite H. cbn [seq map combine mapM fst snd]. rewrite map_map. cbn [nth]. rewrite map_id.
  destruct (mw_3 c l x p); reflexivity.
Qed.
Lemma mirror w x p l l' al t : x <> [] -> (toint l' = 91 - toint l)%Z -> pyget (mw_const w) (91 - toint l) = pyget (mw_const w) (toint l) ->
  mw_function (T := T) toint (one_row x) p (mw_const w) (Some [l']) al t = mw_function toint (one_row x) p (mw_const w) (Some [l]) al t.
Proof. intros N E G. unfold mw_function. cbn [map]. rewrite !one by exact N. rewrite E, mirror_row by exact G. reflexivity. Qed.
Lemma edge x a1 a2 a3 l l' al t : length x = 9%nat -> (toint l = 1)%Z -> (toint l' = 90)%Z -> 
  exists m j m' j', mw_function (T := T) toint (one_row x) [a1; a2; a3] (mw_const [2; 1; 1; 1; 1]) (Some [l]) al t = Ok ([m], j) /\
    mw_function toint (one_row x) [a1; a2; a3] (mw_const [2; 1; 1; 1; 1]) (Some [l']) al t = Ok ([m'], j') /\ m' = (m + background) / 2.
Proof.
  intros L E E'. assert (N : x <> []) by (destruct x; [discriminate L|congruence]).
  destruct (edge_row _ _ _ _ _ _ x a1 a2 a3 tail_M L (gain _ 1 ltac:(lia)) (gain_90 _ _)) as (m & j & m' & j' & H1 & H2 & H3).
  exists m. eexists. exists m'. eexists. unfold mw_function. cbn [map]. rewrite !one by exact N. rewrite E, E', H1, H2. cbn [bind fst snd].
  split; [reflexivity|]. split; [reflexivity|]. exact H3.
Qed.
End P.
