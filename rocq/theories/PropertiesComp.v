(** * Compiled AVHRR measurement functions: C96, C97. *)
From Coq Require Import Reals Lra.
From Verif Require Import Base BaseLemmas InstModel InstSpec InstProofs CompModel.
Open Scope R_scope.

(** ** C96 *)
(** The compiled functions return, for every array of match-ups and parameters, exactly what the Python
    functions of the same name return - exceptions included - except for the scaled four-parameter one. *)
Theorem C96_compiled_agrees : forall k rows p, k <> K4_scaled -> (forall x, In x rows -> length x = avhrr_vars (python_of k)) -> length p = avhrr_params (python_of k) ->
  vectorised (comp_row k) rows p = vectorised (avhrr_row (python_of k)) rows p /\ exists r, vectorised (comp_row k) rows p = Ok r.
Proof.
  intros k rows p Hk Hr Hp.
  assert (E : forall x, In x rows -> comp_row k x p = avhrr_row (python_of k) x p /\ exists v, comp_row k x p = Ok v).
  { intros x Hx. specialize (Hr x Hx).
    destruct k; cbn in Hr, Hp; try congruence;
    (destruct x as [|a [|b [|c [|d x]]]]; try discriminate; destruct p as [|e [|f [|g p]]]; try discriminate;
     try (destruct p as [|h p]; try discriminate); try (destruct x as [|t x]; try discriminate)); (split; [reflexivity|eexists; reflexivity]). }
  assert (EM : mapM (fun x => comp_row k x p) rows = mapM (fun x => avhrr_row (python_of k) x p) rows /\ exists l, mapM (fun x => comp_row k x p) rows = Ok l).
  { clear Hr. induction rows as [|x rows IH]; [split; [reflexivity|exists []; reflexivity]|].
    destruct (E x (or_introl eq_refl)) as [E1 [v E2]]. destruct IH as [I1 [l I2]]; [intros y Hy; apply E; right; exact Hy|].
    cbn [mapM]. rewrite <- E1, <- I1, E2, I2. cbn [bind]. split; [reflexivity|eexists; reflexivity]. }
  unfold vectorised. destruct EM as [E1 [l E2]]. rewrite <- E1, E2. cbn [bind]. split; [reflexivity|eexists; reflexivity].
Qed.
Print Assumptions C96_compiled_agrees.
Example C96_example : K3_scaled <> K4_scaled /\ (forall x, In x [[900; 700; 500; 100]; [901; 702; 503; 104]] -> length x = avhrr_vars (python_of K3_scaled)) /\ length [1; 2; 3] = avhrr_params (python_of K3_scaled).
Proof. split; [discriminate|]. split; [|reflexivity]. intros x [<-|[<-|[]]]; reflexivity. Qed.

(** ** C97 *)
(** The compiled scaled four-parameter function does not take the temperature relative to 285: its measurand
    is larger by 285 times the scaled parameter, and its last derivative by 285, for every match-up. *)
Theorem C97_compiled_scaled4_refuted : forall x p, length x = 5%nat -> length p = 4%nat ->
  exists r j r' j', comp_row K4_scaled x p = Ok (r, j) /\ avhrr_row (python_of K4_scaled) x p = Ok (r', j') /\
    r = r' + 285 * (nth 3 p 0 / 1000) /\ nth 8 j 0 = nth 8 j' 0 + 285 /\ (forall c, (c < 8)%nat -> nth c j 0 = nth c j' 0) /\
    (nth 3 p 0 <> 0 -> r <> r').
Proof.
  intros x p Hx Hp.
  destruct x as [|a [|b [|c [|d [|t [|? x]]]]]]; try discriminate. destruct p as [|e [|f [|g [|h [|? p]]]]]; try discriminate.
  do 4 eexists. split; [reflexivity|]. split; [reflexivity|].
  unfold dot. cbn [map combine fst snd fold_right nth app]. unfold em.
  split; [unfold Rdiv; ring|]. split; [ring|]. split.
  - intros k Hk. do 8 (destruct k as [|k]; [reflexivity|]). exfalso. do 8 apply Nat.succ_lt_mono in Hk. inversion Hk.
  - intros Hh E. apply Hh. 
    match type of E with ?u = ?v => assert (Z : u - v = 285 * (h / 1000)) by (unfold Rdiv; ring) end.
    rewrite E in Z. lra.
Qed.
Print Assumptions C97_compiled_scaled4_refuted.
Example C97_example : length [900; 700; 500; 100; 290] = 5%nat /\ length [0; 0; 0; 1] = 4%nat /\ nth 3 [0; 0; 0; 1] 0 <> 0.
Proof. repeat split. cbn. lra. Qed.
