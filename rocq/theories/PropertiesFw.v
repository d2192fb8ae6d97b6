(** Properties C190-C192: the datasets that the Fortran demonstration program writes. *)
From Coq Require Import String.
From Verif Require Import Base FoModel FrModel FdModel FdSpec FwModel FwSpec FwProofs FwProofs2.
From Coq Require Import QArith Reals.
From Coq Require Lra.
Open Scope string_scope.
Open Scope nat_scope.
Open Scope list_scope.

(** ** C190: the parameter dataset *)
(** A dataset whose arrays have the declared sizes is written, and the file holds exactly its
    attributes, dimensions and variables: each variable with its name, type, dimensions and data. *)
Theorem C190_written : forall round c ds uuid, not_empty ds -> well_sized ds ->
  exists f, write_parameter_dataset round c ds uuid = Ok f /\
    contains f (parameter_atts c ds uuid) (parameter_dims ds) (parameter_vars ds).
Proof. intros round. exact (parameter_written round). Qed.
Print Assumptions C190_written.

(** Any other dataset is refused: no file with arrays of wrong sizes is completed. *)
Theorem C190_refused : forall round c ds uuid, not_empty ds -> ~ well_sized ds ->
  forall f, write_parameter_dataset round c ds uuid <> Ok f.
Proof. intros round c ds uuid N W f E. exact (W (parameter_sized round c ds uuid f N E)). Qed.
Print Assumptions C190_refused.

Definition ex_stat : statistics := mkStatistics 5 2 (1/2) 1 2 0 0 1.
Definition ex_matrix : matrix := mkMatrix 2 2 (fun i j => if i =? j then 1%R else 0%R).
Definition ex_pd (y : list R) : parameter_dataset :=
  mkPd 2 1 2 3 [1; 2]%R [1; 1]%R ex_matrix ex_matrix [0; 0]%R [1; 1]%R ["1/1"; "1/2"] [0; 101]%Z [0; 2]%Z [0; 3]%Z y
    ["a"; "b"] [ex_stat] ["a b"] "" "" ex_stat ["u"].
Example C190_example : not_empty (ex_pd [1; 2; 3]%R) /\ well_sized (ex_pd [1; 2; 3]%R) /\ ~ well_sized (ex_pd [1; 2]%R).
Proof.
  split; [|split].
  - repeat split; discriminate.
  - unfold well_sized, is_square. repeat split.
  - intros (_ & _ & _ & H). specialize (H ltac:(discriminate)). destruct H as [_ H]. discriminate H.
Qed.

(** ** C191: the residuals datasets *)
(** Likewise; all variables hold the values in single precision ([round]). *)
Theorem C191_written : forall round, (forall x, round (round x) = round x) -> forall c ds uuid,
  r_m ds <> 0 -> residuals_sized ds ->
  exists f, write_residuals_dataset round c ds uuid = Ok f /\
    contains f (residuals_atts c ds uuid) [("M", r_m ds)] (residuals_vars round ds).
Proof. intros round. exact (residuals_written round). Qed.
Print Assumptions C191_written.

Theorem C191_refused : forall round c ds uuid, r_m ds <> 0 -> ~ residuals_sized ds ->
  forall f, write_residuals_dataset round c ds uuid <> Ok f.
Proof. intros round c ds uuid N W f E. exact (W (residuals_sized_of round c ds uuid f N E)). Qed.
Print Assumptions C191_refused.

Example C191_example : let l := [1; 2]%R in
  let ds t := mkRd 2 t l l l l l l l l l "" "" "a" "b" "u" in
  (forall x : R, (fun _ => 0%R) ((fun _ => 0%R) x) = (fun _ => 0%R) x) /\ residuals_sized (ds l) /\ ~ residuals_sized (ds [1%R]).
Proof. cbv zeta. split; [reflexivity|]. split; [repeat split|]. intros (H & _). discriminate H. Qed.

(** ** C192: the output of the demonstration *)
(** With room for its four sensors the demonstration writes its parameter dataset: nine parameters
    of value 0 with uncertainty sqrt(1/2), covariance 1/2 or 1/10 and correlation 1 or 1/5. *)
Theorem C192_written : forall round c capacity y1 y2 y3, 4 <= capacity ->
  let ds := demo_dataset 9 (repeat 0%R 9) demo_xc in
  parameter_count (demo_sensors capacity y1 y2 y3) = 9 /\
  (exists f, demo_write round c (demo_sensors capacity y1 y2 y3) = Ok f /\
    contains f (parameter_atts c ds "02b650e8-d476-48fc-881b-71ad0ea8c025") (parameter_dims ds) (parameter_vars ds)) /\
  p_x ds = repeat 0%R 9 /\ p_xu ds = repeat (sqrt (1 / 2)) 9 /\
  forall i j, 1 <= i <= 9 -> 1 <= j <= 9 ->
    mx_elt (p_xc ds) i j = (if i =? j then 1 / 2 else 1 / 10)%R /\
    mx_elt (p_xr ds) i j = (if i =? j then 1 else 1 / 5)%R.
Proof.
  intros round c k y1 y2 y3 K ds. pose proof (demo_count k y1 y2 y3 K) as N. split; [exact N|]. split.
  - unfold demo_write. rewrite N. apply (parameter_written round).
    + repeat split; discriminate.
    + now apply demo_sized.
  - split; [reflexivity|]. split; [reflexivity|]. intros i j I J. split; [reflexivity|]. now apply demo_correlations.
Qed.
Print Assumptions C192_written.

(** With less room, but some, it stops with an error and completes no file. *)
Theorem C192_refused : forall round c capacity y1 y2 y3, 2 <= capacity < 4 ->
  forall f, demo_write round c (demo_sensors capacity y1 y2 y3) <> Ok f.
Proof.
  intros round c k y1 y2 y3 K f E. 
  apply (demo_write_nine _ _ _ _ (few_parameters k y1 y2 y3 K)) in E. apply demo_count_iff in E. lia.
Qed.
Print Assumptions C192_refused.
Example C192_example : 4 <= 4 /\ 2 <= 3 < 4. Proof. lia. Qed.
