(** * Specification vocabulary for C144-C147: AVHRR files and the checker. *)
From Coq Require Import Reals.
From Verif Require Import Base ReaderModel ReaderSpec UncModel UncSpec AvModel CheckModel CheckSpec IOModel IOSpec ConvSpec.
Open Scope nat_scope.

(** The data of an output file of AVHRR_to_updated_spec.py, with NaN as [nanV]. *)
Definition val (nanV : R) (x : fl) : R := match x with Some r => r | None => nanV end.
Definition av_data (nanV : R) (o : avout) : mdata :=
  let v := map (map (val nanV)) in
  mkData (length (o_K o)) (fun sd => length match sd with Side1 => o_ut1 o | Side2 => o_ut2 o end) (fun sd => match sd with Side1 => o_s1 o | Side2 => o_s2 o end)
    (fun sd => v match sd with Side1 => o_X1 o | Side2 => o_X2 o end) (fun sd => v match sd with Side1 => o_Ur1 o | Side2 => o_Ur2 o end)
    (fun sd => v match sd with Side1 => o_Us1 o | Side2 => o_Us2 o end) (fun sd => map Z.of_nat match sd with Side1 => o_ut1 o | Side2 => o_ut2 o end)
    (fun sd => match sd with Side1 => o_t1 o | Side2 => o_t2 o end) (map (val nanV) (o_K o)) (map (val nanV) (o_Kr o)) (map (val nanV) (o_Ks o))
    (map (fun q => mkAdd (fst q) "f8" ["M"]%string (D1 (map (val nanV) (snd q)))) (o_adds o)).
(** The uncertainties of a covariate of type 1 (independent), 2 (independent and systematic), 3 (structured; its random uncertainty is in the W matrix variables). *)
Definition as_declared (t : Z) (ur us : list R) : Prop :=
  (t = 3%Z /\ Forall (eq 0%R) us) \/ (t = 1%Z /\ Forall (Rlt 0) ur /\ Forall (eq 0%R) us) \/ (t = 2%Z /\ Forall (Rlt 0) ur /\ Forall (Rlt 0) us).
(** Two sensors, uncertainties of K, uncertainties of every covariate as declared. *)
Definition declared_values (p : mdata) : Prop :=
  p_name p Side1 <> p_name p Side2 /\
  (forall i r s, nth_error (p_Kr p) i = Some r -> nth_error (p_Ks p) i = Some s -> (0 <= r /\ 0 <= s /\ (0 < r \/ 0 < s))%R) /\
  forall sd c t ur us, nth_error (p_type p sd) c = Some t -> CheckSpec.is_column (p_Ur p sd) c ur -> CheckSpec.is_column (p_Us p sd) c us -> as_declared t ur us.
(** Match-ups [idx] of an AVHRR input file with values stored by [g]: two sensors, uncertainties of K, positive random uncertainties of the third to [m2]-th quantities
    (of the quantity of a reference sensor), positive uncertainties of all scan lines. *)
Record av_positive (g : R -> R) (nanV : R) (f : avin) (ref : bool) (idx : list nat) (m2 : nat) : Prop := {
  ap_two : get_new_name (a_s1 f) <> get_new_name (a_s2 f);
  ap_k : forall i, In i idx -> let r := g (val nanV (nth i (a_Kr f) None)) in let s := g (val nanV (nth i (a_Ks f) None)) in (0 <= r /\ 0 <= s /\ (0 < r \/ 0 < s))%R;
  ap_ran : forall i c x, In i idx -> (if ref then c = 0 else 2 <= c < m2) \/ 7 <= c < 5 + m2 -> nth_error (nth i (a_Ur f) []) c = Some x -> (0 < g (val nanV x))%R;
  ap_lines : forall i rows x, In i idx -> In rows [a_uS1 f; a_uI1 f; a_uS2 f; a_uI2 f] -> In (Some x) (nth i rows []) -> (0 < x /\ 0 < g x)%R
}.
(** Column [c] of the ten columns of the input file is one of the first three quantities of a sensor / one of the others of the first [m2]; none of a reference sensor. *)
Definition no_sys (ref : bool) (c : nat) : Prop := (ref = false /\ c < 3) \/ 5 <= c < 8.
Definition sys (ref : bool) (m2 c : nat) : Prop := (ref = false /\ 3 <= c < m2) \/ 8 <= c < 5 + m2.
Definition av_systematic (g : R -> R) (nanV : R) (f : avin) (ref : bool) (idx : list nat) (m2 : nat) : Prop :=
  forall i c x, In i idx -> nth_error (nth i (a_Us f) []) c = Some x -> (no_sys ref c -> g (val nanV x) = 0%R) /\ (sys ref m2 c -> (0 < g (val nanV x))%R).
