(** Property theorems C17-C19, C54 (transformation to normalised independent variables).
    Vocabulary: TransformSpec.v, SampleSpec.v (is_block, wf_mobj).  Model: TransformModel.v. *)
From Coq Require Import Reals Lra.
From Verif Require Import Base ReaderModel UncModel MuModel MuProofs SampleSpec TransformModel TransformSpec TransformMain2 TransformMain3.
Open Scope nat_scope.

Section Props.
Context {T : Type}.
Notation mobj := (mobj R T).

(** C17 *)
Theorem C17_reverse_undoes_run : forall (m : mobj),
  wf_mobj m -> shapes_ok m -> normalisable m -> m_oidx R T m = Some (m_idx R T m) ->
  exists d m2, tn_run T m = Ok d /\ tn_reverse T d = Ok m2 /\
    m_values R T m2 = m_values R T m /\ m_ks R T m2 = m_ks R T m /\ m_idx R T m2 = m_idx R T m /\
    m_unc R T m2 = m_unc R T m /\ m_unck R T m2 = m_unck R T m.
Proof. exact reverse_run. Qed.

(** C18 *)
Theorem C18_transformed_layout : forall (m d : mobj), wf_mobj m -> shapes_ok m -> tn_run T m = Ok d ->
  same_labels m d /\
  length (N_var (m_idx R T d)) = length (N_var (m_idx R T m)) /\
  (forall b u N n', nth_error (m_unc R T m) b = Some u -> nth_error (N_var (m_idx R T m)) b = Some N ->
     nth_error (N_var (m_idx R T d)) b = Some n' -> transformed_size m u N n') /\
  exists ns body, n_systematic m ns /\
    m_values R T d = body ++ repeat 0%R ns /\ length body = list_sum (N_var (m_idx R T d)) /\
    (forall b, b < length (N_var (m_idx R T d)) ->
       nth_error (idxs (m_idx R T d)) b = Some (list_sum (firstn b (N_var (m_idx R T d))))) /\
    nth_error (idxs (m_idx R T d)) (length (N_var (m_idx R T d))) = Some (length body + ns) /\
    length (idxs (m_idx R T d)) = length (N_var (m_idx R T d)) + 1.
Proof. exact run_layout. Qed.

(** The transformed data: divided by their random uncertainty, or solving W (u * x) = values. *)
Theorem C18_transformed_values : forall (m d : mobj), wf_mobj m -> shapes_ok m -> tn_run T m = Ok d ->
  m_ks R T d = map (fun p => fst p / snd p)%R (combine (m_ks R T m) (concat (m_unck R T m))) /\
  forall b u n' src, nth_error (m_unc R T m) b = Some u -> nth_error (N_var (m_idx R T d)) b = Some n' ->
    is_block (idxs (m_idx R T m)) (m_values R T m) b src ->
    exists xs lo, nth_error (idxs (m_idx R T d)) b = Some lo /\ xs = slice lo (lo + n') (m_values R T d) /\ length xs = n' /\
      match u_kind R u with
      | UK1 _ r | UK2 _ r _ => forall i x s, nth_error src i = Some x -> nth_error r i = Some s -> nth_error xs i = Some (x / s)%R
      | UK3 _ wi ui | UK4 _ wi ui _ =>
          forall w uv, nth_error (m_ws R T m) wi = Some w -> nth_error (m_us R T m) ui = Some uv ->
          solvable w (length src) -> nonzero uv ->
          forall i x, nth_error src i = Some x -> row_apply w (fun c => (nth c uv 0 * nth c xs 0)%R) i = x
      end.
Proof. exact run_normalises. Qed.

(** C19: for every state [x] of the solver and every parameter vector [a]. *)
Theorem C19_unconvert_is_reverse : forall (m d0 : mobj) (x a : list R),
  wf_mobj m -> shapes_ok m -> m_oidx R T m = Some (m_idx R T m) ->
  tn_run T m = Ok d0 -> length x = length (m_values R T d0) ->
  exists r, tn_reverse T (with_values d0 x) = Ok r /\
  forall s n ncov, nth_error (sensor_ms (m_idx R T m)) s = Some ncov -> 1 <= ncov ->
    (forall c, 1 <= c <= ncov -> In (s, n, c) (get_block_idxs (m_idx R T m))) ->
    NoDup (get_block_idxs (m_idx R T m)) ->
    exists cols, unconvert_Xs T (with_values d0 x) (x ++ a) s n = Ok cols /\
                 unconvert_Xs_c T (with_values d0 x) (x ++ a) s n = Ok cols /\
                 length cols = ncov /\
      forall c b col, nth_error (get_block_idxs (m_idx R T m)) b = Some (s, n, c) -> 1 <= c -> nth_error cols (c - 1) = Some col ->
        is_block (idxs (m_idx R T r)) (m_values R T r) b col.
Proof. exact unconvert_reverse. Qed.

(** C54: times and additional variables do not survive, whatever the object. *)
Theorem C54_times_lost_refuted : forall (m d : mobj), tn_run T m = Ok d ->
  m_time1 R T d = None /\ m_time2 R T d = None /\ m_add R T d = None /\
  forall r, tn_reverse T d = Ok r -> m_time1 R T r = None /\ m_time2 R T r = None /\ m_add R T r = None.
Proof.
  intros m d H. unfold tn_run in H.
  repeat (match type of H with bind ?x _ = _ => destruct x; cbn [bind] in H; [|discriminate] end).
  injection H as <-. split; [reflexivity|]. split; [reflexivity|]. split; [reflexivity|]. intros r H. unfold tn_reverse in H.
  repeat (match type of H with bind ?x _ = _ => destruct x; cbn [bind] in H; [|discriminate] end).
  injection H as <-. auto.
Qed.
End Props.

Print Assumptions C17_reverse_undoes_run.
Print Assumptions C18_transformed_layout.
Print Assumptions C18_transformed_values.
Print Assumptions C19_unconvert_is_reverse.
Print Assumptions C54_times_lost_refuted.

(** ** A concrete object with all four types: series 1 = A-B (2 match-ups), series 2 = B-C (2 match-ups);
    A: type 3 (two-point moving average), B: type 2 then type 1, C: type 4. *)
Section Concrete.
Local Open Scope R_scope.
Definition txw : csr R := mkCsr R [/2; /2; /2; /2] [0; 1; 1; 2]%nat [0; 2; 4]%nat 2 3.
Definition txidx : idx_t :=
  mkIdx [2; 2]%nat [0; 2; 4]%nat [(0, 1); (1, 2)]%nat ["A"; "B"; "C"]%string [1; 1; 1]%nat [0; 1; 1; 2]%nat
        [1; 1; 2; 2]%nat [1; 1; 1; 1]%nat [2; 2; 2; 2]%nat [0; 2; 4; 6; 8]%nat.
Definition txm : mobj R nat :=
  mkMobj R nat txidx None (Some txidx) None [1; 2; 3; 4; 5; 6; 7; 8] [1; 2; 3; 4]
    [mkUnc R (UK3 R 0 0) None; mkUnc R (UK2 R [2; 4] [1; 1]) (Some 1%nat);
     mkUnc R (UK1 R [1; 2]) None; mkUnc R (UK4 R 0 0 3) (Some 2%nat)]
    [[1; 2]; [3; 4]] [txw] [[1; 2; 3]] (Some [0; 1; 2; 3]%nat) (Some [0; 1; 2; 3]%nat) None None None None None.
Example txm_wf : wf_mobj txm.
Proof.
  constructor; try reflexivity.
  - intros b n Hb. do 4 (destruct b as [|b]; [cbn in Hb; injection Hb as <-; split; [lia|]; eexists; split; reflexivity|]).
    destruct b; discriminate.
  - cbn. intros n Hn. destruct n as [|[|[|n]]]; try lia; tauto.
Qed.
Lemma txw_shape : csr_shape txw 2 3.
Proof.
  split; [reflexivity|]. split; [reflexivity|]. split; [reflexivity|]. split; [reflexivity|]. split.
  - intros i p q Hp Hq. do 2 (destruct i as [|i]; [cbn in Hp, Hq; injection Hp as <-; injection Hq as <-; cbn; lia|]).
    exfalso. assert (S (S i) + 1 < length (c_indptr R txw))%nat by (apply nth_error_Some; congruence). cbn in *. lia.
  - cbn. intros c Hc. lia.
Qed.
Example txm_shapes : shapes_ok txm.
Proof.
  split; [reflexivity|]. split.
  - intros n u Hu. do 2 (destruct n as [|n]; [cbn in Hu; injection Hu as <-; reflexivity|]). destruct n; discriminate.
  - intros b u N Hu HN. destruct b as [|[|[|[|b]]]]; cbn in Hu, HN; try (destruct b; discriminate);
      injection Hu as <-; injection HN as <-; cbn.
    + eexists _, _. split; [reflexivity|]. split; [reflexivity|]. apply txw_shape.
    + split; [reflexivity|]. split; [reflexivity|]. eexists; split; [reflexivity|lia].
    + reflexivity.
    + split; [|eexists; split; [reflexivity|lia]]. eexists _, _. split; [reflexivity|]. split; [reflexivity|]. apply txw_shape.
Qed.
Lemma txw_solvable : solvable txw 2.
Proof.
  intros i Hi. destruct i as [|[|i]]; [| |lia]; cbn.
  - repeat split; try discriminate.
    + repeat constructor; cbn; lia.
    + intros _. lra.
    + intros H. congruence.
  - repeat split; try discriminate.
    + repeat constructor; cbn; lia.
    + intros _. lra.
Qed.
Example txm_normalisable : normalisable txm.
Proof.
  split.
  - cbn. intros u [<-|[<-|[]]] x Hx; cbn in Hx; lra.
  - intros b u N Hu HN. assert (Huv : nonzero [1; 2; 3]) by (intros x Hx; cbn in Hx; lra).
    destruct b as [|[|[|[|b]]]]; cbn in Hu, HN; try (destruct b; discriminate);
      injection Hu as <-; injection HN as <-; cbn.
    + intros w uv H1 H2. injection H1 as <-. injection H2 as <-. split; [apply txw_solvable|exact Huv].
    + intros x Hx; cbn in Hx; lra.
    + intros x Hx; cbn in Hx; lra.
    + intros w uv H1 H2. injection H1 as <-. injection H2 as <-. split; [apply txw_solvable|exact Huv].
Qed.
Example txm_reverses : exists d m2, tn_run nat txm = Ok d /\ tn_reverse nat d = Ok m2 /\
  m_values R nat m2 = [1; 2; 3; 4; 5; 6; 7; 8] /\ m_ks R nat m2 = [1; 2; 3; 4].
Proof.
  destruct (C17_reverse_undoes_run txm txm_wf txm_shapes txm_normalisable eq_refl) as (d & m2 & H1 & H2 & H3 & H4 & _).
  exists d, m2. auto.
Qed.
Example txm_layout : exists d, tn_run nat txm = Ok d /\ N_var (m_idx R nat d) = [3; 2; 2; 3]%nat /\
  idxs (m_idx R nat d) = [0; 3; 5; 7; 12]%nat.
Proof. eexists. split; [reflexivity|]. split; reflexivity. Qed.
Example txm_blocks : NoDup (get_block_idxs txidx) /\
  forall c, (1 <= c <= 1)%nat -> In (0, 1, c)%nat (get_block_idxs txidx).
Proof. split; [repeat constructor; cbn; intuition congruence|]. intros c Hc. assert (c = 1%nat) as -> by lia. cbn. auto. Qed.

(** The solvability hypothesis of C17 is needed: when a row has only columns of earlier rows (as when
    a third match-up reuses them), its value is not recovered. *)
Definition tyw : csr R := mkCsr R [1; 1; /2; /2] [0; 1; 0; 1]%nat [0; 1; 2; 4]%nat 3 2.
Definition tyidx : idx_t :=
  mkIdx [3]%nat [0; 3]%nat [(0, 1)]%nat ["A"; "B"]%string [1; 1]%nat [0; 1]%nat [1; 1]%nat [1; 1]%nat [3; 3]%nat [0; 3; 6]%nat.
Definition tym : mobj R nat :=
  mkMobj R nat tyidx None (Some tyidx) None [1; 3; 5; 1; 1; 1] [0; 0; 0]
    [mkUnc R (UK3 R 0 0) None; mkUnc R (UK1 R [1; 1; 1]) None] [[1; 1; 1]] [tyw] [[1; 1]] None None None None None None None.
Theorem C17_unsolvable_not_recovered : exists d m2, tn_run nat tym = Ok d /\ tn_reverse nat d = Ok m2 /\
  nth_error (m_values R nat tym) 2 = Some 5 /\ nth_error (m_values R nat m2) 2 = Some 2.
Proof.
  eexists _, _. split; [reflexivity|]. split; [reflexivity|]. split; [reflexivity|]. cbn. f_equal. unfold rsum. cbn. lra.
Qed.
End Concrete.
