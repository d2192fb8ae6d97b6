(** Property theorems C12-C16, C52, C53 (sampling of match-ups).
    Vocabulary: SampleSpec.v.  Model: SampleModel.v, MuModel.v. *)
From Coq Require Import Permutation Sorted QArith Reals Lra.
From Verif Require Import Base ReaderModel UncModel MuModel MuProofs SampleModel SampleSpec SampleProofs SampleProofs2 SampleMain SampleMain2 SampleMain3.
Open Scope nat_scope.

Section Props.
Context {V T : Type} (zeroV : V) (zeroT : T) (rms : list V -> Z -> V)
        (smp : nat -> list nat -> nat -> list nat).
Notation mobj := (mobj V T).
Notation sample2ind := (sample2ind V T zeroV zeroT rms smp).

(** C12 *)
Theorem C12_sampled_share_no_error_source : forall (m m' : mobj) sf nmax,
  wf_mobj m -> is_sample smp -> sample2ind m sf nmax = Ok m' ->
  exists sel, holds_selection m m' sel /\
    forall n i j, 1 <= n <= length (Nm (m_idx V T m)) -> In i (sel n) -> In j (sel n) -> i <> j ->
      ~ share_column m n i j.
Proof. exact (sampled_independent zeroV zeroT rms smp). Qed.

(** C13: no thinning is requested (fraction 1, maximum not exceeded). *)
Theorem C13_greedy_maximal : forall (m m' : mobj) nmax,
  wf_mobj m -> complete_mobj m -> is_sample smp ->
  (Z.of_nat (list_sum (Nm (m_idx V T m))) <= nmax)%Z -> sample2ind m 1 nmax = Ok m' ->
  exists sel, holds_selection m m' sel /\
    forall n N, nth_error (Nm (m_idx V T m)) (n - 1) = Some N -> (exists w, series_w m n w) ->
      StronglySorted lt (sel n) /\
      (0 < N -> nth_error (sel n) 0 = Some 0) /\
      (forall r, r < N -> ~ In r (sel n) -> exists i, In i (sel n) /\ i < r /\ share_column m n i r).
Proof. exact (sampled_maximal zeroV zeroT rms smp). Qed.

(** C14 *)
Theorem C14_sampled_aligned : forall (m m' : mobj) sf nmax,
  wf_mobj m -> is_sample smp -> sample2ind m sf nmax = Ok m' ->
  exists sel, holds_selection m m' sel /\
    forall n, 1 <= n <= length (Nm (m_idx V T m)) -> NoDup (sel n).
Proof. exact (sampled_aligned zeroV zeroT rms smp). Qed.

Theorem C14_order_kept_without_w : forall (m m' : mobj) sf nmax,
  wf_mobj m -> is_sample smp -> sample2ind m sf nmax = Ok m' ->
  exists sel, holds_selection m m' sel /\
    forall n, 1 <= n <= length (Nm (m_idx V T m)) -> (forall w, ~ series_w m n w) -> StronglySorted lt (sel n).
Proof. exact (sampled_order zeroV zeroT rms smp). Qed.

(** Sampling succeeds on every complete object for fractions between 0 and 1. *)
Theorem C14_sampling_succeeds : forall (m : mobj) sf nmax,
  wf_mobj m -> complete_mobj m -> is_sample smp -> (0 <= sf <= 1)%Q -> (0 <= nmax)%Z ->
  exists m', sample2ind m sf nmax = Ok m'.
Proof. exact (sampling_succeeds zeroV zeroT rms smp). Qed.

(** C15 *)
Theorem C15_sample_size : forall (m m' : mobj) sf nmax,
  wf_mobj m -> is_sample smp -> (0 <= sf)%Q -> (0 <= nmax)%Z -> sample2ind m sf nmax = Ok m' ->
  length (Nm (m_idx V T m')) = length (Nm (m_idx V T m)) /\
  (forall n N N', nth_error (Nm (m_idx V T m)) n = Some N -> nth_error (Nm (m_idx V T m')) n = Some N' ->
     (inject_Z (Z.of_nat N') <= inject_Z (Z.of_nat N) * sf)%Q) /\
  (Z.of_nat (list_sum (Nm (m_idx V T m'))) <= nmax)%Z.
Proof. exact (sampled_sizes zeroV zeroT rms smp). Qed.

(** C16 *)
Theorem C16_only_independent_uncertainty : forall (m m' : mobj) sf nmax,
  wf_mobj m -> is_sample smp -> sample2ind m sf nmax = Ok m' ->
  exists sel, holds_selection m m' sel /\ length (m_unc V T m') = length (m_unc V T m) /\
   forall b u n, nth_error (m_unc V T m) b = Some u -> nth_error (n_mu (m_idx V T m)) b = Some n ->
     exists uR, nth_error (m_unc V T m') b = Some (mkUnc V (UK1 V uR) None) /\ length uR = length (sel n) /\
       match u_kind V u with
       | UK1 _ r => picks r (sel n) uR
       | UK2 _ r _ => picks r (sel n) uR
       | _ => True
       end.
Proof. exact (sampled_type1 zeroV zeroT rms smp). Qed.

(** C53, what the code does: [rms] of the u entries between the first and the last column of the row. *)
Theorem C53_sampled_w_uncertainty_partial : forall (m m' : mobj) sf nmax,
  wf_mobj m -> complete_mobj m -> is_sample smp -> sample2ind m sf nmax = Ok m' ->
  exists sel, holds_selection m m' sel /\
   forall b u n wi ui, nth_error (m_unc V T m) b = Some u -> nth_error (n_mu (m_idx V T m)) b = Some n ->
     w_of (u_kind V u) = Some wi -> u_of (u_kind V u) = Some ui ->
     exists uR w uv, nth_error (m_unc V T m') b = Some (mkUnc V (UK1 V uR) None) /\
       nth_error (m_ws V T m) wi = Some w /\ nth_error (m_us V T m) ui = Some uv /\
       forall j i, nth_error (sel n) j = Some i ->
         exists lo hi, first_column w i lo /\ last_column w i hi /\
           nth_error uR j = Some (rms (slice lo (hi + 1) uv) (Z.of_nat hi + 1 - Z.of_nat lo)).
Proof. exact (sampled_w_uncertainty zeroV zeroT rms smp). Qed.

(** C52: SampleMatchUp.run never returns. *)
Theorem C52_random_sampling_refuted : forall (m : mobj) sf,
  wf_mobj m -> is_sample smp -> (1 <= sf)%Z -> n_mu (m_idx V T m) <> [] ->
  sample_matchup V T zeroV smp m sf = Raise AttributeError.
Proof. exact (sample_matchup_fails zeroV smp). Qed.
End Props.

Print Assumptions C12_sampled_share_no_error_source.
Print Assumptions C13_greedy_maximal.
Print Assumptions C14_sampled_aligned.
Print Assumptions C14_order_kept_without_w.
Print Assumptions C14_sampling_succeeds.
Print Assumptions C15_sample_size.
Print Assumptions C16_only_independent_uncertainty.
Print Assumptions C53_sampled_w_uncertainty_partial.
Print Assumptions C52_random_sampling_refuted.

(** ** A concrete object: series 1 (A-B, 5 match-ups; A has a type 3 covariate whose W matrix is a
    moving average over 2 columns), series 2 (B-C, 3 match-ups, types 1 and 2). *)
Section Concrete.
Open Scope string_scope.
Definition sxidx : idx_t :=
  mkIdx [5; 3] [0; 5; 8] [(0, 1); (1, 2)] ["A"; "B"; "C"] [1; 1; 1] [0; 1; 1; 2] [1; 1; 2; 2] [1; 1; 1; 1]
        [5; 5; 3; 3] [0; 5; 10; 13; 16].
Definition sxw : csr nat := mkCsr nat [1; 1; 1; 1; 1; 1; 1; 1; 1; 1] [0; 1; 1; 2; 2; 3; 3; 4; 4; 5] [0; 2; 4; 6; 8; 10] 5 6.
Definition sxm : mobj nat nat :=
  mkMobj nat nat sxidx None None None
    [100; 101; 102; 103; 104; 200; 201; 202; 203; 204; 300; 301; 302; 400; 401; 402]
    [10; 11; 12; 13; 14; 20; 21; 22]
    [mkUnc nat (UK3 nat 0 0) None; mkUnc nat (UK1 nat [1; 2; 3; 4; 5]) None;
     mkUnc nat (UK1 nat [6; 7; 8]) None; mkUnc nat (UK2 nat [6; 7; 8] [1; 1; 1]) (Some 1)]
    [[1; 1; 1; 1; 1]; [1; 1; 1]] [sxw] [[3; 3; 3; 3; 3; 3]]
    (Some [50; 51; 52; 53; 54; 60; 61; 62]) (Some [50; 51; 52; 53; 54; 60; 61; 62]) None (Some [0; 1; 2; 3; 4; 5; 6; 7]) None None None.
Definition sxrms (l : list nat) (n : Z) := fold_right Nat.add 0 l.
Definition sxsmp (c : nat) (l : list nat) (k : nat) := firstn k (rev l).

Example sxsmp_ok : is_sample sxsmp.
Proof.
  intros c l k Hk. exists (skipn k (rev l)). unfold sxsmp. rewrite firstn_skipn. split; [apply Permutation_rev|].
  rewrite firstn_length, rev_length. lia.
Qed.
Ltac cases_nat b := repeat (destruct b as [|b]; [cbn in *; try discriminate|]); try (cbn in *; discriminate).
Example sxm_wf : wf_mobj sxm.
Proof.
  constructor; try reflexivity.
  - intros b n Hb. do 4 (destruct b as [|b]; [cbn in Hb; injection Hb as <-; split; [lia|]; eexists; split; reflexivity|]).
    destruct b; discriminate.
  - cbn. intros n Hn. destruct n as [|[|[|n]]]; try lia; tauto.
Qed.
Example sxm_complete : complete_mobj sxm.
Proof.
  constructor.
  - eexists; split; reflexivity.
  - eexists; split; reflexivity.
  - intros o l [<-|[<-|[<-|[<-|[]]]]] H; try discriminate. injection H as <-. reflexivity.
  - intros n u Hu. do 2 (destruct n as [|n]; [cbn in Hu; injection Hu as <-; reflexivity|]). destruct n; discriminate.
  - intros b u N Hu HN. destruct b as [|b].
    + cbn in Hu, HN. injection Hu as <-. injection HN as <-. cbn. exists sxw. eexists. split; [reflexivity|]. split; [|reflexivity].
      split; [reflexivity|]. split.
      * intros i p q Hp Hq. do 5 (destruct i as [|i]; [cbn in Hp, Hq; injection Hp as <-; injection Hq as <-; cbn; lia|]).
        exfalso. destruct (nth_error_Some (c_indptr nat sxw) (S (S (S (S (S i)))) + 1)) as (HH & _). rewrite Hq in HH. specialize (HH ltac:(discriminate)). cbn in HH. lia.
      * cbn. intros c Hc. lia.
    + do 3 (destruct b as [|b]; [cbn in Hu, HN; injection Hu as <-; injection HN as <-; reflexivity|]).
      destruct b; discriminate.
Qed.
(* every second match-up of series 1 *)
Example sx_run1 : exists m', sample2ind nat nat 0 0 sxrms sxsmp sxm 1 100 = Ok m' /\
  m_values nat nat m' = [100; 102; 104; 200; 202; 204; 300; 301; 302; 400; 401; 402] /\
  m_ks nat nat m' = [10; 12; 14; 20; 21; 22] /\ Nm (m_idx nat nat m') = [3; 3] /\
  m_across2 nat nat m' = Some [0; 2; 4; 5; 6; 7].
Proof. eexists. split; [vm_compute; reflexivity|]. repeat split. Qed.

(** Outside C13: the order of a thinned series with W matrices is
    whatever the random sampler returned. *)
Theorem C13_thinned_order_not_kept : exists m' : mobj nat nat,
  wf_mobj sxm /\ complete_mobj sxm /\ is_sample sxsmp /\
  sample2ind nat nat 0 0 sxrms sxsmp sxm (1 # 2) 100 = Ok m' /\
  m_ks nat nat sxm = [10; 11; 12; 13; 14; 20; 21; 22] /\ m_ks nat nat m' = [14; 12; 22].
Proof.
  eexists. split; [apply sxm_wf|]. split; [apply sxm_complete|]. split; [apply sxsmp_ok|].
  split; [vm_compute; reflexivity|]. split; [reflexivity|]. reflexivity.
Qed.
End Concrete.

(** C53: a 4-column average of independent errors of standard uncertainty 1 has standard uncertainty
    1/2; the sampled object says 1. *)
Section C53.
Local Open Scope R_scope.
Definition rmsR (l : list R) (n : Z) : R :=
  sqrt (fold_right (fun u s => u * u + s) 0 l) / sqrt (IZR n).
Definition std_of_sum (ws us : list R) : R :=
  sqrt (fold_right (fun wu s => (fst wu * snd wu) * (fst wu * snd wu) + s) 0 (combine ws us)).
Definition avw : csr R := mkCsr R [/4; /4; /4; /4] [0; 1; 2; 3]%nat [0; 4]%nat 1 4.
Definition avm : mobj R nat :=
  mkMobj R nat (mkIdx [1%nat] [0; 1]%nat [(0, 1)%nat] ["A"%string; "B"%string] [1; 1]%nat [0; 1]%nat [1; 1]%nat [1; 1]%nat
                      [1; 1]%nat [0; 1; 2]%nat) None None None [10; 20] [0]
    [mkUnc R (UK3 R 0 0) None; mkUnc R (UK1 R [1]) None] [[1]] [avw] [[1; 1; 1; 1]]
    (Some [0%nat]) (Some [0%nat]) None None None None None.
Theorem C53_averaged_uncertainty_refuted : exists (m' : mobj R nat) uR,
  sample2ind R nat 0 0%nat rmsR (fun _ l k => firstn k l) avm 1 100 = Ok m' /\
  nth_error (m_unc R nat m') 0 = Some (mkUnc R (UK1 R [uR]) None) /\
  uR = 1 /\ std_of_sum (c_data R avw) [1; 1; 1; 1] = / 2.
Proof.
  eexists. exists (rmsR [1; 1; 1; 1] 4). split; [reflexivity|]. split; [reflexivity|].
  unfold rmsR, std_of_sum. cbn. split.
  - replace (1 * 1 + (1 * 1 + (1 * 1 + (1 * 1 + 0)))) with 4 by ring. field. apply Rgt_not_eq. apply sqrt_lt_R0. lra.
  - replace (/ 4 * 1 * (/ 4 * 1) + _) with (/2 * /2) by field. apply sqrt_square. lra.
Qed.
End C53.
