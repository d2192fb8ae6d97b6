(** Property theorems C157-C159 (the text shown for a match-up dataset).
    Vocabulary: ReprSpec.v.  Model: ReprModel.v. *)
From Verif Require Import Base BaseLemmas ReaderModel ReaderSpec ReaderProofs ReaderMain
  UncModel UncSpec UncProofs2 ReprModel ReprSpec ReprProofs ReprProofs2.
Open Scope nat_scope.
Open Scope list_scope.

Section Props.
Context {V T : Type} (zeroV nanV : V) (zeroT : T) (f32 i32 : V -> V) (todate : V -> T)
        (isfill : V -> bool) (ord : list string -> list string) (ordn : list nat -> list nat).
Notation openMatchUp := (openMatchUp V T zeroV nanV zeroT f32 i32 todate isfill ord).
Notation uncertainties := (uncertainties zeroV ordn).
Notation repr := (repr V T).

(** C157: the display never fails, and is the expected text but for the number of series and the last
    K value of a shortened series. *)
Theorem C157_text : (forall l x, In x (ordn l) <-> In x l) -> forall with_unc fs mu uncs,
  usable with_unc fs -> openMatchUp (map (uf_d V) fs) = Ok mu ->
  uncertainties with_unc fs (mu_idx V T mu) = Ok uncs ->
  repr mu uncs (k_types with_unc fs) = Ok (text f32 with_unc fs (length fs + 1) (preceding zeroV fs)).
Proof. intros H wu fs mu uncs Hu Ho Hun. eapply repr_text; eauto. Qed.

(** Such objects exist for all usable files. *)
Theorem C157_opened : (forall l x, In x (ordn l) <-> In x l) -> forall with_unc fs,
  usable with_unc fs -> exists mu uncs, openMatchUp (map (uf_d V) fs) = Ok mu /\
    uncertainties with_unc fs (mu_idx V T mu) = Ok uncs.
Proof.
  intros H wu fs (Hg & Hv).
  destruct (columns_returned zeroV nanV zeroT f32 i32 todate isfill ord _ Hg) as (mu & E & _).
  exists mu. unfold ReprSpec.uncertainties. destruct wu.
  - pose proof (rp_get zeroV nanV zeroT f32 i32 todate isfill ord _ _ E) as Ex.
    destruct (unc_attached_all zeroV ordn H fs _ Hg (Hv eq_refl) Ex) as (us & ws & uu & E' & _).
    exists (Some us). split; [exact E|]. rewrite E'. reflexivity.
  - exists None. split; [exact E|reflexivity].
Qed.

(** C158: the number of series is never shown right. *)
Theorem C158_series_refuted : (forall l x, In x (ordn l) <-> In x l) -> forall with_unc fs mu uncs,
  usable with_unc fs -> openMatchUp (map (uf_d V) fs) = Ok mu ->
  uncertainties with_unc fs (mu_idx V T mu) = Ok uncs ->
  forall last_k, repr mu uncs (k_types with_unc fs) <> Ok (text f32 with_unc fs (length fs) last_k).
Proof.
  intros H wu fs mu uncs Hu Ho Hun last_k.
  rewrite (repr_text zeroV nanV zeroT f32 i32 todate isfill ord ordn H wu fs mu uncs Hu Ho Hun).
  unfold text. intros E. injection E as E _. lia.
Qed.

(** C159: with fewer than ten match-ups per file every K value shown is that of its match-up. *)
Theorem C159_short_partial : (forall l x, In x (ordn l) <-> In x l) -> forall with_unc fs mu uncs,
  usable with_unc fs -> openMatchUp (map (uf_d V) fs) = Ok mu ->
  uncertainties with_unc fs (mu_idx V T mu) = Ok uncs ->
  (forall f, In f fs -> d_M V (uf_d V f) < 10) ->
  repr mu uncs (k_types with_unc fs) = Ok (text f32 with_unc fs (length fs + 1) (own_last zeroV)).
Proof.
  intros H wu fs mu uncs Hu Ho Hun Hs.
  rewrite (repr_text zeroV nanV zeroT f32 i32 todate isfill ord ordn H wu fs mu uncs Hu Ho Hun).
  f_equal. unfold text. f_equal. f_equal. apply map_ext_in. intros [i f] Hi. cbn [fst snd].
  apply in_enumerate, nth_error_In in Hi. specialize (Hs f Hi).
  assert (HK : length (d_K V (uf_d V f)) = d_M V (uf_d V f)).
  { apply (proj2 (proj2 (proj1 Hu))). apply in_map. exact Hi. }
  unfold series_text. do 6 f_equal. unfold abridged. rewrite map_length, HK.
  destruct (Nat.ltb_spec (d_M V (uf_d V f)) 10); [reflexivity|lia].
Qed.

(** What is shown as the last K value of a series of ten match-ups or more: the last one of the file
    before it; for the first file, the last of the last file. *)
Theorem C159_previous_file : forall fs n f g,
  (forall f, In f fs -> length (d_K V (uf_d V f)) = d_M V (uf_d V f)) ->
  nth_error fs n = Some g -> nth_error fs (n + 1) = Some f -> d_M V (uf_d V g) <> 0 ->
  preceding zeroV fs (n + 2) f = own_last zeroV (n + 1) g.
Proof.
  intros fs n f g HK Hgn Hf Hm. unfold preceding, own_last.
  assert (Hd : nth_error (map (uf_d V) fs) n = Some (uf_d V g)) by (rewrite nth_error_map', Hgn; reflexivity).
  assert (HKg : length (d_K V (uf_d V g)) = d_M V (uf_d V g)) by (apply HK; eapply nth_error_In; eauto).
  assert (Hb : before (map (uf_d V) fs) (n + 2) = before (map (uf_d V) fs) (n + 1) + d_M V (uf_d V g)).
  { unfold before. replace (n + 2 - 1) with (S n) by lia. rewrite Nat.add_sub.
    rewrite <- !firstn_map. apply list_sum_firstn_S. rewrite nth_error_map', Hd. reflexivity. }
  rewrite Hb. destruct (Nat.eqb_spec (before (map (uf_d V) fs) (n + 1) + d_M V (uf_d V g)) 0); [lia|].
  replace (before (map (uf_d V) fs) (n + 1) + d_M V (uf_d V g) - 1)
    with (before (map (uf_d V) fs) (n + 1) + (d_M V (uf_d V g) - 1)) by lia.
  assert (Ek : concat (map (fun f => d_K V (uf_d V f)) fs) = concat (map (d_K V) (map (uf_d V) fs))) by (rewrite map_map; reflexivity).
  rewrite Ek. apply nth_error_nth with (d := zeroV).
  rewrite (concat_series (d_K V) (map (uf_d V) fs) (n + 1) (uf_d V g)).
  - rewrite <- HKg. apply nth_error_last. intros E. rewrite E in HKg. cbn in HKg. lia.
  - intros d Hi. apply in_map_iff in Hi as (f' & <- & Hi). auto.
  - lia.
  - rewrite Nat.add_sub. exact Hd.
  - lia.
Qed.
End Props.

(** A concrete dataset: two files of ten match-ups, with K = 1 and K = 2. *)
Definition rp_ds (k : nat) : dataset nat :=
  mkDataset nat 10 1 1 "A"%string "B"%string (repeat [5] 10) (repeat [6] 10)
    (repeat k 10) (repeat 0 10) (repeat 0 10) [].
Definition rp_u : uncvars nat :=
  mkUncvars nat [1] [1] (Some (repeat [3] 10)) (Some (repeat [4] 10)) None None None.
Definition rp_fs : list (ufile nat) := [mkUfile nat (rp_ds 1) rp_u; mkUfile nat (rp_ds 2) rp_u].
Definition rp_open := openMatchUp nat nat 0 0 0 (fun x => x) (fun x => x) (fun x => x) (fun _ => false) (fun l => l).

Example rp_usable : usable true rp_fs.
Proof.
  assert (R : forall (x y : list nat) n, In x (repeat y n) -> x = y) by (intros; eapply repeat_spec; eauto).
  split.
  - split; [discriminate|]. split.
    + intros d d' sd sd' [<- |[<- |[]]] [<- |[<- |[]]] _; destruct sd, sd'; reflexivity.
    + intros d [<- |[<- |[]]]; (split; [|discriminate]);
        (split; [reflexivity|]; split; [intros r Hr; apply R in Hr; subst; reflexivity|];
         split; [reflexivity|]; split; [intros r Hr; apply R in Hr; subst; reflexivity|];
         split; [reflexivity|]; split; [reflexivity|]; split; [reflexivity|]; intros ? ? []).
  - intros _ f [<- |[<- |[]]] sd; (split; [destruct sd; reflexivity|]; split; [discriminate|];
      intros cov ty Hc Ht;
      assert (ty = 1) as -> by (destruct sd, (cov - 1) as [|[|?]]; cbn in Ht; congruence);
      destruct sd; (eexists; split; [reflexivity|]; split; [reflexivity|]; intros r Hr; apply R in Hr; subst; reflexivity)).
Qed.

(** C159: K = 2 is shown at the end of the first series, K = 1 at the end of the second. *)
Theorem C159_last_k_refuted : usable true rp_fs /\
  exists mu uncs, rp_open (map (uf_d nat) rp_fs) = Ok mu /\
    uncertainties 0 (fun l => l) true rp_fs (mu_idx nat nat mu) = Ok uncs /\
    (forall series, repr nat nat mu uncs (k_types true rp_fs) <>
       Ok (text (fun x => x) true rp_fs series (own_last 0))) /\
    repr nat nat mu uncs (k_types true rp_fs) =
       Ok (text (fun x => x) true rp_fs 3 (fun n f => match n with 1 => 2 | _ => 1 end)).
Proof.
  split; [exact rp_usable|].
  destruct (C157_opened 0 0 0 (fun x => x) (fun x => x) (fun x => x) (fun _ => false) (fun l => l) (fun l => l)
     (fun l x => iff_refl _) true rp_fs rp_usable) as (mu & uncs & Ho & Hu).
  exists mu, uncs. split; [exact Ho|]. split; [exact Hu|].
  pose proof (C157_text 0 0 0 (fun x => x) (fun x => x) (fun x => x) (fun _ => false) (fun l => l) (fun l => l)
     (fun l x => iff_refl _) true rp_fs mu uncs rp_usable Ho Hu) as E.
  split.
  - intros series H. rewrite E in H. injection H as _ H. vm_compute in H. discriminate H.
  - rewrite E. reflexivity.
Qed.

Print Assumptions C157_text.
Print Assumptions C157_opened.
Print Assumptions C158_series_refuted.
Print Assumptions C159_short_partial.
Print Assumptions C159_previous_file.
Print Assumptions C159_last_k_refuted.
