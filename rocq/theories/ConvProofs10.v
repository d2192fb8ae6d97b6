(** * Proofs for C141: converted files with good data open together. *)
From Coq Require Import Reals Lra.
From Verif Require Import Base BaseLemmas ReaderModel ReaderSpec ReaderProofs ReaderMain UncModel UncSpec UncProofs UnckModel SimModel WModel WSpec WProofs4 CheckModel CheckSpec CheckProofs CheckProofs2 HRModel PmhModel IOModel IOSpec IOProofs IOProofs2 IOProofs4 ConvModel ConvSpec ConvProofs ConvProofs2 ConvProofs3 ConvProofs4 ConvProofs5 ConvProofs6.
Open Scope nat_scope.

Section O.
Context {T : Type} (nanV : R) (zeroT : T) (f32 i32 : R -> R) (todate : R -> T) (isfill : R -> bool) (ord : list string -> list string) (ordn : list nat -> list nat).
Notation open_files := (open_files nanV zeroT f32 i32 todate isfill ord ordn).

Theorem has_open : (forall l x, In x (ordn l) <-> In x l) -> forall l : list (ncfile * mdata), l <> [] ->
  (forall g p, In (g, p) l -> (exists mv, has_file g p mv) /\ row_pointers g /\ check g = Ok [] /\ forall sd, In 4%Z (p_type p sd) -> 2 <= p_M p) ->
  (forall g p g' p' sd sd', In (g, p) l -> In (g', p') l -> p_name p sd = p_name p' sd' -> p_m p sd = p_m p' sd') ->
  exists o, open_files (map fst l) = Ok o /\
  forall n g p sd cov, 1 <= n -> nth_error l (n - 1) = Some (g, p) -> 1 <= cov <= p_m p sd ->
    exists col b k u t, ReaderSpec.is_column (p_X p sd) cov col /\ getVariableData R T (o_mu o) cov (p_name p sd) (Some n) = Ok (map f32 col) /\
      nth_error (get_block_idxs (mu_idx R T (o_mu o))) b = Some (k, n, cov) /\ nth_error (sensors (mu_idx R T (o_mu o))) k = Some (p_name p sd) /\
      nth_error (o_unc o) b = Some (Some u) /\ nth_error (p_type p sd) (cov - 1) = Some t /\ Z.of_nat (typeID R (u_kind R u)) = t.
Proof.
  intros Hord l Hne H Hag.
  destruct (accepted_open nanV zeroT f32 i32 todate isfill ord ordn Hord (map fst l)) as (o & Eo & Q).
  - intros E. apply map_eq_nil in E. auto.
  - intros f Hi. apply in_map_iff in Hi. destruct Hi as ([g p] & <- & Hi). cbn [fst]. destruct (H g p Hi) as ((mv & HF) & HR & HC & H4).
    split; [apply HF|]. split; [exact HC|]. split; [auto|]. intros sd ts M Dt It SM.
    pose proof (data_unique _ _ _ _ (hf_wf _ _ _ HF) Dt (hf_type _ _ _ HF sd)) as E. injection E as ->.
    rewrite (size_fun _ _ _ _ (hf_wf _ _ _ HF) SM (hf_M _ _ _ HF)). exact (H4 sd It).
  - intros f f' sd sd' s m m' Hi Hi' S1 S2 M1 M2. apply in_map_iff in Hi. destruct Hi as ([g p] & <- & Hi). apply in_map_iff in Hi'. destruct Hi' as ([g' p'] & <- & Hi'). cbn [fst] in *.
    destruct (H g p Hi) as ((mv & HF) & _). destruct (H g' p' Hi') as ((mv' & HF') & _).
    rewrite (size_fun _ _ _ _ (hf_wf _ _ _ HF) M1 (hf_m _ _ _ HF sd)), (size_fun _ _ _ _ (hf_wf _ _ _ HF') M2 (hf_m _ _ _ HF' sd')).
    apply (Hag g p g' p' sd sd' Hi Hi'). 
    assert (UN : forall f sd x y, wf_nc f -> file_sensor f sd x -> file_sensor f sd y -> x = y).
    { intros f0 sd0 x y (_ & _ & ND & _) A B. unfold file_sensor in *. revert A B. generalize (("sensor_" ++ IOSpec.snum sd0 ++ "_name")%string). intros nm A B.
      induction (nc_attrs f0) as [|[n0 v0] r IH]; [destruct A|]. cbn [map fst] in ND. inversion ND as [|? ? N1 N2]; subst.
      destruct A as [A|A], B as [B|B]; [congruence| | |auto]; exfalso; apply N1; [injection A as -> _; apply in_map_iff; exists (nm, y); auto|injection B as -> _; apply in_map_iff; exists (nm, x); auto]. }
    rewrite <- (UN g sd _ _ (hf_wf _ _ _ HF) S1 (hf_names _ _ _ HF sd)). symmetry. apply (UN g' sd' _ _ (hf_wf _ _ _ HF')); [apply (hf_names _ _ _ HF')|exact S2].
  - exists o. split; [exact Eo|]. intros n g p sd cov Hn Hl Hc. destruct (H g p (nth_error_In _ _ Hl)) as ((mv & HF) & _).
    assert (Hl' : nth_error (map fst l) (n - 1) = Some g) by (rewrite nth_error_map, Hl; reflexivity).
    destruct (Q n g sd (p_name p sd) (p_m p sd) cov (p_X p sd) Hn Hl' (hf_names _ _ _ HF sd) (hf_m _ _ _ HF sd) Hc (hf_X _ _ _ HF sd)) as (col & b & k & u & ts & t & A1 & A2 & A3 & A4 & A5 & A6 & A7 & A8).
    exists col, b, k, u, t. pose proof (data_unique _ _ _ _ (hf_wf _ _ _ HF) A6 (hf_type _ _ _ HF sd)) as E. injection E as ->. auto 10.
Qed.

Lemma mw_name_fun a a' n : mw_name a n -> mw_name a' n -> a = a'.
Proof. destruct a, a'; cbn; intuition (subst; congruence). Qed.

(** Converted microwave files. *)
Theorem mw_open ft trunc : (forall l x, In x (ordn l) <-> In x l) -> forall l : list (ncfile * mdata * (side -> instrument)), l <> [] ->
  (forall f p a, In (f, p, a) l -> base_file f p /\ (forall sd, mw_name (a sd) (p_name p sd)) /\ a Side2 <> Ref /\ 2 <= p_M p /\ (forall sd, p_m p sd = mw_covariates (a sd)) /\ mw_good p a) ->
  exists gs o, mapM (fun x => mw_file ft trunc (fst (fst x))) l = Ok gs /\ (forall g, In g gs -> check g = Ok []) /\ open_files gs = Ok o /\
  forall n f p a sd cov, 1 <= n -> nth_error l (n - 1) = Some (f, p, a) -> 1 <= cov <= p_m p sd ->
    exists col b k u, ReaderSpec.is_column (p_X p sd) cov col /\ getVariableData R T (o_mu o) cov (p_name p sd) (Some n) = Ok (map f32 col) /\
      nth_error (get_block_idxs (mu_idx R T (o_mu o))) b = Some (k, n, cov) /\ nth_error (sensors (mu_idx R T (o_mu o))) k = Some (p_name p sd) /\
      nth_error (o_unc o) b = Some (Some u) /\ Z.of_nat (typeID R (u_kind R u)) = mw_type_of (a sd) (cov - 1).
Proof.
  intros Hord l Hne H.
  destruct (mapM_rel (fun x => mw_file ft trunc (fst (fst x))) (fun x g => (exists mv, has_file g (mw_converted (snd (fst x)) (snd x)) mv) /\ row_pointers g /\ check g = Ok []) l) as (gs & E & L & N).
  { intros [[f p] a] Hi. destruct (H f p a Hi) as (Hb & Hn & Hr & HM & Hm & Hg). cbn [fst snd].
    destruct (mw_accepted' ft trunc f p a Hb (Hn Side1) (Hn Side2) Hr ltac:(lia) Hm) as (g & mv & E & HF & HP & HC). exists g. split; [exact E|]. split; [exists mv; exact HF|]. split; [exact HP|apply HC; exact Hg]. }
  set (l' := combine gs (map (fun x => mw_converted (snd (fst x)) (snd x)) l)).
  assert (LL : length (map (fun x => mw_converted (snd (fst x)) (snd x)) l) = length gs) by (rewrite map_length; lia).
  assert (NT : forall i g p', nth_error l' i = Some (g, p') -> exists f p a, nth_error l i = Some (f, p, a) /\ nth_error gs i = Some g /\ p' = mw_converted p a).
  { intros i g p' Hi. unfold l' in Hi. destruct (nth_error l i) as [[[f p] a]|] eqn:El.
    - destruct (N i _ El) as (g' & Eg & _). exists f, p, a. split; [reflexivity|].
      assert (Q : nth_error (combine gs (map (fun x => mw_converted (snd (fst x)) (snd x)) l)) i = Some (g', mw_converted p a)).
      { clear - Eg El. revert gs l Eg El. induction i as [|i IH]; intros [|g0 gs] [|x l] Eg El; cbn in *; try discriminate; [injection El as ->; injection Eg as ->; reflexivity|apply IH; auto]. }
      rewrite Q in Hi. injection Hi as -> <-. auto.
    - exfalso. apply nth_error_None in El. assert (i < length (combine gs (map (fun x => mw_converted (snd (fst x)) (snd x)) l))) by (apply nth_error_Some; congruence). rewrite combine_length, LL in H0. lia. }
  assert (FS : map fst l' = gs).
  { unfold l'. revert LL. generalize (map (fun x : ncfile * mdata * (side -> instrument) => mw_converted (snd (fst x)) (snd x)) l). clear. induction gs as [|g gs IH]; intros [|x r]; cbn; intros; try discriminate; auto. rewrite IH; auto. }
  destruct (has_open Hord l') as (o & Eo & Q).
  - intros Z. assert (Z' : gs = []) by (rewrite <- FS, Z; reflexivity). rewrite Z' in L. destruct l; [auto|discriminate].
  - intros g p' Hi. apply In_nth_error in Hi. destruct Hi as (i & Hi). destruct (NT i g p' Hi) as (f & p & a & El & Eg & ->). destruct (N i _ El) as (g' & Eg' & HF & HP & HC).
    assert (g' = g) by congruence. subst g'. split; [exact HF|]. split; [exact HP|]. split; [exact HC|]. intros sd _. cbn [mw_converted p_M]. apply (H f p a (nth_error_In _ _ El)).
  - intros g p1 g' p2 sd sd' Hi Hi' En. apply In_nth_error in Hi. destruct Hi as (i & Hi). apply In_nth_error in Hi'. destruct Hi' as (i' & Hi').
    destruct (NT i g p1 Hi) as (f & p & a & El & _ & ->). destruct (NT i' g' p2 Hi') as (f' & p' & a' & El' & _ & ->). cbn [mw_converted p_name p_m] in *.
    destruct (H _ _ _ (nth_error_In _ _ El)) as (_ & Hn & _ & _ & Hm & _). destruct (H _ _ _ (nth_error_In _ _ El')) as (_ & Hn' & _ & _ & Hm' & _).
    rewrite Hm, Hm'. f_equal. apply (mw_name_fun _ _ (p_name p sd)); [apply Hn|rewrite En; apply Hn'].
  - exists gs, o. split; [exact E|]. split. { intros g Hi. apply In_nth_error in Hi. destruct Hi as (i & Hi). assert (Hlt : i < length l) by (rewrite <- L; apply nth_error_Some; congruence). destruct (nth_error l i) as [x|] eqn:El; [|apply nth_error_None in El; lia]. destruct (N i x El) as (g' & Eg & _ & _ & HC). congruence. }
    split; [rewrite <- FS; exact Eo|]. intros n f p a sd cov Hn El Hc. destruct (N _ _ El) as (g & Eg & _).
    assert (Hl' : nth_error l' (n - 1) = Some (g, mw_converted p a)).
    { unfold l'. clear - Eg El. revert gs l Eg El. generalize (n - 1). intros i. induction i as [|i IH]; intros [|g0 gs] [|x l] Eg El; cbn in *; try discriminate; [injection El as ->; injection Eg as ->; reflexivity|apply IH; auto]. }
    destruct (Q n g _ sd cov Hn Hl' Hc) as (col & b & k & u & t & A1 & A2 & A3 & A4 & A5 & A6 & A7). exists col, b, k, u. cbn [mw_converted p_X p_name p_type] in *.
    do 5 (split; [assumption|]). rewrite A7. rewrite nth_error_map in A6. destruct (nth_error (seq 0 (mw_covariates (a sd))) (cov - 1)) as [z|] eqn:Ez; [|discriminate]. cbn in A6. injection A6 as <-.
    assert (Hz : cov - 1 < mw_covariates (a sd)) by (rewrite <- (seq_length (mw_covariates (a sd)) 0); apply nth_error_Some; congruence).
    rewrite (nth_error_nth' _ 0) in Ez by (rewrite seq_length; exact Hz). rewrite seq_nth in Ez by exact Hz. injection Ez as <-. reflexivity.
Qed.
End O.
