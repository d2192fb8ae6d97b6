(** * Proofs for C106-C109, part 1: what the writer writes. *)
From Coq Require Import Reals Lra.
From Verif Require Import Base BaseLemmas ReaderModel ReaderSpec ReaderMain UncModel SimModel CheckModel CheckSpec CheckProofs IOModel IOSpec.
Open Scope nat_scope.

Lemma eqln_eq a b : eqln a b = true <-> a = b.
Proof. unfold eqln. destruct (list_eq_dec Nat.eq_dec a b); split; auto; discriminate. Qed.

Section W.
Context (f32 : R -> R) (trunc : R -> Z).
Notation write := (write_input_file f32 trunc).
Notation st := (stored f32 trunc).

Lemma create_ok f n t dm d sz : inside n (names f) = false ->
  mapM (fun x => match lookup x (nc_dims f) with Some k => Ok k | None => Raise ValueError end) dm = Ok sz -> sz = shape d ->
  create f32 trunc f n t dm d = Ok (mkNc (nc_dims f) (nc_vars f ++ [mkVar n dm (fst (st t d)) (snd (st t d))]) (nc_attrs f)).
Proof.
  intros H1 H2 H3. unfold create. rewrite H1, H2. cbn [bind]. replace (eqln sz (shape d)) with true by (symmetry; apply eqln_eq; auto).
  destruct (st t d); reflexivity.
Qed.

Definition std_vars (p : mdata) : list ncvar :=
  [mkVar "X1" ["M"; "m1"] "float64" (Arr2 (p_X p Side1)); mkVar "X2" ["M"; "m2"] "float64" (Arr2 (p_X p Side2));
   mkVar "Ur1" ["M"; "m1"] "float64" (Arr2 (p_Ur p Side1)); mkVar "Ur2" ["M"; "m2"] "float64" (Arr2 (p_Ur p Side2));
   mkVar "Us1" ["M"; "m1"] "float64" (Arr2 (p_Us p Side1)); mkVar "Us2" ["M"; "m2"] "float64" (Arr2 (p_Us p Side2));
   mkVar "uncertainty_type1" ["m1"] "int32" (IArr1 (p_type p Side1)); mkVar "uncertainty_type2" ["m2"] "int32" (IArr1 (p_type p Side2));
   mkVar "K" ["M"] "float64" (Arr1 (p_K p)); mkVar "Kr" ["M"] "float64" (Arr1 (p_Kr p)); mkVar "Ks" ["M"] "float64" (Arr1 (p_Ks p));
   mkVar "time1" ["M"] "float64" (Arr1 (p_time p Side1)); mkVar "time2" ["M"] "float64" (Arr1 (p_time p Side2))]%string.
Definition add_var (v : addvar) : ncvar := mkVar (ad_name v) (ad_dim v) (fst (st (ad_dtype v) (ad_data v))) (snd (st (ad_dtype v) (ad_data v))).
Definition dims_of (p : mdata) : list (string * nat) := [("M", p_M p); ("m1", p_m p Side1); ("m2", p_m p Side2)]%string.
Definition attrs_of (p : mdata) : list (string * string) := [("sensor_1_name", p_name p Side1); ("sensor_2_name", p_name p Side2)]%string.
Definition file_of (p : mdata) : ncfile := mkNc (dims_of p) (std_vars p ++ map add_var (p_more p)) (attrs_of p).

Lemma std_written p : well_shaped p ->
  foldM (fun f v => let '(n, t, dm, d) := v in create f32 trunc f n t dm d) (variables (args_of p None)) (mkNc (dims_of p) [] (attrs_of p)) = Ok (mkNc (dims_of p) (std_vars p) (attrs_of p)).
Proof.
  intros (Hs & HK & HKr & HKs & _).
  destruct (Hs Side1) as ((A1 & _) & (A2 & _) & (A3 & _) & A4 & A5). destruct (Hs Side2) as ((B1 & _) & (B2 & _) & (B3 & _) & B4 & B5).
  unfold variables, args_of, dims_of. cbn [g_X1 g_X2 g_Ur1 g_Ur2 g_Us1 g_Us2 g_t1 g_t2 g_K g_Kr g_Ks g_time1 g_time2].
  assert (S2 : forall vs n (dm : string) sd rows, (sd = Side1 /\ dm = "m1" \/ sd = Side2 /\ dm = "m2")%string -> length rows = p_M p -> inside n (map v_name vs) = false ->
    create f32 trunc (mkNc [("M", p_M p); ("m1", p_m p Side1); ("m2", p_m p Side2)]%string vs (attrs_of p)) n "f8" ["M"%string; dm] (D2 rows (p_m p sd)) =
    Ok (mkNc [("M", p_M p); ("m1", p_m p Side1); ("m2", p_m p Side2)]%string (vs ++ [mkVar n ["M"%string; dm] "float64" (Arr2 rows)]) (attrs_of p))).
  { intros vs n dm sd rows Hd Hl Hi. rewrite create_ok with (sz := [p_M p; p_m p sd]); [reflexivity|exact Hi| |cbn; rewrite Hl; reflexivity].
    destruct Hd as [(-> & ->)|(-> & ->)]; reflexivity. }
  assert (S1 : forall vs n l, length l = p_M p -> inside n (map v_name vs) = false ->
    create f32 trunc (mkNc [("M", p_M p); ("m1", p_m p Side1); ("m2", p_m p Side2)]%string vs (attrs_of p)) n "f8" ["M"%string] (D1 l) =
    Ok (mkNc [("M", p_M p); ("m1", p_m p Side1); ("m2", p_m p Side2)]%string (vs ++ [mkVar n ["M"%string] "float64" (Arr1 l)]) (attrs_of p))).
  { intros vs n l Hl Hi. rewrite create_ok with (sz := [p_M p]); [reflexivity|exact Hi|reflexivity|cbn; rewrite Hl; reflexivity]. }
  assert (S3 : forall vs n (dm : string) sd l, (sd = Side1 /\ dm = "m1" \/ sd = Side2 /\ dm = "m2")%string -> length l = p_m p sd -> inside n (map v_name vs) = false ->
    create f32 trunc (mkNc [("M", p_M p); ("m1", p_m p Side1); ("m2", p_m p Side2)]%string vs (attrs_of p)) n "i4" [dm] (DI l) =
    Ok (mkNc [("M", p_M p); ("m1", p_m p Side1); ("m2", p_m p Side2)]%string (vs ++ [mkVar n [dm] "int32" (IArr1 l)]) (attrs_of p))).
  { intros vs n dm sd l Hd Hl Hi. rewrite create_ok with (sz := [p_m p sd]); [reflexivity|exact Hi| |cbn; rewrite Hl; reflexivity].
    destruct Hd as [(-> & ->)|(-> & ->)]; reflexivity. }
  cbn [foldM].
  repeat (first [rewrite S2; [|solve [auto]|solve [auto]|reflexivity] | rewrite S1; [|solve [auto]|reflexivity] | rewrite (S3 _ _ _ Side1); [|solve [auto]|solve [auto]|reflexivity] | rewrite (S3 _ _ _ Side2); [|solve [auto]|solve [auto]|reflexivity]]; cbn [bind app]).
  reflexivity.
Qed.

Lemma dim_lookup p d k : dim_size p d k -> lookup d (dims_of p) = Some k.
Proof. intros [(-> & ->)|[(-> & ->)|(-> & ->)]]; reflexivity. Qed.

Lemma add_written p l : forall vs, (forall v, In v l -> add_shaped p v) -> NoDup (map ad_name l) -> (forall v, In v l -> ~ In (ad_name v) (map v_name vs)) ->
  foldM (fun f v => create f32 trunc f (ad_name v) (ad_dtype v) (ad_dim v) (ad_data v)) l (mkNc (dims_of p) vs (attrs_of p)) = Ok (mkNc (dims_of p) (vs ++ map add_var l) (attrs_of p)).
Proof.
  induction l as [|v l IH]; intros vs Hs Hn Hf; [cbn; rewrite app_nil_r; reflexivity|].
  cbn [foldM]. inversion Hn as [|? ? Hv Hn']; subst.
  rewrite create_ok with (sz := shape (ad_data v)); [|apply inside_out; apply Hf; left; reflexivity| |reflexivity].
  - cbn [bind nc_dims nc_vars nc_attrs]. fold (add_var v). rewrite IH; [|intros; apply Hs; right; auto|auto|].
    + rewrite <- app_assoc. reflexivity.
    + intros w Hw Hi. rewrite map_app, in_app_iff in Hi. destruct Hi as [Hi|[Hi|[]]]; [eapply Hf; [right; exact Hw|exact Hi]|].
      cbn in Hi. apply Hv. rewrite Hi. apply in_map. exact Hw.
  - cbn [nc_dims]. pose proof (Hs v (or_introl eq_refl)) as H. unfold add_shaped in H. destruct (ad_data v) as [x|rows k|x].
    + destruct H as (d & -> & H). cbn [mapM shape]. rewrite (dim_lookup _ _ _ H). reflexivity.
    + destruct H as (d & e & -> & H & H' & _). cbn [mapM]. rewrite (dim_lookup _ _ _ H), (dim_lookup _ _ _ H'). reflexivity.
    + destruct H as (d & -> & H). cbn [mapM shape]. rewrite (dim_lookup _ _ _ H). reflexivity.
Qed.

Lemma format_std p n : In n (map v_name (std_vars p)) -> In n format_names.
Proof. cbn. tauto. Qed.

Theorem written p w : well_shaped p -> write (args_of p w) = Ok (file_of p).
Proof.
  intros Hw. unfold write_input_file. replace (variables (args_of p w)) with (variables (args_of p None)) by reflexivity.
  cbn [args_of g_X1 g_X2 shape get nth_error bind g_s1 g_s2].
  pose proof (std_written p Hw) as E. pose proof Hw as (Hs & HK & HKr & HKs & HN & HA). destruct (Hs Side1) as ((A1 & _) & _).
  rewrite A1. unfold dims_of, attrs_of in E. rewrite E. cbn [bind]. unfold file_of.
  pose proof (add_written p (p_more p) (std_vars p)) as F. unfold args_of. cbn [g_add]. destruct (p_more p) as [|v l] eqn:El; [reflexivity|].
  apply F; [|auto|].
  - intros v' Hv. apply HA; auto.
  - intros v' Hv Hi. apply format_std in Hi. apply (HA v') in Hi; auto.
Qed.

Lemma add_names p : map v_name (map add_var (p_more p)) = map ad_name (p_more p).
Proof. rewrite map_map. reflexivity. Qed.

Lemma dim_in p d k : dim_size p d k -> In (d, k) (dims_of p).
Proof. intros [(-> & ->)|[(-> & ->)|(-> & ->)]]; cbn; auto. Qed.

Lemma add_fits p vs v : add_shaped p v -> fits (mkNc (dims_of p) vs (attrs_of p)) (add_var v).
Proof.
  intros H. unfold fits, add_var, size, stored, add_shaped in *. cbn [v_data v_dims v_dtype nc_dims].
  destruct (String.eqb (ad_dtype v) "f8"); [|destruct (String.eqb (ad_dtype v) "f4"); [|destruct (String.eqb (ad_dtype v) "i4")]]; cbn [fst snd].
  - destruct (ad_data v) as [x|rows k|x].
    + destruct H as (d & -> & H). split; [cbn; auto|]. exists d. split; [auto|]. apply dim_in; auto.
    + destruct H as (d & e & -> & H & H' & HR). split; [cbn; auto|]. exists d, e, k. do 3 (split; [auto using dim_in|]). exact HR.
    + destruct H as (d & -> & H). split; [cbn; auto|]. exists d. split; [auto|]. rewrite map_length. apply dim_in; auto.
  - destruct (ad_data v) as [x|rows k|x].
    + destruct H as (d & -> & H). split; [cbn; auto|]. exists d. split; [auto|]. rewrite map_length. apply dim_in; auto.
    + destruct H as (d & e & -> & H & H' & HR). split; [cbn; auto|]. exists d, e, k. split; [auto|]. rewrite map_length. do 2 (split; [auto using dim_in|]).
      intros r Hr. apply in_map_iff in Hr. destruct Hr as (r' & <- & Hr). rewrite map_length. auto.
    + destruct H as (d & -> & H). split; [cbn; auto|]. exists d. split; [auto|]. rewrite map_length. apply dim_in; auto.
  - destruct (ad_data v) as [x|rows k|x].
    + destruct H as (d & -> & H). split; [auto|]. exists d. split; [auto|]. rewrite map_length. apply dim_in; auto.
    + destruct H as (d & e & -> & H & H' & HR). split; [auto|]. exists d, e, k. split; [auto|]. rewrite map_length. do 2 (split; [auto using dim_in|]).
      intros r Hr. apply in_map_iff in Hr. destruct Hr as (r' & <- & Hr). rewrite map_length. auto.
    + destruct H as (d & -> & H). split; [auto|]. exists d. split; [auto|]. apply dim_in; auto.
  - left. cbn. intuition discriminate.
Qed.

Lemma NoDup_app' {A} (a b : list A) : NoDup a -> NoDup b -> (forall x, In x a -> ~ In x b) -> NoDup (a ++ b).
Proof.
  induction a as [|x a IH]; intros Ha Hb Hd; [exact Hb|]. inversion Ha; subst. cbn. constructor.
  - rewrite in_app_iff. intros [H|H]; [auto|]. apply (Hd x); cbn; auto.
  - apply IH; auto. intros y Hy. apply Hd. right. exact Hy.
Qed.

Theorem file_wf p : well_shaped p -> wf_nc (file_of p).
Proof.
  intros (Hs & HK & HKr & HKs & HN & HA).
  destruct (Hs Side1) as ((A1 & C1) & (A2 & C2) & (A3 & C3) & A4 & A5). destruct (Hs Side2) as ((B1 & D1') & (B2 & D2') & (B3 & D3) & B4 & B5).
  unfold wf_nc. split; [cbn; repeat constructor; cbn; intuition discriminate|]. split; [|split].
  - unfold file_of. cbn [nc_vars]. rewrite map_app, add_names. apply NoDup_app'; [cbn; repeat constructor; cbn; intuition discriminate|exact HN|].
    intros n H1 H2. apply format_std in H1. apply in_map_iff in H2. destruct H2 as (v & <- & Hv). apply (HA v Hv); auto.
  - cbn. repeat constructor; cbn; intuition discriminate.
  - intros v Hv. unfold file_of in *. cbn [nc_vars] in Hv. apply in_app_iff in Hv. destruct Hv as [Hv|Hv].
    + unfold fits, size. cbn [nc_dims dims_of].
      cbn in Hv. repeat (destruct Hv as [<-|Hv]; [cbn [v_data v_dims v_dtype]; split; [cbn; tauto|]; first [
        eexists; split; [reflexivity|]; cbn; rewrite ?HK, ?HKr, ?HKs, ?A4, ?A5, ?B4, ?B5; tauto
       |eexists _, _, (p_m p Side1); split; [reflexivity|]; rewrite ?A1, ?A2, ?A3, ?B1, ?B2, ?B3; cbn; split; [solve [tauto]|]; split; [solve [tauto]|solve [auto]]
       |eexists _, _, (p_m p Side2); split; [reflexivity|]; rewrite ?A1, ?A2, ?A3, ?B1, ?B2, ?B3; cbn; split; [solve [tauto]|]; split; [solve [tauto]|solve [auto]]]|]).
      destruct Hv.
    + apply in_map_iff in Hv. destruct Hv as (w & <- & Hv). apply add_fits. apply HA; auto.
Qed.
End W.
