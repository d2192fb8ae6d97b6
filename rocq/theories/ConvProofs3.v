(** * Proofs for C140-C146: files written with 4 or 8 byte floats. *)
From Coq Require Import Reals Lra.
From Verif Require Import Base BaseLemmas ReaderModel ReaderSpec ReaderMain UncModel UncSpec UncProofs SimModel CheckModel CheckSpec CheckProofs CheckProofs2 CheckProofs3 CheckProofs4 CheckProofs5 IOModel IOSpec IOProofs IOProofs2 ConvModel ConvSpec ConvProofs ConvProofs2.
Open Scope nat_scope.

Lemma mmid (rows : list (list R)) : map (map (fun x => x)) rows = rows.
Proof. rewrite <- (map_id rows) at 2. apply map_ext. intros. apply map_id. Qed.
Definition vars_as (ty : string) (p : mdata) : list ncvar :=
  [mkVar "X1" ["M"; "m1"] ty (Arr2 (p_X p Side1)); mkVar "X2" ["M"; "m2"] ty (Arr2 (p_X p Side2));
   mkVar "Ur1" ["M"; "m1"] ty (Arr2 (p_Ur p Side1)); mkVar "Ur2" ["M"; "m2"] ty (Arr2 (p_Ur p Side2));
   mkVar "Us1" ["M"; "m1"] ty (Arr2 (p_Us p Side1)); mkVar "Us2" ["M"; "m2"] ty (Arr2 (p_Us p Side2));
   mkVar "uncertainty_type1" ["m1"] "int32" (IArr1 (p_type p Side1)); mkVar "uncertainty_type2" ["m2"] "int32" (IArr1 (p_type p Side2));
   mkVar "K" ["M"] ty (Arr1 (p_K p)); mkVar "Kr" ["M"] ty (Arr1 (p_Kr p)); mkVar "Ks" ["M"] ty (Arr1 (p_Ks p));
   mkVar "time1" ["M"] "float64" (Arr1 (p_time p Side1)); mkVar "time2" ["M"] "float64" (Arr1 (p_time p Side2))]%string.

Section W.
Context (f32 : R -> R) (trunc : R -> Z).
Definition file_as (ty : string) (p : mdata) : ncfile := mkNc (dims_of p) (vars_as ty p ++ map (add_var f32 trunc) (p_more p)) (attrs_of p).

Lemma std_as ft ty g p : fmt f32 ft ty g -> well_shaped p ->
  foldM (fun f v => let '(n, t, dm, d) := v in create f32 trunc f n t dm d) (variables_as ft (args_of p None)) (mkNc (dims_of p) [] (attrs_of p)) = Ok (mkNc (dims_of p) (vars_as ty (mapped g p)) (attrs_of p)).
Proof.
  intros Hft (Hs & HK & HKr & HKs & _).
  destruct (Hs Side1) as ((A1 & _) & (A2 & _) & (A3 & _) & A4 & A5). destruct (Hs Side2) as ((B1 & _) & (B2 & _) & (B3 & _) & B4 & B5).
  unfold variables_as, args_of, dims_of. cbn [g_X1 g_X2 g_Ur1 g_Ur2 g_Us1 g_Us2 g_t1 g_t2 g_K g_Kr g_Ks g_time1 g_time2].
  assert (F2 : forall rows k, stored f32 trunc ft (D2 rows k) = (ty, Arr2 (map (map g) rows))) by (intros; destruct Hft as [(-> & -> & ->)|(-> & -> & ->)]; cbn; [rewrite mmid|]; reflexivity).
  assert (S2 : forall vs n (dm : string) sd rows, (sd = Side1 /\ dm = "m1" \/ sd = Side2 /\ dm = "m2")%string -> length rows = p_M p -> inside n (map v_name vs) = false ->
    create f32 trunc (mkNc [("M", p_M p); ("m1", p_m p Side1); ("m2", p_m p Side2)]%string vs (attrs_of p)) n ft ["M"%string; dm] (D2 rows (p_m p sd)) =
    Ok (mkNc [("M", p_M p); ("m1", p_m p Side1); ("m2", p_m p Side2)]%string (vs ++ [mkVar n ["M"%string; dm] ty (Arr2 (map (map g) rows))]) (attrs_of p))).
  { intros vs n dm sd rows Hd Hl Hi. rewrite create_ok with (sz := [p_M p; p_m p sd]); [rewrite F2; reflexivity|exact Hi| |cbn; rewrite Hl; reflexivity].
    destruct Hd as [(-> & ->)|(-> & ->)]; reflexivity. }
  assert (S1 : forall vs n l, length l = p_M p -> inside n (map v_name vs) = false ->
    create f32 trunc (mkNc [("M", p_M p); ("m1", p_m p Side1); ("m2", p_m p Side2)]%string vs (attrs_of p)) n ft ["M"%string] (D1 l) =
    Ok (mkNc [("M", p_M p); ("m1", p_m p Side1); ("m2", p_m p Side2)]%string (vs ++ [mkVar n ["M"%string] ty (Arr1 (map g l))]) (attrs_of p))).
  { intros vs n l Hl Hi. rewrite create_ok with (sz := [p_M p]); [rewrite (fmt_stored _ _ _ _ _ _ Hft); reflexivity|exact Hi|reflexivity|cbn; rewrite Hl; reflexivity]. }
  assert (S0 : forall vs n l, length l = p_M p -> inside n (map v_name vs) = false ->
    create f32 trunc (mkNc [("M", p_M p); ("m1", p_m p Side1); ("m2", p_m p Side2)]%string vs (attrs_of p)) n "f8" ["M"%string] (D1 l) =
    Ok (mkNc [("M", p_M p); ("m1", p_m p Side1); ("m2", p_m p Side2)]%string (vs ++ [mkVar n ["M"%string] "float64" (Arr1 l)]) (attrs_of p))).
  { intros vs n l Hl Hi. rewrite create_ok with (sz := [p_M p]); [reflexivity|exact Hi|reflexivity|cbn; rewrite Hl; reflexivity]. }
  assert (S3 : forall vs n (dm : string) sd l, (sd = Side1 /\ dm = "m1" \/ sd = Side2 /\ dm = "m2")%string -> length l = p_m p sd -> inside n (map v_name vs) = false ->
    create f32 trunc (mkNc [("M", p_M p); ("m1", p_m p Side1); ("m2", p_m p Side2)]%string vs (attrs_of p)) n "i4" [dm] (DI l) =
    Ok (mkNc [("M", p_M p); ("m1", p_m p Side1); ("m2", p_m p Side2)]%string (vs ++ [mkVar n [dm] "int32" (IArr1 l)]) (attrs_of p))).
  { intros vs n dm sd l Hd Hl Hi. rewrite create_ok with (sz := [p_m p sd]); [reflexivity|exact Hi| |cbn; rewrite Hl; reflexivity].
    destruct Hd as [(-> & ->)|(-> & ->)]; reflexivity. }
  cbn [foldM].
  do 6 (rewrite S2; [|solve [auto]|solve [auto]|reflexivity]; cbn [bind app]).
  rewrite (S3 _ _ _ Side1); [|solve [auto]|solve [auto]|reflexivity]; cbn [bind app].
  rewrite (S3 _ _ _ Side2); [|solve [auto]|solve [auto]|reflexivity]; cbn [bind app].
  do 3 (rewrite S1; [|solve [auto]|reflexivity]; cbn [bind app]).
  do 2 (rewrite S0; [|solve [auto]|reflexivity]; cbn [bind app]).
  reflexivity.
Qed.

Theorem written_as ft ty g p w : fmt f32 ft ty g -> well_shaped p -> write_as f32 trunc ft (args_of p w) = Ok (file_as ty (mapped g p)).
Proof.
  intros Hft Hw. unfold write_as. replace (variables_as ft (args_of p w)) with (variables_as ft (args_of p None)) by reflexivity.
  cbn [args_of g_X1 g_X2 shape get nth_error bind g_s1 g_s2].
  pose proof (std_as ft ty g p Hft Hw) as E. pose proof Hw as (Hs & HK & HKr & HKs & HN & HA). destruct (Hs Side1) as ((A1 & _) & _).
  rewrite A1. unfold dims_of, attrs_of in E. rewrite E. cbn [bind]. unfold file_as. cbn [mapped p_more].
  pose proof (add_written f32 trunc p (p_more p) (vars_as ty (mapped g p))) as F. unfold args_of. cbn [g_add]. destruct (p_more p) as [|v l] eqn:El; [reflexivity|].
  apply F; [|auto|].
  - intros v' Hv. apply HA; auto.
  - intros v' Hv Hi. apply (HA v'); [exact Hv|]. cbn in Hi. cbn. tauto.
Qed.

Lemma mapped_shaped g p : well_shaped p -> well_shaped (mapped g p).
Proof.
  intros (Hs & HK & HKr & HKs & HN & HA). unfold well_shaped. cbn [mapped p_X p_Ur p_Us p_type p_time p_K p_Kr p_Ks p_M p_m p_more]. rewrite !map_length.
  assert (MM : forall rows n k, matrix rows n k -> matrix (map (map g) rows) n k).
  { intros rows n k (L & H). split; [rewrite map_length; exact L|]. intros r Hr. apply in_map_iff in Hr. destruct Hr as (r' & <- & Hr). rewrite map_length. auto. }
  split; [intros sd; destruct (Hs sd) as (A & B & C & D & E); split; [apply MM, A|]; split; [apply MM, B|]; split; [apply MM, C|]; auto|]. do 4 (split; [assumption|]).
  intros v Hv. destruct (HA v Hv) as (H1 & H2). split; [exact H1|]. unfold add_shaped, dim_size in *. cbn [mapped p_M p_m]. exact H2.
Qed.

Lemma as_base ty p : float_name ty -> well_shaped p -> base_file (file_as ty p) p.
Proof.
  intros Hty Hw. pose proof Hw as (Hs & HK & HKr & HKs & HN & HA).
  destruct (Hs Side1) as ((A1 & C1) & (A2 & C2) & (A3 & C3) & A4 & A5). destruct (Hs Side2) as ((B1 & D1') & (B2 & D2') & (B3 & D3) & B4 & B5).
  assert (FD : forall n a, In (n, a) (map (fun v => (v_name v, v_data v)) (vars_as ty p)) -> data (file_as ty p) n a).
  { intros n a H. apply in_map_iff in H. destruct H as (v & E & Hv). injection E as <- <-. exists v. split; [cbn [file_as nc_vars]; apply in_app_iff; auto|auto]. }
  constructor.
  - split; [cbn; repeat constructor; cbn; intuition discriminate|]. split; [|split].
    + cbn [file_as nc_vars]. rewrite map_app, add_names. apply NoDup_app'; [cbn; repeat constructor; cbn; intuition discriminate|exact HN|].
      intros n H1 H2. apply in_map_iff in H2. destruct H2 as (v & <- & Hv). apply (HA v Hv). cbn in H1. cbn. tauto.
    + cbn. repeat constructor; cbn; intuition discriminate.
    + intros v Hv. cbn [file_as nc_vars] in Hv. apply in_app_iff in Hv. destruct Hv as [Hv|Hv].
      * unfold fits, size. cbn [file_as nc_dims dims_of].
        cbn in Hv. repeat (destruct Hv as [<- |Hv]; [cbn [v_data v_dims v_dtype]; split; [first [exact Hty|cbn; tauto]|]; first [
          eexists; split; [reflexivity|]; cbn; rewrite ?HK, ?HKr, ?HKs, ?A4, ?A5, ?B4, ?B5; tauto
         |eexists _, _, (p_m p Side1); split; [reflexivity|]; rewrite ?A1, ?A2, ?A3, ?B1, ?B2, ?B3; cbn; split; [solve [tauto]|]; split; [solve [tauto]|solve [auto]]
         |eexists _, _, (p_m p Side2); split; [reflexivity|]; rewrite ?A1, ?A2, ?A3, ?B1, ?B2, ?B3; cbn; split; [solve [tauto]|]; split; [solve [tauto]|solve [auto]]]|]).
        destruct Hv.
      * apply in_map_iff in Hv. destruct Hv as (w & <- & Hv). apply add_fits. apply HA; auto.
  - assert (DD : forall n dm tys, (exists t, In t tys /\ In (n, dm, t) (map (fun v => (v_name v, v_dims v, v_dtype v)) (vars_as ty p))) -> declared (file_as ty p) n dm tys).
    { intros n dm tys (t & Ht & H). apply in_map_iff in H. destruct H as (v & E & Hv). injection E as <- <- <-. exists v. split; [cbn [file_as nc_vars]; apply in_app_iff; auto|auto]. }
    unfold required. repeat apply conj; apply DD; (first [exists ty; split; [exact Hty|cbn; tauto]|exists "float64"%string; split; [cbn; tauto|cbn; tauto]|exists "int32"%string; split; [cbn; tauto|cbn; tauto]]).
  - intros n Hn (v & Hv & En). cbn [file_as nc_vars] in Hv. apply in_app_iff in Hv. destruct Hv as [Hv|Hv].
    + cbn in Hv. repeat (destruct Hv as [<- |Hv]; [cbn in En; subst n; cbn in Hn; intuition discriminate|]). destruct Hv.
    + apply in_map_iff in Hv. destruct Hv as (w & <- & Hv). cbn in En. apply (HA w Hv). rewrite En. unfold format_names. apply in_app_iff. auto.
  - intros n k Hn Hi. unfold size in Hi. cbn [file_as nc_dims dims_of] in Hi. cbn in Hn, Hi. intuition congruence.
  - cbn. tauto.
  - intros [|]; cbn; tauto.
  - intros [|]; cbn; tauto.
  - intros [|]; apply FD; cbn; tauto.
  - intros [|]; apply FD; cbn; tauto.
  - intros [|]; apply FD; cbn; tauto.
  - intros [|]; apply FD; cbn; tauto.
  - intros [|]; apply FD; cbn; tauto.
  - apply FD. cbn. tauto.
  - apply FD. cbn. tauto.
  - apply FD. cbn. tauto.
Qed.
End W.
