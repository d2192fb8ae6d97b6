From Verif Require Import Base BaseLemmas ReaderModel SensorModel SensorSpec.

Lemma labelled_app {B} s l1 l2 (v1 v2 : list B) : length l1 = length v1 ->
  labelled s (l1 ++ l2) (v1 ++ v2) = labelled s l1 v1 ++ labelled s l2 v2.
Proof.
  intros H. unfold labelled. replace (combine (l1 ++ l2) (v1 ++ v2)) with (combine l1 v1 ++ combine l2 v2).
  - rewrite filter_app, map_app. reflexivity.
  - revert v1 H; induction l1; intros [|x v1] H; cbn in *; try discriminate; auto. rewrite IHl1 by lia. reflexivity.
Qed.

Lemma labelled_const {B} s s' (v : list B) :
  labelled s (map (fun _ => s') v) v = if String.eqb s' s then v else [].
Proof.
  unfold labelled. induction v as [|x v IH]; cbn; [destruct (String.eqb s' s); auto|].
  destruct (String.eqb s' s) eqn:E; cbn; rewrite ?E in *; cbn; congruence.
Qed.

Lemma flat_map_nil' {X Y} (f : X -> list Y) l : (forall x, In x l -> f x = []) -> flat_map f l = [].
Proof. induction l; cbn; intros H; auto. rewrite H, IHl by auto. reflexivity. Qed.

Lemma labelled_dict {E B} s (get : E -> list B) (sd : list (string * E)) :
  labelled s (flat_map (fun kv => map (fun _ => fst kv) (get (snd kv))) sd) (flat_map (fun kv => get (snd kv)) sd)
  = flat_map (fun kv => if String.eqb (fst kv) s then get (snd kv) else []) sd.
Proof.
  induction sd as [|[k e] sd IH]; cbn [flat_map fst snd]; [reflexivity|].
  rewrite labelled_app by (rewrite map_length; reflexivity). rewrite labelled_const, IH. reflexivity.
Qed.

Lemma labelled_map {B D} (f : B -> D) s l v : labelled s l (map f v) = map f (labelled s l v).
Proof.
  unfold labelled. revert v; induction l as [|a l IH]; intros [|x v]; cbn; auto.
  destruct (String.eqb a s); cbn; rewrite IH; reflexivity.
Qed.

Lemma select_one {E B} s (get : E -> list B) (sd : list (string * E)) e :
  NoDup (map fst sd) -> lookup s sd = Some e ->
  flat_map (fun kv => if String.eqb (fst kv) s then get (snd kv) else []) sd = get e.
Proof.
  induction sd as [|[k e'] sd IH]; cbn; [discriminate|]. intros Hn Hl. inversion Hn; subst.
  destruct (String.eqb k s) eqn:Ek.
  - injection Hl as <-. apply String.eqb_eq in Ek. subst k.
    rewrite (flat_map_nil' _ sd), app_nil_r; auto.
    intros [k2 e2] Hi. cbn. destruct (String.eqb k2 s) eqn:E2; auto. apply String.eqb_eq in E2. subst.
    exfalso. apply H1. apply (in_map fst _ _ Hi).
  - apply IH; auto.
Qed.

Lemma lookup_filter {E} s (p : string -> bool) (sd : list (string * E)) : p s = true ->
  lookup s (filter (fun kv => p (fst kv)) sd) = lookup s sd.
Proof.
  intros Hp. induction sd as [|[k e] sd IH]; cbn; [reflexivity|].
  destruct (p k) eqn:Ek; cbn; destruct (String.eqb k s) eqn:Eks; auto.
  apply String.eqb_eq in Eks. congruence.
Qed.

Lemma filter_NoDup_fst {E} p (sd : list (string * E)) : NoDup (map fst sd) -> NoDup (map fst (filter p sd)).
Proof.
  induction sd as [|kv sd IH]; cbn; intros Hn; [constructor|]. inversion Hn; subst.
  destruct (p kv); cbn; auto. constructor; auto.
  intros Hi. apply H1. apply in_map_iff in Hi as (x & Hx & Hf). apply filter_In in Hf as (Hf & _).
  rewrite <- Hx. apply in_map; auto.
Qed.

Section P.
Context {V C F A : Type} (f32 : V -> V) (default_adj : A).
Notation sentry := (sentry V C F A).

Theorem params_attributed (sd : list (string * sentry)) sensors e :
  NoDup (map fst sd) -> extract_sensor_data V C F A f32 default_adj sd sensors = Ok e ->
  length (e_param_sensor V C F A e) = length (e_a V C F A e) /\
  length (e_const_sensor V C F A e) = length (e_const V C F A e) /\
  forall i s, nth_error sensors i = Some s ->
    exists en, lookup s sd = Some en /\
      labelled s (e_param_sensor V C F A e) (e_a V C F A e) = map f32 (s_param V C F A en) /\
      labelled s (e_const_sensor V C F A e) (e_const V C F A e) = s_const V C F A en /\
      nth_error (e_model V C F A e) i = Some (s_model V C F A en).
Proof.
  intros Hn. unfold extract_sensor_data.
  destruct (mapM _ sensors) as [ma|] eqn:Em; cbn [bind]; [|discriminate]. intros E; injection E as <-.
  cbn [e_param_sensor e_a e_const_sensor e_const e_model].
  set (mine := filter _ sd).
  assert (Hlen : forall (get : sentry -> list V), length (flat_map (fun kv : string * sentry => map (fun _ => fst kv) (get (snd kv))) mine)
     = length (flat_map (fun kv => get (snd kv)) mine)).
  { intros g. clearbody mine. clear - mine. induction mine as [|kv m IH]; cbn; auto. rewrite !app_length, map_length. rewrite IH; auto. }
  assert (Hlen2 : forall (get : sentry -> list C), length (flat_map (fun kv : string * sentry => map (fun _ => fst kv) (get (snd kv))) mine)
     = length (flat_map (fun kv => get (snd kv)) mine)).
  { intros g. clearbody mine. clear - mine. induction mine as [|kv m IH]; cbn; auto. rewrite !app_length, map_length. rewrite IH; auto. }
  split; [rewrite map_length; apply Hlen|]. split; [apply Hlen2|].
  intros i s Hs.
  destruct (mapM_nth _ _ _ i s Em Hs) as (p & Hp & Hnp).
  destruct (lookup s sd) as [en|] eqn:El; [|discriminate].
  destruct (adjustment _ _ _ _ _ en) as [ad|]; cbn [bind] in Hp; [|discriminate]. injection Hp as <-.
  exists en. split; [reflexivity|].
  assert (Hin : mem String.eqb s sensors = true).
  { apply mem_in; [apply String.eqb_eq|]. eapply nth_error_In; eauto. }
  assert (El' : lookup s mine = Some en) by (unfold mine; rewrite (lookup_filter s (fun k => mem String.eqb k sensors)); auto).
  assert (Hn' : NoDup (map fst mine)) by (apply filter_NoDup_fst; auto).
  split; [|split].
  - rewrite labelled_map, labelled_dict. f_equal. apply select_one; auto.
  - rewrite labelled_dict. apply select_one; auto.
  - rewrite nth_error_map', Hnp. reflexivity.
Qed.

(** Opening succeeds as soon as every sensor of the match-up is in the dictionary and none has an
    "adjustment_model" entry. *)
Theorem extract_succeeds (sd : list (string * sentry)) sensors :
  (forall s, In s sensors -> exists en, lookup s sd = Some en /\ s_adj V C F A en = None) ->
  exists e, extract_sensor_data V C F A f32 default_adj sd sensors = Ok e /\
    e_adj V C F A e = map (fun _ => default_adj) sensors.
Proof.
  intros H. unfold extract_sensor_data.
  assert (G : exists ma, mapM (fun s => match lookup s sd with
     | None => Raise KeyError
     | Some e => do a <- adjustment V C F A default_adj e;; Ok (s_model V C F A e, a) end) sensors = Ok ma
     /\ map snd ma = map (fun _ => default_adj) sensors).
  { induction sensors as [|s ss IH]; cbn; [eauto|].
    destruct (H s (or_introl eq_refl)) as (en & -> & Ha).
    destruct IH as (ma & -> & Hma); [intros; apply H; right; auto|].
    unfold adjustment. rewrite Ha. cbn [bind]. eexists; split; [reflexivity|]. cbn. congruence. }
  destruct G as (ma & -> & Hma). cbn [bind]. eexists; split; [reflexivity|]. cbn. auto.
Qed.
End P.
