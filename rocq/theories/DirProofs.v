(** * Proofs about the files read and written. *)
From Coq Require Import String Permutation Sorted NArith Nnat.
From Verif Require Import Base BaseLemmas DirModel DirSpec.
Open Scope nat_scope.

(** ** Order of strings *)
Lemma acmp a b : Ascii.compare a b = Nat.compare (Ascii.nat_of_ascii a) (Ascii.nat_of_ascii b).
Proof. unfold Ascii.compare, Ascii.nat_of_ascii. rewrite N2Nat.inj_compare. reflexivity. Qed.
Lemma leb_lex s t : String.leb s t = true <-> lex s t.
Proof.
  revert t. induction s as [|a s IH]; intros t; unfold String.leb in *.
  - split; [constructor|]. destruct t; reflexivity.
  - destruct t as [|b t]; [split; [discriminate|inversion 1]|]. cbn [String.compare]. rewrite acmp. destruct (Nat.compare_spec (Ascii.nat_of_ascii a) (Ascii.nat_of_ascii b)) as [E|E|E].
    + assert (a = b) by (rewrite <- (Ascii.ascii_nat_embedding a), <- (Ascii.ascii_nat_embedding b); congruence). subst b. rewrite IH. split; [intros L; apply lex_eq, L|]. intros L. inversion L; subst; [lia|assumption].
    + split; [intros _; constructor; exact E|reflexivity].
    + split; [discriminate|]. inversion 1; subst; lia.
Qed.
Lemma lex_trans s t u : lex s t -> lex t u -> lex s u.
Proof.
  intros H. revert u. induction H as [|a b s t Hl|a s t H IH]; intros u Hu; [constructor| |].
  - inversion Hu; subst; constructor; lia.
  - inversion Hu; subst; [constructor; auto|apply lex_eq, IH; assumption].
Qed.
Lemma lex_anti s t : lex s t -> lex t s -> s = t.
Proof. intros H H'. apply leb_lex in H. apply leb_lex in H'. apply String.leb_antisym; auto. Qed.
Lemma lex_total s t : lex s t \/ lex t s.
Proof. rewrite <- !leb_lex. apply String.leb_total. Qed.

(** ** Sorting *)
Lemma insert_perm x l : Permutation (insert x l) (x :: l).
Proof. induction l as [|y l IH]; cbn; [auto|]. destruct (String.leb x y); [auto|]. rewrite IH. constructor. Qed.
Lemma sorted_perm l : Permutation (sorted l) l.
Proof. induction l as [|x l IH]; cbn; [constructor|]. rewrite insert_perm. constructor. exact IH. Qed.
Lemma insert_sorted x l : StronglySorted lex l -> StronglySorted lex (insert x l).
Proof.
  induction 1 as [|y l H IH F]; cbn; [repeat constructor|]. destruct (String.leb x y) eqn:E.
  - apply leb_lex in E. constructor; [constructor; auto|]. constructor; [exact E|]. eapply Forall_impl; [|exact F]. intros z Hz. exact (lex_trans _ _ _ E Hz).
  - constructor; [exact IH|]. apply Forall_forall. intros z Hz. apply (Permutation_in z (insert_perm x l)) in Hz. destruct Hz as [<-|Hz]; [|rewrite Forall_forall in F; apply F, Hz].
    destruct (lex_total y x) as [L|L]; [exact L|]. apply leb_lex in L. congruence.
Qed.
Lemma sorted_sorted l : StronglySorted lex (sorted l).
Proof. induction l as [|x l IH]; cbn; [constructor|]. apply insert_sorted, IH. Qed.
Lemma sorted_unique l l' : StronglySorted lex l -> StronglySorted lex l' -> Permutation l l' -> l = l'.
Proof.
  intros S. revert l'. induction S as [|x l S IH F]; intros l' S' P; [apply Permutation_nil in P; auto|].
  destruct l' as [|y l']; [symmetry in P; apply Permutation_nil in P; discriminate|]. inversion S' as [|? ? S2 F2]; subst.
  assert (x = y).
  { apply lex_anti.
    - assert (I : In y (x :: l)) by (apply (Permutation_in y (Permutation_sym P)); left; auto). destruct I as [->|I]; [destruct (lex_total y y); auto|]. rewrite Forall_forall in F. auto.
    - assert (I : In x (y :: l')) by (apply (Permutation_in x P); left; auto). destruct I as [->|I]; [destruct (lex_total x x); auto|]. rewrite Forall_forall in F2. auto. }
  subst y. f_equal. apply IH; [exact S2|]. exact (Permutation_cons_inv P).
Qed.
Lemma sorted_inv l l' : Permutation l l' -> sorted l = sorted l'.
Proof. intros P. apply sorted_unique; [apply sorted_sorted|apply sorted_sorted|]. rewrite (sorted_perm l), (sorted_perm l'). exact P. Qed.
Lemma filter_permut {A} (f : A -> bool) l l' : Permutation l l' -> Permutation (filter f l) (filter f l').
Proof.
  induction 1 as [|x l l' P IH|x y l|l l' l'' P1 IH1 P2 IH2]; cbn; [constructor| | |eapply Permutation_trans; eauto].
  - destruct (f x); [constructor; auto|auto].
  - destruct (f x), (f y); try reflexivity. constructor.
Qed.

(** ** Names *)
Lemma str_length_app s t : String.length (s ++ t) = String.length s + String.length t.
Proof. induction s as [|a s IH]; cbn; [reflexivity|]. rewrite IH. reflexivity. Qed.
Lemma sub_app s t n : String.substring (String.length s) n (s ++ t) = String.substring 0 n t.
Proof. induction s as [|a s IH]; cbn; [reflexivity|exact IH]. Qed.
Lemma sub_whole s : String.substring 0 (String.length s) s = s.
Proof. induction s as [|a s IH]; cbn; [reflexivity|]. rewrite IH. reflexivity. Qed.
Lemma sub_split s k : k <= String.length s -> s = (String.substring 0 k s ++ String.substring k (String.length s - k) s)%string.
Proof.
  revert k. induction s as [|a s IH]; intros k Hk; [destruct k; reflexivity|]. destruct k as [|k].
  - cbn [String.length] in *. change (String.substring 0 0 (String a s)) with EmptyString. rewrite Nat.sub_0_r. cbn [append]. symmetry. apply (sub_whole (String a s)).
  - cbn [String.length String.substring] in *. cbn [append]. f_equal. apply IH. lia.
Qed.
Lemma nc_spec f : is_nc f = true <-> nc_name f.
Proof.
  unfold is_nc, nc_name. split.
  - intros H. apply String.eqb_eq in H. destruct (Nat.le_gt_cases 3 (String.length f)) as [L|L].
    + exists (String.substring 0 (String.length f - 3) f). rewrite (sub_split f (String.length f - 3)) at 1 by lia. f_equal. rewrite <- H. f_equal. lia.
    + exfalso. assert (E : String.length (String.substring (String.length f - 3) 3 f) = 3) by (rewrite H; reflexivity). destruct f as [|a [|b [|c f]]]; cbn in E, L; lia.
  - intros [stem ->]. apply String.eqb_eq. rewrite str_length_app. cbn [String.length]. replace (String.length stem + 3 - 3) with (String.length stem) by lia. rewrite sub_app. reflexivity.
Qed.

(** ** open_nc_datasets *)
Lemma directory_ok fs d names : fs d = Dir names -> exists ps, open_nc_datasets fs (PStr d) = Ok (Some ps) /\ nc_files d names ps.
Proof.
  intros H. unfold open_nc_datasets. rewrite H. cbn [is_dir listdir bind]. eexists. split; [reflexivity|]. split; [apply sorted_sorted|]. split; [apply sorted_perm|exact nc_spec].
Qed.
Lemma directory_order fs fs' d names names' : fs d = Dir names -> fs' d = Dir names' -> Permutation names names' -> open_nc_datasets fs (PStr d) = open_nc_datasets fs' (PStr d).
Proof. intros H H' P. unfold open_nc_datasets. rewrite H, H'. cbn [is_dir listdir bind]. do 2 f_equal. apply sorted_inv. apply Permutation_map, filter_permut, P. Qed.

(** ** The tool writing the true K *)
Section TrueK.
Context {X K : Type}.
Implicit Types (d : dir X K) (f : mfile X K).
Lemma put_same n f d : find_file n (put_file n f d) = Some f.
Proof. induction d as [|[m g] d IH]; cbn; [rewrite String.eqb_refl; auto|]. destruct (String.eqb m n) eqn:E; cbn; rewrite E; auto. Qed.
Lemma put_other n m f d : n <> m -> find_file m (put_file n f d) = find_file m d.
Proof.
  intros H. induction d as [|[k g] d IH]; cbn.
  - destruct (String.eqb_spec n m); [contradiction|reflexivity].
  - destruct (String.eqb_spec k n) as [->|E]; cbn; destruct (String.eqb_spec n m); try contradiction; try reflexivity. + destruct (String.eqb_spec k m); [reflexivity|exact IH].
Qed.
Lemma copied src : forall dst n f, NoDup (map fst src) -> In (n, f) src -> find_file n (copy_tree src dst) = Some f.
Proof.
  unfold copy_tree. induction src as [|[m g] src IH]; intros dst n f ND HI; [destruct HI|]. inversion ND as [|? ? N1 N2]; subst. cbn [fold_left fst snd]. destruct HI as [E|HI]; [|apply IH; auto].
  injection E as -> ->. clear IH N2 ND. assert (G : find_file n (put_file n f dst) = Some f) by apply put_same. revert G. generalize (put_file n f dst). induction src as [|[k h] src IH]; intros acc G; [exact G|]. cbn [fold_left fst snd]. apply IH.
  - intros H. apply N1. right. exact H.
  - rewrite put_other; [exact G|]. intros ->. apply N1. left. reflexivity.
Qed.
Lemma find_in n d f : find_file n d = Some f -> In (n, f) d.
Proof. induction d as [|[m g] d IH]; cbn; [discriminate|]. destruct (String.eqb_spec m n) as [->|E]; [intros [= ->]; left; auto|right; auto]. Qed.
Lemma in_find n d f : NoDup (map fst d) -> In (n, f) d -> find_file n d = Some f.
Proof.
  induction d as [|[m g] d IH]; cbn; intros ND [].
  - injection H as -> ->. rewrite String.eqb_refl. auto.
  - inversion ND; subst. destruct (String.eqb_spec m n) as [->|E]; [|auto]. exfalso. apply H2. apply in_map_iff. exists (n, f). auto.
Qed.
Lemma output_copy eval input output input' output' n f : NoDup (map fst input) -> set_true_K eval input output = Ok (input', output') -> find_file n input = Some f -> find_file n output' = Some f.
Proof.
  intros ND H F. unfold set_true_K in H. destruct (eval _) as [k|]; cbn [bind] in H; [|discriminate]. destruct (foldM _ _ _) as [i'|]; cbn [bind] in H; [|discriminate]. injection H as <- <-. apply copied; auto. apply find_in, F.
Qed.

Lemma put_names n f d : In n (map fst d) -> map fst (put_file n f d) = map fst d.
Proof. induction d as [|[m g] d IH]; cbn; [intros []|]. destruct (String.eqb_spec m n) as [->|E]; [reflexivity|]. intros [H|H]; [contradiction|]. cbn. rewrite IH; auto. Qed.
Lemma open_sorted d : NoDup (map fst d) -> StronglySorted lex (map fst d) -> (forall n, In n (map fst d) -> nc_name n) -> open_dataset d = map snd d.
Proof.
  intros ND S N. unfold open_dataset. assert (F : filter is_nc (map fst d) = map fst d).
  { clear -N. induction (map fst d) as [|n l IH]; [reflexivity|]. cbn. rewrite (proj2 (nc_spec n) (N n (or_introl eq_refl))). f_equal. apply IH. intros m Hm. apply N. right; auto. }
  rewrite F. rewrite (sorted_unique (sorted (map fst d)) (map fst d) (sorted_sorted _) S (sorted_perm _)). clear S N F.
  assert (G : forall l, incl l d -> flat_map (fun n => match find_file n d with Some f => [f] | None => [] end) (map fst l) = map snd l).
  { induction l as [|[n f] l IH]; intros HI; [reflexivity|]. cbn. rewrite (in_find n d f ND) by (apply HI; left; auto). cbn. f_equal. apply IH. intros q Hq. apply HI. right; auto. }
  apply G, incl_refl.
Qed.
Lemma assign_all (v l : list K) : length v = length l -> assign 0 (length l) v l = Ok v.
Proof.
  intros H. unfold assign. assert (E : slice 0 (length l) l = l) by (unfold slice; cbn [skipn]; rewrite Nat.sub_0_r; apply firstn_all). rewrite E, H, Nat.eqb_refl. cbn [firstn app Nat.add]. rewrite skipn_all, app_nil_r. reflexivity.
Qed.
Lemma nodup_nth d i j n f g : NoDup (map fst d) -> nth_error d i = Some (n, f) -> nth_error d j = Some (n, g) -> i = j.
Proof.
  intros ND Hi Hj. rewrite NoDup_nth_error in ND. apply ND; [rewrite map_length; apply nth_error_Some; congruence|]. rewrite !nth_error_map, Hi, Hj. reflexivity.
Qed.
Lemma input_overwritten eval input output ks : NoDup (map fst input) -> StronglySorted lex (map fst input) -> (forall n, In n (map fst input) -> nc_name n) ->
  map (@length K) ks = map (fun nf => length (f_K (snd nf))) input -> eval (map snd input) = Ok (concat ks) ->
  exists input' output', set_true_K eval input output = Ok (input', output') /\
    forall i n f k, nth_error input i = Some (n, f) -> nth_error ks i = Some k -> find_file n input' = Some (mkMfile k (f_rest f)).
Proof.
  intros ND S N L E. unfold set_true_K. rewrite (open_sorted _ ND S N), E. cbn [bind].
  replace (map (fun f : mfile X K => length (f_K f)) (map snd input)) with (map (@length K) ks) by (rewrite L, map_map; reflexivity).
  assert (LL : length ks = length input) by (rewrite <- (map_length (@length K) ks), L, map_length; reflexivity).
  match goal with |- context [foldM ?ff ?l ?s] => set (F := ff); destruct (foldM_inv F (fun done inp => forall i n f k, nth_error input i = Some (n, f) -> nth_error ks i = Some k ->
     find_file n inp = Some (if i <? length done then mkMfile k (f_rest f) else f)) l s) as (r & R & P) end.
  - intros i n f k Hi Hk. cbn [length]. apply in_find; [exact ND|]. exact (nth_error_In _ _ Hi).
  - intros done [j fname] rest acc HE IH.
    assert (HJ : nth_error (enumerate (map fst input)) (length done) = Some (j, fname)) by (rewrite HE, nth_error_app2, Nat.sub_diag by lia; reflexivity).
    rewrite enumerate_nth in HJ. destruct (nth_error (map fst input) (length done)) as [nm|] eqn:HN; [|discriminate]. cbn in HJ. injection HJ as <- <-.
    rewrite nth_error_map in HN. destruct (nth_error input (length done)) as [[n f]|] eqn:HF; [|discriminate]. cbn in HN. injection HN as <-.
    assert (HL : length done < length input) by (apply nth_error_Some; congruence).
    destruct (nth_error ks (length done)) as [k|] eqn:HK; [|apply nth_error_None in HK; lia].
    assert (HLk : length k = length (f_K f)). { assert (Q : nth_error (map (@length K) ks) (length done) = nth_error (map (fun nf => length (f_K (snd nf))) input) (length done)) by (rewrite L; reflexivity). rewrite !nth_error_map, HK, HF in Q. cbn in Q. congruence. }
    unfold F. unfold get. rewrite !cumul_nth by (rewrite map_length; lia). cbn [bind]. rewrite !Nat.add_0_l. rewrite (slice_concat _ _ _ HK).
    pose proof (IH _ _ _ _ HF HK) as IH0. rewrite Nat.ltb_irrefl in IH0. rewrite IH0. rewrite assign_all by exact HLk. cbn [bind]. eexists. split; [reflexivity|].
    intros i n' f' k' Hi Hk. rewrite app_length. cbn [length]. destruct (Nat.eq_dec i (length done)) as [->|NE].
    + rewrite HF in Hi. injection Hi as <- <-. rewrite HK in Hk. injection Hk as <-. rewrite put_same. rewrite (proj2 (Nat.ltb_lt _ _)) by lia. reflexivity.
    + rewrite put_other. * rewrite (IH i n' f' k' Hi Hk). destruct (Nat.ltb_spec i (length done)), (Nat.ltb_spec i (length done + 1)); try reflexivity; lia.
      * intros ->. apply NE. exact (nodup_nth _ _ _ _ _ _ ND Hi HF).
  - rewrite R. cbn [bind]. do 2 eexists. split; [reflexivity|]. intros i n f k Hi Hk. rewrite (P i n f k Hi Hk). unfold enumerate. rewrite combine_length, seq_length, map_length, Nat.min_id.
    rewrite (proj2 (Nat.ltb_lt _ _)); [reflexivity|]. apply nth_error_Some. congruence.
Qed.
End TrueK.
