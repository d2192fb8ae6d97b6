(** * Proofs about the batch workflow.  Proofs only. *)
From Coq Require Import Reals Lra Permutation DecimalString DecimalNat DecimalFacts.
From Verif Require Import Base BaseLemmas ReaderModel HRModel OpModel OpSpec OpProofs LsfModel LsfSpec.
Open Scope nat_scope.

(** ** Names *)
Lemma tx_app' a b : tx (a ++ b)%string = tx a ++ tx b.
Proof. unfold tx. induction a as [|ch a IH]; cbn; [reflexivity|]. rewrite IH. reflexivity. Qed.
Lemma tx_inj' a b : tx a = tx b -> a = b.
Proof. unfold tx. intros H. rewrite <- (string_of_list_ascii_of_string a), <- (string_of_list_ascii_of_string b), H. reflexivity. Qed.
Lemma uint_digits d : forall c, In c (tx (NilEmpty.string_of_uint d)) -> c <> ","%char.
Proof.
  unfold tx. induction d; cbn [NilEmpty.string_of_uint list_ascii_of_string]; intros c Hc; try destruct Hc as [<-|Hc]; try discriminate; auto.
Qed.
Lemma str_inj i j : str_nat i = str_nat j -> i = j.
Proof.
  unfold str_nat. intros H. assert (E : Nat.to_uint i = Nat.to_uint j).
  { pose proof (NilEmpty.usu (Nat.to_uint i)) as A. pose proof (NilEmpty.usu (Nat.to_uint j)) as B. rewrite H in A. rewrite A in B. injection B as B. exact B. }
  apply (f_equal Nat.of_uint) in E. rewrite !DecimalNat.Unsigned.of_to in E. exact E.
Qed.
Lemma split_sep (a b c d : list ascii) x : ~ In x a -> ~ In x c -> a ++ x :: b = c ++ x :: d -> a = c /\ b = d.
Proof.
  revert c. induction a as [|y a IH]; intros [|z c] Ha Hc H; cbn in *.
  - injection H as H. auto.
  - injection H as H1 H2. exfalso. apply Hc. auto.
  - injection H as H1 H2. exfalso. apply Ha. auto.
  - injection H as H1 H2. destruct (IH c ltac:(auto) ltac:(auto) H2) as (-> & ->). subst. auto.
Qed.
Lemma name_inj i j k l : element_name i j = element_name k l -> i = k /\ j = l.
Proof.
  unfold element_name. intros H. apply (f_equal tx) in H. rewrite !tx_app' in H. apply app_inv_head in H. change (tx ",") with [","%char] in H. cbn [app] in H.
  destruct (split_sep (tx (str_nat i)) (tx (str_nat j) ++ tx "].dat") (tx (str_nat k)) (tx (str_nat l) ++ tx "].dat") ","%char) as (A & B).
  - intros Hi. apply (uint_digits _ _ Hi eq_refl).
  - intros Hi. apply (uint_digits _ _ Hi eq_refl).
  - exact H.
  - apply app_inv_tail in B. split; apply str_inj, tx_inj'; auto.
Qed.

(** ** Lists *)
Lemma remove_at_perm {A} (l : list A) k x : nth_error l k = Some x -> Permutation l (x :: remove_at k l).
Proof.
  revert k. induction l as [|a l IH]; intros [|k] H; try discriminate.
  - injection H as ->. unfold remove_at. cbn. auto.
  - cbn [nth_error] in H. unfold remove_at. cbn [firstn app]. rewrite (IH k H) at 1. unfold remove_at. cbn [skipn]. apply perm_swap.
Qed.
Lemma in_remove_at {A} (l : list A) k x y : nth_error l k = Some x -> In y l <-> y = x \/ In y (remove_at k l).
Proof. intros H. rewrite (remove_at_perm l k x H) at 1. cbn. split; intros [?|?]; auto. Qed.
Lemma upd_map {A B} (f : A -> B) l k x y : nth_error l k = Some x -> f y = f x -> map f (upd k y l) = map f l.
Proof. revert k. induction l as [|a l IH]; intros [|k] H E; try discriminate; cbn in *; [injection H as ->; rewrite E; auto|]. rewrite (IH k); auto. Qed.
Lemma in_upd {A} (l : list A) k x y z : nth_error l k = Some x -> In z (upd k y l) -> z = y \/ In z l.
Proof. revert k. induction l as [|a l IH]; intros [|k] H Hz; try discriminate; cbn in *; [destruct Hz; auto|]. destruct Hz as [|Hz]; auto. destruct (IH k H Hz); auto. Qed.
Lemma in_upd_new {A} (l : list A) k x y : nth_error l k = Some x -> In y (upd k y l).
Proof. revert k. induction l as [|a l IH]; intros [|k] H; try discriminate; cbn in *; auto. Qed.
Lemma in_upd_old {A} (l : list A) k x y z : nth_error l k = Some x -> In z l -> z = x \/ In z (upd k y l).
Proof. revert k. induction l as [|a l IH]; intros [|k] H Hz; try discriminate; cbn in *; [injection H as ->; destruct Hz; auto|]. destruct Hz as [|Hz]; auto. destruct (IH k H Hz); auto. Qed.
Lemma upd_neq {A} (l : list A) k x y : nth_error l k = Some x -> y <> x -> upd k y l <> l.
Proof. revert k. induction l as [|a l IH]; intros [|k] H N E; try discriminate; cbn in *; injection E as E1; [congruence|]. apply (IH k H N). auto. Qed.
Lemma remove_at_len {A} (l : list A) k x : nth_error l k = Some x -> length l = S (length (remove_at k l)).
Proof. intros H. apply (Permutation_length (remove_at_perm l k x H)). Qed.

(** ** The temp directory *)
Lemma put_names name c t : map fst (put name c t) = if existsb (String.eqb name) (map fst t) then map fst t else map fst t ++ [name].
Proof.
  induction t as [|(m, d) t IH]; cbn [put map fst existsb app]; [reflexivity|]. rewrite (String.eqb_sym m name). destruct (String.eqb_spec name m) as [->|N]; cbn [map fst orb app]; [reflexivity|].
  rewrite IH. destruct (existsb _ _); reflexivity.
Qed.
Lemma existsb_name name l : existsb (String.eqb name) l = true <-> In name l.
Proof. rewrite existsb_exists. split; [intros (x & Hx & E); apply String.eqb_eq in E; subst; auto|]. intros H. exists name. rewrite String.eqb_refl. auto. Qed.
Lemma put_nodup name c t : NoDup (map fst t) -> NoDup (map fst (put name c t)).
Proof.
  intros H. rewrite put_names. destruct (existsb _ _) eqn:E; [auto|].
  assert (N : ~ In name (map fst t)) by (intros Hi; apply existsb_name in Hi; congruence).
  apply (Permutation_NoDup (l := name :: map fst t)); [|constructor; auto]. apply Permutation_cons_append.
Qed.
Lemma in_put name c t m d : NoDup (map fst t) -> In (m, d) (put name c t) <-> (m = name /\ d = c) \/ (m <> name /\ In (m, d) t).
Proof.
  intros Hn. induction t as [|(x, y) t IH]; cbn [put].
  - cbn. split; [intros [[= -> ->]|[]]; auto|]. intros [(-> & ->)|(_ & [])]. auto.
  - inversion Hn as [|? ? H1 H2]; subst. cbn [map fst] in *. destruct (String.eqb_spec x name) as [->|N].
    + cbn. split.
      * intros [[= -> ->]|H]; auto. right. split; [|auto]. intros ->. apply H1. apply (in_map fst) in H. auto.
      * intros [(-> & ->)|(Ne & [[= -> ->]|H])]; auto. congruence.
    + cbn. rewrite IH by auto. split; [intros [[= -> ->]|[(-> & ->)|(A & B)]]; auto|]. intros [(-> & ->)|(Ne & [[= -> ->]|H])]; auto.
Qed.
Lemma put_len name c t : length t <= length (put name c t).
Proof. induction t as [|(x, y) t IH]; cbn [put length]; [lia|]. destruct (String.eqb x name); cbn [length]; lia. Qed.

(** ** Jobs *)
Lemma job_eqb_spec a b : job_eqb a b = true <-> a = b.
Proof.
  destruct a, b; cbn; try (split; [discriminate|discriminate]); try (split; auto; discriminate).
  rewrite andb_true_iff, !Nat.eqb_eq. split; [intros (-> & ->); auto|intros [= -> ->]; auto].
Qed.
Lemma ended_in j w : ended j w = true <-> In j (w_logs w).
Proof. unfold ended. rewrite existsb_exists. split; [intros (x & Hx & E); apply job_eqb_spec in E; subst; auto|]. intros H. exists j. split; [auto|]. apply job_eqb_spec. auto. Qed.
Definition el (p : nat * nat) : job := JElement (fst p) (snd p).
Lemma pairs_all n : pairs n = all_pairs n. Proof. reflexivity. Qed.
Lemma in_pairs n i j : In (i, j) (pairs n) <-> i < n /\ j < n. Proof. apply in_all_pairs. Qed.
Lemma nodup_app {A} (a b : list A) : NoDup a -> NoDup b -> (forall x, In x a -> In x b -> False) -> NoDup (a ++ b).
Proof.
  induction a as [|x a IH]; intros Ha Hb D; cbn [app]; [auto|]. inversion Ha; subst. constructor.
  - rewrite in_app_iff. intros [Hi|Hi]; [auto|]. apply (D x); cbn; auto.
  - apply IH; auto. intros y Hy. apply D. cbn. auto.
Qed.
Lemma pairs_nodup n : NoDup (pairs n).
Proof.
  unfold pairs. assert (G : forall l, NoDup l -> NoDup (flat_map (fun i : nat => map (fun j => (i, j)) (seq 0 n)) l)).
  { induction l as [|a l IH]; intros H; cbn [flat_map]; [constructor|]. inversion H as [|? ? Ha Hl]; subst. apply nodup_app; auto.
    - apply FinFun.Injective_map_NoDup; [intros x y [= ->]; auto|apply seq_NoDup].
    - intros (x & y) Hx Hy. apply in_map_iff in Hx. destruct Hx as (u & [= <- <-] & _). apply in_flat_map in Hy. destruct Hy as (b & Hb & Hy).
      apply in_map_iff in Hy. destruct Hy as (v & [= -> ->] & _). auto. }
  apply G, seq_NoDup.
Qed.
