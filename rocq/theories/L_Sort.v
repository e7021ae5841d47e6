(** Lemmas about sorting and sets of strings. *)
From Coq Require Import List String Bool Permutation Sorting.Sorted OrderedTypeEx.
From Verif Require Import PySort.
Import ListNotations.

Definition sle (a b : string) : Prop := String.leb a b = true.
Definition slt (a b : string) : Prop := sle a b /\ a <> b.

Lemma sle_cmp : forall a b, sle a b <-> String.compare a b <> Gt.
Proof. intros. unfold sle, String.leb. destruct (String.compare a b); split; congruence. Qed.
Lemma sle_refl : forall a, sle a a.
Proof. intros a. destruct (String.leb_total a a); auto. Qed.
Lemma sle_trans : forall a b c, sle a b -> sle b c -> sle a c.
Proof.
  intros a b c H1 H2. destruct (String.compare a b) eqn:E1.
  - apply String.compare_eq_iff in E1. subst; auto.
  - destruct (String.compare b c) eqn:E2.
    + apply String.compare_eq_iff in E2. subst; auto.
    + apply String_as_OT.cmp_lt in E1, E2. pose proof (String_as_OT.lt_trans _ _ _ E1 E2) as L. apply String_as_OT.cmp_lt in L.
      apply sle_cmp. unfold String_as_OT.cmp in L. congruence.
    + apply sle_cmp in H2. congruence.
  - apply sle_cmp in H1. congruence.
Qed.
Lemma sle_antisym : forall a b, sle a b -> sle b a -> a = b.
Proof. intros. apply String.leb_antisym; auto. Qed.
Lemma slt_irrefl : forall a, ~ slt a a.
Proof. unfold slt. tauto. Qed.
Lemma slt_trans : forall a b c, slt a b -> slt b c -> slt a c.
Proof. intros a b c (A & N) (B & M). split; [eapply sle_trans; eauto|]. intros ->. apply N. apply sle_antisym; auto. Qed.

Lemma insert_perm : forall s l, Permutation (s :: l) (insert s l).
Proof. induction l; cbn; auto. destruct (String.leb s a); auto. eapply perm_trans; [apply perm_swap|]. auto. Qed.
Lemma sort_perm : forall l, Permutation l (sort l).
Proof. induction l; cbn; auto. eapply perm_trans; [|apply insert_perm]. auto. Qed.
Lemma insert_sorted : forall s l, StronglySorted sle l -> StronglySorted sle (insert s l).
Proof.
  induction l as [|t l]; intros H; cbn. { repeat constructor. }
  inversion H; subst. destruct (String.leb s t) eqn:E.
  - constructor; auto. constructor; auto. eapply Forall_impl; [|eauto]. intros u U. eapply sle_trans; eauto.
  - constructor; auto. apply Forall_forall. intros u U. apply (Permutation_in _ (Permutation_sym (insert_perm s l))) in U.
    destruct U as [<-|U]; [destruct (String.leb_total s t); congruence|]. rewrite Forall_forall in H3. apply H3; auto.
Qed.
Lemma sort_sorted : forall l, StronglySorted sle (sort l).
Proof. induction l; cbn; [constructor|]. apply insert_sorted; auto. Qed.

(** A sorted list is determined by its contents. *)
Lemma sorted_unique : forall l m, StronglySorted sle l -> StronglySorted sle m -> Permutation l m -> l = m.
Proof.
  induction l as [|a l]; intros m SL SM P.
  - apply Permutation_nil in P. auto.
  - destruct m as [|b m]; [apply Permutation_sym, Permutation_nil_cons in P; contradiction|].
    inversion SL; inversion SM; subst. rewrite Forall_forall in H2, H6.
    assert (a = b).
    { assert (In a (b :: m)) as [->|A] by (eapply Permutation_in; [eauto|left; auto]); auto.
      assert (In b (a :: l)) as [->|B] by (eapply Permutation_in; [apply Permutation_sym; eauto|left; auto]); auto.
      apply sle_antisym; auto. }
    subst b. f_equal. apply IHl; auto. eapply Permutation_cons_inv; eauto.
Qed.
Lemma sort_ext : forall l m, Permutation l m -> sort l = sort m.
Proof.
  intros. apply sorted_unique; try apply sort_sorted. eapply perm_trans; [apply Permutation_sym, sort_perm|]. eapply perm_trans; [eauto|apply sort_perm].
Qed.
Lemma sort_in : forall s l, In s (sort l) <-> In s l.
Proof. intros. split; apply Permutation_in; [apply Permutation_sym|]; apply sort_perm. Qed.
Lemma sort_nodup : forall l, NoDup l -> NoDup (sort l).
Proof. intros. eapply Permutation_NoDup; [apply sort_perm|auto]. Qed.
Lemma strict : forall l, StronglySorted sle l -> NoDup l -> StronglySorted slt l.
Proof.
  induction l; intros S N; constructor; inversion S; inversion N; subst; auto.
  apply Forall_forall. intros x X. rewrite Forall_forall in H2. split; [auto|]. intros ->. contradiction.
Qed.

Lemma mem_in : forall s l, existsb (String.eqb s) l = true <-> In s l.
Proof.
  intros. rewrite existsb_exists. split.
  - intros (x & X & E). apply String.eqb_eq in E. subst; auto. - intros. exists s. split; auto. apply String.eqb_refl.
Qed.
Lemma sadd_in : forall x s l, In x (sadd s l) <-> x = s \/ In x l.
Proof.
  intros. unfold sadd. destruct (existsb (String.eqb s) l) eqn:E.
  - apply mem_in in E. split; [auto|]. intros [->|]; auto.
  - rewrite in_app_iff. cbn. split; [intros [?|[?|[]]]; auto|intros [?|?]; auto].
Qed.
Lemma sadd_nodup : forall s l, NoDup l -> NoDup (sadd s l).
Proof.
  intros. unfold sadd. destruct (existsb (String.eqb s) l) eqn:E; auto.
  eapply Permutation_NoDup; [apply Permutation_cons_append|]. constructor; auto. rewrite <- mem_in. congruence.
Qed.
Lemma union_in : forall x b a, In x (union a b) <-> In x a \/ In x b.
Proof.
  unfold union. induction b as [|s b]; intros a; cbn. { tauto. } rewrite IHb, sadd_in. split; [intros [[->|]|]; auto|intros [|[->|]]; auto].
Qed.
Lemma union_nodup : forall b a, NoDup a -> NoDup (union a b).
Proof. unfold union. induction b; intros; cbn; auto. apply IHb, sadd_nodup; auto. Qed.
Lemma inter_in : forall x a b, In x (inter a b) <-> In x a /\ In x b.
Proof. intros. unfold inter. rewrite filter_In, mem_in. tauto. Qed.
Lemma inter_nodup : forall a b, NoDup a -> NoDup (inter a b).
Proof. intros. unfold inter. apply NoDup_filter. auto. Qed.
Lemma to_set_in : forall x l, In x (to_set l) <-> In x l.
Proof. intros. unfold to_set. change (In x (union [] l) <-> In x l). rewrite union_in. cbn. tauto. Qed.
Lemma to_set_nodup : forall l, NoDup (to_set l).
Proof. intros. unfold to_set. apply (union_nodup l []). constructor. Qed.
