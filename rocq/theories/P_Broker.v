(** Property C32: events reach every subscriber of exactly their type once per registration, in order. *)
From Coq Require Import List String Arith Lia.
From Verif Require Import Base M_Broker.
Import ListNotations.

Scheme acts_ind2 := Induction for acts Sort Prop with publishes_ind2 := Induction for publishes Sort Prop.
Combined Scheme both_ind from acts_ind2, publishes_ind2.

Lemma dget_dset : forall {A} k k' (v : A) d, dget String.eqb k (dset String.eqb k' v d) = if String.eqb k k' then Some v else dget String.eqb k d.
Proof.
  intros A k k' v. induction d as [|[a b] d]; cbn. { destruct (String.eqb k k'); auto. }
  destruct (String.eqb k' a) eqn:E; cbn.
  - apply String.eqb_eq in E; subst. destruct (String.eqb k a); auto.
  - rewrite IHd. destruct (String.eqb k a) eqn:F; auto. apply String.eqb_eq in F; subst. rewrite String.eqb_sym, E. auto.
Qed.
Lemma lookup_add : forall r ty cb ty', lookup (add r ty cb) ty' = if String.eqb ty' ty then lookup r ty ++ [cb] else lookup r ty'.
Proof. intros. unfold lookup at 1, add. rewrite dget_dset. destruct (String.eqb ty' ty); auto. Qed.

Section Any_callables.
  Context (does : nat -> event -> list action -> Prop).

  (** Registrations are never lost or reordered: whatever the callables do, lists only grow at the end. *)
  Lemma grows : (forall r l r' cs o, acts does r l r' cs o -> forall ty, exists more, lookup r' ty = lookup r ty ++ more)
    /\ (forall r e i r' cs o, publishes does r e i r' cs o -> forall ty, exists more, lookup r' ty = lookup r ty ++ more).
  Proof.
    apply (both_ind does (fun r l r' cs o _ => forall ty, exists more, lookup r' ty = lookup r ty ++ more)
      (fun r e i r' cs o _ => forall ty, exists more, lookup r' ty = lookup r ty ++ more)); intros; auto.
    - exists []. rewrite app_nil_r; auto.
    - destruct (H ty0) as (m & E). rewrite lookup_add in E. destruct (String.eqb ty0 ty) eqn:Q.
      + apply String.eqb_eq in Q; subst. exists (cb :: m). rewrite E, <- app_assoc. auto. + eauto.
    - destruct (H ty) as (m & E), (H0 ty) as (m' & E'). exists (m ++ m'). rewrite E', E, app_assoc. auto.
    - exists []. rewrite app_nil_r; auto. - exists []. rewrite app_nil_r; auto.
    - destruct (H ty) as (m & E), (H0 ty) as (m' & E'). exists (m ++ m'). rewrite E', E, app_assoc. auto.
  Qed.

  Lemma loop_calls : forall r e i r' cs o, publishes does r e i r' cs o ->
    (forall c, In c cs -> handed c = e) /\
    (o = None -> map callee cs = skipn i (lookup r' (ev_type e))) /\
    (forall x, o = Some x -> cs <> [] /\ exists later, skipn i (lookup r' (ev_type e)) = map callee cs ++ later).
  Proof.
    intros r e i r' cs o H. induction H.
    - split; [intros c []|split; [|intros; discriminate]]. intros _. cbn. apply nth_error_None in H. rewrite skipn_all2; auto.
    - destruct IHpublishes as (A & B & C).
      assert (K : skipn i (lookup r2 (ev_type e)) = cb :: skipn (S i) (lookup r2 (ev_type e))).
      { destruct (proj1 grows _ _ _ _ _ H1 (ev_type e)) as (m & E). destruct (proj2 grows _ _ _ _ _ _ H2 (ev_type e)) as (m' & E').
        assert (N : nth_error (lookup r2 (ev_type e)) i = Some cb).
        { rewrite E', E, <- app_assoc. rewrite nth_error_app1; auto. apply nth_error_Some. congruence. }
        clear - N. revert i N. induction (lookup r2 (ev_type e)); intros [|i] N; cbn in *; try discriminate. { congruence. } apply (IHl i N). }
      split; [intros c [<-|I]; auto|split].
      + intros E. cbn [map callee]. rewrite K, B; auto.
      + intros x E. split; [discriminate|]. destruct (C x E) as (_ & later & L). exists later. cbn [map callee]. rewrite K, L. auto.
    - split; [intros c [<-|[]]; auto|split; [discriminate|]]. intros y _. split; [discriminate|].
      assert (K : skipn i (lookup r1 (ev_type e)) = cb :: skipn (S i) (lookup r1 (ev_type e))).
      { destruct (proj1 grows _ _ _ _ _ H1 (ev_type e)) as (m & E).
        assert (N : nth_error (lookup r1 (ev_type e)) i = Some cb).
        { rewrite E. rewrite nth_error_app1; auto. apply nth_error_Some. congruence. }
        clear - N. revert i N. induction (lookup r1 (ev_type e)); intros [|i] N; cbn in *; try discriminate. { congruence. } apply (IHl i N). }
      exists (skipn (S i) (lookup r1 (ev_type e))). rewrite K. auto.
  Qed.
End Any_callables.

(** A publication that ends normally has called every callable registered for exactly the type of the event - those
    present at the start and those registered for it meanwhile - each once per registration, in order, with that event. *)
Theorem C32_each_once_in_order : forall does r e r' cs, publishes does r e 0 r' cs None ->
  map callee cs = lookup r' (ev_type e) /\ Forall (fun c => handed c = e) cs /\ exists meanwhile, lookup r' (ev_type e) = lookup r (ev_type e) ++ meanwhile.
Proof.
  intros does r e r' cs H. destruct (loop_calls does _ _ _ _ _ _ H) as (A & B & _). split; [rewrite B; auto|]. split; [apply Forall_forall; auto|].
  eapply (proj2 (grows does)); eauto.
Qed.
Print Assumptions C32_each_once_in_order.

(** If no callable registers anything, the registry is unchanged and the calls are those registered before. *)
Theorem C32_no_registration_meanwhile : forall (does : nat -> event -> list action -> Prop) r e r' cs,
  (forall cb ev l ty cb', does cb ev l -> ~ In (Register ty cb') l) -> publishes does r e 0 r' cs None ->
  r' = r /\ map callee cs = lookup r (ev_type e).
Proof.
  intros does r e r' cs Q H.
  assert (G : (forall r l r' cs o, acts does r l r' cs o -> (forall ty cb, ~ In (Register ty cb) l) -> r' = r)
    /\ (forall r e i r' cs o, publishes does r e i r' cs o -> r' = r)).
  { apply (both_ind does (fun r l r' cs o _ => (forall ty cb, ~ In (Register ty cb) l) -> r' = r) (fun r e i r' cs o _ => r' = r)); intros; auto.
    - exfalso. eapply H1. left. reflexivity.
    - transitivity r1; auto. apply H1. intros ty cb I. apply (H2 ty cb). right; auto.
    - transitivity r1; auto. apply H0. intros ty cb' I. eapply Q; eauto.
    - apply H0. intros ty cb' I. eapply Q; eauto. }
  assert (r' = r) as -> by (eapply (proj2 G); eauto). split; auto. apply (C32_each_once_in_order does r e r cs); auto.
Qed.
Print Assumptions C32_no_registration_meanwhile.

(** An exception in a callable ends the publication: at least one call was made and only the first ones were. *)
Theorem C32_exception_stops : forall does r e r' cs x, publishes does r e 0 r' cs (Some x) ->
  cs <> [] /\ exists not_called, lookup r' (ev_type e) = map callee cs ++ not_called.
Proof. intros does r e r' cs x H. destruct (loop_calls does _ _ _ _ _ _ H) as (_ & _ & C). apply (C x); auto. Qed.
Print Assumptions C32_exception_stops.

(** Whatever callables do - nested publications and exceptions included - no registration is lost. *)
Theorem C32_never_lost : forall does r e r' cs o ty, publishes does r e 0 r' cs o -> exists more, lookup r' ty = lookup r ty ++ more.
Proof. intros. eapply (proj2 (grows does)); eauto. Qed.
Print Assumptions C32_never_lost.

(** With callables that do nothing to the broker a publication always ends, having called what was registered. *)
Theorem C32_terminates : forall (does : nat -> event -> list action -> Prop) r e, (forall cb, does cb e []) -> exists cs, publishes does r e 0 r cs None /\ map callee cs = lookup r (ev_type e).
Proof.
  intros does r e D. exists (map (fun cb => Call cb e []) (lookup r (ev_type e))). split.
  - assert (G : forall k i, List.length (lookup r (ev_type e)) - i = k -> publishes does r e i r (map (fun cb => Call cb e []) (skipn i (lookup r (ev_type e)))) None).
    { induction k; intros i K.
      - rewrite skipn_all2 by lia. constructor. apply nth_error_None. lia.
      - destruct (nth_error (lookup r (ev_type e)) i) as [cb|] eqn:N. 2:{ apply nth_error_None in N. lia. }
        assert (skipn i (lookup r (ev_type e)) = cb :: skipn (S i) (lookup r (ev_type e))) as ->.
        { clear - N. revert i N. induction (lookup r (ev_type e)); intros [|i] N; cbn in *; try discriminate. { congruence. } apply (IHl i N). }
        cbn [map]. eapply P_call; eauto. constructor. apply IHk. lia. }
    apply (G _ 0 eq_refl).
  - rewrite map_map. cbn. apply map_id.
Qed.
Print Assumptions C32_terminates.

(** All EventBroker() objects are the same and share one registry, which holds for each type exactly the callables
    registered for it by all clients, in the order of registration. *)
Theorem C32_one_registry : forall history, let m := fold_left client history start in
  (forall id id' m1 m2, construct m = (m1, id) -> construct m1 = (m2, id') -> id' = id) /\
  forall ty, lookup (let '(m1, id) := construct m in registry_of m1 id) ty = map snd (filter (fun x => String.eqb (fst x) ty) history).
Proof.
  assert (ND : forall {A} k (v : A) k' d, dget Nat.eqb k (dset Nat.eqb k' v d) = if Nat.eqb k k' then Some v else dget Nat.eqb k d).
  { intros A k v k'. induction d as [|[a b] d]; cbn. { destruct (Nat.eqb k k'); auto. }
    destruct (Nat.eqb k' a) eqn:E; cbn.
    - apply Nat.eqb_eq in E; subst. destruct (Nat.eqb k a); auto.
    - rewrite IHd. destruct (Nat.eqb k a) eqn:F; auto. apply Nat.eqb_eq in F; subst. rewrite Nat.eqb_sym, E. auto. }
  intros history. cbn zeta.
  assert (INV : fold_left client history start = start /\ history = [] \/
    exists id r, class_instance (fold_left client history start) = Some id /\ dget Nat.eqb id (objects (fold_left client history start)) = Some (Some r) /\
      forall ty, lookup r ty = map snd (filter (fun x => String.eqb (fst x) ty) history)).
  { induction history as [|[ty0 cb] history IH] using rev_ind; [left; auto|right]. rewrite fold_left_app. cbn [fold_left].
    set (m := fold_left client history start) in *.
    assert (exists id r, construct m = (Memory (Some id) (objects (fst (construct m))), id) /\ dget Nat.eqb id (objects (fst (construct m))) = Some (Some r) /\
      forall ty, lookup r ty = map snd (filter (fun x => String.eqb (fst x) ty) history)) as (id & r & C & D & L).
    { destruct IH as [(E & ->)|(id & r & I & D & L)].
      - exists 0, []. rewrite E. split; [reflexivity|split; [reflexivity|auto]].
      - exists id, r. unfold construct. rewrite I, D. cbn. rewrite D. split; [|auto]. rewrite <- I. destruct m; auto. }
    exists id, (add r ty0 cb). unfold client. rewrite C. cbn [fst snd register class_instance objects]. split; [auto|]. unfold registry_of. cbn [objects]. rewrite D.
    rewrite ND, Nat.eqb_refl. split; auto. intros ty. rewrite lookup_add, filter_app, map_app, <- L. cbn [filter fst]. rewrite (String.eqb_sym ty0 ty).
    destruct (String.eqb ty ty0) eqn:Q; cbn. - apply String.eqb_eq in Q; subst; auto. - rewrite app_nil_r; auto. }
  set (m := fold_left client history start) in *. destruct INV as [(-> & ->)|(id & r & I & D & L)].
  - split; [|reflexivity]. cbn. intros id id' m1 m2 [= <- <-]. cbn. congruence.
  - assert (C : construct m = (m, id)) by (unfold construct; rewrite I, D; auto). split.
    + intros id1 id2 m1 m2 A B. rewrite C in A. injection A as <- <-. rewrite C in B. congruence.
    + rewrite C. unfold registry_of. rewrite D. auto.
Qed.
Print Assumptions C32_one_registry.

(** A case with a callable that registers another one, and nested publication. *)
Definition ex_does (cb : nat) (e : event) (l : list action) : Prop :=
  match cb with
  | 0 => l = [Register "scan_uuid" 1; Publish (Event "random_data" "x")]
  | _ => l = []
  end.
Open Scope string_scope.
Definition ex_registry : registry := [("scan_uuid", [0; 2]); ("random_data", [3]); ("Event", [4])].
Example C32_example : exists r' cs, publishes ex_does ex_registry (Event "scan_uuid" "f") 0 r' cs None /\ map callee cs = [0; 2; 1].
Proof.
  eexists _, _. split.
  - eapply P_call; [reflexivity|reflexivity| |].
    + apply A_register. eapply A_publish. * eapply P_call; [reflexivity|reflexivity|constructor|]. apply P_end. reflexivity. * constructor.
    + eapply P_call; [reflexivity|reflexivity|constructor|]. eapply P_call; [reflexivity|reflexivity|constructor|]. apply P_end. reflexivity.
  - reflexivity.
Qed.
