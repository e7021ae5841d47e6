(** Property C54: calling through a proxy. *)
From Coq Require Import List String Bool Arith Lia.
From Verif Require Import Base M_Proxy.
Import ListNotations.
Open Scope list_scope.

Section Direct.
  Context {H V call : Type} (code : call -> list (@instr H call)) (ret : call -> H -> V).
  (** Specification: calling the methods directly, one after the other, without any proxy.
      [performs k h o]: the code [k] from [h] ends in the state, or with the exception after which the state is [h']. *)
  Inductive performs : list (@instr H call) -> H -> H -> option exn -> Prop :=
  | D_end : forall h, performs [] h h None
  | D_do : forall f k h h1 h2 o, f h = Ok h1 -> performs k h1 h2 o -> performs (Do f :: k) h h2 o
  | D_raise : forall f k h e, f h = Err e -> performs (Do f :: k) h h (Some e)
  | D_nested : forall c k h h1 h2 o, performs (code c) h h1 None -> performs k h1 h2 o -> performs (Nested c :: k) h h2 o
  | D_nested_raise : forall c k h h1 e, performs (code c) h h1 (Some e) -> performs (Nested c :: k) h h1 (Some e).
  Inductive directly : list call -> H -> H -> list (call * result V) -> Prop :=
  | All_done : forall h, directly [] h h []
  | One_ok : forall c cs h h1 h2 l, performs (code c) h h1 None -> directly cs h1 h2 l -> directly (c :: cs) h h2 ((c, Ok (ret c h1)) :: l)
  | One_err : forall c cs h h1 e h2 l, performs (code c) h h1 (Some e) -> directly cs h1 h2 l -> directly (c :: cs) h h2 ((c, Err e) :: l).
End Direct.

Section Proof.
  Context {H V call : Type} (code : call -> list (@instr H call)) (ret : call -> H -> V).
  Notation tstep := (thread_step code ret).
  Notation gsteps := (steps code ret).
  Notation performs := (performs code).
  Notation directly := (directly code ret).

  (** What remains to be done by a stack: outermost outcome. *)
  Inductive finishes : list (call * list (@instr H call)) -> H -> H -> result V -> Prop :=
  | F_last : forall c k h h', performs k h h' None -> finishes [(c, k)] h h' (Ok (ret c h'))
  | F_raise : forall c k s h h' e, performs k h h' (Some e) -> finishes ((c, k) :: s) h h' (Err e)
  | F_more : forall c k x s h h1 h' r, performs k h h1 None -> finishes (x :: s) h1 h' r -> finishes ((c, k) :: x :: s) h h' r.

  Definition rest (th : @caller H V call) (h h' : H) (l : list (call * result V)) : Prop :=
    match running th with
    | [] => directly (todo th) h h' l
    | (c, k) :: s => exists r l' h1, l = (fst (last s (c, k)), r) :: l' /\ finishes ((c, k) :: s) h h1 r /\ directly (todo th) h1 h' l'
    end.

  Lemma last_map : forall (s : list (call * list (@instr H call))) c k k', fst (last s (c, k)) = fst (last s (c, k')).
  Proof. induction s as [|x s]; intros; auto. cbn [last]. destruct s; auto. Qed.
  Lemma last_cons : forall (s : list (call * list (@instr H call))) x c k, fst (last (x :: s) (c, k)) = fst (last s x).
  Proof. induction s as [|y s]; intros; auto. change (last (x :: y :: s) (c, k)) with (last (y :: s) (c, k)). rewrite IHs. cbn [last]. destruct s; auto. specialize (IHs x (fst x) (snd x)).
    assert (G : forall (l : list (call * list (@instr H call))) a b, l <> [] -> last l a = last l b) by (induction l as [|z l]; intros; [congruence|]; destruct l; auto; cbn; apply (IHl a b); discriminate).
    rewrite (G (p :: s) y x); auto. discriminate. Qed.

  Lemma step_back : forall h th h1 th1 h' l, tstep (h, th) (h1, th1) -> rest th1 h1 h' l ->
    exists l0, done th1 ++ l = done th ++ l0 /\ rest th h h' l0.
  Proof.
    intros h th h1 th1 h' l S R. inversion S; subst; unfold rest in R; cbn [running todo done] in *.
    - destruct R as (r & l' & h2 & -> & F & D). exists ((c, r) :: l'). split; auto. unfold rest. cbn [running todo]. cbn [last fst].
      inversion F; subst. + eapply One_ok; eauto. + eapply One_err; eauto.
    - destruct R as (r & l' & h2 & -> & F & D). eexists. split; [reflexivity|]. unfold rest. cbn [running todo]. exists r, l', h2. split; [do 2 f_equal; apply last_map|]. split; auto.
      inversion F; subst. + constructor. eapply D_do; eauto. + apply F_raise. eapply D_do; eauto. + eapply F_more; eauto. eapply D_do; eauto.
    - destruct R as (r & l' & h2 & -> & F & D). eexists. split; [reflexivity|]. unfold rest. cbn [running todo]. exists r, l', h2. split; [rewrite last_cons; do 2 f_equal; apply last_map|]. split; auto.
      inversion F; subst.
      + apply F_raise. eapply D_nested_raise; eauto.
      + match goal with X : finishes ((c, k) :: s) _ _ _ |- _ => inversion X; subst end.
        * constructor. eapply D_nested; eauto. * apply F_raise. eapply D_nested; eauto. * eapply F_more; eauto. eapply D_nested; eauto.
    - destruct R as (r & l' & h2 & -> & F & D). eexists. split; [reflexivity|]. unfold rest. cbn [running todo]. exists r, l', h2. split; [rewrite last_cons; auto|]. split; auto.
      eapply F_more; eauto. constructor.
    - exists ((c, Ok (ret c h1)) :: l). split; [rewrite <- app_assoc; auto|]. unfold rest. cbn [running todo]. exists (Ok (ret c h1)), l, h1. split; auto. split; auto. constructor. constructor.
    - exists ((fst (last s (c, [])), Err e) :: l). split; [rewrite <- app_assoc; auto|]. unfold rest. cbn [running todo]. exists (Err e), l, h1. split; [do 2 f_equal; apply last_map|]. split; auto.
      apply F_raise. constructor. auto.
  Qed.
End Proof.

Lemma same_place : forall {A} (b b' a a' : list A) x y, b ++ x :: a = b' ++ y :: a' -> List.length b' = List.length b -> x = y.
Proof. induction b as [|z b]; intros [|z' b'] a a' x y E L; try discriminate; cbn in *; injection E; intros; eauto. Qed.
Lemma step_inv : forall {H V call : Type} (code : call -> list (@instr H call)) (ret : call -> H -> V) a b, step code ret a b ->
  exists h h' before th th' after, thread_step code ret (h, th) (h', th') /\ a = (h, before ++ th :: after) /\ b = (h', before ++ th' :: after).
Proof. intros H V call code ret a b S. destruct S. eauto 10. Qed.

(** A single thread calling through proxies: when all its calls are over, the host's state and the outcomes are those of calling
    the methods directly one after the other, nested calls and exceptions included. *)
Theorem C54_transparent : forall {H V call : Type} (code : call -> list (@instr H call)) (ret : call -> H -> V) calls h h' l,
  steps code ret (h, [Caller calls [] []]) (h', [Caller [] [] l]) -> directly code ret calls h h' l.
Proof.
  intros H V call code ret calls h h' l S.
  assert (G : forall a b, steps code ret a b -> forall h th, a = (h, [th]) -> b = (h', [Caller [] [] l]) -> exists l0, l = done th ++ l0 /\ rest code ret th h h' l0).
  { induction 1 as [s|a b c ST SS IH]; intros h0 th E1 E2.
    - subst s. injection E2 as <- ->. exists []. cbn. rewrite app_nil_r. split; auto. constructor.
    - destruct (step_inv code ret a b ST) as (ha & hb & before0 & th0 & th' & after0 & TH & EA & EB). subst b. rewrite E1 in EA. injection EA as EH E. subst ha. destruct before0 as [|x before0]; [|destruct before0; discriminate]. cbn in E. injection E as <- <-.
      destruct (IH hb th' eq_refl E2) as (l1 & L1 & R1). destruct (step_back code ret _ _ _ _ _ _ TH R1) as (l0 & L0 & R0). exists l0. split; auto. congruence. }
  destruct (G _ _ S h (Caller calls [] []) eq_refl eq_refl) as (l0 & E & R). cbn in E. subst. exact R.
Qed.
Print Assumptions C54_transparent.

(** No deadlock: a thread that has calls to make or running can always move, however deep the calls are nested, whatever the others do. *)
Theorem C54_no_deadlock : forall {H V call : Type} (code : call -> list (@instr H call)) (ret : call -> H -> V) h before th after,
  todo th <> [] \/ running th <> [] -> exists h' th', step code ret (h, before ++ th :: after) (h', before ++ th' :: after).
Proof.
  intros H V call code ret h before [t s d] after N. cbn in N.
  assert (exists h' th', thread_step code ret (h, Caller t s d) (h', th')) as (h' & th' & S). 2:{ exists h', th'. constructor. auto. }
  destruct s as [|[c [|[f|c'] k]] s].
  - destruct t as [|c t]; [destruct N; congruence|]. eexists _, _. constructor.
  - destruct s as [|[c' k] s]; eexists _, _; [apply T_return|apply T_return_nested].
  - destruct (f h) as [h'|e] eqn:F; eexists _, _; [eapply T_do|eapply T_raise]; eauto.
  - eexists _, _. apply T_nested.
Qed.
Print Assumptions C54_no_deadlock.

(** Each thread gets its outcomes in the order of its calls, each exactly once, whatever the other threads do. *)
Theorem C54_call_order : forall {H V call : Type} (code : call -> list (@instr H call)) (ret : call -> H -> V) h h' before after before' after' calls th,
  steps code ret (h, before ++ Caller calls [] [] :: after) (h', before' ++ th :: after') -> List.length before' = List.length before ->
  exists pending, calls = map fst (done th) ++ pending /\ (running th = [] -> pending = todo th).
Proof.
  intros H V call code ret h h' before after before' after' calls th S L.
  set (inv := fun t : @caller H V call => calls = map fst (done t) ++ match running t with [] => [] | x :: s => [fst (last s x)] end ++ todo t).
  assert (TS : forall h t h1 t1, thread_step code ret (h, t) (h1, t1) -> inv t -> inv t1).
  { intros a t b t1 ST. unfold inv. clear inv S. inversion ST; subst; cbn [done running todo app map]; intros I; auto.
    - rewrite (last_map s c k (Do f :: k)). auto.
    - rewrite last_cons, (last_map s c k (Nested c' :: k)). auto.
    - rewrite last_cons in I. auto.
    - rewrite map_app, <- app_assoc. cbn [map fst app]. cbn in I. auto.
    - rewrite map_app, <- app_assoc. cbn [map fst app]. rewrite (last_map s c [] (Do f :: k)). auto. }
  assert (G : forall a b, steps code ret a b -> forall h bs t as_, a = (h, bs ++ t :: as_) -> inv t -> forall h' bs' t' as', b = (h', bs' ++ t' :: as') -> List.length bs' = List.length bs -> inv t').
  { induction 1 as [s|a b c ST SS IH]; intros h0 bs t as_ E1 I h2 bs' t' as' E2 LL.
    - subst s. injection E2 as _ E. rewrite <- (same_place _ _ _ _ _ _ E LL). auto.
    - destruct (step_inv code ret a b ST) as (ha & hb & before0 & th0 & th' & after0 & TH & EA & EB). subst b. rewrite E1 in EA. injection EA as EH E. subst ha.
      assert (K : exists t1 bs1 as1, before0 ++ th' :: after0 = bs1 ++ t1 :: as1 /\ List.length bs1 = List.length bs /\ inv t1).
      { pose proof (TS _ _ _ _ TH) as TSX. clear - E I TSX. revert before0 E. induction bs as [|x bs IHb]; intros before0 E.
        - destruct before0 as [|y b0]; cbn in E; injection E as E' E''; subst. + eexists th', [], _. auto. + exists y, [], (b0 ++ th' :: after0). auto.
        - destruct before0 as [|y b0]; cbn in E; injection E as E' E; subst.
          + exists t, (th' :: bs), as_. cbn. auto.
          + destruct (IHb b0 E) as (t1 & b1 & a1 & Q & LL & II). exists t1, (y :: b1), a1. cbn. rewrite Q. auto. }
      destruct K as (t1 & bs1 & as1 & E3 & L3 & I3). rewrite E3 in IH. eapply (IH hb bs1 t1 as1); eauto. congruence. }
  assert (I : inv th). { eapply G; eauto. unfold inv. cbn. auto. }
  unfold inv in I. eexists. split; [exact I|]. intros ->. auto.
Qed.
Print Assumptions C54_call_order.

(** But calls of different threads are not executed one at a time: each call has a worker of its own. Two threads adding one to a
    counter by read and write can lose an update. *)
Definition ex_code (c : bool) : list (@instr (nat * nat * nat) bool) :=
  if c then [Do (fun '(n, a, b) => Ok (n, n, b)); Do (fun '(n, a, b) => Ok (S a, a, b))]
  else [Do (fun '(n, a, b) => Ok (n, a, n)); Do (fun '(n, a, b) => Ok (S b, a, b))].
Ltac mv i := eapply steps_trans; [ match i with
  | 0 => eapply (S_one _ _ _ _ [])
  | _ => eapply (S_one _ _ _ _ [_]) end; econstructor; reflexivity | cbn [app] ].
Theorem C54_one_at_a_time_refuted : exists l1 l2,
  steps ex_code (fun _ h => fst (fst h)) ((0, 0, 0), [Caller [true] [] []; Caller [false] [] []]) ((1, 0, 0), [Caller [] [] l1; Caller [] [] l2]).
Proof.
  eexists _, _. mv 0. cbn [ex_code]. mv 1. cbn [ex_code]. mv 0. mv 1. mv 0. mv 1. mv 0. mv 1. apply steps_refl.
Qed.
Print Assumptions C54_one_at_a_time_refuted.

(** Every method the presenters call on a model is forwarded; other attributes of the host are not reachable. *)
Theorem C54_interface : Forall (fun m => proxied project_interface m = Ok tt) ["load"; "load_manager"; "set_selected_scan"; "get_selected_metadata"]%string /\ proxied random_interface "get_next_file" = Ok tt
  /\ forall names m, ~ In m names -> proxied names m = Err AttributeError.
Proof.
  split; [repeat constructor|split; [auto|]]. intros names m N. unfold proxied. destruct (existsb _ _) eqn:E; auto. apply existsb_exists in E. destruct E as (x & I & Q). apply String.eqb_eq in Q. subst. contradiction.
Qed.
Print Assumptions C54_interface.

(** Nested call: the outer method calls the inner one through a proxy (as set_selected_scan does with get_next_file). *)
Definition ex_code2 (c : bool) : list (@instr nat bool) := if c then [Do (fun n => Ok (S n)); Nested false; Do (fun n => Ok (S n))] else [Do (fun n => Ok (10 * n))].
Example C54_example : steps ex_code2 (fun _ h => h) (1, [Caller [true] [] []]) (21, [Caller [] [] [(true, Ok 21)]]).
Proof.
  Ltac mv2 := eapply steps_trans; [eapply (S_one _ _ _ _ []); econstructor; reflexivity | cbn [app ex_code2]].
  mv2. mv2. mv2. mv2. mv2. mv2. mv2. apply steps_refl.
Qed.
