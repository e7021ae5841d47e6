(** Model of src/tavi/EventBroker/event_broker.py.
    Callables are numbered; what a callable does when it is called is left open (relation [does]): any list of registrations and
    nested publications on the broker, possibly ended by an exception. Everything else a callable does is invisible to the broker. *)
From Coq Require Import List String.
From Verif Require Import Base.
Import ListNotations.
Open Scope string_scope.
Open Scope list_scope.

(** EventBroker/event_type.py:4-26: an event has a class (its exact type) and a content. *)
Record event := Event { ev_type : string; ev_data : string }.

(** event_broker.py:15 self.registry = defaultdict(list) *)
Definition registry := dict string (list nat).
Definition lookup (r : registry) (ty : string) : list nat := match dget String.eqb ty r with Some l => l | None => [] end.
(** event_broker.py:17-18 register: defaultdict creates the missing list; append. *)
Definition add (r : registry) (ty : string) (cb : nat) : registry := dset String.eqb ty (lookup r ty ++ [cb]) r.

Inductive action := Register (ty : string) (cb : nat) | Publish (e : event) | Raise (x : exn).

(** Record of a call: the callable, the event handed over, and the calls made by publications nested in it. *)
Inductive call := Call (cb : nat) (e : event) (nested : list call).
Definition callee (c : call) : nat := match c with Call cb _ _ => cb end.
Definition handed (c : call) : event := match c with Call _ e _ => e end.

Section Semantics.
  Context (does : nat -> event -> list action -> Prop).

  (** [acts r l r' cs o]: performing the actions [l] with registry [r] leads to [r'], makes the calls [cs] and ends normally
      ([o = None]) or with an exception.
      [publishes r e i r' cs o]: the loop of publish (event_broker.py:20-24) from position [i] of the live list of callables.
      A type without entry (registry.get gives None) or with an empty list makes no call. *)
  Inductive acts : registry -> list action -> registry -> list call -> option exn -> Prop :=
  | A_nil : forall r, acts r [] r [] None
  | A_register : forall r ty cb l r' cs o, acts (add r ty cb) l r' cs o -> acts r (Register ty cb :: l) r' cs o
  | A_publish : forall r e l r1 cs1 r2 cs2 o, publishes r e 0 r1 cs1 None -> acts r1 l r2 cs2 o -> acts r (Publish e :: l) r2 (cs1 ++ cs2) o
  | A_publish_raises : forall r e l r1 cs1 x, publishes r e 0 r1 cs1 (Some x) -> acts r (Publish e :: l) r1 cs1 (Some x)
  | A_raise : forall r x l, acts r (Raise x :: l) r [] (Some x)
  with publishes : registry -> event -> nat -> registry -> list call -> option exn -> Prop :=
  | P_end : forall r e i, nth_error (lookup r (ev_type e)) i = None -> publishes r e i r [] None
  | P_call : forall r e i cb l r1 inner r2 cs o, nth_error (lookup r (ev_type e)) i = Some cb -> does cb e l -> acts r l r1 inner None ->
      publishes r1 e (S i) r2 cs o -> publishes r e i r2 (Call cb e inner :: cs) o
  | P_call_raises : forall r e i cb l r1 inner x, nth_error (lookup r (ev_type e)) i = Some cb -> does cb e l -> acts r l r1 inner (Some x) ->
      publishes r e i r1 [Call cb e inner] (Some x).
End Semantics.

(** event_broker.py:5-15: the class attribute _instance and the instances; an instance has a registry once initialised.
    [__new__] creates the object only if _instance is None; [__init__], run by every EventBroker(), sets registry only if absent. *)
Record memory := Memory { class_instance : option nat; objects : dict nat (option registry) }.
Definition start : memory := Memory None [].
Definition construct (m : memory) : memory * nat :=
  let '(m1, id) := match class_instance m with
                   | Some id => (m, id)
                   | None => let id := List.length (objects m) in (Memory (Some id) (dset Nat.eqb id None (objects m)), id)
                   end in
  match dget Nat.eqb id (objects m1) with
  | Some (Some _) => (m1, id)
  | _ => (Memory (class_instance m1) (dset Nat.eqb id (Some []) (objects m1)), id)
  end.
Definition registry_of (m : memory) (id : nat) : registry := match dget Nat.eqb id (objects m) with Some (Some r) => r | _ => [] end.
Definition register (m : memory) (id : nat) (ty : string) (cb : nat) : memory :=
  Memory (class_instance m) (dset Nat.eqb id (Some (add (registry_of m id) ty cb)) (objects m)).

(** A client constructs a broker and registers a callable on it (as every presenter does). *)
Definition client (m : memory) (x : string * nat) : memory := let '(m1, id) := construct m in register m1 id (fst x) (snd x).
