(** Model of src/tavi/multithreading/proxy.py: methods called through a proxy run on a worker thread of a fresh executor. *)
From Coq Require Import List String Bool Arith.
From Verif Require Import Base.
Import ListNotations.

Section Proxy.
  (** [H]: the state of the host objects. A method call [call] runs [code call]: atomic steps on the state, which may raise,
      and nested calls through a proxy; it returns [ret call] of the state in which it ends. Both are left open. *)
  Context {H V call : Type}.
  Inductive instr := Do (f : H -> result H) | Nested (c : call).
  Context (code : call -> list instr) (ret : call -> H -> V).

  (** A calling thread: the calls it still has to make, the stack of running calls (innermost first, each on the single worker
      of its own executor, proxy.py:20-24; an outer call waits in fut.result()), and the calls it has completed with their outcome. *)
  Record caller := Caller { todo : list call; running : list (call * list instr); done : list (call * result V) }.

  (** One step of a thread. proxy.py:20-22: a new ThreadPoolExecutor with one worker, submit. proxy.py:23: fut.result() gives the
      value back or raises the exception of the method again; it then leaves the enclosing method too (no method of the
      modelled hosts catches it), up to the caller of the outermost call. *)
  Inductive thread_step : H * caller -> H * caller -> Prop :=
  | T_start : forall h c t d, thread_step (h, Caller (c :: t) [] d) (h, Caller t [(c, code c)] d)
  | T_do : forall h h' t c f k s d, f h = Ok h' -> thread_step (h, Caller t ((c, Do f :: k) :: s) d) (h', Caller t ((c, k) :: s) d)
  | T_nested : forall h t c c' k s d, thread_step (h, Caller t ((c, Nested c' :: k) :: s) d) (h, Caller t ((c', code c') :: (c, k) :: s) d)
  | T_return_nested : forall h t c c' k s d, thread_step (h, Caller t ((c', []) :: (c, k) :: s) d) (h, Caller t ((c, k) :: s) d)
  | T_return : forall h t c d, thread_step (h, Caller t [(c, [])] d) (h, Caller t [] (d ++ [(c, Ok (ret c h))]))
  | T_raise : forall h e t c f k s d, f h = Err e ->
      thread_step (h, Caller t ((c, Do f :: k) :: s) d) (h, Caller t [] (d ++ [(fst (last s (c, [])), Err e)])).

  (** Several threads call at the same time: any of them moves. *)
  Inductive step : H * list caller -> H * list caller -> Prop :=
  | S_one : forall h h' before th th' after, thread_step (h, th) (h', th') -> step (h, before ++ th :: after) (h', before ++ th' :: after).
  Inductive steps : H * list caller -> H * list caller -> Prop :=
  | steps_refl : forall s, steps s s
  | steps_trans : forall a b c, step a b -> steps b c -> steps a c.
End Proxy.

(** proxy.py:26-30: only the abstract methods of the interface get a proxy method; other names are not found on the proxy object
    (unless the interface itself defines them, which the two interfaces of TAVI do not). *)
Definition proxied (abstract_methods : list string) (m : string) : result unit :=
  if existsb (String.eqb m) abstract_methods then Ok tt else Err AttributeError.
Open Scope string_scope.
(** ModelInterface/tavi_project_interface.py:6-21 and random_model_interface.py:6-9 *)
Definition project_interface : list string := ["set_selected_scan"; "get_selected_metadata"; "load_manager"; "load"].
Definition random_interface : list string := ["get_next_file"].
