(** Generic vocabulary shared by the model files: Python exceptions as values and
    insertion-ordered dictionaries.  Nothing here is specific to TAVI. *)
From Coq Require Import List String Bool.
Import ListNotations.
Set Implicit Arguments.

(** The exception classes that the modelled code can raise, plus [NotANumber]: the marker used where numpy
    does not raise but returns an array containing nan/inf (division by a zero norm, 0/0 in an empty bin). *)
Inductive exn : Type :=
| ValueError | TypeError | KeyError | IndexError | AttributeError | UnboundLocalError
| StopIteration | NameError | NotADirectoryError | LinAlgError | FileNotFoundError | ZeroDivisionError | OSError | NotImplemented | NotANumber.

Inductive result (A : Type) : Type :=
| Ok (a : A)
| Err (e : exn).
Arguments Ok {A} a.
Arguments Err {A} e.

Definition bind {A B} (r : result A) (f : A -> result B) : result B :=
  match r with Ok a => f a | Err e => Err e end.

Notation "'do' x <- a ; b" := (bind a (fun x => b))
  (at level 200, x pattern, a at level 100, b at level 200, right associativity).

Definition rmap {A B} (f : A -> B) (r : result A) : result B :=
  match r with Ok a => Ok (f a) | Err e => Err e end.

(** Run [f] over a list, stopping at the first exception (a Python [for] loop whose body may raise). *)
Fixpoint mapM {A B} (f : A -> result B) (l : list A) : result (list B) :=
  match l with
  | [] => Ok []
  | x :: l' => do y <- f x; do ys <- mapM f l'; Ok (y :: ys)
  end.

(** * Python dictionaries: association lists in insertion order, keys unique. *)
Section Dict.
  Context {K A : Type} (keqb : K -> K -> bool).

  Definition dict := list (K * A).

  Fixpoint dget (k : K) (d : dict) : option A :=
    match d with
    | [] => None
    | (k', v) :: d' => if keqb k k' then Some v else dget k d'
    end.

  (** [d[k] = v]: replaces in place, appends a new key at the end. *)
  Fixpoint dset (k : K) (v : A) (d : dict) : dict :=
    match d with
    | [] => [(k, v)]
    | (k', v') :: d' => if keqb k k' then (k', v) :: d' else (k', v') :: dset k v d'
    end.

  (** [d.pop(k, None)] : the dictionary without the key. *)
  Fixpoint ddel (k : K) (d : dict) : dict :=
    match d with
    | [] => []
    | (k', v') :: d' => if keqb k k' then d' else (k', v') :: ddel k d'
    end.

  (** [d.update(e)] *)
  Definition dupdate (d e : dict) : dict :=
    fold_left (fun acc kv => dset (fst kv) (snd kv) acc) e d.

  Definition dkeys (d : dict) : list K := map fst d.
  Definition dmem (k : K) (d : dict) : bool :=
    match dget k d with Some _ => true | None => false end.
End Dict.
Arguments dict : clear implicits.

Lemma Ok_inj : forall A (a b : A), Ok a = Ok b -> a = b.
Proof. intros A a b H. congruence. Qed.
