(** Python's sorted() and list.sort() on strings, by insertion. *)
From Coq Require Import List String Bool.
Import ListNotations.

(** strings compare by code point, as in Python *)
Fixpoint insert (s : string) (l : list string) : list string :=
  match l with [] => [s] | t :: l' => if String.leb s t then s :: l else t :: insert s l' end.
Fixpoint sort (l : list string) : list string := match l with [] => [] | s :: l' => insert s (sort l') end.

(** a Python set of strings as a list without repetitions; set.add *)
Definition sadd (s : string) (l : list string) : list string := if existsb (String.eqb s) l then l else l ++ [s].
(** set(l) *)
Definition to_set (l : list string) : list string := fold_left (fun acc s => sadd s acc) l [].
(** set.intersection(a, b) *)
Definition inter (a b : list string) : list string := filter (fun s => existsb (String.eqb s) b) a.
(** a.union(b) *)
Definition union (a b : list string) : list string := fold_left (fun acc s => sadd s acc) b a.
