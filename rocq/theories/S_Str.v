(** Vocabulary for text: what trimming, splitting and containing mean, independently of how they are computed. *)
From Coq Require Import List String Ascii Bool.
Import ListNotations.
Open Scope string_scope.

(** Every character of the text satisfies the test. *)
Definition every (P : ascii -> Prop) (s : string) : Prop := forall a c b, s = a ++ String c b -> P c.
(** ASCII white space: tab to carriage return, the four separators, space. *)
Definition white (c : ascii) : Prop := let n := nat_of_ascii c in 9 <= n <= 13 \/ 28 <= n <= 32.
Definition blank (s : string) : Prop := every white s.
(** No white space at either end. *)
Definition tight (t : string) : Prop :=
  (forall c r, t = String c r -> ~ white c) /\ (forall r c, t = r ++ String c "" -> ~ white c).
(** [t] is the text [s] without the white space at its ends. *)
Definition trimmed (s t : string) : Prop := exists a b, s = a ++ t ++ b /\ blank a /\ blank b /\ tight t.
(** [p] occurs in [s]. *)
Definition occurs (p s : string) : Prop := exists a b, s = a ++ p ++ b.
(** [s] is made of the pieces separated by the character. *)
Definition pieces (sep : ascii) (s : string) (l : list string) : Prop :=
  l <> [] /\ s = String.concat (String sep "") l /\ Forall (every (fun c => c <> sep)) l.
(** The words of a text: the maximal runs of characters that are not white space, in order. *)
Inductive words_of : string -> list string -> Prop :=
| wo_blank : forall s, blank s -> words_of s []
| wo_word : forall b w s ws, blank b -> w <> "" -> every (fun c => ~ white c) w ->
    (forall c r, s = String c r -> white c) -> words_of s ws -> words_of (b ++ w ++ s) (w :: ws).
