(** Vocabulary for matrices of any size. *)
From Coq Require Import Reals Arith.
From Verif Require Import Base M_Mat.
Open Scope R_scope.

(** the number x^T A x *)
Definition form (n : nat) (A : fmat) (x : nat -> R) : R := sum n (fun i => sum n (fun j => x i * A i j * x j)).
Definition symmetric (n : nat) (A : fmat) : Prop := forall i j, (i < n)%nat -> (j < n)%nat -> A i j = A j i.
(** x^T A x > 0 unless x = 0 *)
Definition posdef (n : nat) (A : fmat) : Prop := forall x, (exists k, (k < n)%nat /\ x k <> 0) -> 0 < form n A x.
(** A N = N A = 1 *)
Definition inverse_of (n : nat) (A N : fmat) : Prop :=
  forall i j, (i < n)%nat -> (j < n)%nat ->
    mul n A N i j = eye i j /\ mul n N A i j = eye i j.
(** the position, among all coordinates, of the k-th of those other than i *)
Definition other (i k : nat) : nat := if Nat.ltb k i then k else S k.
(** a vector with coordinate i left out *)
Definition without (i : nat) (x : nat -> R) : nat -> R := fun k => x (other i k).
(** B gives the least value A takes when coordinate i is free *)
Definition minimises (n : nat) (A : fmat) (i : nat) (B : fmat) : Prop :=
  (forall x, form n B (without i x) <= form (S n) A x) /\
  (forall y, exists x, (forall k, (k < n)%nat -> without i x k = y k) /\ form (S n) A x = form n B y).
(** no direction is softer than 1e-8: x^T A x is at least 1e-8 times the square of every coordinate of x *)
Definition stiff (n : nat) (A : fmat) : Prop := forall x k, (k < n)%nat -> 1 / 100000000 * (x k * x k) <= form n A x.
