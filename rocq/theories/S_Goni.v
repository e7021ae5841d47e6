(** Specification vocabulary for the goniometer. *)
From Coq Require Import Reals List String.
From Verif Require Import Base LinAlg S_Geom M_Utilities M_Goni.
Import ListNotations.
Open Scope R_scope.

(** The documented goniometer types: a Huber table "[-]Y,[-]Z,[-]X" and a four-circle
    "[-]Y,[-]Z,[-]Y,bisect", where a leading minus reverses the motor ([true] = reversed). *)
Definition ax (neg : bool) (letter : string) : string := if neg then ("-" ++ letter)%string else letter.
Definition huber_type (n0 n1 n2 : bool) : string :=
  (ax n0 "Y" ++ "," ++ ax n1 "Z" ++ "," ++ ax n2 "X")%string.
Definition four_circle_type (n0 n1 n2 : bool) : string :=
  (ax n0 "Y" ++ "," ++ ax n1 "Z" ++ "," ++ ax n2 "Y" ++ ",bisect")%string.
Definition sg (neg : bool) : R := if neg then -1 else 1.

(** Motor value [v] respects the bounds [b] (a missing bound is unbounded). *)
Definition within (b : option R * option R) (v : R) : Prop :=
  (forall lo, fst b = Some lo -> lo <= v) /\ (forall hi, snd b = Some hi -> v <= hi).

(** The motors of a position, by name. *)
Definition motors (a : motor_angles) : list (string * option R) :=
  [("two_theta"%string, Some (two_theta a)); ("omega"%string, omega a); ("sgl"%string, sgl a);
   ("sgu"%string, sgu a); ("chi"%string, chi a); ("phi"%string, phi a)].

(** Bounds in force for [name] after a history of accepted [set_limit] requests (latest last) that started
    from the bounds [b0]. *)
Fixpoint latest {A} (name : string) (hist : list (string * A)) (b0 : A) : A :=
  match hist with
  | [] => b0
  | (n, r) :: h => latest name h (if String.eqb n name then r else b0)
  end.

(** The bounds a goniometer holds for a motor: [limits.get(name, (None, None))]. *)
Definition bounds_of (g : goniometer) (name : string) : option R * option R :=
  match dget String.eqb name (g_limits g) with Some b => b | None => (None, None) end.

(** Running a history of set_limit calls (rejected calls leave the object unchanged). *)
Definition run_limits (g : goniometer) (h : list (string * (option R * option R))) : goniometer :=
  fold_left (fun g nr => match set_limit g (fst nr) (snd nr) with Ok g' => g' | Err _ => g end) h g.

Definition known (n : string) : bool := existsb (String.eqb n) motor_names.

