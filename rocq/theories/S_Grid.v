(** Specification vocabulary for grids of points (C47), independent of the model's functions. *)
From Coq Require Import Reals List.
From Verif Require Import LinAlg M_Labels M_Reso.
Import ListNotations.
Open Scope R_scope.

(** The values an element of the grid stands for: a number stands for itself, (min, max, step) for min, min + step, ...
    as long as max is not reached. *)
Inductive spans : gvar -> list R -> Prop :=
| spans_num : forall x, spans (GNum x) [x]
| spans_range : forall a b s vals, s <> 0 ->
    (forall i, (i < length vals)%nat <-> (0 < s -> a + INR i * s < b) /\ (s < 0 -> a + INR i * s > b)) ->
    (forall i, (i < length vals)%nat -> nth_error vals i = Some (a + INR i * s)) ->
    spans (GTuple [a; b; s]) vals.

(** An element that is neither a number nor a range of three numbers *)
Definition malformed (g : gvar) : Prop :=
  match g with GTuple [_; _; _] => False | GNum _ => False | _ => True end.
Definition zero_step (g : gvar) : Prop :=
  match g with GTuple [_; _; s] => s = 0 | _ => False end.

(** [x] put in place [k] of three elements *)
Definition placed {A} (k : nat) (x a b c : A) : list A :=
  match k with 0 => [x; a; b; c] | 1 => [a; x; b; c] | 2 => [a; b; x; c] | _ => [a; b; c; x] end%nat.

Definition is_vec (a : axis) : Prop := match a with Vec _ _ _ => True | En => False end.
Definition direction (a : axis) : vec :=
  match a with Vec x y z => V (comp_val x) (comp_val y) (comp_val z) | En => vzero end.
(** u a + v b + w c *)
Definition combination (u v w : R) (a b c : vec) : vec :=
  V (u * vx a + v * vx b + w * vx c) (u * vy a + v * vy b + w * vy c) (u * vz a + v * vz b + w * vz c).
