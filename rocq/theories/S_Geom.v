(** Specification vocabulary for the geometry properties (independent of the model). *)
From Coq Require Import Reals.
From Verif Require Import Base LinAlg.
Open Scope R_scope.

(** [r] is orthogonal with determinant +1: an element of SO(3). *)
Definition rotation (r : mat) : Prop := mm (tr r) r = mid /\ det r = 1.

(** [i] is a two-sided inverse of [m]. *)
Definition inverse_of (i m : mat) : Prop := mm i m = mid /\ mm m i = mid.

(** [a], [b] point in the same direction. *)
Definition parallel (a b : vec) : Prop := exists k, 0 < k /\ a = vscale k b.

(** Right-handed orthonormal frame. *)
Definition frame (a b c : vec) : Prop :=
  dot a a = 1 /\ dot b b = 1 /\ dot c c = 1 /\ dot a b = 0 /\ dot b c = 0 /\ dot a c = 0 /\ cross a b = c.

(** Rodrigues' formula: the vector [v] turned right-handedly by [t] degrees about the unit vector [k]. *)
Definition turn (k : vec) (t : R) (v : vec) : vec :=
  let a := t * PI / 180 in
  vadd (vscale (cos a) v) (vadd (vscale (sin a) (cross k v)) (vscale (dot k v * (1 - cos a)) k)).

Definition ex : vec := V 1 0 0.
Definition ey : vec := V 0 1 0.
Definition ez : vec := V 0 0 1.
