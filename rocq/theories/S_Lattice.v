(** Specification vocabulary for crystal lattices. *)
From Coq Require Import Reals.
From Verif Require Import Base LinAlg M_Lattice.
Open Scope R_scope.

(** The angle between two vectors is [t] degrees. *)
Definition angle_is (u v : vec) (t : R) : Prop :=
  0 <= t <= 180 /\ dot u v = norm u * norm v * cos (t * PI / 180).

(** [a], [b], [c] are edges of a cell with parameters [p]. *)
Definition edges (p : lattice) (a b c : vec) : Prop :=
  norm a = la p /\ norm b = lb p /\ norm c = lc p /\
  angle_is b c (lalpha p) /\ angle_is c a (lbeta p) /\ angle_is a b (lgamma p).

(** A crystallographically possible cell: positive edges, angles strictly between 0 and 180 degrees, no angle reaching
    the sum of the other two, and angles that do not add up to a full turn. *)
Definition valid_cell (p : lattice) : Prop :=
  0 < la p /\ 0 < lb p /\ 0 < lc p /\
  0 < lalpha p < 180 /\ 0 < lbeta p < 180 /\ 0 < lgamma p < 180 /\
  lalpha p < lbeta p + lgamma p /\ lbeta p < lalpha p + lgamma p /\ lgamma p < lalpha p + lbeta p /\
  lalpha p + lbeta p + lgamma p < 360.

(** Table of dot products. *)
Definition gram (a b c : vec) : mat :=
  M (dot a a) (dot a b) (dot a c)  (dot b a) (dot b b) (dot b c)  (dot c a) (dot c b) (dot c c).

(** h a + k b + l c *)
Definition comb (h : vec) (a b c : vec) : vec := vadd (vadd (vscale (vx h) a) (vscale (vy h) b)) (vscale (vz h) c).
