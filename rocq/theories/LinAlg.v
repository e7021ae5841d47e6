(** 3-vectors and 3x3 matrices over the reals: the part of numpy the geometry code uses. *)
From Coq Require Import Reals.
From Verif Require Import Base.
Open Scope R_scope.

Record vec := V { vx : R; vy : R; vz : R }.

(** Row-major 3x3 matrix. *)
Record mat := M {
  m00 : R; m01 : R; m02 : R;
  m10 : R; m11 : R; m12 : R;
  m20 : R; m21 : R; m22 : R }.

Definition vadd (a b : vec) : vec := V (vx a + vx b) (vy a + vy b) (vz a + vz b).
Definition vsub (a b : vec) : vec := V (vx a - vx b) (vy a - vy b) (vz a - vz b).
Definition vopp (a : vec) : vec := V (- vx a) (- vy a) (- vz a).
Definition vscale (k : R) (a : vec) : vec := V (k * vx a) (k * vy a) (k * vz a).
Definition vzero : vec := V 0 0 0.

(** np.dot of two vectors *)
Definition dot (a b : vec) : R := vx a * vx b + vy a * vy b + vz a * vz b.
(** np.cross *)
Definition cross (a b : vec) : vec :=
  V (vy a * vz b - vz a * vy b) (vz a * vx b - vx a * vz b) (vx a * vy b - vy a * vx b).
(** np.linalg.norm *)
Definition norm (a : vec) : R := sqrt (dot a a).

Definition row0 (m : mat) := V (m00 m) (m01 m) (m02 m).
Definition row1 (m : mat) := V (m10 m) (m11 m) (m12 m).
Definition row2 (m : mat) := V (m20 m) (m21 m) (m22 m).
Definition col0 (m : mat) := V (m00 m) (m10 m) (m20 m).
Definition col1 (m : mat) := V (m01 m) (m11 m) (m21 m).
Definition col2 (m : mat) := V (m02 m) (m12 m) (m22 m).

(** np.array([a, b, c]) *)
Definition of_rows (a b c : vec) : mat :=
  M (vx a) (vy a) (vz a) (vx b) (vy b) (vz b) (vx c) (vy c) (vz c).
(** np.array([a, b, c]).T *)
Definition of_cols (a b c : vec) : mat :=
  M (vx a) (vx b) (vx c) (vy a) (vy b) (vy c) (vz a) (vz b) (vz c).

Definition tr (m : mat) : mat :=
  M (m00 m) (m10 m) (m20 m) (m01 m) (m11 m) (m21 m) (m02 m) (m12 m) (m22 m).

(** matrix . vector *)
Definition mv (m : mat) (v : vec) : vec := V (dot (row0 m) v) (dot (row1 m) v) (dot (row2 m) v).
(** matrix . matrix *)
Definition mm (a b : mat) : mat :=
  M (dot (row0 a) (col0 b)) (dot (row0 a) (col1 b)) (dot (row0 a) (col2 b))
    (dot (row1 a) (col0 b)) (dot (row1 a) (col1 b)) (dot (row1 a) (col2 b))
    (dot (row2 a) (col0 b)) (dot (row2 a) (col1 b)) (dot (row2 a) (col2 b)).
Definition mscale (k : R) (m : mat) : mat :=
  M (k * m00 m) (k * m01 m) (k * m02 m) (k * m10 m) (k * m11 m) (k * m12 m) (k * m20 m) (k * m21 m) (k * m22 m).
Definition madd (a b : mat) : mat :=
  M (m00 a + m00 b) (m01 a + m01 b) (m02 a + m02 b) (m10 a + m10 b) (m11 a + m11 b) (m12 a + m12 b)
    (m20 a + m20 b) (m21 a + m21 b) (m22 a + m22 b).
Definition mzero : mat := M 0 0 0 0 0 0 0 0 0.
Definition mid : mat := M 1 0 0 0 1 0 0 0 1.

Definition det (m : mat) : R :=
  m00 m * (m11 m * m22 m - m12 m * m21 m)
  - m01 m * (m10 m * m22 m - m12 m * m20 m)
  + m02 m * (m10 m * m21 m - m11 m * m20 m).

Definition adj (m : mat) : mat :=
  M (m11 m * m22 m - m12 m * m21 m) (m02 m * m21 m - m01 m * m22 m) (m01 m * m12 m - m02 m * m11 m)
    (m12 m * m20 m - m10 m * m22 m) (m00 m * m22 m - m02 m * m20 m) (m02 m * m10 m - m00 m * m12 m)
    (m10 m * m21 m - m11 m * m20 m) (m01 m * m20 m - m00 m * m21 m) (m00 m * m11 m - m01 m * m10 m).

(** np.linalg.inv : LinAlgError on an exactly singular matrix. *)
Definition minv (m : mat) : result mat :=
  if Req_EM_T (det m) 0 then Err LinAlgError else Ok (mscale (/ det m) (adj m)).

(** v / np.linalg.norm(v): nan entries when v = 0, otherwise the unit vector. *)
Definition unit_of (v : vec) : result vec :=
  if Req_EM_T (norm v) 0 then Err NotANumber else Ok (vscale (/ norm v) v).

(** np.arctan2(y, x), without signed zeros. *)
Definition atan2 (y x : R) : R :=
  if Rlt_dec 0 x then atan (y / x)
  else if Rlt_dec x 0 then (if Rle_dec 0 y then atan (y / x) + PI else atan (y / x) - PI)
  else if Rlt_dec 0 y then PI / 2
  else if Rlt_dec y 0 then - (PI / 2)
  else 0.

(** np.deg2rad / np.radians and np.rad2deg / np.degrees *)
Definition deg2rad (d : R) : R := d * PI / 180.
Definition rad2deg (r : R) : R := r * 180 / PI.
