(** Specification vocabulary for the convolution of a model with the resolution (C70). *)
From Coq Require Import Reals List Arith.
From Verif Require Import Base LinAlg M_Mat S_Mat.
Import ListNotations.
Open Scope R_scope.

(** Determinants *)
Definition det3 (m : fmat) : R :=
  m 0%nat 0%nat * (m 1%nat 1%nat * m 2%nat 2%nat - m 1%nat 2%nat * m 2%nat 1%nat)
  - m 0%nat 1%nat * (m 1%nat 0%nat * m 2%nat 2%nat - m 1%nat 2%nat * m 2%nat 0%nat)
  + m 0%nat 2%nat * (m 1%nat 0%nat * m 2%nat 1%nat - m 1%nat 1%nat * m 2%nat 0%nat).
Definition minor0 (m : fmat) (j : nat) : fmat := fun k l => m (S k) (other j l).
Definition det4 (m : fmat) : R :=
  m 0%nat 0%nat * det3 (minor0 m 0) - m 0%nat 1%nat * det3 (minor0 m 1) + m 0%nat 2%nat * det3 (minor0 m 2) - m 0%nat 3%nat * det3 (minor0 m 3).
(** The three eigenvalues are the roots of the characteristic polynomial. *)
Definition eigenvalues (m : fmat) (abc : R * R * R) : Prop :=
  let '(a, b, c) := abc in forall x, det3 (fun i j => x * eye i j - m i j) = (x - a) * (x - b) * (x - c).

(** A displacement [v] in (h, k, l) with an energy [e] *)
Definition displacement (v : vec) (e : R) : nat -> R := fun k => nth k [vx v; vy v; vz v; e] 0.
(** Some energy brings the displacement inside three standard deviations. *)
Definition in_ellipsoid (A : fmat) (v : vec) : Prop := exists e, form 4 A (displacement v e) < 9.
(** The points that cut the box of half widths 3 s1, 3 s2, 3 s3 into n1 x n2 x n3 cells *)
Definition mesh (s1 s2 s3 : R) (n1 n2 n3 : nat) (v : vec) : Prop :=
  exists i j k, (i <= n1)%nat /\ (j <= n2)%nat /\ (k <= n3)%nat /\
    v = V (- (3 * s1) + INR i * (6 * s1 / INR n1)) (- (3 * s2) + INR j * (6 * s2 / INR n2)) (- (3 * s3) + INR k * (6 * s3 / INR n3)).
(** What is lost when the axes are correlated: 1 only for a diagonal covariance matrix *)
Definition shrink (N : fmat) : R := sqrt (det3 N / (N 0%nat 0%nat * N 1%nat 1%nat * N 2%nat 2%nat)).

(** *** How fine the mesh is *)
Section Fineness.
  Variable A N : fmat.
  Variable disp : vec -> list R.
  Variable q : vec.
  Variable en : R.
  (** The points of the first mesh, 10 x 10 x 10 cells; [i] counts along the axis, [j] and [k] along the other two. *)
  Definition first_mesh (axis i j k : nat) : vec :=
    let p d n := - (3 * sqrt (N d d)) + INR n * (6 * sqrt (N d d) / 10) in
    match axis with
    | 0 => V (p 0 i) (p 1 j) (p 2 k)
    | 1 => V (p 0 j) (p 1 i) (p 2 k)
    | _ => V (p 0 j) (p 1 k) (p 2 i)
    end%nat.
  (** [ls] lists the changes of the energy of band [b] from one point to the next on a line, where both are in the ellipsoid. *)
  Inductive jumps (axis b j k : nat) : nat -> list R -> Prop :=
  | jumps_end : jumps axis b j k 10 []
  | jumps_take : forall i ls, jumps axis b j k (S i) ls ->
      in_ellipsoid A (first_mesh axis i j k) -> in_ellipsoid A (first_mesh axis (S i) j k) ->
      jumps axis b j k i (Rabs (nth b (disp (vadd (first_mesh axis (S i) j k) q)) 0 - nth b (disp (vadd (first_mesh axis i j k) q)) 0) :: ls)
  | jumps_skip : forall i ls, jumps axis b j k (S i) ls ->
      ~ (in_ellipsoid A (first_mesh axis i j k) /\ in_ellipsoid A (first_mesh axis (S i) j k)) -> jumps axis b j k i ls.
  Definition mean (l : list R) : R := fold_right Rplus 0 l / INR (length l).
  (** The largest, over all bands and lines along the axis, of the mean jump on the line; 0 if there is no jump at all *)
  Definition typical_jump (axis : nat) (s : R) : Prop :=
    (exists b j k ls, (b < length (disp q))%nat /\ (j <= 10)%nat /\ (k <= 10)%nat /\ jumps axis b j k 0 ls /\ ls <> [] /\ s = mean ls) /\
    (forall b j k ls, (b < length (disp q))%nat -> (j <= 10)%nat -> (k <= 10)%nat -> jumps axis b j k 0 ls -> ls <> [] -> mean ls <= s)
    \/ s = 0 /\ (forall b j k ls, (b < length (disp q))%nat -> (j <= 10)%nat -> (k <= 10)%nat -> jumps axis b j k 0 ls -> ls = []).
  (** 10 cells, or more if the jump is larger than [rez] times the width in energy, but no more than [max_step] *)
  Definition cells (rez max_step s : R) (n : nat) : Prop :=
    let width := rez / sqrt (A 3%nat 3%nat) in
    (s <= width -> n = 10%nat) /\ (width < s -> INR n <= Rmin (10 * s / width) max_step < INR n + 1).
  (** Nothing is near: on the first mesh all energies are below, or all above, the window, or all points are far away. *)
  Definition first_points (v : vec) (w : R) : Prop :=
    (exists i j k, (i <= 10)%nat /\ (j <= 10)%nat /\ (k <= 10)%nat /\ v = first_mesh 0 i j k) /\ in_ellipsoid A v /\ In w (disp (vadd v q)).
  Definition far : Prop :=
    (forall v w, first_points v w -> w < en - 3 * sqrt (N 3%nat 3%nat)) \/
    (forall v w, first_points v w -> en + 3 * sqrt (N 3%nat 3%nat) < w) \/
    (forall v w, first_points v w -> 125 < form 4 A (displacement v (w - en))).
End Fineness.
(** The sum over the bands at a displacement [v]: the intensity there, times the Gaussian of the resolution *)
Definition at_displacement (A : fmat) (disp inten : vec -> list R) (q : vec) (en : R) (v : vec) : R :=
  fold_right Rplus 0 (map (fun p => fst p * exp (- form 4 A (displacement v (snd p - en)) / 2)) (combine (inten (vadd v q)) (disp (vadd v q)))).
