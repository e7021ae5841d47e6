(** Specification vocabulary for requests of the resolution at points (C46). *)
From Coq Require Import Reals List String.
From Verif Require Import Base LinAlg M_Utilities M_Lattice M_Sample M_UB M_Goni M_Tas M_Components M_Labels M_Reso S_Energy S_Reso S_Grid.
Import ListNotations.
Open Scope R_scope.

(** numpy's LinAlgError is a ValueError *)
Definition value_error (e : exn) : Prop := e = ValueError \/ e = LinAlgError.

(** Bragg's law pi = d k sin(theta) has no solution for the crystal *)
Definition no_bragg (c : attrs) (k : R) : Prop :=
  exists d, number c "d_spacing" d /\ forall s, -1 <= s <= 1 -> d * k * s <> PI.

(** The instrument cannot reach a point: an energy is negative, there are no motor angles for it, or the monochromator or the
    analyser cannot reflect the wavelength. *)
Definition unreachable (t : tas) (ps : parts) (h : vec) (ei ef : R) : Prop :=
  ei < 0 \/ ef < 0 \/
  (exists x, calculate_motor_angles t h (ei - ef) = Err x /\ value_error x) \/
  (exists c k, dget String.eqb "monochromator"%string ps = Some c /\ wavenumber ei k /\ no_bragg c k) \/
  (exists c k, dget String.eqb "analyzer"%string ps = Some c /\ wavenumber ef k /\ no_bragg c k).

(** Axes no ellipsoid can be expressed in: not three vectors and an energy, or vectors that are coplanar or left-handed *)
Definition vectors (axes : list axis) : list vec := map direction (filter (fun a => match a with Vec _ _ _ => true | En => false end) axes).
Definition bad_axes (t : tas) (axes : option (list axis)) : Prop :=
  exists l, axes = Some l /\ is_hkl l = false /\
   (List.length (vectors l) <> 3%nat \/ ~ In En l \/
    exists p1 p2 p3 a b c, vectors l = [p1; p2; p3] /\ reciprocal_space_vectors (s_lattice (t_sample t)) = Ok (a, b, c) /\
      let v p := combination (vx p) (vy p) (vz p) a b c in
      dot (v p1) (cross (v p2) (v p3)) < 1 / 100000000).
