(** Specification vocabulary for the axes an ellipsoid is expressed in (C45). *)
From Coq Require Import Reals List.
From Verif Require Import LinAlg M_Labels S_Reso S_Grid.
Import ListNotations.
Open Scope R_scope.

(** A displacement is a coordinate for each axis: the change of (h, k, l), and of the energy *)
Fixpoint hkl_change (axes : list axis) (x : nat -> R) : vec :=
  match axes with [] => vzero | a :: l => vadd (vscale (x 0%nat) (direction a)) (hkl_change l (fun k => x (S k))) end.
Fixpoint energy_change (axes : list axis) (x : nat -> R) : R :=
  match axes with [] => 0 | a :: l => (match a with En => x 0%nat | Vec _ _ _ => 0 end) + energy_change l (fun k => x (S k)) end.

(** The components of a vector [w] of the laboratory along Q, across it in the horizontal plane, and up, followed by an energy;
    Q is at [psi] degrees from the beam *)
Definition in_q_frame (psi : R) (w : vec) (e : R) : nat -> R :=
  fun k => match k with
  | 0%nat => dot w (V (sin (degrees psi)) 0 (cos (degrees psi)))
  | 1%nat => dot w (V (cos (degrees psi)) 0 (- sin (degrees psi)))
  | 2%nat => dot w (V 0 1 0)
  | _ => e end.
