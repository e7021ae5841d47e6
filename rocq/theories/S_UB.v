(** Specification vocabulary for orientation matrices. *)
From Coq Require Import Reals List.
From Verif Require Import Base LinAlg S_Geom S_Energy M_Utilities M_Goni.
Import ListNotations.
Open Scope R_scope.

(** [m] is the momentum transfer measured at the motor position [a], expressed in the sample frame: the vector which
    the goniometer, at that position, turns onto ki - kf. *)
Definition measured (g : goniometer) (ei ef : R) (a : motor_angles) (m : vec) : Prop :=
  exists ki kf r, wavenumber ei ki /\ wavenumber ef kf /\ r_mat g a = Ok r /\ mv r m = transfer ki kf (two_theta a).

(** [u] is the vertical of the laboratory in the sample frame, at the position [a]. *)
Definition vertical (g : goniometer) (a : motor_angles) (u : vec) : Prop := exists r, r_mat g a = Ok r /\ mv r u = ey.

(** [x] lies in the plane of [a] and [b], on the same side of [a] as [b]. *)
Definition half_plane (a b x : vec) : Prop := exists s k, 0 < k /\ x = vadd (vscale s a) (vscale k b).

(** Sum over the peaks of the squared distance between X.hkl and the measured q. *)
Fixpoint residual (x : mat) (data : list (vec * vec)) : R :=
  match data with
  | [] => 0
  | (h, q) :: l => dot (vsub (mv x h) q) (vsub (mv x h) q) + residual x l
  end.

(** The Miller indices of the peaks do not all lie in one plane. *)
Definition spanning (hs : list vec) : Prop := forall n, (forall h, In h hs -> dot n h = 0) -> n = vzero.
