(** Model of comparing motor positions and peaks, src/tavi/utilities.py (MotorAngles, Peak). *)
From Coq Require Import Reals List Bool.
From Verif Require Import Base LinAlg M_Utilities.

(** Comparing two stored numbers, or their absence, exactly. *)
Definition same_number (x y : option R) : bool :=
  match x, y with
  | Some a, Some b => if Req_EM_T a b then true else false
  | None, None => true
  | _, _ => false
  end.
(** [a != b]: utilities.py:51-58 defines only [__eq__]; [!=] is then that of tuples (MotorAngles is a NamedTuple, and tuple has its
    own [__ne__]), which compares the six fields exactly. *)
Definition motor_angles_ne (a b : motor_angles) : bool :=
  negb (same_number (Some (two_theta a)) (Some (two_theta b)) && same_number (omega a) (omega b) && same_number (sgl a) (sgl b) &&
        same_number (sgu a) (sgu b) && same_number (chi a) (chi b) && same_number (phi a) (phi b)).
(** [p == q] and [p != q] for peaks, utilities.py:61-70: tuples, whose items are compared by [==] from the left: the Miller indices
    exactly, then the angles by [MotorAngles.__eq__]. *)
Definition same_hkl (u v : vec) : bool :=
  same_number (Some (vx u)) (Some (vx v)) && same_number (Some (vy u)) (Some (vy v)) && same_number (Some (vz u)) (Some (vz v)).
Definition peak_eq (p q : peak) : result bool := if same_hkl (hkl p) (hkl q) then motor_angles_eq (angles p) (angles q) else Ok false.
Definition peak_ne (p q : peak) : result bool := rmap negb (peak_eq p q).
