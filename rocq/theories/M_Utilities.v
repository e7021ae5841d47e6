(** Model of src/tavi/utilities.py (numeric helpers). *)
From Coq Require Import Reals.
From Verif Require Import Base LinAlg.
Open Scope R_scope.

(** utilities.py:12  [ksq2eng = 2.072124855] *)
Definition ksq2eng : R := 2072124855 / 1000000000.
(** utilities.py:14  [sig2fwhm = 2.0 * np.sqrt(2.0 * np.log(2.0))] *)
Definition sig2fwhm : R := 2 * sqrt (2 * ln 2).

(** utilities.py:82-87 *)
Definition en2q (en : R) : result R :=
  if Rlt_dec en 0 then Err ValueError else Ok (sqrt (en / ksq2eng)).

(** utilities.py:90-95 *)
Definition q2en (q : R) : result R :=
  if Rlt_dec q 0 then Err ValueError else Ok (ksq2eng * (q * q)).

(** utilities.py:103  [zero = 1e-6] *)
Definition tri_zero : R := / 1000000.

(** utilities.py:98-109 *)
Definition get_angle_from_triangle (a b c : R) : result R :=
  if Rlt_dec (Rabs a) tri_zero then Err ValueError
  else if Rlt_dec (Rabs b) tri_zero then Err ValueError
  else
    let x := (a * a + b * b - c * c) / (2 * a * b) in
    if Rlt_dec 1 x then Err ValueError
    else if Rlt_dec x (-1) then Err ValueError
    else Ok (acos x).

(** utilities.py:112-116 *)
Definition get_side_from_triangle (a b angle : R) : result R :=
  if Rlt_dec (Rabs a) tri_zero then Err ValueError
  else if Rlt_dec (Rabs b) tri_zero then Err ValueError
  else Ok (sqrt (a * a + b * b - 2 * a * b * cos angle)).

(** utilities.py:119-121, in degrees; nan when one of the vectors is zero. The argument of arccos is not clipped;
    over the reals it is in [-1, 1]. *)
Definition get_angle_vec (v1 v2 : vec) : result R :=
  if Req_EM_T (norm v1) 0 then Err NotANumber
  else if Req_EM_T (norm v2) 0 then Err NotANumber
  else Ok (acos (dot v1 v2 / norm v1 / norm v2) / PI * 180).

(** utilities.py:124-134. numpy's division by zero gives inf, which is > 1 and hence rejected. *)
Definition get_angle_bragg (neutron_momentum d_spacing : R) : result R :=
  let den := d_spacing * neutron_momentum in
  if Req_EM_T den 0 then Err ValueError
  else
    let x := PI / den in
    if Rlt_dec 1 x then Err ValueError
    else if Rlt_dec x (-1) then Err ValueError
    else Ok (asin x).

(** utilities.py:137-157 *)
Definition rotation_matrix_2d (phi : R) : mat :=
  M (cos phi) (sin phi) 0  (- sin phi) (cos phi) 0  0 0 1.

(** utilities.py:160-162 *)
Definition spice_to_mantid_vec (v : vec) : vec := V (vx v) (vz v) (- vy v).
(** utilities.py:165-167 *)
Definition mantid_to_spice_vec (v : vec) : vec := V (vx v) (- vz v) (vy v).

(** utilities.py:170-190 *)
Definition rot_x (nu : R) : mat :=
  let c := cos (deg2rad nu) in let s := sin (deg2rad nu) in
  M 1 0 0  0 c (- s)  0 s c.
(** utilities.py:193-213 *)
Definition rot_y (omega : R) : mat :=
  let c := cos (deg2rad omega) in let s := sin (deg2rad omega) in
  M c 0 s  0 1 0  (- s) 0 c.
(** utilities.py:216-236 *)
Definition rot_z (mu : R) : mat :=
  let c := cos (deg2rad mu) in let s := sin (deg2rad mu) in
  M c (- s) 0  s c 0  0 0 1.

(** utilities.py:24-43 [MotorAngles] *)
Record motor_angles := MotorAngles {
  two_theta : R;
  omega : option R;
  sgl : option R;
  sgu : option R;
  chi : option R;
  phi : option R }.

(** utilities.py:61-70 [Peak] *)
Record peak := Peak { hkl : vec; angles : motor_angles }.

(** utilities.py:51-58 [MotorAngles.__eq__]. [np.allclose(x, y, atol=0.1)] is |x - y| <= 0.1 + 1e-5 |y|;
    [np.allclose(x, None)] raises TypeError. *)
Definition allclose (x y : R) : bool :=
  if Rle_dec (Rabs (x - y)) (1 / 10 + / 100000 * Rabs y) then true else false.

Fixpoint angles_eq_fields (l : list (option R * option R)) : result bool :=
  match l with
  | nil => Ok true
  | cons (Some x, Some y) l' => if allclose x y then angles_eq_fields l' else Ok false
  | cons (Some _, None) _ => Err TypeError
  | cons (None, _) l' => angles_eq_fields l'
  end.

Definition motor_angles_eq (a b : motor_angles) : result bool :=
  angles_eq_fields
    (cons (Some (two_theta a), Some (two_theta b))
    (cons (omega a, omega b)
    (cons (sgl a, sgl b)
    (cons (sgu a, sgu b)
    (cons (chi a, chi b)
    (cons (phi a, phi b) nil)))))).
