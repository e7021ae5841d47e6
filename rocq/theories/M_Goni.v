(** Model of src/tavi/instrument/components/goni.py. *)
From Coq Require Import Reals List String Ascii Bool.
From Verif Require Import Base LinAlg PyStr M_Utilities.
Import ListNotations.
Open Scope R_scope.

(** goni.py:32-46 (attributes). [sense] is [None] or a string; [limits] maps motor names to (low, high). *)
Record goniometer := Goniometer {
  g_type : string;
  g_sense : option string;
  g_limits : dict string (option R * option R) }.

(** goni.py:37-46, the default attributes *)
Definition default_limits : dict string (option R * option R) :=
  [("two_theta"%string, (None, None)); ("omega"%string, (None, None));
   ("sgl"%string, (Some (-10), Some 10)); ("sgu"%string, (Some (-10), Some 10));
   ("chi"%string, (None, None)); ("phi"%string, (None, None))].

Definition comma : ascii := ","%char.
Definition minus : ascii := "-"%char.

(** goni.py:60, 72, 78: [ax0, ax1, ax2, *rest = self.type.split(",")]; too few pieces raises ValueError. *)
Definition split_type (g : goniometer) : result (string * string * string * list string) :=
  match split_on comma (g_type g) with
  | a0 :: a1 :: a2 :: rest => Ok (a0, a1, a2, rest)
  | _ => Err ValueError
  end.

(** goni.py:62-66 *)
Definition axis_letter (ax : string) : string :=
  if starts_with minus ax then strip minus ax else ax.

(** goni.py:57-67 *)
Definition stacking_order (g : goniometer) : result string :=
  do (a0, a1, a2, _) <- split_type g;
  Ok (axis_letter a0 ++ axis_letter a1 ++ axis_letter a2)%string.

(** goni.py:70-74 *)
Definition mode (g : goniometer) : result (option string) :=
  do (_, _, _, rest) <- split_type g;
  Ok (match rest with [] => None | m :: _ => Some m end).

(** goni.py:81 *)
Definition axis_sign (ax : string) : R := if starts_with minus ax then -1 else 1.

(** goni.py:77-83 *)
Definition motor_senses (g : goniometer) : result (R * R * R) :=
  do (a0, a1, a2, _) <- split_type g;
  Ok (axis_sign a0, axis_sign a1, axis_sign a2).

(** goni.py:86-94 *)
Definition sense_sign (g : goniometer) : result R :=
  match g_sense g with
  | Some s => if String.eqb s "+" then Ok 1 else if String.eqb s "-" then Ok (-1) else Err ValueError
  | None => Err ValueError
  end.

(** goni.py:110, 156, 194: [stacking_order + mode if mode is not None else stacking_order] *)
Definition operating_mode (g : goniometer) : result string :=
  do m <- mode g;
  do o <- stacking_order g;
  Ok (match m with Some x => (o ++ x)%string | None => o end).

(** goni.py:96-141 *)
Definition r_mat (g : goniometer) (a : motor_angles) : result mat :=
  do (s0, s1, s2) <- motor_senses g;
  do om <- operating_mode g;
  if String.eqb om "YZX" then
    match omega a, sgl a, sgu a with
    | Some w, Some l, Some u => Ok (mm (rot_y (w * s0)) (mm (rot_z (l * s1)) (rot_x (u * s2))))
    | _, _, _ => Err ValueError
    end
  else if String.eqb om "YZYbisect" then
    match omega a, chi a, phi a with
    | Some w, Some c, Some p => Ok (mm (rot_y (w * s0)) (mm (rot_z (c * s1)) (rot_y (p * s2))))
    | _, _, _ => Err ValueError
    end
  else Err ValueError.

(** goni.py:143-146 *)
Definition r_mat_inv (g : goniometer) (a : motor_angles) : result mat := rmap tr (r_mat g a).

(** goni.py:244-248, one motor *)
Definition check_limit (limits : dict string (option R * option R)) (name : string) (value : option R) : result unit :=
  match value with
  | None => Ok tt
  | Some v =>
      let '(low, high) := match dget String.eqb name limits with Some b => b | None => (None, None) end in
      do _ <- match low with Some lo => if Rlt_dec v lo then Err ValueError else Ok tt | None => Ok tt end;
      match high with Some hi => if Rlt_dec hi v then Err ValueError else Ok tt | None => Ok tt end
  end.

(** goni.py:238-248 (fields in the order of [MotorAngles._asdict()]) *)
Definition validate_motor_positions (g : goniometer) (a : motor_angles) : result unit :=
  do _ <- check_limit (g_limits g) "two_theta" (Some (two_theta a));
  do _ <- check_limit (g_limits g) "omega" (omega a);
  do _ <- check_limit (g_limits g) "sgl" (sgl a);
  do _ <- check_limit (g_limits g) "sgu" (sgu a);
  do _ <- check_limit (g_limits g) "chi" (chi a);
  check_limit (g_limits g) "phi" (phi a).

(** goni.py:148-176. Any other operating mode leaves [angles] unbound at line 176.
    [ub] is [ub_conf._ub_mat]. *)
Definition angles_in_bisect_mode (g : goniometer) (h : vec) (tt psi : R) (ub : mat) : result motor_angles :=
  do (s0, s1, s2) <- motor_senses g;
  do om <- operating_mode g;
  let q := mv ub h in
  if String.eqb om "YZYbisect" then
    do sn <- sense_sign g;
    let w := (sn * 90 + psi) * s0 in
    let chi_rad := - atan2 (vy q) (sqrt (vx q * vx q + vz q * vz q)) in
    let phi_rad := atan2 (vz q) (vx q) in
    let a := MotorAngles tt (Some w) None None (Some (rad2deg (s1 * chi_rad))) (Some (rad2deg (s2 * phi_rad))) in
    do _ <- validate_motor_positions g a;
    Ok a
  else Err UnboundLocalError.

(** goni.py:178-225 *)
Definition angles_from_r_mat (g : goniometer) (r : mat) (tt : R) : result motor_angles :=
  do (s0, s1, s2) <- motor_senses g;
  do om <- operating_mode g;
  if String.eqb om "YZX" then
    let denominator := sqrt (m00 r * m00 r + m20 r * m20 r) in
    let sgl_rad := atan2 (m10 r) denominator in
    let sgu_rad := atan2 (- m12 r) (m11 r) in
    let omega_rad := atan2 (- m20 r) (m00 r) in
    let a := MotorAngles tt (Some (rad2deg (s0 * omega_rad))) (Some (rad2deg (s1 * sgl_rad)))
               (Some (rad2deg (s2 * sgu_rad))) None None in
    do _ <- validate_motor_positions g a;
    Ok a
  else if (String.eqb om "YXYbisect" || String.eqb om "YZYazimuthal" || String.eqb om "YXYazimuthal")%bool
  then Err UnboundLocalError
  else Err ValueError.

(** goni.py:233 *)
Definition motor_names : list string :=
  ["two_theta"; "omega"; "sgl"; "sgu"; "chi"; "phi"]%string.

(** goni.py:227-236; the goniometer after the call, or the exception (goniometer unchanged) *)
Definition set_limit (g : goniometer) (name : string) (range : option R * option R) : result goniometer :=
  if existsb (String.eqb name) motor_names
  then Ok (Goniometer (g_type g) (g_sense g) (dset String.eqb name range (g_limits g)))
  else Err ValueError.
