(** Model of src/tavi/ub_algorithm.py. *)
From Coq Require Import Reals List String.
From Verif Require Import Base LinAlg M_Utilities M_Lattice.
Import ListNotations.
Open Scope R_scope.

(** ub_algorithm.py:10-12, acting on a vector or on a matrix *)
Definition t_mantid_to_spice : mat := M 1 0 0  0 0 (-1)  0 1 0.
(** ub_algorithm.py:15-17 *)
Definition t_spice_to_mantid : mat := M 1 0 0  0 0 1  0 (-1) 0.

(** ub_algorithm.py:20-45 [UBConf]. [_ub_mat] has no class-level default, so reading it unset raises AttributeError;
    the other fields default to None. *)
Record ubconf := UBConf {
  convention : string;
  _ub_mat : option mat;
  _plane_normal : option vec;
  _in_plane_ref : option vec;
  _u_mat : option mat;
  b_mat_field : option mat;
  ub_peaks : option (list peak) }.

(** ub_algorithm.py:53-61: the matrix by which [_from_mantid] multiplies *)
Definition from_mantid_mat (conv : string) : result mat :=
  if String.eqb conv "Mantid" then Ok mid
  else if String.eqb conv "Spice" then Ok t_mantid_to_spice
  else Err ValueError.
(** ub_algorithm.py:63-71 *)
Definition to_mantid_mat (conv : string) : result mat :=
  if String.eqb conv "Mantid" then Ok mid
  else if String.eqb conv "Spice" then Ok t_spice_to_mantid
  else Err ValueError.

(** [_from_mantid(None)] is None in the Mantid convention and a TypeError in Spice ([t.dot(None)]). *)
Definition from_mantid_opt {A} (act : mat -> A -> A) (conv : string) (v : option A) : result (option A) :=
  match v with
  | Some x => do t <- from_mantid_mat conv; Ok (Some (act t x))
  | None => if String.eqb conv "Mantid" then Ok None
            else if String.eqb conv "Spice" then Err TypeError else Err ValueError
  end.

(** ub_algorithm.py:73-75 *)
Definition get_ub_mat (u : ubconf) : result (option mat) :=
  match _ub_mat u with
  | None => Err AttributeError
  | Some _ => from_mantid_opt mm (convention u) (_ub_mat u)
  end.
(** ub_algorithm.py:77-79 *)
Definition set_ub_mat (u : ubconf) (v : mat) : result ubconf :=
  do t <- to_mantid_mat (convention u);
  Ok (UBConf (convention u) (Some (mm t v)) (_plane_normal u) (_in_plane_ref u) (_u_mat u) (b_mat_field u) (ub_peaks u)).
(** ub_algorithm.py:81-83 *)
Definition get_u_mat (u : ubconf) : result (option mat) := from_mantid_opt mm (convention u) (_u_mat u).
(** ub_algorithm.py:85-87 *)
Definition set_u_mat (u : ubconf) (v : mat) : result ubconf :=
  do t <- to_mantid_mat (convention u);
  Ok (UBConf (convention u) (_ub_mat u) (_plane_normal u) (_in_plane_ref u) (Some (mm t v)) (b_mat_field u) (ub_peaks u)).
(** ub_algorithm.py:89-91 *)
Definition get_plane_normal (u : ubconf) : result (option vec) := from_mantid_opt mv (convention u) (_plane_normal u).
(** ub_algorithm.py:93-95 *)
Definition set_plane_normal (u : ubconf) (v : vec) : result ubconf :=
  do t <- to_mantid_mat (convention u);
  Ok (UBConf (convention u) (_ub_mat u) (Some (mv t v)) (_in_plane_ref u) (_u_mat u) (b_mat_field u) (ub_peaks u)).
(** ub_algorithm.py:97-99 *)
Definition get_in_plane_ref (u : ubconf) : result (option vec) := from_mantid_opt mv (convention u) (_in_plane_ref u).
(** ub_algorithm.py:101-103 *)
Definition set_in_plane_ref (u : ubconf) (v : vec) : result ubconf :=
  do t <- to_mantid_mat (convention u);
  Ok (UBConf (convention u) (_ub_mat u) (_plane_normal u) (Some (mv t v)) (_u_mat u) (b_mat_field u) (ub_peaks u)).

(** ub_algorithm.py:47-51, with the keyword arguments used in the code base *)
Inductive ub_kwarg :=
| KW_ub_mat (m : mat) | KW__ub_mat (m : mat) | KW_u_mat (m : mat) | KW__u_mat (m : mat)
| KW_plane_normal (v : vec) | KW__plane_normal (v : vec) | KW_in_plane_ref (v : vec) | KW__in_plane_ref (v : vec)
| KW_b_mat (m : mat) | KW_ub_peaks (l : list peak).

Definition ub_setattr (u : ubconf) (k : ub_kwarg) : result ubconf :=
  match k with
  | KW_ub_mat m => set_ub_mat u m
  | KW__ub_mat m => Ok (UBConf (convention u) (Some m) (_plane_normal u) (_in_plane_ref u) (_u_mat u) (b_mat_field u) (ub_peaks u))
  | KW_u_mat m => set_u_mat u m
  | KW__u_mat m => Ok (UBConf (convention u) (_ub_mat u) (_plane_normal u) (_in_plane_ref u) (Some m) (b_mat_field u) (ub_peaks u))
  | KW_plane_normal v => set_plane_normal u v
  | KW__plane_normal v => Ok (UBConf (convention u) (_ub_mat u) (Some v) (_in_plane_ref u) (_u_mat u) (b_mat_field u) (ub_peaks u))
  | KW_in_plane_ref v => set_in_plane_ref u v
  | KW__in_plane_ref v => Ok (UBConf (convention u) (_ub_mat u) (_plane_normal u) (Some v) (_u_mat u) (b_mat_field u) (ub_peaks u))
  | KW_b_mat m => Ok (UBConf (convention u) (_ub_mat u) (_plane_normal u) (_in_plane_ref u) (_u_mat u) (Some m) (ub_peaks u))
  | KW_ub_peaks l => Ok (UBConf (convention u) (_ub_mat u) (_plane_normal u) (_in_plane_ref u) (_u_mat u) (b_mat_field u) (Some l))
  end.

Fixpoint ub_setattrs (u : ubconf) (ks : list ub_kwarg) : result ubconf :=
  match ks with [] => Ok u | k :: ks' => do u' <- ub_setattr u k; ub_setattrs u' ks' end.

Definition new_ubconf (conv : option string) (ks : list ub_kwarg) : result ubconf :=
  ub_setattrs (UBConf (match conv with Some c => c | None => "Spice"%string end) None None None None None None) ks.

(** ub_algorithm.py:138-168 *)
Definition q_lab_gen (ei ef theta phi : R) : result vec :=
  do ki <- en2q ei;
  do kf <- en2q ef;
  let t := deg2rad theta in let p := deg2rad phi in
  Ok (V (- kf * sin t * cos p) (- kf * sin t * sin p) (ki - kf * cos t)).
(** the default [phi = 0] *)
Definition q_lab (ei ef theta : R) : result vec := q_lab_gen ei ef theta 0.

(** ub_algorithm.py:171-180 *)
Definition q_norm_from_hkl (h : vec) (b : mat) : R :=
  let bh := mv b h in sqrt (dot bh bh) * 2 * PI.

(** ub_algorithm.py:183-198, in radians *)
Definition two_theta_from_hkle (h : vec) (ei ef : R) (b : mat) : result R :=
  do ki <- en2q ei;
  do kf <- en2q ef;
  get_angle_from_triangle ki kf (q_norm_from_hkl h b).

(** ub_algorithm.py:201-217, in radians *)
Definition psi_from_hkle (h : vec) (ei ef : R) (b : mat) : result R :=
  do ki <- en2q ei;
  do kf <- en2q ef;
  get_angle_from_triangle ki (q_norm_from_hkl h b) kf.

(** ub_algorithm.py:220-237 *)
Definition plane_normal_from_two_peaks (u b : mat) (h1 h2 : vec) : result (vec * vec) :=
  let t1 := mv b h1 in
  let t2p := mv b h2 in
  do t3 <- unit_of (cross t1 t2p);
  let pn := mv u t3 in
  let pn' := if Rlt_dec (vy pn) 0 then vopp pn else pn in
  do t1n <- unit_of t1;
  Ok (pn', mv u t1n).

(** np.clip(c, -1, 1) *)
Definition clip1 (c : R) : R := if Rlt_dec c (-1) then -1 else if Rlt_dec 1 c then 1 else c.

(** ub_algorithm.py:247-249, 261-263: the angle between two vectors, in degrees *)
Definition angle_deg (q1 q2 : vec) : result R :=
  do x <- fdiv (dot q1 q2) (norm q1);
  do c <- fdiv x (norm q2);
  Ok (rad2deg (acos (clip1 c))).

(** ub_algorithm.py:240-249 *)
Definition angle_between_two_hkls (h1 h2 : vec) (b : mat) : result R := angle_deg (mv b h1) (mv b h2).

(** ub_algorithm.py:252-263 *)
Definition angle_between_two_motor_positions (a1 a2 : motor_angles) (rinv : motor_angles -> result mat) (ei ef : R) : result R :=
  do r1 <- rinv a1; do l1 <- q_lab ei ef (two_theta a1);
  do r2 <- rinv a2; do l2 <- q_lab ei ef (two_theta a2);
  angle_deg (mv r1 l1) (mv r2 l2).

(** ub_algorithm.py:306 [ZERO = 1e-5] *)
Definition tilt_zero : R := / 100000.

(** ub_algorithm.py:271-339 *)
Definition r_matrix_with_minimal_tilt (h : vec) (ei ef tt : R) (u : ubconf) : result mat :=
  match _ub_mat u with
  | None => Err AttributeError
  | Some ub =>
  match _plane_normal u with
  | None => Err ValueError
  | Some n =>
    do ki <- en2q ei;
    do kf <- en2q ef;
    let q_norm := q_norm_from_hkl h ub in
    let t := deg2rad tt in
    do x1 <- fdiv (- kf * sin t) q_norm; do z1 <- fdiv (ki - kf * cos t) q_norm;
    do x2 <- fdiv (ki - kf * cos t) q_norm; do z2 <- fdiv (kf * sin t) q_norm;
    let q_lab_mat := of_cols (V x1 0 z1) (V x2 0 z2) (V 0 1 0) in
    let t1 := mv ub h in
    do (t2, t3) <-
      (if Rlt_dec (Rabs (dot t1 n)) tilt_zero then Ok (cross n t1, n)
       else if Rlt_dec (norm (cross n t1)) tilt_zero then
         match _in_plane_ref u with
         | None => Err ValueError
         | Some ipr => Ok (ipr, cross t1 ipr)
         end
       else Ok (cross n t1, cross t1 (cross n t1)));
    do u1 <- unit_of t1; do u2 <- unit_of t2; do u3 <- unit_of t3;
    do ti <- minv (of_cols u1 u2 u3);
    Ok (mm q_lab_mat ti)
  end
  end.

(** ub_algorithm.py:342-351 *)
Definition plane_normal_from_one_peak (h : vec) (a : motor_angles) (rinv : motor_angles -> result mat) (ub : mat)
  : result (vec * vec) :=
  do r <- rinv a;
  let pn := mv r (V 0 1 0) in
  do qn <- unit_of (mv ub h);
  Ok (pn, cross pn qn).

(** ub_algorithm.py:357-368 *)
Definition ub_matrix_to_uv (ub : mat) : result (vec * vec) :=
  do i <- minv ub;
  Ok (mv i (V 0 0 1), mv i (V 1 0 0)).

(** ub_algorithm.py:371-377 *)
Definition ub_matrix_to_lattice_params (ub : mat) : result lattice :=
  lattice_params_from_g_star_mat (mm (tr ub) ub).

(** ub_algorithm.py:380-405 *)
Definition uv_to_ub_matrix (u v : vec) (p : lattice) : result mat :=
  do b <- b_mat_from_lattice p;
  let t1 := mv b u in
  let t2p := mv b v in
  let t3 := cross t1 t2p in
  let t2 := cross t3 t1 in
  do u1 <- unit_of t1; do u2 <- unit_of t2; do u3 <- unit_of t3;
  let q_mat := tr (of_rows (V 0 0 1) (V 1 0 0) (V 0 1 0)) in
  do ti <- minv (of_cols u1 u2 u3);
  Ok (mm q_mat (mm ti b)).

(** ub_algorithm.py:408-412 *)
Definition b_mat_from_ub_matrix (ub : mat) : result mat :=
  do p <- lattice_params_from_g_star_mat (mm (tr ub) ub);
  b_mat_from_lattice p.

(** ub_algorithm.py:415-419 *)
Definition u_mat_from_ub_matrix (ub : mat) : result mat :=
  do b <- b_mat_from_ub_matrix ub;
  do bi <- minv b;
  Ok (mm ub bi).

(** np.sign *)
Definition rsign (x : R) : R := if Rlt_dec 0 x then 1 else if Rlt_dec x 0 then -1 else 0.

(** ub_algorithm.py:427-472 *)
Definition find_u_from_one_peak_and_scattering_plane (p : peak) (v1 v2 : vec) (b : mat)
    (rinv : motor_angles -> result mat) (ei ef : R) : result mat :=
  let q_hkl1 := mv b (hkl p) in
  let coeff1 := dot v1 (hkl p) in
  let coeff2 := dot v2 (hkl p) in
  let q_hkl2p := if Rlt_dec (Rabs coeff2) (Rabs coeff1)
                 then vscale (rsign coeff1) (mv b v2)
                 else vscale (rsign coeff2) (mv b v1) in
  let q_hkl3 := cross q_hkl1 q_hkl2p in
  let q_hkl2 := cross q_hkl3 q_hkl1 in
  do h1 <- unit_of q_hkl1; do h2 <- unit_of q_hkl2; do h3 <- unit_of q_hkl3;
  do l1 <- q_lab ei ef (two_theta (angles p));
  do r <- rinv (angles p);
  let q_sample1 := mv r l1 in
  let q_sample3 := mv r (V 0 1 0) in
  let q_sample2 := cross q_sample3 q_sample1 in
  do s1 <- unit_of q_sample1; do s2 <- unit_of q_sample2; do s3 <- unit_of q_sample3;
  do hi <- minv (of_cols h1 h2 h3);
  Ok (mm (of_cols s1 s2 s3) hi).

(** ub_algorithm.py:475-515 *)
Definition find_u_from_two_peaks (p1 p2 : peak) (b : mat) (rinv : motor_angles -> result mat) (ei ef : R) : result mat :=
  let q_hkl1 := mv b (hkl p1) in
  let q_hkl2p := mv b (hkl p2) in
  let q_hkl3 := cross q_hkl1 q_hkl2p in
  let q_hkl2 := cross q_hkl3 q_hkl1 in
  do h1 <- unit_of q_hkl1; do h2 <- unit_of q_hkl2; do h3 <- unit_of q_hkl3;
  do l1 <- q_lab ei ef (two_theta (angles p1));
  do l2 <- q_lab ei ef (two_theta (angles p2));
  do r1 <- rinv (angles p1);
  do r2 <- rinv (angles p2);
  let q_sample1 := mv r1 l1 in
  let q_sample2p := mv r2 l2 in
  let q_sample3 := cross q_sample1 q_sample2p in
  let q_sample2 := cross q_sample3 q_sample1 in
  do s1 <- unit_of q_sample1; do s2 <- unit_of q_sample2; do s3 <- unit_of q_sample3;
  do hi <- minv (of_cols h1 h2 h3);
  Ok (mm (of_cols s1 s2 s3) hi).

(** ub_algorithm.py:533-535, 558-559: a measured peak as a vector in the sample frame, over 2 pi *)
Definition q_sample (p : peak) (rinv : motor_angles -> result mat) (ei ef : R) : result vec :=
  do l <- q_lab ei ef (two_theta (angles p));
  do r <- rinv (angles p);
  Ok (vscale (/ (2 * PI)) (mv r l)).

(** ub_algorithm.py:518-541. (The three q_lab calls are made before the three r_mat_inv calls; with pure
    functions only the choice of which exception is reported could differ, and both are ValueError.) *)
Definition find_ub_from_three_peaks (p1 p2 p3 : peak) (rinv : motor_angles -> result mat) (ei ef : R) : result mat :=
  let hkl_mat := of_cols (hkl p1) (hkl p2) (hkl p3) in
  do s1 <- q_sample p1 rinv ei ef;
  do s2 <- q_sample p2 rinv ei ef;
  do s3 <- q_sample p3 rinv ei ef;
  do hi <- minv hkl_mat;
  Ok (mm (of_cols s1 s2 s3) hi).

(** ub_algorithm.py:560-563: [m[j, k] += b[k] * a[j]] for all j, k *)
Definition add_outer (m : mat) (a b : vec) : mat :=
  madd m (M (vx b * vx a) (vy b * vx a) (vz b * vx a)
            (vx b * vy a) (vy b * vy a) (vz b * vy a)
            (vx b * vz a) (vy b * vz a) (vz b * vz a)).

(** ub_algorithm.py:555-563, the accumulation loop *)
Fixpoint accumulate (ps : list peak) (rinv : motor_angles -> result mat) (ei ef : R) (qv vv : mat) : result (mat * mat) :=
  match ps with
  | [] => Ok (qv, vv)
  | p :: ps' =>
      do qi <- q_sample p rinv ei ef;
      accumulate ps' rinv ei ef (add_outer qv (hkl p) qi) (add_outer vv (hkl p) (hkl p))
  end.

(** ub_algorithm.py:544-567 *)
Definition find_ub_from_multiple_peaks (ps : list peak) (rinv : motor_angles -> result mat) (ei ef : R) : result mat :=
  do (qv, vv) <- accumulate ps rinv ei ef mzero mzero;
  do vi <- minv vv;
  Ok (mm (tr qv) (tr vi)).
