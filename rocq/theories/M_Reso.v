(** Model of src/tavi/instrument/resolution/cooper_nathans.py and resolution_calculator.py, of ResoEllipsoid.__init__ and
    _project_to_frame (ellipsoid.py) and of TAS.cooper_nathans (tas.py). *)
From Coq Require Import Reals List Arith Bool String.
From Verif Require Import Base LinAlg M_Utilities M_Lattice M_UB M_Sample M_Goni M_Tas M_Components M_Mat M_Labels M_Ellipsoid.
Import ListNotations.
Open Scope string_scope.
Open Scope list_scope.
Open Scope R_scope.

(** np.zeros followed by assignments to entries *)
Fixpoint entries (l : list (nat * nat * R)) : fmat :=
  match l with
  | [] => fun _ _ => 0
  | (i, j, x) :: l' => fun a b => if Nat.eqb a i && Nat.eqb b j then x else entries l' a b
  end.

Definition put (i j : nat) (x : R) : nat * nat * R := (i, j, x).

(** 1.0 / x**2; inf for zero *)
Definition inv_sq (x : R) : result R := if Req_EM_T x 0 then Err NotANumber else Ok (1 / (x * x)).

(** cooper_nathans.py:59-69, indices 18-20 *)
Definition mat_f (mono ana : attrs) : result fmat :=
  do a <- m_mosaic "mosaic_h" mono; do fa <- inv_sq a;
  do b <- m_mosaic "mosaic_v" mono; do fb <- inv_sq b;
  do c <- m_mosaic "mosaic_h" ana; do fc <- inv_sq c;
  do d <- m_mosaic "mosaic_v" ana; do fd <- inv_sq d;
  Ok (entries [put 0 0 fa; put 1 1 fb; put 2 2 fc; put 3 3 fd]).

(** cooper_nathans.py:72-91, indices 22-26 *)
Definition mat_g (coll : attrs) : result fmat :=
  do hs <- h_divergence coll;
  do vs <- v_divergence coll;
  match hs, vs with
  | [h0; h1; h2; h3], [v0; v1; v2; v3] =>
      do a0 <- inv_sq h0; do b0 <- inv_sq v0; do a1 <- inv_sq h1; do b1 <- inv_sq v1;
      do a2 <- inv_sq h2; do b2 <- inv_sq v2; do a3 <- inv_sq h3; do b3 <- inv_sq v3;
      Ok (entries [put 0 0 a0; put 2 2 b0; put 1 1 a1; put 3 3 b1; put 4 4 a2; put 6 6 b2; put 5 5 a3; put 7 7 b3])
  | _, _ => Err ValueError
  end.

(** cooper_nathans.py:94-106 *)
Definition calc_mat_a (ki kf theta_m theta_a : R) : fmat :=
  entries [put 0 0 (0.5 * ki / tan theta_m); put 0 1 (-0.5 * ki / tan theta_m); put 1 1 ki; put 2 3 ki;
           put 3 4 (0.5 * kf / tan theta_a); put 3 5 (-0.5 * kf / tan theta_a); put 4 4 kf; put 5 6 kf].

(** cooper_nathans.py:109-116; [mat_b[0:3, 0:3] = ...] assigns a block *)
Definition mat_entry (m : mat) (i j : nat) : R :=
  match i, j with
  | 0, 0 => m00 m | 0, 1 => m01 m | 0, _ => m02 m
  | 1, 0 => m10 m | 1, 1 => m11 m | 1, _ => m12 m
  | _, 0 => m20 m | _, 1 => m21 m | _, _ => m22 m
  end%nat.
Definition calc_mat_b (ki kf phi two_theta : R) : fmat := fun i j =>
  if Nat.ltb i 3 then
    if Nat.ltb j 3 then mat_entry (rotation_matrix_2d phi) i j
    else mat_entry (mscale (-1) (rotation_matrix_2d (phi - two_theta))) i (j - 3)
  else if Nat.eqb j 0 then 2 * ksq2eng * ki
  else if Nat.eqb j 3 then - 2 * ksq2eng * kf
  else 0.

(** cooper_nathans.py:119-131 *)
Definition calc_mat_c (theta_m theta_a : R) : fmat :=
  entries [put 0 0 (0.5); put 0 1 (0.5); put 1 2 (0.5 / sin theta_m); put 1 3 (-0.5 / sin theta_m);
           put 2 4 (0.5); put 2 5 (0.5); put 3 6 (0.5 / sin theta_a); put 3 7 (-0.5 / sin theta_a)].

(** sample.py:194-202 *)
Definition s_mosaic_rad (x : R) : R := deg2rad (x / 60).

(** attributes of the instrument, tas_base.py; None when never set *)
Definition part (ps : parts) (name : string) : result attrs :=
  match dget String.eqb name ps with Some a => Ok a | None => Err AttributeError end.

(** cooper_nathans.py:138-192. Simplification: at a Bragg angle of exactly 90 degrees the tangent is not a number here (a huge
    number in floating point). *)
Definition calculate_at_hkle (t : tas) (ps : parts) (h : vec) (ei ef : R) : result (fmat * R) :=
  do q_norm <- get_q_norm (t_sample t) h;
  do ki <- en2q ei;
  do kf <- en2q ef;
  do motors <- calculate_motor_angles t h (ei - ef);
  do psi_deg <- get_psi t h (ei - ef);
  do mono <- part ps "monochromator";
  do ana <- part ps "analyzer";
  do tm_deg <- get_theta mono ei;
  do ta_deg <- get_theta ana ef;
  let psi := deg2rad psi_deg in
  let tt := deg2rad (two_theta motors) in
  let theta_m := deg2rad tm_deg in
  let theta_a := deg2rad ta_deg in
  if Req_EM_T (cos theta_m) 0 then Err NotANumber else
  if Req_EM_T (cos theta_a) 0 then Err NotANumber else
  let mat_a := calc_mat_a ki kf theta_m theta_a in
  let mat_b := calc_mat_b ki kf psi tt in
  let mat_c := calc_mat_c theta_m theta_a in
  do mat_f <- mat_f mono ana;
  do coll <- part ps "collimators";
  do mat_g <- mat_g coll;
  let mat_h := fadd (mul 4 (mul 4 (transpose mat_c) mat_f) mat_c) mat_g in
  do mat_h_inv <- inv 8 mat_h;
  let mat_ba := mul 6 mat_b mat_a in
  let mat_cov := mul 8 (mul 8 mat_ba mat_h_inv) (transpose mat_ba) in
  let mh := s_mosaic_rad (s_mosaic_h (t_sample t)) in
  let mv := s_mosaic_rad (s_mosaic_v (t_sample t)) in
  let mat_cov' := fadd mat_cov (entries [put 1 1 ((q_norm * q_norm) * (mh * mh)); put 2 2 ((q_norm * q_norm) * (mv * mv))]) in
  do mat_cov_inv <- inv 4 mat_cov';
  let mat_reso := fscale (sig2fwhm * sig2fwhm) mat_cov_inv in
  let r0 := (ki * ki * ki / tan theta_m) * (kf * kf * kf / tan theta_a)
            * (PI * PI / 4 / sin theta_m / sin theta_a) * sqrt (determinant 4 mat_f / determinant 8 mat_h) in
  Ok (mat_reso, r0).

(** ** Validation: resolution_calculator.py *)
(** resolution_calculator.py:30-39; only numbers are compared *)
Definition require_positive (a : attr) : result unit :=
  match a with
  | ANone => Err AttributeError
  | ANum x => if Rlt_dec x 0 then Err ValueError else Ok tt
  | _ => Ok tt
  end.
Definition positive_attr (k : string) (c : attrs) : result unit :=
  match aget k c with None => Err AttributeError | Some a => require_positive a end.
(** the same for the lists of collimators.py:33-41, 53-61: a missing attribute makes the list missing; comparing None or text with a
    number is a TypeError *)
Fixpoint none_negative (ks : list string) (c : attrs) : result unit :=
  match ks with
  | [] => Ok tt
  | k :: ks' =>
      match aget k c with
      | None => Err AttributeError
      | Some (ANum x) => if Rlt_dec x 0 then Err ValueError else none_negative ks' c
      | Some (ABool _) => none_negative ks' c
      | Some _ => Err TypeError
      end
  end.
Definition positive_list (ks : list string) (c : attrs) : result unit :=
  if existsb (fun k => match aget k c with None => true | Some _ => false end) ks then Err AttributeError else none_negative ks c.
(** resolution_calculator.py:42-47 *)
Definition check_sense (c : attrs) : result unit :=
  match aget "sense" c with
  | None | Some ANone => Err AttributeError
  | Some (AStr s) => if String.eqb s "+" || String.eqb s "-" then Ok tt else Err ValueError
  | Some _ => Err ValueError
  end.
Definition check_goni_sense (g : goniometer) : result unit :=
  match g_sense g with None => Err AttributeError | Some s => if String.eqb s "+" || String.eqb s "-" then Ok tt else Err ValueError end.

(** resolution_calculator.py:122-147, cooper_nathans.py:133-134 *)
Definition validate_instrument_parameters (t : tas) (ps : parts) : result unit :=
  do mono <- part ps "monochromator";
  do _ <- positive_attr "mosaic_h" mono;
  do _ <- positive_attr "mosaic_v" mono;
  do _ <- check_sense mono;
  do ana <- part ps "analyzer";
  do _ <- positive_attr "mosaic_h" ana;
  do _ <- positive_attr "mosaic_v" ana;
  do _ <- check_sense ana;
  do coll <- part ps "collimators";
  do _ <- positive_list ["h_pre_mono"; "h_pre_sample"; "h_post_sample"; "h_post_ana"] coll;
  do _ <- positive_list ["v_pre_mono"; "v_pre_sample"; "v_post_sample"; "v_post_ana"] coll;
  check_goni_sense (t_goni t).

(** ** Points: resolution_calculator.py *)
(** An element of the grid: a tuple, a number, anything else *)
Inductive gvar := GTuple (l : list R) | GNum (x : R) | GOther.

(** np.arange(start, stop, step): start + i * step for i below ceil((stop - start) / step) *)
Definition ceil (x : R) : Z := (- Int_part (- x))%Z.
Definition arange (start stop step : R) : result (list R) :=
  if Req_EM_T step 0 then Err ZeroDivisionError
  else Ok (map (fun i => start + INR i * step) (seq 0 (Z.to_nat (ceil ((stop - start) / step))))).

(** resolution_calculator.py:77-84 *)
Definition grid_values (g : gvar) : result (list R) :=
  match g with
  | GTuple [a; b; s] => arange a b s
  | GTuple _ => Err ValueError
  | GNum x => Ok [x]
  | GOther => Err ValueError
  end.

(** resolution_calculator.py:74-89: the values of the Q axes in order, and those of the last "en" *)
Fixpoint grid_lists (axes : list axis) (grid : list gvar) (qs : list (list R)) (es : option (list R)) : result (list (list R) * option (list R)) :=
  match axes, grid with
  | a :: axes', g :: grid' =>
      do vals <- grid_values g;
      match a with
      | En => grid_lists axes' grid' qs (Some vals)
      | Vec _ _ _ => grid_lists axes' grid' (qs ++ [vals]) es
      end
  | _, _ => Ok (qs, es)
  end.

Definition vec_of (a : axis) : option vec :=
  match a with En => None | Vec x y z => Some (V (comp_val x) (comp_val y) (comp_val z)) end.
Fixpoint keep_some {A B} (f : A -> option B) (l : list A) : list B :=
  match l with [] => [] | a :: l' => match f a with Some b => b :: keep_some f l' | None => keep_some f l' end end.
Fixpoint flatM {A B} (f : A -> result (list B)) (l : list A) : result (list B) :=
  match l with [] => Ok [] | a :: l' => do x <- f a; do y <- flatM f l'; Ok (List.app x y) end.

(** resolution_calculator.py:50-98; a point is ((h, k, l), en) *)
Definition generate_hkle (grid : list gvar) (axes : list axis) : result (list (vec * R)) :=
  if negb (Nat.eqb (List.length grid) 4) then Err ValueError
  else if negb (Nat.eqb (List.length axes) 4) || negb (existsb (fun a => match a with En => true | _ => false end) axes) then Err ValueError
  else
    let q_vectors := keep_some vec_of axes in
    do (q_list, e_list) <- grid_lists axes grid [] None;
    do us <- at_index q_list 0;
    flatM (fun u =>
      do vs <- at_index q_list 1;
      flatM (fun v =>
        do ws <- at_index q_list 2;
        flatM (fun w =>
          match e_list with
          | None => Err UnboundLocalError
          | Some es => flatM (fun en =>
              do q0 <- at_index q_vectors 0; do q1 <- at_index q_vectors 1; do q2 <- at_index q_vectors 2;
              Ok [(vadd (vadd (vscale u q0) (vscale v q1)) (vscale w q2), en)]) es
          end) ws) vs) us.

(** resolution_calculator.py:113-120 generate_hkleief_list, for the list of points *)
Definition hkleief (t : tas) (p : vec * R) : result (vec * R * R) := do (ei, ef) <- t_ei_ef t (snd p); Ok (fst p, ei, ef).

(** ** The ellipsoid: ellipsoid.py *)
(** np.eye(4) with [0:3, 0:3] replaced *)
Definition embed (m : mat) : fmat := fun i j => if Nat.ltb i 3 && Nat.ltb j 3 then mat_entry m i j else eye i j.
(** ellipsoid.py:103-109 *)
Definition mat_lab_to_local (psi : R) : mat := M (sin psi) 0 (cos psi) (cos psi) 0 (- sin psi) 0 1 0.
(** ellipsoid.py:146-150: [new_idx = [0, 1, 2]; new_idx.insert(en_axis, 3); mat[new_idx, :][:, new_idx]] *)
Definition new_idx (en_axis : nat) : list nat := firstn en_axis [0; 1; 2]%nat ++ 3%nat :: skipn en_axis [0; 1; 2]%nat.
Definition roll (en_axis : nat) (A : fmat) : fmat := fun i j => A (nth i (new_idx en_axis) 0%nat) (nth j (new_idx en_axis) 0%nat).
Definition lincomb (p : vec) (a b c : vec) : vec := vadd (vadd (vscale (vx p) a) (vscale (vy p) b)) (vscale (vz p) c).

Section Ellipsoids.
  Variable fmt3 : R -> string.   (* f"{x:.3f}" *)
  (** Whether h, k and l were all given as integers (as 1, not as 1.0). Simplification: of two points with the same h, k, l
      in one request both were or none was. *)
  Variable ints : vec -> bool.

  (** ellipsoid.py:33-58, 92-152. b_mat @ hkl only enters a printed value. *)
  Definition new_ellipsoid (t : tas) (h : vec) (en : R) (axes : option (list axis)) (reso : fmat) (r0 : R) : result ellipsoid :=
    do b <- s_b_mat (t_sample t);
    let q := norm (mv b h) * 2 * PI in
    match axes with
    | None =>
        do labels <- labels_from_projection fmt3 None;
        Ok (Ellipsoid h en None reso r0 (V q 0 0) false (90, 90, 90) labels)
    | Some ax =>
        do motors <- calculate_motor_angles t h en;
        do r <- r_mat (t_goni t) motors;
        do ub <- (match s_ub_conf (t_sample t) with Some u => match _ub_mat u with Some m => Ok m | None => Err AttributeError end | None => Err AttributeError end);
        let conv := mscale (2 * PI) (mm r ub) in
        do psi_deg <- get_psi t h en;
        let lab := mat_lab_to_local (deg2rad psi_deg) in
        if is_hkl ax then
          do l <- reciprocal_latt_params (s_lattice (t_sample t));
          let c := embed (mm lab conv) in
          do labels <- labels_from_projection fmt3 (Some [Vec (CInt 1) (CInt 0) (CInt 0); Vec (CInt 0) (CInt 1) (CInt 0); Vec (CInt 0) (CInt 0) (CInt 1); En]);
          Ok (Ellipsoid h en axes (mul 4 (mul 4 (transpose c) reso) c) r0 h (ints h) (lgamma l, lalpha l, lbeta l) labels)
        else
          match keep_some vec_of ax with
          | [p1; p2; p3] =>
              do (av, bv, cv) <- reciprocal_space_vectors (s_lattice (t_sample t));
              let v1 := lincomb p1 av bv cv in
              let v2 := lincomb p2 av bv cv in
              let v3 := lincomb p3 av bv cv in
              if Rlt_dec (dot v1 (cross v2 v3)) (/ 100000000) then Err ValueError
              else if Rlt_dec (Rabs (dot v1 (cross v2 v3))) (/ 100000000) then Err ValueError
              else
                let d := dot p1 (cross p2 p3) in
                if Req_EM_T d 0 then Err NotANumber
                else
                  let w_inv := mscale (/ d) (of_rows (cross p2 p3) (cross p3 p1) (cross p1 p2)) in
                  do a12 <- get_angle_vec v1 v2;
                  do a23 <- get_angle_vec v2 v3;
                  do a31 <- get_angle_vec v3 v1;
                  let c := embed (mm (mm lab conv) (of_cols p1 p2 p3)) in
                  let m := mul 4 (mul 4 (transpose c) reso) c in
                  do k <- en_index ax;
                  do labels <- labels_from_projection fmt3 axes;
                  Ok (Ellipsoid h en axes (roll k m) r0 (mv w_inv h) false (a12, a23, a31) labels)
          | _ => Err ValueError
          end
    end.

  (** ** TAS.cooper_nathans *)
  (** A request: one point (anything that is not a list), or a list of points *)
  Inductive request := One (p : vec * R) | Several (l : list (vec * R)).
  Definition points (r : request) : list (vec * R) := match r with One p => [p] | Several l => l end.
  Inductive answer := Single (e : option ellipsoid) | Tuple (l : list (option ellipsoid)).
  (** An element of self.err_msg. Simplification: the text of the message is not modelled, it is the point and the exception. *)
  Definition message : Type := vec * R * R * exn.

  (** tas.py:345-346 *)
  Definition at_point (t : tas) (ps : parts) (axes : option (list axis)) (p : vec * R * R) : result ellipsoid :=
    let '(h, ei, ef) := p in
    do (m, r0) <- calculate_at_hkle t ps h ei ef;
    new_ellipsoid t h (ei - ef) axes m r0.
  (** ValueError; numpy's LinAlgError is one *)
  Definition is_value_error (e : exn) : bool := match e with ValueError | LinAlgError => true | _ => false end.
  (** tas.py:341-353. [Err NotANumber] stands for an ellipsoid of nans, see M_UB. *)
  Fixpoint point_loop (t : tas) (ps : parts) (axes : option (list axis)) (l : list (vec * R * R)) : result (list (option ellipsoid) * list message) :=
    match l with
    | [] => Ok ([], [])
    | p :: l' =>
        do (a, m) <- (match at_point t ps axes p with
                      | Ok e => Ok (Some e, [])
                      | Err x => if is_value_error x then Ok (None, [(p, x)]) else Err x
                      end);
        do (al, ml) <- point_loop t ps axes l';
        Ok (a :: al, m ++ ml)
    end.

  (** tas.py:322-355: the returned value and self.err_msg. str(cn) unpacks u, v (cooper_nathans.py:40). *)
  Definition cooper_nathans (t : tas) (ps : parts) (r : request) (axes : option (list axis)) : result (answer * list message) :=
    do _ <- validate_instrument_parameters t ps;
    do uv <- get_uv t;
    match uv with
    | None => Err TypeError
    | Some _ =>
        do l <- mapM (hkleief t) (points r);
        do (al, ml) <- point_loop t ps axes l;
        Ok (match al with [a] => Single a | _ => Tuple al end, ml)
    end.
End Ellipsoids.
