(** Model of src/tavi/instrument/tas.py (angles and UB). *)
From Coq Require Import Reals List String.
From Verif Require Import Base LinAlg M_Utilities M_Lattice M_UB M_Sample M_Goni.
Import ListNotations.
Open Scope R_scope.

(** tas.py:45-55 and tas_base.py (a mounted sample and a goniometer) *)
Record tas := TAS {
  t_convention : string;
  t_fixed_ei : option R;
  t_fixed_ef : option R;
  t_goni : goniometer;
  t_sample : sample }.

(** tas.py:69-94 *)
Definition get_ei_ef (fixed_ei fixed_ef ei ef : option R) (en : R) : result (R * R) :=
  let ef1 := match ef with Some x => Some x | None => fixed_ef end in
  let ei1 := match ei with Some x => Some x | None => fixed_ei end in
  match ei1, ef1 with
  | None, None => Err ValueError
  | None, Some f => Ok (en + f, f)
  | Some i, None => Ok (i, i - en)
  | Some i, Some f => Ok (i, f)
  end.
Definition t_ei_ef (t : tas) (en : R) : result (R * R) := get_ei_ef (t_fixed_ei t) (t_fixed_ef t) None None en.

(** tas.py:96-118 *)
Definition get_two_theta (t : tas) (h : vec) (en : R) : result R :=
  do (ei, ef) <- t_ei_ef t en;
  do b <- s_b_mat (t_sample t);
  do x <- two_theta_from_hkle h ei ef b;
  do s <- sense_sign (t_goni t);
  Ok (rad2deg x * s).

(** tas.py:120-141 *)
Definition get_psi (t : tas) (h : vec) (en : R) : result R :=
  do (ei, ef) <- t_ei_ef t en;
  do b <- s_b_mat (t_sample t);
  do x <- psi_from_hkle h ei ef b;
  do s <- sense_sign (t_goni t);
  Ok (rad2deg x * s * (-1)).

(** tas.py:214 *)
Definition coplanar_zero : R := / 1000000.

Definition set_ub_conf (s : sample) (u : ubconf) : sample :=
  Sample (s_lattice s) (Some u) (s_mosaic_h s) (s_mosaic_v s).
Definition set_sample (t : tas) (s : sample) : tas :=
  TAS (t_convention t) (t_fixed_ei t) (t_fixed_ef t) (t_goni t) s.

(** tas.py:219-227 and 231-239: store the lattice of a UB matrix found from three or more peaks *)
Definition store_ub (t : tas) (ub : mat) (ps : list peak) : tas * result (option ubconf) :=
  match update_lattice_parametres_from_g_star_mat (t_sample t) (mm (tr ub) ub) with
  | (s, Some e) => (set_sample t s, Err e)
  | (s, None) =>
      match (do b <- s_b_mat s;
             new_ubconf (Some (t_convention t)) [KW_b_mat b; KW__ub_mat ub; KW_ub_peaks ps]) with
      | Err e => (set_sample t s, Err e)
      | Ok u => (set_sample t (set_ub_conf s u), Ok (Some u))
      end
  end.

(** tas.py:163-245, for a tuple of peaks: the instrument afterwards and the returned value. With [scattering_plane=None]
    and one peak the unpacking at ub_algorithm.py:441 raises TypeError. *)
Definition calculate_ub_matrix (t : tas) (ps : list peak) (plane : option (vec * vec)) : tas * result (option ubconf) :=
  match t_ei_ef t 0 with
  | Err e => (t, Err e)
  | Ok (ei, ef) =>
    let rinv := r_mat_inv (t_goni t) in
    match ps with
    | [] => (t, Err ValueError)
    | [p] =>
        match (do b <- s_b_mat (t_sample t);
               do (v1, v2) <- (match plane with Some vs => Ok vs | None => Err TypeError end);
               do u <- find_u_from_one_peak_and_scattering_plane p v1 v2 b rinv ei ef;
               let ub := mm u b in
               do (pn, ipr) <- plane_normal_from_one_peak (hkl p) (angles p) rinv ub;
               new_ubconf (Some (t_convention t))
                 [KW_b_mat b; KW__ub_mat ub; KW__plane_normal pn; KW__in_plane_ref ipr; KW_ub_peaks ps]) with
        | Err e => (t, Err e)
        | Ok u => (set_sample t (set_ub_conf (t_sample t) u), Ok (Some u))
        end
    | [p1; p2] =>
        match (do b <- s_b_mat (t_sample t);
               do u <- find_u_from_two_peaks p1 p2 b rinv ei ef;
               do (pn, ipr) <- plane_normal_from_two_peaks u b (hkl p1) (hkl p2);
               let ub := mm u b in
               new_ubconf (Some (t_convention t))
                 [KW_b_mat b; KW__ub_mat ub; KW__plane_normal pn; KW__in_plane_ref ipr; KW_ub_peaks ps]) with
        | Err e => (t, Err e)
        | Ok u => (set_sample t (set_ub_conf (t_sample t) u), Ok (Some u))
        end
    | [p1; p2; p3] =>
        if Rlt_dec (dot (hkl p1) (cross (hkl p2) (hkl p3))) coplanar_zero then (t, Ok None)
        else
          match find_ub_from_three_peaks p1 p2 p3 rinv ei ef with
          | Err e => (t, Err e)
          | Ok ub => store_ub t ub ps
          end
    | _ =>
        match find_ub_from_multiple_peaks ps rinv ei ef with
        | Err e => (t, Err e)
        | Ok ub => store_ub t ub ps
        end
    end
  end.

(** tas.py:168-171: called with a bare [Peak] *)
Definition calculate_ub_matrix_bare (t : tas) (p : peak) (plane : option (vec * vec)) : tas * result (option ubconf) :=
  match t_ei_ef t 0, plane with
  | Err e, _ => (t, Err e)
  | Ok _, None => (t, Err ValueError)
  | Ok _, Some _ => calculate_ub_matrix t [p] plane
  end.

(** tas.py:247-254 *)
Definition get_uv (t : tas) : result (option (vec * vec)) :=
  match s_ub_conf (t_sample t) with
  | None => Ok None
  | Some u => match _ub_mat u with
              | None => Err AttributeError
              | Some m => do uv <- ub_matrix_to_uv m; Ok (Some uv)
              end
  end.

(** tas.py:256-307. [angles] is unbound at line 307 when the mode is neither None nor "bisect". *)
Definition calculate_motor_angles (t : tas) (h : vec) (en : R) : result motor_angles :=
  do th2 <- get_two_theta t h en;
  do psi <- get_psi t h en;
  do (ei, ef) <- t_ei_ef t en;
  match s_ub_conf (t_sample t) with
  | None => Err ValueError
  | Some u =>
      do m <- get_ub_mat u;
      match m with
      | None => Err ValueError
      | Some _ =>
          do gm <- mode (t_goni t);
          match gm with
          | None =>
              do r <- r_matrix_with_minimal_tilt h ei ef th2 u;
              angles_from_r_mat (t_goni t) r th2
          | Some md =>
              if String.eqb md "bisect" then
                match _ub_mat u with
                | Some ub => angles_in_bisect_mode (t_goni t) h th2 psi ub
                | None => Err AttributeError
                end
              else Err UnboundLocalError
          end
      end
  end.

(** tas.py:309-320 *)
Definition calculate_hkl_from_angles (t : tas) (a : motor_angles) : result (option vec) :=
  do (ei, ef) <- t_ei_ef t 0;
  do ql <- q_lab ei ef (two_theta a);
  do r <- r_mat (t_goni t) a;
  match s_ub_conf (t_sample t) with
  | None => Ok None
  | Some u =>
      match _ub_mat u with
      | None => Err AttributeError
      | Some ub =>
          do i <- minv (mm r ub);
          Ok (Some (vscale (/ (2 * PI)) (mv i ql)))
      end
  end.
