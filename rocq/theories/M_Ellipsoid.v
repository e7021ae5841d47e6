(** Model of src/tavi/instrument/resolution/ellipsoid.py: widths and two-dimensional ellipses of a resolution ellipsoid. *)
From Coq Require Import Reals List Arith Bool String.
From Verif Require Import Base LinAlg M_Utilities M_Mat M_Labels.
Import ListNotations.
Open Scope R_scope.

(** ellipsoid.py:36-62: the attributes *)
Record ellipsoid := Ellipsoid {
  el_hkl : vec;
  el_en : R;
  el_axes : option (list axis);
  el_mat : fmat;                      (* 4 x 4 *)
  el_r0 : R;
  el_q_vec : vec;
  el_ints : bool;                     (* np.array(q_vec) is an array of integers: h, k, l were all given as integers and q_vec is hkl *)
  el_angles : R * R * R;
  el_labels : list string }.

(** ellipsoid.py:168-171 and 239-244: project along each of the axes 3, 2, 1, 0 that is not kept; the size is returned too *)
Fixpoint project_all (axes : list nat) (keep : nat -> bool) (n : nat) (A : fmat) : result (nat * fmat) :=
  match axes with
  | [] => Ok (n, A)
  | i :: axes' => if keep i then project_all axes' keep n A
                  else do B <- quadric_proj n A i; project_all axes' keep (pred n) B
  end.
(** ellipsoid.py:246-250: a cut *)
Fixpoint delete_all (axes : list nat) (keep : nat -> bool) (n : nat) (A : fmat) : nat * fmat :=
  match axes with
  | [] => (n, A)
  | i :: axes' => if keep i then delete_all axes' keep n A else delete_all axes' keep (pred n) (delete A i)
  end.

(** ellipsoid.py:159-162 (axis given, not negative). The root of a negative number is nan, of zero gives inf. *)
Definition coh_fwhms (A : fmat) (idx : nat) : result R :=
  if Nat.leb 4 idx then Err IndexError
  else if Rle_dec (A idx idx) 0 then Err NotANumber
  else Ok (sig2fwhm / sqrt (A idx idx)).
(** ellipsoid.py:164-173 *)
Definition incoh_fwhms (A : fmat) (idx : nat) : result R :=
  do (n, B) <- project_all [3; 2; 1; 0]%nat (Nat.eqb idx) 4 A;
  if Nat.eqb n 0 then Err IndexError
  else if Req_EM_T (B 0%nat 0%nat) 0 then Err NotANumber
  else Ok (sig2fwhm / sqrt (Rabs (B 0%nat 0%nat))).

(** int(x): numpy converts a number to an integer by dropping what is after the point *)
Definition to_int (x : R) : R := if Rle_dec 0 x then IZR (Int_part x) else - IZR (Int_part (- x)).
(** np.insert(v, i, x) gives an array of the type of v: into an array of integers x is inserted as an integer *)
Definition insert4 (ints : bool) (v : vec) (i : nat) (x : R) : list R :=
  firstn i [vx v; vy v; vz v] ++ (if ints then to_int x else x) :: skipn i [vx v; vy v; vz v].
(** tuple.index("en") *)
Fixpoint en_index (axes : list axis) : result nat :=
  match axes with [] => Err ValueError | En :: _ => Ok 0%nat | _ :: l => rmap S (en_index l) end.
Definition at_index {A} (l : list A) (i : nat) : result A := match nth_error l i with Some x => Ok x | None => Err IndexError end.

Record ellipse := Ellipse { ee_mat : fmat; ee_centers : R * R; ee_angle : R; ee_labels : string * string }.

Section Ellipse.
  (** np.round(x, 2) *)
  Variable round2 : R -> R.

  (** ellipsoid.py:225-233 *)
  Definition ellipse_angle (angles : R * R * R) (x y : nat) : R :=
    let '(a, b, c) := angles in
    match x, y with
    | 0, 1 | 1, 0 => round2 a
    | 1, 2 | 2, 1 => round2 b
    | 0, 2 | 2, 0 => round2 c
    | _, _ => 90%R
    end%nat.

  (** ellipsoid.py:206-259; indices are not negative. Simplification: the eigenvectors computed by ResoEllipse are left out. *)
  Definition get_ellipse (e : ellipsoid) (x y : nat) (projection origin : bool) : result ellipse :=
    do en_idx <- (match el_axes e with Some axes => en_index axes | None => Ok 3%nat end);
    let qe := insert4 (el_ints e) (el_q_vec e) en_idx (el_en e) in
    let angle := ellipse_angle (el_angles e) x y in
    do lx <- at_index (el_labels e) x;
    do ly <- at_index (el_labels e) y;
    do centers <- (if origin then do cx <- at_index qe x; do cy <- at_index qe y; Ok (cx, cy) else Ok (0, 0));
    let keep := fun i => Nat.eqb i x || Nat.eqb i y in
    do (n, m) <- (if projection then project_all [3; 2; 1; 0]%nat keep 4 (el_mat e) else Ok (delete_all [3; 2; 1; 0]%nat keep 4 (el_mat e)));
    Ok (Ellipse m centers angle (lx, ly)).
End Ellipse.
