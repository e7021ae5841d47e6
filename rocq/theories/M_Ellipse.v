(** Model of src/tavi/instrument/resolution/ellipse.py, and of how Plot2D.plot (src/tavi/plotter.py) draws an ellipse. *)
From Coq Require Import Reals List ZArith Bool.
From Verif Require Import Base M_Utilities M_Mat M_ScanData M_Ellipsoid M_Fit.
Import ListNotations.
Open Scope R_scope.

Section Drawing.
  (** numpy.linalg.eig of a 2 x 2 matrix with real eigenvalues: the eigenvalues, and the two columns of eigenvectors *)
  Variable eig : fmat -> (R * R) * ((R * R) * (R * R)).

  (** ellipse.py:35, one eigenvalue; 1 / 0 is inf *)
  Definition eig_fwhm (l : R) : num := if Req_EM_T l 0 then None else Some (1 / sqrt (Rabs l) * sig2fwhm).
  (** ellipse.py:26-35 (fwhms); the other attributes are those of [ellipse] *)
  Definition ellipse_fwhms (E : ellipse) : num * num := let '((l0, l1), _) := eig (ee_mat E) in (eig_fwhm l0, eig_fwhm l1).
  (** ellipse.py:34 (evecs) *)
  Definition ellipse_evecs (E : ellipse) : (R * R) * (R * R) := snd (eig (ee_mat E)).

  (** ellipse.py:41-46 for one angle phi *)
  Definition ellipse_point (E : ellipse) (phi : R) : num * num :=
    let (f0, f1) := ellipse_fwhms E in
    let '((v00, v10), (v01, v11)) := ellipse_evecs E in
    let len0 := nmul (ndiv f0 (Some 2)) (Some (cos phi)) in
    let len1 := nmul (ndiv f1 (Some 2)) (Some (sin phi)) in
    (nadd (nadd (nmul (Some v00) len0) (nmul (Some v01) len1)) (Some (fst (ee_centers E))),
     nadd (nadd (nmul (Some v10) len0) (nmul (Some v11) len1)) (Some (snd (ee_centers E)))).
  (** ellipse.py:37-47 *)
  Definition get_points (E : ellipse) (n : Z) : result (list (num * num)) :=
    do phi <- linspace 0 (2 * PI) n; Ok (map (ellipse_point E) phi).

  (** np.isclose(a, 90, atol=1e-2): the relative tolerance is 1e-5 *)
  Definition right_angle (a : R) : bool := if Rle_dec (Rabs (a - 90)) (1 / 100 + 1 / 100000 * 90) then true else false.
  (** plotter.py:245-250: the points handed to ax.plot. [num_points] is 128 in the code. *)
  Definition drawn_point (angle : R) (p : num * num) : num * num :=
    if right_angle angle then p
    else match p with (Some x, Some y) => let (x', y') := tr x y angle in (x', Some y') | _ => (None, snd p) end.
  Definition drawn (E : ellipse) (n : Z) : result (list (num * num)) :=
    do pts <- get_points E n; Ok (map (drawn_point (ee_angle E)) pts).
End Drawing.
