(** Model of ResoEllipsoid.plot_ellipses (src/tavi/instrument/resolution/ellipsoid.py:261-298): the figure with the six ellipses of a resolution ellipsoid. *)
From Coq Require Import Reals List ZArith String Bool.
From Verif Require Import Base M_Utilities M_Mat M_ScanData M_Ellipsoid M_Fit M_Ellipse M_Plotter.
Import ListNotations.
Open Scope string_scope.
Open Scope list_scope.

Section Figure.
  Variable V : Type.
  Variable text : string -> V.
  Variable eig : fmat -> (R * R) * ((R * R) * (R * R)).
  Variable round2 : R -> R.

  (** ellipsoid.py:262 *)
  Definition index_pairs : list (nat * nat) := [(0, 3); (1, 3); (2, 3); (0, 1); (1, 2); (0, 2)]%nat.
  (** ellipsoid.py:269-275: the keywords of one ellipse *)
  Definition style (x y : nat) (line label : string) : fmt V :=
    ("c", text "k") :: ("linestyle", text line) :: (if Nat.eqb x 2 && Nat.eqb y 3 then [("label", text label)] else []).
  (** ellipsoid.py:264-288, one panel: the commands handed to its axes, and the angle of its grid. The two ellipses are new objects and are
      given the identities 0 and 1. *)
  Definition panel (e : ellipsoid) (x y : nat) : result (list (cmd V) * R) :=
    do inco <- get_ellipse round2 e x y true true;
    do co <- get_ellipse round2 e x y false true;
    let (p, s) := add_reso V (Some 0%nat) (style x y "dashed" "Incoherent") new_plot2 (fun _ => []) in
    let (p, s) := add_reso V (Some 1%nat) (style x y "solid" "Coherent") p s in
    do wx <- incoh_fwhms (el_mat e) x; do wy <- incoh_fwhms (el_mat e) y;
    let x_fwhm := (wx * (6 / 10))%R in let y_fwhm := (wy * (6 / 10))%R in
    let (x_cen, y_cen) := ee_centers co in
    let p := Plot2 (p2_contours p) (p2_curves p) (p2_resos p) (p2_title p) (p2_xlabel p) (p2_ylabel p)
                   (Some (x_cen - x_fwhm, x_cen + x_fwhm)%R) (Some (y_cen - y_fwhm, y_cen + y_fwhm)%R) in
    let nothing := Curve [] [] None None "" "" in let no_mesh := Mesh [] [] [] None None None in
    Ok (fst (fst (plot_2d V (fun _ => nothing) (fun _ => no_mesh) (fun i => if Nat.eqb i 0 then inco else co) eig p s)), ee_angle co).
  (** ellipsoid.py:261-288; the title of the figure (290-292) is left out *)
  Definition plot_ellipses (e : ellipsoid) : result (list (list (cmd V) * R)) := mapM (fun '(x, y) => panel e x y) index_pairs.
End Figure.
