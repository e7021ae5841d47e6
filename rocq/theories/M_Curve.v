(** Model of src/tavi/instrument/resolution/curve.py: the Gaussian curve of a resolution in one dimension. *)
From Coq Require Import List String Reals.
From Verif Require Import Base M_Utilities M_ScanData.
Import ListNotations.
Open Scope R_scope.

(** curve.py:24-33 the attributes; None stands for Python's None. [cen] is not set by the constructor (which sets [center]): None
    there means that the attribute does not exist until the user sets it. *)
Record curve := Curve {
  cv_center : R; cv_cen : option R; cv_fwhm : option R; cv_r0 : option R;
  cv_x : option (list R); cv_y : option (list num);
  cv_xlabel : option string; cv_ylabel : option string; cv_title : option string; cv_legend : option string }.
Definition new_curve : curve := Curve 0 None None None None None None None None None.
Definition with_x (x : list R) (c : curve) : curve :=
  Curve (cv_center c) (cv_cen c) (cv_fwhm c) (cv_r0 c) (Some x) (cv_y c) (cv_xlabel c) (cv_ylabel c) (cv_title c) (cv_legend c).
Definition with_y (y : list num) (c : curve) : curve :=
  Curve (cv_center c) (cv_cen c) (cv_fwhm c) (cv_r0 c) (cv_x c) (Some y) (cv_xlabel c) (cv_ylabel c) (cv_title c) (cv_legend c).

(** numpy.linspace(a, b, n): one point is the start. *)
Definition linspace (a b : R) (n : nat) : list R :=
  map (fun k => if Nat.eqb n 1 then a else a + INR k * ((b - a) / INR (n - 1))) (seq 0 n).

(** curve.py:46; a width of zero divides by zero (inf or nan: None). *)
Definition gauss (amp cen sigma x : R) : num :=
  if Req_EM_T sigma 0 then None else Some (amp * exp (- (x - cen) ^ 2 / sigma ^ 2 / 2)).
(** curve.py:35-46 generate_curve: the curve it leaves and what it raises. *)
Definition generate_curve (c : curve) (num_of_sigmas : R) (points : nat) : curve * result unit :=
  match cv_fwhm c with
  | None => (c, Err TypeError)
  | Some w =>
      let sigma := w / sig2fwhm in
      match cv_cen c with
      | None => (c, Err AttributeError)
      | Some cen =>
          let x := linspace (- num_of_sigmas * sigma + cen) (num_of_sigmas * sigma + cen) points in
          let c1 := with_x x c in
          match cv_r0 c with
          | None => (c1, Err TypeError)
          | Some r =>
              let amp := r / sqrt (2 * PI) / sigma in
              (with_y (map (gauss amp cen sigma) x) c1, Ok tt)
          end
      end
  end.
(** curve.py:48-63 generate_plot: what is handed to the axes: the points, the legend, the labels and the title. *)
Definition generate_plot (c : curve) : curve * result (list R * list num * option string * (option string * option string * option string)) :=
  let (c', r) := generate_curve c 3 100 in
  (c', do _ <- r; match cv_x c', cv_y c' with
                  | Some x, Some y => Ok (x, y, cv_legend c', (cv_xlabel c', cv_ylabel c', cv_title c'))
                  | _, _ => Err TypeError
                  end).
