(** Specification vocabulary for fits convolved with the resolution (C71). *)
From Coq Require Import Reals List ZArith String.
Import ListNotations.
Open Scope R_scope.

(** The normal distribution *)
Definition phi (t : R) : R := exp (- (t * t) / 2) / sqrt (2 * PI).
(** A peak of the given area, centre and standard deviation *)
Definition peak (area centre sd : R) : R -> R := fun x => area / sd * phi ((x - centre) / sd).
(** The standard deviation of a Gaussian of full width [w] at half maximum *)
Definition deviation (w : R) : R := w / (2 * sqrt (2 * ln 2)).
(** 10000 equally spaced points from -5 to 5 *)
Definition nodes : list R := map (fun k => -5 + 10 * INR k / 9999) (seq 0 (Z.to_nat 10000)).
(** The curve [f] seen through a resolution (r0, full width), at [x]: r0 times the weighted sum of f within five standard deviations *)
Definition smeared (f : R -> R) (rez : R * R) (x : R) : R :=
  fst rez * fold_right Rplus 0 (map (fun t => phi t * f (x - t * deviation (snd rez)) * (1 / 1000)) nodes).
(** What remains of a constant: the weights of the sum *)
Definition weight_sum : R := fold_right Rplus 0 (map (fun t => phi t * (1 / 1000)) nodes).
(** [l] at [i] *)
Notation "l '@' i 'is' x" := (nth_error l i = Some x) (at level 70, i at level 0, x at level 60).
