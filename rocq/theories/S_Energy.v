(** Specification vocabulary for energies and the scattering triangle. *)
From Coq Require Import Reals String.
From Verif Require Import Base LinAlg.
Open Scope R_scope.

(** Lengths [a], [b], [c] are the sides of a (possibly flat) triangle. *)
Definition triangle (a b c : R) : Prop := a <= b + c /\ b <= a + c /\ c <= a + b.

(** The smallest side the code accepts next to the wanted angle, 1e-6. *)
Definition side_ok (a : R) : Prop := 1 / 1000000 <= a.

(** Wave number (1/Angstrom) of a neutron of energy [e] meV: e = 2.072124855 k^2. *)
Definition wavenumber (e k : R) : Prop := 0 <= k /\ e = 2.072124855 * (k * k).

(** Momentum transfer Q = ki - kf in the lab frame (z along the beam, y up), the scattered beam being turned in the
    horizontal plane by [t] degrees from the incident one: ki = (0,0,|ki|), kf = |kf| (sin t, 0, cos t). *)
Definition transfer (ki kf t : R) : vec :=
  vsub (V 0 0 ki) (vscale kf (V (sin (t * PI / 180)) 0 (cos (t * PI / 180)))).

(** The horizontal vector of length [q] at [p] degrees from the beam. *)
Definition horizontal (q p : R) : vec := vscale q (V (sin (p * PI / 180)) 0 (cos (p * PI / 180))).

(** Sense of an instrument as a sign. *)
Definition sense_of (s : option string) (sgn : R) : Prop :=
  (s = Some "+"%string /\ sgn = 1) \/ (s = Some "-"%string /\ sgn = -1).
