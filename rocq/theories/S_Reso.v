(** Specification vocabulary for the resolution of a triple-axis spectrometer (C45), after Cooper and Nathans: what a neutron
    path changes, and how unlikely it is. Only vectors of the laboratory and sums of squares; no matrices. *)
From Coq Require Import Reals List String.
From Verif Require Import Base LinAlg M_Utilities M_Sample M_Goni M_Tas M_Components S_Energy.
Import ListNotations.
Open Scope R_scope.

(** The numbers that describe the instrument at a point: wave numbers, angles in degrees (scattering angle, angle of Q with
    the beam, Bragg angles of monochromator and analyser), |Q|, and in minutes of arc the mosaics (horizontal, vertical) of
    monochromator, analyser and sample and the four horizontal and four vertical divergences along the beam. *)
Record setup := Setup {
  u_ki : R; u_kf : R; u_tt : R; u_psi : R; u_thm : R; u_tha : R; u_q : R;
  u_mono : R * R; u_ana : R * R; u_sample : R * R;
  u_h : R * R * R * R; u_v : R * R * R * R }.

Definition number (c : attrs) (k : string) (x : R) : Prop := dget String.eqb k c = Some (ANum x).

(** The setup of an instrument with its parts [ps], at the reflection [h] with energies [ei] and [ef] *)
Definition described (t : tas) (ps : parts) (h : vec) (ei ef : R) (s : setup) : Prop :=
  wavenumber ei (u_ki s) /\ wavenumber ef (u_kf s) /\
  get_two_theta t h (ei - ef) = Ok (u_tt s) /\ get_psi t h (ei - ef) = Ok (u_psi s) /\
  get_q_norm (t_sample t) h = Ok (u_q s) /\
  s_mosaic_h (t_sample t) = fst (u_sample s) /\ s_mosaic_v (t_sample t) = snd (u_sample s) /\
  exists mono ana coll,
    dget String.eqb "monochromator"%string ps = Some mono /\ dget String.eqb "analyzer"%string ps = Some ana /\
    dget String.eqb "collimators"%string ps = Some coll /\
    get_theta mono ei = Ok (u_thm s) /\ get_theta ana ef = Ok (u_tha s) /\
    number mono "mosaic_h" (fst (u_mono s)) /\ number mono "mosaic_v" (snd (u_mono s)) /\
    number ana "mosaic_h" (fst (u_ana s)) /\ number ana "mosaic_v" (snd (u_ana s)) /\
    (let '(h0, h1, h2, h3) := u_h s in
     number coll "h_pre_mono" h0 /\ number coll "h_pre_sample" h1 /\ number coll "h_post_sample" h2 /\ number coll "h_post_ana" h3) /\
    (let '(v0, v1, v2, v3) := u_v s in
     number coll "v_pre_mono" v0 /\ number coll "v_pre_sample" v1 /\ number coll "v_post_sample" v2 /\ number coll "v_post_ana" v3).

(** A minute of arc, in radians *)
Definition arcmin (x : R) : R := x * (PI / 180 / 60).
Definition degrees (x : R) : R := x * (PI / 180).

(** A path of a neutron: its horizontal and vertical angles with the nominal path in the four sections (before the
    monochromator, before the sample, after it, after the analyser), and the tilts of the sample's crystallite, as multiples of
    its mosaics. *)
Record path := Path { g0 : R; g1 : R; g2 : R; g3 : R; d0 : R; d1 : R; d2 : R; d3 : R; tilt_h : R; tilt_v : R }.

Definition sq (x : R) : R := x * x.

(** Twice the exponent of the path's probability: collimators let through exp(-(angle/divergence)^2/2); the crystallite of the
    monochromator that reflects it is turned by the mean of the two horizontal angles, and by the difference of the vertical
    ones over 2 sin(theta); likewise for the analyser. *)
Definition unlikeliness (s : setup) (p : path) : R :=
  let '(h0, h1, h2, h3) := u_h s in let '(v0, v1, v2, v3) := u_v s in
  sq (g0 p / arcmin h0) + sq (g1 p / arcmin h1) + sq (g2 p / arcmin h2) + sq (g3 p / arcmin h3)
  + sq (d0 p / arcmin v0) + sq (d1 p / arcmin v1) + sq (d2 p / arcmin v2) + sq (d3 p / arcmin v3)
  + sq ((g0 p + g1 p) / 2 / arcmin (fst (u_mono s))) + sq ((d0 p - d1 p) / (2 * sin (degrees (u_thm s))) / arcmin (snd (u_mono s)))
  + sq ((g2 p + g3 p) / 2 / arcmin (fst (u_ana s))) + sq ((d2 p - d3 p) / (2 * sin (degrees (u_tha s))) / arcmin (snd (u_ana s)))
  + sq (tilt_h p) + sq (tilt_v p).

(** Changes of the wave vectors, in the laboratory (x sideways, y up, z along the beam). The length follows from Bragg's law,
    k cot(theta) times the turn of the beam relative to the lattice planes. *)
Definition delta_ki (s : setup) (p : path) : vec :=
  let k := u_ki s in
  V (k * g1 p) (k * d1 p) (k * cos (degrees (u_thm s)) / sin (degrees (u_thm s)) * ((g0 p - g1 p) / 2)).
Definition delta_kf (s : setup) (p : path) : vec :=
  let k := u_kf s in let t := degrees (u_tt s) in
  let along := k * cos (degrees (u_tha s)) / sin (degrees (u_tha s)) * ((g2 p - g3 p) / 2) in
  vadd (vscale along (V (sin t) 0 (cos t))) (vadd (vscale (k * g2 p) (V (cos t) 0 (- sin t))) (V 0 (k * d2 p) 0)).

(** The directions of Q, across it in the horizontal plane, and up *)
Definition along_q (s : setup) : vec := let a := degrees (u_psi s) in V (sin a) 0 (cos a).
Definition across_q (s : setup) : vec := let a := degrees (u_psi s) in V (cos a) 0 (- sin a).
Definition up : vec := V 0 1 0.

(** The change of (Q, E): ki - kf, plus what a tilt of the sample moves the reflection; to first order the energy
    2.072124855 (ki^2 - kf^2) changes by 2 * 2.072124855 (ki dki - kf dkf). *)
Definition changes (s : setup) (p : path) (v : nat -> R) : Prop :=
  let dq := vsub (delta_ki s p) (delta_kf s p) in
  let t := degrees (u_tt s) in
  v 0%nat = dot dq (along_q s) /\
  v 1%nat = dot dq (across_q s) + u_q s * (arcmin (fst (u_sample s)) * tilt_h p) /\
  v 2%nat = dot dq up + u_q s * (arcmin (snd (u_sample s)) * tilt_v p) /\
  v 3%nat = 2 * 2.072124855 * (u_ki s * dot (delta_ki s p) (V 0 0 1) - u_kf s * dot (delta_kf s p) (V (sin t) 0 (cos t))).

(** Mosaics and divergences are not zero and the Bragg angles are not right angles: otherwise the matrix is not made of
    numbers. *)
Definition proper_setup (s : setup) : Prop :=
  let '(h0, h1, h2, h3) := u_h s in let '(v0, v1, v2, v3) := u_v s in
  (h0 <> 0 /\ h1 <> 0 /\ h2 <> 0 /\ h3 <> 0) /\ (v0 <> 0 /\ v1 <> 0 /\ v2 <> 0 /\ v3 <> 0) /\
  (fst (u_mono s) <> 0 /\ snd (u_mono s) <> 0 /\ fst (u_ana s) <> 0 /\ snd (u_ana s) <> 0) /\
  cos (degrees (u_thm s)) <> 0 /\ cos (degrees (u_tha s)) <> 0.

(** What one arm of the spectrometer lets through (Dorner, Acta Cryst. A28 (1972) 319): wave number [k], Bragg angle [th] and
    mosaics of its crystal in radians, and the divergences on both sides of the crystal. The reflectivity of the crystal is 1. *)
Definition arm (k th eta_h eta_v h h' v v' : R) : R :=
  2 * PI * (k * k * k) * (cos th / Rabs (sin th))
  * (Rabs (h * h') / sqrt (sq h + sq h' + 4 * sq eta_h))
  * (Rabs (v * v') / sqrt (sq v + sq v' + 4 * sq (sin th * eta_v))).
Definition throughput (s : setup) : R :=
  let '(h0, h1, h2, h3) := u_h s in let '(v0, v1, v2, v3) := u_v s in
  arm (u_ki s) (degrees (u_thm s)) (arcmin (fst (u_mono s))) (arcmin (snd (u_mono s))) (arcmin h0) (arcmin h1) (arcmin v0) (arcmin v1)
  * arm (u_kf s) (degrees (u_tha s)) (arcmin (fst (u_ana s))) (arcmin (snd (u_ana s))) (arcmin h2) (arcmin h3) (arcmin v2) (arcmin v3).
