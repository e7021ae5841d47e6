(** Model of src/tavi/lattice_algorithm.py. Where numpy would produce nan/inf (division by zero, sqrt of a negative
    number, arccos outside [-1, 1]) the model stops with [Err NotANumber]. *)
From Coq Require Import Reals.
From Verif Require Import Base LinAlg.
Open Scope R_scope.

Definition fdiv (a b : R) : result R := if Req_EM_T b 0 then Err NotANumber else Ok (a / b).
Definition fsqrt (a : R) : result R := if Rlt_dec a 0 then Err NotANumber else Ok (sqrt a).
Definition facos (a : R) : result R :=
  if Rlt_dec 1 a then Err NotANumber else if Rlt_dec a (-1) then Err NotANumber else Ok (acos a).

(** (a, b, c, alpha, beta, gamma) *)
Record lattice := Lattice { la : R; lb : R; lc : R; lalpha : R; lbeta : R; lgamma : R }.

(** lattice_algorithm.py:8-16 *)
Definition v_alpha_beta_gamma_calc (alpha beta gamma : R) : result R :=
  let ca := cos (deg2rad alpha) in
  let cb := cos (deg2rad beta) in
  let cg := cos (deg2rad gamma) in
  fsqrt (1 - ca * ca - cb * cb - cg * cg + 2 * ca * cb * cg).

(** lattice_algorithm.py:19-50 *)
Definition real_space_vectors (p : lattice) : result (vec * vec * vec) :=
  let ca := cos (deg2rad (lalpha p)) in
  let cb := cos (deg2rad (lbeta p)) in
  let cg := cos (deg2rad (lgamma p)) in
  let sg := sin (deg2rad (lgamma p)) in
  do v <- v_alpha_beta_gamma_calc (lalpha p) (lbeta p) (lgamma p);
  do c1 <- fdiv (lc p * (ca - cg * cb)) sg;
  do c2 <- fdiv (lc p * v) sg;
  Ok (V (la p) 0 0, V (lb p * cg) (lb p * sg) 0, V (lc p * cb) c1 c2).

(** lattice_algorithm.py:53-82 *)
Definition reciprocal_latt_params (p : lattice) : result lattice :=
  let sa := sin (deg2rad (lalpha p)) in
  let ca := cos (deg2rad (lalpha p)) in
  let sb := sin (deg2rad (lbeta p)) in
  let cb := cos (deg2rad (lbeta p)) in
  let cg := cos (deg2rad (lgamma p)) in
  let sg := sin (deg2rad (lgamma p)) in
  do v <- v_alpha_beta_gamma_calc (lalpha p) (lbeta p) (lgamma p);
  do a1 <- fdiv sa (la p); do a2 <- fdiv a1 v;
  do b1 <- fdiv sb (lb p); do b2 <- fdiv b1 v;
  do c1 <- fdiv sg (lc p); do c2 <- fdiv c1 v;
  do x1 <- fdiv (cb * cg - ca) sb; do x2 <- fdiv x1 sg; do alpha_star <- facos x2;
  do y1 <- fdiv (cg * ca - cb) sa; do y2 <- fdiv y1 sg; do beta_star <- facos y2;
  do z1 <- fdiv (ca * cb - cg) sb; do z2 <- fdiv z1 sa; do gamma_star <- facos z2;
  Ok (Lattice (a2 * PI * 2) (b2 * PI * 2) (c2 * PI * 2)
        (rad2deg alpha_star) (rad2deg beta_star) (rad2deg gamma_star)).

(** lattice_algorithm.py:85-100 *)
Definition reciprocal_space_vectors (p : lattice) : result (vec * vec * vec) :=
  do v_abg <- v_alpha_beta_gamma_calc (lalpha p) (lbeta p) (lgamma p);
  let v := v_abg * la p * lb p * lc p in
  do prefactor <- fdiv (2 * PI) v;
  do (a_vec, b_vec, c_vec) <- real_space_vectors p;
  Ok (vscale prefactor (cross b_vec c_vec), vscale prefactor (cross c_vec a_vec), vscale prefactor (cross a_vec b_vec)).

(** lattice_algorithm.py:103-116 *)
Definition reciprocal_basis (p : lattice) : result (vec * vec * vec) :=
  do (a_star, b_star, c_star) <- reciprocal_space_vectors p;
  do i_star <- unit_of a_star;
  do j_star <- unit_of (cross (cross a_star b_star) a_star);
  Ok (i_star, j_star, cross i_star j_star).

(** lattice_algorithm.py:122-141 *)
Definition b_mat_from_lattice (p : lattice) : result mat :=
  do r <- reciprocal_latt_params p;
  let bs := deg2rad (lbeta r) in
  let gs := deg2rad (lgamma r) in
  do x <- fdiv (2 * PI) (lc p);
  Ok (mscale (/ (2 * PI))
       (M (la r) (lb r * cos gs) (lc r * cos bs)
          0      (lb r * sin gs) (- lc r * sin bs * cos (deg2rad (lalpha p)))
          0      0               x)).

(** lattice_algorithm.py:144-171; a singular G* is replaced by the identity (lines 157-159). *)
Definition lattice_params_from_g_star_mat (g_star : mat) : result lattice :=
  let g := match minv g_star with Ok i => i | Err _ => mid end in
  do a <- fsqrt (m00 g);
  do b <- fsqrt (m11 g);
  do c <- fsqrt (m22 g);
  do xa <- fdiv (m12 g + m21 g) (2 * b * c); do alpha <- facos xa;
  do xb <- fdiv (m02 g + m20 g) (2 * a * c); do beta <- facos xb;
  do xg <- fdiv (m01 g + m10 g) (2 * a * b); do gamma <- facos xg;
  Ok (Lattice a b c (rad2deg alpha) (rad2deg beta) (rad2deg gamma)).

(** lattice_algorithm.py:174-183 *)
Definition lattice_params_from_b_mat (b : mat) : result lattice :=
  lattice_params_from_g_star_mat (mm (tr b) b).
