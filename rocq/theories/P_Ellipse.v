(** C74: the ellipse drawn for a resolution ellipsoid is where the resolution function has fallen to half its maximum. *)
From Coq Require Import Reals List Arith ZArith Bool Lra Lia String.
From Verif Require Import Base LinAlg M_Utilities M_Mat M_ScanData M_Labels M_Ellipsoid M_Fit M_Ellipse S_Mat L_Mat L_Lattice P_Quadric P_Widths P_Fit.
Import ListNotations.
Open Scope R_scope.

(** * Specification *)
(** What numpy.linalg.eig gives for a symmetric 2 x 2 matrix: unit eigenvectors of its eigenvalues, and the two axes for a multiple of the identity. *)
Definition eigen (A : fmat) (r : (R * R) * ((R * R) * (R * R))) : Prop :=
  let '((l0, l1), ((a, b), (c, d))) := r in
  A 0%nat 0%nat * a + A 0%nat 1%nat * b = l0 * a /\ A 1%nat 0%nat * a + A 1%nat 1%nat * b = l0 * b /\ a * a + b * b = 1 /\
  A 0%nat 0%nat * c + A 0%nat 1%nat * d = l1 * c /\ A 1%nat 0%nat * c + A 1%nat 1%nat * d = l1 * d /\ c * c + d * d = 1 /\
  (l0 = l1 -> (a, b) = (1, 0) /\ (c, d) = (0, 1)).
Definition solves (eig : fmat -> (R * R) * ((R * R) * (R * R))) : Prop := forall A, symmetric 2 A -> eigen A (eig A).
(** The resolution function of a matrix: one at the centre *)
Definition resolution (n : nat) (A : fmat) (v : nat -> R) : R := exp (- form n A v / 2).
(** The resolution at a point of the plane of an ellipse *)
Definition resolution_at (E : ellipse) (x y : R) : R := resolution 2 (ee_mat E) (pair_of (x - fst (ee_centers E)) (y - snd (ee_centers E))).

(** * Eigenvectors *)
Lemma form_two : forall A a b, form 2 A (pair_of a b) = a * (A 0%nat 0%nat * a + A 0%nat 1%nat * b) + b * (A 1%nat 0%nat * a + A 1%nat 1%nat * b).
Proof. intros. unfold form, pair_of. cbn. ring. Qed.
Lemma eigen_frame : forall A l0 l1 a b c d, symmetric 2 A -> posdef 2 A -> eigen A ((l0, l1), ((a, b), (c, d))) ->
  0 < l0 /\ 0 < l1 /\ a * c + b * d = 0 /\ forall s t, form 2 A (pair_of (a * s + c * t) (b * s + d * t)) = l0 * (s * s) + l1 * (t * t).
Proof.
  intros A l0 l1 a b c d Y P (E1 & E2 & N1 & E3 & E4 & N2 & EQ). specialize (Y 0%nat 1%nat ltac:(lia) ltac:(lia)).
  assert (L0 : 0 < l0). { assert (F : 0 < form 2 A (pair_of a b)). { apply P. destruct (Req_dec a 0) as [Z|Z]; [exists 1%nat|exists 0%nat]; cbn; split; auto. intros B. subst. lra. } rewrite form_two, E1, E2 in F. replace (a * (l0 * a) + b * (l0 * b)) with (l0 * (a * a + b * b)) in F by ring. rewrite N1 in F. lra. }
  assert (L1 : 0 < l1). { assert (F : 0 < form 2 A (pair_of c d)). { apply P. destruct (Req_dec c 0) as [Z|Z]; [exists 1%nat|exists 0%nat]; cbn; split; auto. intros B. subst. lra. } rewrite form_two, E3, E4 in F. replace (c * (l1 * c) + d * (l1 * d)) with (l1 * (c * c + d * d)) in F by ring. rewrite N2 in F. lra. }
  assert (O : a * c + b * d = 0). { destruct (Req_dec l0 l1) as [Z|Z]. { destruct (EQ Z) as [V1 V2]. injection V1 as -> ->. injection V2 as -> ->. ring. }
    assert (X : (l0 - l1) * (a * c + b * d) = 0). { replace ((l0 - l1) * (a * c + b * d)) with ((l0 * a) * c + (l0 * b) * d - (a * (l1 * c) + b * (l1 * d))) by ring. rewrite <- E1, <- E2, <- E3, <- E4, Y. ring. }
    apply Rmult_integral in X. destruct X; [lra|auto]. }
  split; auto. split; auto. split; auto. intros s t. rewrite form_two.
  replace (A 0%nat 0%nat * (a * s + c * t) + A 0%nat 1%nat * (b * s + d * t)) with (s * (A 0%nat 0%nat * a + A 0%nat 1%nat * b) + t * (A 0%nat 0%nat * c + A 0%nat 1%nat * d)) by ring.
  replace (A 1%nat 0%nat * (a * s + c * t) + A 1%nat 1%nat * (b * s + d * t)) with (s * (A 1%nat 0%nat * a + A 1%nat 1%nat * b) + t * (A 1%nat 0%nat * c + A 1%nat 1%nat * d)) by ring.
  rewrite E1, E2, E3, E4.
  replace ((a * s + c * t) * (s * (l0 * a) + t * (l1 * c)) + (b * s + d * t) * (s * (l0 * b) + t * (l1 * d)))
    with (l0 * (s * s) * (a * a + b * b) + l1 * (t * t) * (c * c + d * d) + (l0 + l1) * s * t * (a * c + b * d)) by ring.
  rewrite N1, N2, O. ring.
Qed.
Lemma half_width : forall l, 0 < l -> exists h, eig_fwhm l = Some (2 * h) /\ 0 < h /\ l * (h * h) = 2 * ln 2.
Proof.
  intros l L. exists (sqrt (2 * ln 2) / sqrt l). pose proof (sqrt_lt_R0 l L) as S. pose proof ln_lt_2 as LN. assert (K : 0 < sqrt (2 * ln 2)) by (apply sqrt_lt_R0; lra). split; [|split].
  - unfold eig_fwhm, sig2fwhm. destruct (Req_EM_T l 0); [lra|]. rewrite Rabs_right by lra. f_equal. field. lra.
  - apply Rmult_lt_0_compat; auto. apply Rinv_0_lt_compat; auto.
  - replace (l * (sqrt (2 * ln 2) / sqrt l * (sqrt (2 * ln 2) / sqrt l))) with (l * (sqrt (2 * ln 2) * sqrt (2 * ln 2)) / (sqrt l * sqrt l)) by (field; lra).
    rewrite !sqrt_sqrt by lra. field. lra.
Qed.
Lemma half_is : forall A v, form 2 A v = 2 * ln 2 <-> resolution 2 A v = 1 / 2.
Proof.
  intros A v. unfold resolution. split; intros H.
  - rewrite H. replace (- (2 * ln 2) / 2) with (- ln 2) by field. rewrite exp_Ropp, exp_ln by lra. lra.
  - assert (X : ln (exp (- form 2 A v / 2)) = ln (/ 2)) by (rewrite H; f_equal; lra). rewrite ln_exp, ln_Rinv in X by lra. lra.
Qed.
Lemma angle_of : forall x y, x * x + y * y = 1 -> exists phi, 0 <= phi <= 2 * PI /\ cos phi = x /\ sin phi = y.
Proof.
  intros x y H. assert (B : -1 <= x <= 1). { split; [apply Rnot_lt_le|apply Rnot_lt_le]; intros L; pose proof (Rle_0_sqr y) as Q; unfold Rsqr in Q; nra. }
  pose proof (acos_bound x) as AB. destruct (Rle_dec 0 y) as [P|N].
  - exists (acos x). split; [lra|]. split; [apply cos_acos; auto|apply sin_acos_eq; auto].
  - exists (- acos x + 2 * 1 * PI). split; [lra|]. pose proof (cos_period (- acos x) 1) as C. pose proof (sin_period (- acos x) 1) as S. cbn [INR] in C, S. split.
    + rewrite C, cos_neg. apply cos_acos; auto.
    + rewrite S, sin_neg. rewrite (sin_acos_eq x (- y)); nra.
Qed.

(** * Points *)
(** A point of the curve as a function of the angle *)
Lemma point_at : forall eig E, solves eig -> symmetric 2 (ee_mat E) -> posdef 2 (ee_mat E) -> exists h0 h1 a b c d,
  0 < h0 /\ 0 < h1 /\ a * a + b * b = 1 /\ c * c + d * d = 1 /\ a * c + b * d = 0 /\
  (forall phi, ellipse_point eig E phi = (Some (a * (h0 * cos phi) + c * (h1 * sin phi) + fst (ee_centers E)), Some (b * (h0 * cos phi) + d * (h1 * sin phi) + snd (ee_centers E)))) /\
  (forall s t, form 2 (ee_mat E) (pair_of (a * (h0 * s) + c * (h1 * t)) (b * (h0 * s) + d * (h1 * t))) = 2 * ln 2 * (s * s + t * t)).
Proof.
  intros eig E SV Y P. pose proof (SV _ Y) as EG. unfold ellipse_point, ellipse_fwhms, ellipse_evecs. destruct (eig (ee_mat E)) as [[l0 l1] [[a b] [c d]]]. cbn [snd].
  destruct (eigen_frame _ _ _ _ _ _ _ Y P EG) as (L0 & L1 & O & F). destruct EG as (_ & _ & N1 & _ & _ & N2 & _).
  destruct (half_width l0 L0) as (h0 & W0 & H0 & K0). destruct (half_width l1 L1) as (h1 & W1 & H1 & K1). exists h0, h1, a, b, c, d. repeat (split; [assumption|]). split.
  - intros phi. rewrite W0, W1. unfold ndiv. destruct (Req_EM_T 2 0); [lra|]. unfold nadd, nmul, nbin. replace (2 * h0 / 2) with h0 by field. replace (2 * h1 / 2) with h1 by field. auto.
  - intros s t. rewrite F. replace (l0 * (h0 * s * (h0 * s)) + l1 * (h1 * t * (h1 * t))) with (l0 * (h0 * h0) * (s * s) + l1 * (h1 * h1) * (t * t)) by ring. rewrite K0, K1. ring.
Qed.
Lemma linspace_in : forall a b n l x, linspace a b n = Ok l -> In x l -> exists i, x = a + INR i * ((b - a) / INR (Z.to_nat n - 1)) \/ x = a.
Proof.
  intros a b n l x H I. unfold linspace in H. destruct (n <? 0)%Z; [discriminate|]. apply Ok_inj in H. subst l. destruct (Z.to_nat n) as [|[|m]]; [destruct I|destruct I as [->|[]]; exists 0%nat; auto|].
  apply in_map_iff in I. destruct I as (i & <- & _). exists i. left. replace (S (S m) - 1)%nat with (S m) by lia. auto.
Qed.

Lemma sin_small : forall x, Rabs (sin x) <= Rabs x.
Proof.
  assert (P : forall x, 0 <= x -> Rabs (sin x) <= x).
  { intros x H. destruct (Req_dec x 0) as [->|NZ]. { rewrite sin_0, Rabs_R0. lra. } assert (X : 0 < x) by lra. pose proof (sin_lt_x x X) as S. pose proof (SIN_bound x) as B. pose proof PI2_1 as P1.
    apply Rabs_le. split; [|lra]. destruct (Rle_dec 1 x); [lra|]. assert (0 < sin x) by (apply sin_gt_0; lra). lra. }
  intros x. destruct (Rle_dec 0 x) as [H|H]. { rewrite (Rabs_right x) by lra. apply P; auto. }
  rewrite <- (Rabs_Ropp (sin x)), <- sin_neg, (Rabs_left x) by lra. apply P. lra.
Qed.
Lemma cos_near : forall a b, Rabs (cos a - cos b) <= Rabs (a - b).
Proof.
  intros a b. rewrite Rtrigo1.form2. rewrite !Rabs_mult. pose proof (sin_small ((a - b) / 2)) as S1. assert (S2 : Rabs (sin ((a + b) / 2)) <= 1) by (apply Rabs_le; apply SIN_bound).
  replace (Rabs (-2)) with 2 by (rewrite Rabs_left; lra). replace (Rabs ((a - b) / 2)) with (Rabs (a - b) / 2) in S1 by (unfold Rdiv; rewrite Rabs_mult, (Rabs_right (/ 2)); lra).
  pose proof (Rabs_pos (sin ((a - b) / 2))). pose proof (Rabs_pos (sin ((a + b) / 2))). nra.
Qed.
Lemma sin_near : forall a b, Rabs (sin a - sin b) <= Rabs (a - b).
Proof. intros a b. rewrite <- !cos_shift. eapply Rle_trans; [apply cos_near|]. replace (PI / 2 - a - (PI / 2 - b)) with (- (a - b)) by ring. rewrite Rabs_Ropp. lra. Qed.
(** Steps of a division of [0, r] are near every point of it. *)
Lemma near_step : forall phi r k, 0 <= phi <= r -> 0 < r -> (1 <= k)%nat -> exists i, (i <= k)%nat /\ Rabs (INR i * (r / INR k) - phi) <= r / INR k.
Proof.
  intros phi r k B R K. assert (KP : 0 < INR k) by (apply lt_0_INR; lia). set (q := phi * INR k / r). assert (Q : 0 <= q <= INR k).
  { unfold q. split. { apply Rmult_le_pos; [apply Rmult_le_pos; lra|left; apply Rinv_0_lt_compat; auto]. } apply (Rmult_le_reg_r r); auto. unfold Rdiv. rewrite Rmult_assoc, Rinv_l by lra. nra. }
  destruct (archimed q) as [A1 A2]. assert (U : (1 <= up q <= Z.of_nat k + 1)%Z). { split. { assert (0 < up q)%Z; [apply lt_IZR; lra|lia]. } assert (up q < Z.of_nat k + 2)%Z; [|lia]. apply lt_IZR. rewrite plus_IZR, <- INR_IZR_INZ. lra. }
  exists (Z.to_nat (up q - 1)). split; [lia|]. rewrite INR_IZR_INZ, Z2Nat.id, minus_IZR by lia.
  assert (PE : phi = q * (r / INR k)) by (unfold q; field; lra). rewrite PE at 1. replace ((IZR (up q) - 1) * (r / INR k) - q * (r / INR k)) with ((IZR (up q) - 1 - q) * (r / INR k)) by ring.
  assert (S : 0 < r / INR k) by (apply Rmult_lt_0_compat; auto; apply Rinv_0_lt_compat; auto). rewrite Rabs_mult, (Rabs_right (r / INR k)) by lra.
  assert (Rabs (IZR (up q) - 1 - q) <= 1) by (apply Rabs_le; lra). nra.
Qed.
Lemma turned : forall a b c d, a * a + b * b = 1 -> c * c + d * d = 1 -> a * c + b * d = 0 -> a * a + c * c = 1 /\ b * b + d * d = 1 /\ a * b + c * d = 0.
Proof.
  intros a b c d H1 H2 H3. assert (C : c = - b * (a * d - b * c)) by (replace (- b * (a * d - b * c)) with (c * (a * a + b * b) - a * (a * c + b * d)) by ring; rewrite H1, H3; ring).
  assert (D : d = a * (a * d - b * c)) by (replace (a * (a * d - b * c)) with (d * (a * a + b * b) - b * (a * c + b * d)) by ring; rewrite H1, H3; ring).
  assert (K : (a * d - b * c) * (a * d - b * c) = 1) by (replace ((a * d - b * c) * (a * d - b * c)) with ((a * a + b * b) * (c * c + d * d) - (a * c + b * d) * (a * c + b * d)) by ring; rewrite H1, H2, H3; ring).
  set (k := a * d - b * c) in *. clearbody k. subst c d. split; [|split].
  - replace (a * a + - b * k * (- b * k)) with (a * a + b * b * (k * k)) by ring. rewrite K. lra.
  - replace (b * b + a * k * (a * k)) with (b * b + a * a * (k * k)) by ring. rewrite K. lra.
  - replace (a * b + - b * k * (a * k)) with (a * b * (1 - k * k)) by ring. rewrite K. ring.
Qed.
(** a unit vector has small coordinates *)
Lemma unit_small : forall a b, a * a + b * b = 1 -> Rabs a <= 1.
Proof. intros a b H. apply Rabs_le. pose proof (Rle_0_sqr b) as Q. unfold Rsqr in Q. split; nra. Qed.

Section C74.
  Context (eig : fmat -> (R * R) * ((R * R) * (R * R))) (EIG : solves eig) (round2 : R -> R).

  (** As many points as asked for; a negative number of points is refused. *)
  Theorem C74_count : forall E n, match get_points eig E n with Ok l => (0 <= n)%Z /\ List.length l = Z.to_nat n | Err e => (n < 0)%Z /\ e = ValueError end.
  Proof using.
    intros E n. unfold get_points, linspace. destruct (Z.ltb_spec n 0); cbn [bind]; auto. split; auto. rewrite map_length. destruct (Z.to_nat n) as [|[|m]]; auto. rewrite map_length, seq_length. auto.
  Qed.
  (** C74: every point drawn is where the resolution is half its maximum. *)
  Theorem C74_half : forall E n l p, symmetric 2 (ee_mat E) -> posdef 2 (ee_mat E) -> get_points eig E n = Ok l -> In p l ->
    exists x y, p = (Some x, Some y) /\ resolution_at E x y = 1 / 2.
  Proof using EIG.
    intros E n l p Y P G I. destruct (point_at eig E EIG Y P) as (h0 & h1 & a & b & c & d & H0 & H1 & N1 & N2 & O & PT & F).
    unfold get_points in G. destruct (linspace 0 (2 * PI) n) as [phis|]; [|discriminate]. cbn [bind] in G. apply Ok_inj in G. subst l. apply in_map_iff in I. destruct I as (phi & <- & _). rewrite PT.
    eexists. eexists. split; [reflexivity|]. unfold resolution_at. apply half_is.
    match goal with |- context [pair_of ?x ?y] => replace x with (a * (h0 * cos phi) + c * (h1 * sin phi)) by ring; replace y with (b * (h0 * cos phi) + d * (h1 * sin phi)) by ring end.
    rewrite F. pose proof (sin2_cos2 phi) as T. unfold Rsqr in T. replace (cos phi * cos phi + sin phi * sin phi) with 1 by lra. ring.
  Qed.
  (** The points go all round: with enough of them, one is as near as you like to any place where the resolution is half its maximum. *)
  Theorem C74_all_round : forall E x y eps, symmetric 2 (ee_mat E) -> posdef 2 (ee_mat E) -> resolution_at E x y = 1 / 2 -> 0 < eps ->
    exists N, forall n, (N <= n)%Z -> exists l x' y', get_points eig E n = Ok l /\ In (Some x', Some y') l /\ Rabs (x' - x) < eps /\ Rabs (y' - y) < eps.
  Proof using EIG.
    intros E x y eps Y P HALF EP. destruct (point_at eig E EIG Y P) as (h0 & h1 & a & b & c & d & H0 & H1 & N1 & N2 & O & PT & F). destruct (turned a b c d N1 N2 O) as (M1 & M2 & M3).
    set (dx := x - fst (ee_centers E)). set (dy := y - snd (ee_centers E)). set (s := (a * dx + b * dy) / h0). set (t := (c * dx + d * dy) / h1).
    assert (HS : h0 * s = a * dx + b * dy) by (unfold s; field; lra). assert (HT : h1 * t = c * dx + d * dy) by (unfold t; field; lra).
    assert (EX : a * (h0 * s) + c * (h1 * t) = dx). { rewrite HS, HT. replace (a * (a * dx + b * dy) + c * (c * dx + d * dy)) with ((a * a + c * c) * dx + (a * b + c * d) * dy) by ring. rewrite M1, M3. ring. }
    assert (EY : b * (h0 * s) + d * (h1 * t) = dy). { rewrite HS, HT. replace (b * (a * dx + b * dy) + d * (c * dx + d * dy)) with ((b * b + d * d) * dy + (a * b + c * d) * dx) by ring. rewrite M2, M3. ring. }
    assert (U : s * s + t * t = 1). { unfold resolution_at in HALF. fold dx dy in HALF. apply half_is in HALF. rewrite <- EX, <- EY, F in HALF. pose proof ln_lt_2. nra. }
    destruct (angle_of s t U) as (phi & B & CP & SP). pose proof PI_RGT_0 as PP. set (K := (h0 + h1) * (2 * PI)). assert (KP : 0 < K) by (unfold K; nra).
    destruct (archimed (K / eps)) as [A1 _]. assert (KE : 0 < K / eps) by (apply Rmult_lt_0_compat; auto; apply Rinv_0_lt_compat; auto).
    assert (UZ : (0 < up (K / eps))%Z) by (apply lt_IZR; lra). exists (up (K / eps) + 2)%Z. intros n LN. set (k := Z.to_nat (n - 1)). assert (EK : Z.to_nat n = S k) by (unfold k; lia). assert (K1 : (1 <= k)%nat) by (unfold k; lia).
    assert (KR : K / INR k < eps). { assert (IK : IZR (up (K / eps)) < INR k). { unfold k. rewrite INR_IZR_INZ, Z2Nat.id by lia. apply IZR_lt. lia. }
      apply (Rmult_lt_reg_r (INR k)); [lra|]. unfold Rdiv. rewrite Rmult_assoc, Rinv_l by lra. assert (X : K = K / eps * eps) by (field; lra). nra. }
    destruct (near_step phi (2 * PI) k B ltac:(lra) K1) as (i & IK & NEAR). set (psi := INR i * (2 * PI / INR k)) in *.
    exists (map (ellipse_point eig E) (map (fun i => 0 + INR i * ((2 * PI - 0) / INR k)) (seq 0 (S k)))), (a * (h0 * cos psi) + c * (h1 * sin psi) + fst (ee_centers E)), (b * (h0 * cos psi) + d * (h1 * sin psi) + snd (ee_centers E)).
    split. { unfold get_points, linspace. destruct (Z.ltb_spec n 0); [lia|]. rewrite EK. destruct k as [|k']; [lia|]. reflexivity. }
    split. { rewrite <- PT. apply in_map. apply in_map_iff. exists i. split; [unfold psi; rewrite Rplus_0_l, Rminus_0_r; auto|]. apply in_seq. lia. }
    pose proof (Rle_trans _ _ _ (cos_near psi phi) NEAR) as NC. pose proof (Rle_trans _ _ _ (sin_near psi phi) NEAR) as NS. rewrite CP in NC. rewrite SP in NS.
    assert (DIST : forall u v w z, Rabs u <= 1 -> Rabs v <= 1 -> u * (h0 * s) + v * (h1 * t) = w -> Rabs (u * (h0 * cos psi) + v * (h1 * sin psi) + z - (w + z)) < eps).
    { intros u v w z U1 V1 <-. replace (u * (h0 * cos psi) + v * (h1 * sin psi) + z - (u * (h0 * s) + v * (h1 * t) + z)) with (u * h0 * (cos psi - s) + v * h1 * (sin psi - t)) by ring.
      eapply Rle_lt_trans; [apply Rabs_triang|]. rewrite !Rabs_mult. rewrite (Rabs_right h0), (Rabs_right h1) by lra. eapply Rle_lt_trans; [|exact KR]. replace (K / INR k) with (h0 * (2 * PI / INR k) + h1 * (2 * PI / INR k)) by (unfold K; field; apply not_0_INR; lia).
      set (dl := 2 * PI / INR k) in *. assert (0 <= dl) by (eapply Rle_trans; [apply Rabs_pos|exact NC]). pose proof (Rabs_pos u). pose proof (Rabs_pos v). pose proof (Rabs_pos (cos psi - s)). pose proof (Rabs_pos (sin psi - t)).
      assert (Rabs u * h0 * Rabs (cos psi - s) <= h0 * dl). { assert (Rabs u * h0 <= h0) by nra. assert (0 <= Rabs u * h0) by nra. nra. }
      assert (Rabs v * h1 * Rabs (sin psi - t) <= h1 * dl). { assert (Rabs v * h1 <= h1) by nra. assert (0 <= Rabs v * h1) by nra. nra. } lra. }
    assert (EX' : x = dx + fst (ee_centers E)) by (unfold dx; ring). assert (EY' : y = dy + snd (ee_centers E)) by (unfold dy; ring). split.
    - rewrite EX'. apply DIST; auto. eapply unit_small; eauto. eapply unit_small; eauto.
    - rewrite EY'. apply DIST; auto; eapply (unit_small _ _); rewrite Rplus_comm; eauto.
  Qed.
  (** The curve is closed: the last of two or more points is the first. *)
  Theorem C74_closed : forall E n l, (2 <= n)%Z -> get_points eig E n = Ok l -> nth_error l 0 <> None /\ nth_error l (Z.to_nat n - 1) = nth_error l 0.
  Proof using.
    intros E n l L G. unfold get_points, linspace in G. destruct (Z.ltb_spec n 0); [lia|]. destruct (Z.to_nat n) as [|[|m]] eqn:EN; [lia|lia|]. cbn [bind] in G. apply Ok_inj in G. subst l.
    replace (S (S m) - 1)%nat with (S m) by lia. rewrite !nth_error_map. rewrite (nth_error_nth' (seq 0 (S (S m))) (n := S m) 0%nat) by (rewrite seq_length; lia). rewrite seq_nth by lia. cbn [nth_error option_map seq]. split; [discriminate|]. apply f_equal.
    assert (C : forall p q, cos p = cos q -> sin p = sin q -> ellipse_point eig E p = ellipse_point eig E q). { intros p q H1 H2. unfold ellipse_point. rewrite H1, H2. auto. }
    assert (X : 0 + INR (0 + S m) * ((2 * PI - 0) / INR (S m)) = 0 + 2 * INR 1 * PI). { rewrite Nat.add_0_l. cbn [INR]. field. change (match m with O => 1 | S _ => INR m + 1 end) with (INR (S m)). apply not_0_INR. lia. }
    match goal with |- ?f ?p = _ => change (ellipse_point eig E (0 + INR (0 + S m) * ((2 * PI - 0) / INR (S m))) = ellipse_point eig E (0 + 0 * ((2 * PI - 0) / INR (S m)))) end.
    rewrite X. apply C; [rewrite cos_period|rewrite sin_period]; f_equal; ring.
  Qed.

  (** With an ellipsoid: on the cut in the plane of two axes through the centre, the four-dimensional resolution is half its maximum. *)
  Theorem C74_cut : forall e x y E n l p, proper e -> (x < y)%nat -> (y < 4)%nat -> symmetric 4 (el_mat e) -> posdef 4 (el_mat e) ->
    get_ellipse round2 e x y false true = Ok E -> get_points eig E n = Ok l -> In p l ->
    exists cx cy a b, nth_error (centre e) x = Some cx /\ nth_error (centre e) y = Some cy /\ p = (Some a, Some b) /\
      resolution 4 (el_mat e) (in_plane x y (a - cx) (b - cy)) = 1 / 2.
  Proof using EIG.
    intros e x y E n l p PR L I Y P G GP IN. destruct (C68_centre round2 e x y false E PR L I G) as (CX & CY & _). pose proof (C68_cut round2 e x y true E PR L I G) as CUT.
    pose proof (cut_mat round2 e x y true E L I Y G) as Y2. assert (P2 : posdef 2 (ee_mat E)).
    { intros v (k & K & NZ). replace (form 2 (ee_mat E) v) with (form 2 (ee_mat E) (pair_of (v 0%nat) (v 1%nat))) by (apply form_ext; intros [|[|]]; auto; lia). rewrite CUT. apply P.
      destruct k as [|[|]]; [exists x|exists y|lia]; (split; [lia|]); unfold in_plane; rewrite Nat.eqb_refl; auto. destruct (Nat.eqb_spec y x); [lia|]. auto. }
    destruct (C74_half E n l p Y2 P2 GP IN) as (a & b & -> & H). exists (fst (ee_centers E)), (snd (ee_centers E)), a, b. repeat (split; [assumption || reflexivity|]).
    unfold resolution_at, resolution in H. rewrite CUT in H. exact H.
  Qed.
  (** On the projection: whatever the other two coordinates, the resolution is at most half its maximum, and for some of them it is half. *)
  Theorem C74_projection : forall e x y E n l p, proper e -> (x < y)%nat -> (y < 4)%nat -> symmetric 4 (el_mat e) -> stiff 4 (el_mat e) ->
    get_ellipse round2 e x y true true = Ok E -> get_points eig E n = Ok l -> In p l ->
    exists cx cy a b, nth_error (centre e) x = Some cx /\ nth_error (centre e) y = Some cy /\ p = (Some a, Some b) /\
      (forall v, v x = a - cx -> v y = b - cy -> resolution 4 (el_mat e) v <= 1 / 2) /\ exists v, v x = a - cx /\ v y = b - cy /\ resolution 4 (el_mat e) v = 1 / 2.
  Proof using EIG.
    intros e x y E n l p PR L I Y S G GP IN. destruct (C68_centre round2 e x y true E PR L I G) as (CX & CY & _). destruct (C68_projection round2 e x y true PR L I Y S) as (E' & G' & LOW & ATT). assert (E' = E) by (apply Ok_inj; congruence). subst E'.
    destruct (projection_mat round2 e x y true E PR L I Y S G) as [Y2 S2]. destruct (C74_half E n l p Y2 (stiff_posdef _ _ S2) GP IN) as (a & b & -> & H).
    exists (fst (ee_centers E)), (snd (ee_centers E)), a, b. repeat (split; [assumption || reflexivity|]). unfold resolution_at in H. split.
    - intros v VX VY. rewrite <- H. unfold resolution. pose proof (LOW v) as LV. rewrite VX, VY in LV. destruct LV as [LV|LV]; [left; apply exp_increasing; lra|right; rewrite LV; auto].
    - destruct (ATT (a - fst (ee_centers E)) (b - snd (ee_centers E))) as (v & VX & VY & F). exists v. repeat (split; [assumption|]). unfold resolution in *. rewrite F. auto.
  Qed.

  (** On the plot: the points are put at their places with respect to axes at the angle of the ellipse; an angle within about a hundredth of a degree of a right
      angle is taken for one. *)
  Theorem C74_drawn : forall E n l p, symmetric 2 (ee_mat E) -> posdef 2 (ee_mat E) -> 0 < ee_angle E < 180 -> drawn eig E n = Ok l -> In p l ->
    exists x y x', p = (Some x', Some y) /\ resolution_at E x y = 1 / 2 /\ snd (oblique x y (ee_angle E)) = y /\
      Rabs (x' - fst (oblique x y (ee_angle E))) <= 3 / 10000 * Rabs y /\
      (ee_angle E = 90 \/ 0.0109 < Rabs (ee_angle E - 90) -> x' = fst (oblique x y (ee_angle E))).
  Proof using EIG.
    intros E n l p Y P A D IN. unfold drawn in D. destruct (get_points eig E n) as [pts|] eqn:G; [|discriminate]. cbn [bind] in D. apply Ok_inj in D. subst l. apply in_map_iff in IN. destruct IN as (q & <- & IQ).
    destruct (C74_half E n pts q Y P G IQ) as (x & y & -> & H). pose proof (C52_oblique x y (ee_angle E) A) as OB. exists x, y.
    assert (SY : snd (oblique x y (ee_angle E)) = y) by (symmetry; exact (f_equal snd OB)).
    unfold drawn_point, right_angle. destruct (Rle_dec (Rabs (ee_angle E - 90)) (1 / 100 + 1 / 100000 * 90)) as [R|R].
    - exists x. split; auto. split; auto. split; auto. set (al := ee_angle E * PI / 180). assert (SP : 0 < sin al). { unfold al. replace (ee_angle E * PI / 180) with (ee_angle E / 180 * PI) by field. apply sin_deg_pos. auto. }
      assert (FX : x - fst (oblique x y (ee_angle E)) = - (y * (cos al / sin al))). { unfold oblique. cbn [fst]. fold al. field. lra. }
      set (th := (ee_angle E - 90) * PI / 180). assert (AL : al = PI / 2 + th) by (unfold al, th; field). assert (CO : cos al = - sin th) by (rewrite AL; rewrite cos_plus, cos_PI2, sin_PI2; ring).
      assert (TH : Rabs th <= 0.000243). { unfold th, Rdiv. rewrite !Rabs_mult. rewrite (Rabs_right PI), (Rabs_right (/ 180)) by (pose proof PI_RGT_0; lra). pose proof PI_4. pose proof PI_RGT_0. pose proof (Rabs_pos (ee_angle E - 90)).
        assert (Rabs (ee_angle E - 90) * PI <= 0.0109 * 4) by nra. lra. }
      assert (CS : Rabs (cos al) <= 0.000243). { rewrite CO, Rabs_Ropp. eapply Rle_trans; [apply sin_small|]. auto. }
      assert (SB : 0.9999 <= sin al). { pose proof (sin2_cos2 al) as T. unfold Rsqr in T. pose proof (SIN_bound al). assert (cos al * cos al <= 0.000243 * 0.000243). { assert (B := CS). unfold Rabs in B. destruct (Rcase_abs (cos al)); nra. } nra. }
      split.
      + rewrite FX, Rabs_Ropp, Rabs_mult. rewrite Rmult_comm. apply Rmult_le_compat_r; [apply Rabs_pos|]. unfold Rdiv at 1. rewrite Rabs_mult, (Rabs_right (/ sin al)) by (left; apply Rinv_0_lt_compat; auto).
        apply (Rmult_le_reg_r (sin al)); auto. rewrite Rmult_assoc, Rinv_l by lra. lra.
      + intros [E90|FAR]; [|lra]. assert (Z : th = 0) by (unfold th; rewrite E90; lra). rewrite Z, sin_0, Ropp_0 in CO. rewrite CO in FX. unfold Rdiv in FX. rewrite Rmult_0_l, Rmult_0_r in FX. lra.
    - unfold tr in *. destruct (nadd (Some x) (over_tan y (ee_angle E / 180 * PI))) as [x'|] eqn:N; [|discriminate]. exists x'. assert (EX : x' = fst (oblique x y (ee_angle E))) by (pose proof (f_equal fst OB) as X; cbn [fst] in X; congruence). split; auto. split; auto. split; auto. rewrite Rminus_diag_eq by auto. rewrite Rabs_R0.
      split; auto. apply Rmult_le_pos; [lra|apply Rabs_pos].
  Qed.
End C74.
Print Assumptions C74_count.
Print Assumptions C74_half.
Print Assumptions C74_all_round.
Print Assumptions C74_closed.
Print Assumptions C74_cut.
Print Assumptions C74_projection.
Print Assumptions C74_drawn.

(** * Cases that meet the hypotheses *)
(** Eigenvectors of symmetric 2 x 2 matrices exist: a solver. *)
Definition eig2 (A : fmat) : (R * R) * ((R * R) * (R * R)) :=
  let p := A 0%nat 0%nat in let q := A 0%nat 1%nat in let r := A 1%nat 1%nat in
  if Req_EM_T q 0 then ((p, r), ((1, 0), (0, 1))) else
  let w := sqrt ((p - r) / 2 * ((p - r) / 2) + q * q) in
  let l0 := (p + r) / 2 + w in let l1 := (p + r) / 2 - w in
  let n l := sqrt (q * q + (l - p) * (l - p)) in
  ((l0, l1), ((q / n l0, (l0 - p) / n l0), (q / n l1, (l1 - p) / n l1))).
Lemma eig2_solves : solves eig2.
Proof.
  intros A Y. specialize (Y 0%nat 1%nat ltac:(lia) ltac:(lia)). unfold eigen, eig2. set (p := A 0%nat 0%nat). set (r := A 1%nat 1%nat). rewrite <- Y. set (q := A 0%nat 1%nat).
  destruct (Req_EM_T q 0) as [->|NZ]. { repeat split; ring. }
  assert (QP : 0 < q * q) by (pose proof (Rsqr_pos_lt q NZ) as Q; exact Q). assert (D : 0 < (p - r) / 2 * ((p - r) / 2) + q * q) by (pose proof (Rle_0_sqr ((p - r) / 2)) as Q; unfold Rsqr in Q; lra). pose proof (sqrt_lt_R0 _ D) as W. pose proof (sqrt_sqrt _ (Rlt_le _ _ D)) as WW. set (w := sqrt ((p - r) / 2 * ((p - r) / 2) + q * q)) in *. clearbody w.
  assert (V : forall l, (l - p) * (l - r) = q * q -> let n := sqrt (q * q + (l - p) * (l - p)) in
    p * (q / n) + q * ((l - p) / n) = l * (q / n) /\ q * (q / n) + r * ((l - p) / n) = l * ((l - p) / n) /\ q / n * (q / n) + (l - p) / n * ((l - p) / n) = 1).
  { intros l CH n. assert (NN : 0 < q * q + (l - p) * (l - p)) by (pose proof (Rle_0_sqr (l - p)) as Q; unfold Rsqr in Q; lra). pose proof (sqrt_lt_R0 _ NN) as NP. pose proof (sqrt_sqrt _ (Rlt_le _ _ NN)) as N2. fold n in NP, N2. clearbody n. split; [field; lra|]. split.
    - apply (Rmult_eq_reg_r n); [|lra]. replace ((q * (q / n) + r * ((l - p) / n)) * n) with (q * q + r * (l - p)) by (field; lra). replace (l * ((l - p) / n) * n) with (l * (l - p)) by (field; lra). rewrite <- CH. ring.
    - replace (q / n * (q / n) + (l - p) / n * ((l - p) / n)) with ((q * q + (l - p) * (l - p)) / (n * n)) by (field; lra). rewrite N2. field. lra. }
  destruct (V ((p + r) / 2 + w)) as (A1 & A2 & A3). { replace (((p + r) / 2 + w - p) * ((p + r) / 2 + w - r)) with (w * w - (p - r) / 2 * ((p - r) / 2)) by field. rewrite WW. ring. }
  destruct (V ((p + r) / 2 - w)) as (B1 & B2 & B3). { replace (((p + r) / 2 - w - p) * ((p + r) / 2 - w - r)) with (w * w - (p - r) / 2 * ((p - r) / 2)) by field. rewrite WW. ring. }
  repeat (split; [assumption|]). intros X. exfalso. lra.
Qed.
(** The correlated ellipsoid of C44, at (1, 2, 0) and 5 meV *)
Definition corr_at : ellipsoid := Ellipsoid (V 1 2 0) 5 None corr 1 (V 1 2 0) false (60, 90, 90) ["a"; "b"; "c"; "E"]%string.
Example C74_example : solves eig2 /\ proper corr_at /\ symmetric 4 (el_mat corr_at) /\ stiff 4 (el_mat corr_at) /\ posdef 4 (el_mat corr_at) /\
  exists E, get_ellipse (fun x => x) corr_at 0 1 false true = Ok E /\ ee_centers E = (1, 2) /\ symmetric 2 (ee_mat E) /\ posdef 2 (ee_mat E) /\ 0 < ee_angle E < 180 /\ 0.0109 < Rabs (ee_angle E - 90) /\
  exists l, get_points eig2 E 128 = Ok l /\ List.length l = 128%nat.
Proof.
  destruct C44_example as (Y & S & _). split; [apply eig2_solves|]. split; [split; [discriminate|split; cbn; auto]|]. repeat (split; [assumption || exact (stiff_posdef _ _ S)|]).
  eexists. split; [reflexivity|]. cbn [ee_centers ee_mat ee_angle]. split; [reflexivity|]. split. { intros i j I J. destruct i as [|[|]], j as [|[|]]; try lia; reflexivity. }
  split. { intros x (k & K & NZ). unfold form, delete, skip. cbn. pose proof (Rle_0_sqr (x 0%nat + x 1%nat)) as Q. pose proof (Rle_0_sqr (x 0%nat)) as Q0. pose proof (Rle_0_sqr (x 1%nat)) as Q1. unfold Rsqr in *. destruct k as [|[|]]; [assert (0 < x 0%nat * x 0%nat) by nra; lra|assert (0 < x 1%nat * x 1%nat) by nra; lra|lia]. }
  split; [cbn; lra|]. split. { cbn. rewrite Rabs_left; lra. }
  match goal with |- exists l, get_points eig2 ?E 128 = _ /\ _ => pose proof (C74_count eig2 E 128) as C; destruct (get_points eig2 E 128) as [l|]; [exists l; split; [auto|apply C]|destruct C; lia] end.
Qed.
