(** C45: the Cooper-Nathans resolution matrix. *)
From Coq Require Import Reals List Arith Bool String Lra Lia.
From Verif Require Import Base LinAlg M_Utilities M_Lattice M_UB M_Sample M_Goni M_Tas M_Components M_Mat M_Labels M_Ellipsoid M_Reso
  S_Energy S_Mat S_Reso L_Utilities L_Mat L_Reso P_Quadric P_Widths P_Energy.
Import ListNotations.
Open Scope R_scope.

(** ** The matrices as sums *)
Definition eight (a b c d e f g h : R) : nat -> R := fun k => match k with 0 => a | 1 => b | 2 => c | 3 => d | 4 => e | 5 => f | 6 => g | _ => h end%nat.
Definition four (a b c d : R) : nat -> R := fun k => match k with 0 => a | 1 => b | 2 => c | _ => d end%nat.
Definition diag4 (a b c d : R) : fmat := entries [put 0 0 a; put 1 1 b; put 2 2 c; put 3 3 d].
Definition diag8 (a0 b0 a1 b1 a2 b2 a3 b3 : R) : fmat :=
  entries [put 0 0 a0; put 2 2 b0; put 1 1 a1; put 3 3 b1; put 4 4 a2; put 6 6 b2; put 5 5 a3; put 7 7 b3].

Lemma form_diag4 : forall a b c d x, form 4 (diag4 a b c d) x = a * sq (x 0%nat) + b * sq (x 1%nat) + c * sq (x 2%nat) + d * sq (x 3%nat).
Proof. intros. unfold form, diag4, sq. cbn. ring. Qed.
Lemma form_diag8 : forall a0 b0 a1 b1 a2 b2 a3 b3 x, form 8 (diag8 a0 b0 a1 b1 a2 b2 a3 b3) x =
  a0 * sq (x 0%nat) + b0 * sq (x 2%nat) + a1 * sq (x 1%nat) + b1 * sq (x 3%nat) + a2 * sq (x 4%nat) + b2 * sq (x 6%nat) + a3 * sq (x 5%nat) + b3 * sq (x 7%nat).
Proof. intros. unfold form, diag8, sq. cbn. ring. Qed.
Lemma diag4_sym : forall a b c d, symmetric 4 (diag4 a b c d).
Proof. intros a b c d i j I J. unfold diag4. destruct i as [|[|[|[|i]]]]; [| | | |lia]; destruct j as [|[|[|[|j]]]]; try lia; reflexivity. Qed.
Lemma diag8_sym : forall a0 b0 a1 b1 a2 b2 a3 b3, symmetric 8 (diag8 a0 b0 a1 b1 a2 b2 a3 b3).
Proof.
  intros a0 b0 a1 b1 a2 b2 a3 b3 i j I J. unfold diag8.
  destruct i as [|[|[|[|[|[|[|[|i]]]]]]]]; [| | | | | | | |lia]; destruct j as [|[|[|[|[|[|[|[|j]]]]]]]]; try lia; reflexivity.
Qed.

Lemma mat_c_rows : forall tm ta u,
  mulv 8 (calc_mat_c tm ta) u 0 = (u 0%nat + u 1%nat) / 2 /\ mulv 8 (calc_mat_c tm ta) u 1 = (u 2%nat - u 3%nat) * (0.5 / sin tm) /\
  mulv 8 (calc_mat_c tm ta) u 2 = (u 4%nat + u 5%nat) / 2 /\ mulv 8 (calc_mat_c tm ta) u 3 = (u 6%nat - u 7%nat) * (0.5 / sin ta).
Proof. intros. unfold mulv, calc_mat_c. cbn. unfold Rdiv. repeat split; lra. Qed.

Lemma mat_a_rows : forall ki kf tm ta u,
  mulv 8 (calc_mat_a ki kf tm ta) u 0 = 0.5 * ki / tan tm * (u 0%nat - u 1%nat) /\ mulv 8 (calc_mat_a ki kf tm ta) u 1 = ki * u 1%nat /\
  mulv 8 (calc_mat_a ki kf tm ta) u 2 = ki * u 3%nat /\
  mulv 8 (calc_mat_a ki kf tm ta) u 3 = 0.5 * kf / tan ta * (u 4%nat - u 5%nat) /\ mulv 8 (calc_mat_a ki kf tm ta) u 4 = kf * u 4%nat /\
  mulv 8 (calc_mat_a ki kf tm ta) u 5 = kf * u 6%nat.
Proof. intros. unfold mulv, calc_mat_a. cbn. unfold Rdiv. repeat split; lra. Qed.

Lemma mat_a_cols : forall ki kf tm ta y,
  mulv 6 (transpose (calc_mat_a ki kf tm ta)) y 0 = 0.5 * ki / tan tm * y 0%nat /\
  mulv 6 (transpose (calc_mat_a ki kf tm ta)) y 1 = - (0.5 * ki / tan tm * y 0%nat) + ki * y 1%nat /\
  mulv 6 (transpose (calc_mat_a ki kf tm ta)) y 3 = ki * y 2%nat /\
  mulv 6 (transpose (calc_mat_a ki kf tm ta)) y 4 = 0.5 * kf / tan ta * y 3%nat + kf * y 4%nat /\
  mulv 6 (transpose (calc_mat_a ki kf tm ta)) y 5 = - (0.5 * kf / tan ta * y 3%nat) /\
  mulv 6 (transpose (calc_mat_a ki kf tm ta)) y 6 = kf * y 5%nat.
Proof. intros. unfold mulv, calc_mat_a, transpose. cbn. unfold Rdiv. repeat split; lra. Qed.

Lemma mat_b_rows : forall ki kf p t y,
  mulv 6 (calc_mat_b ki kf p t) y 0 = cos p * y 0%nat + sin p * y 1%nat - (cos (p - t) * y 3%nat + sin (p - t) * y 4%nat) /\
  mulv 6 (calc_mat_b ki kf p t) y 1 = - sin p * y 0%nat + cos p * y 1%nat - (- sin (p - t) * y 3%nat + cos (p - t) * y 4%nat) /\
  mulv 6 (calc_mat_b ki kf p t) y 2 = y 2%nat - y 5%nat /\
  mulv 6 (calc_mat_b ki kf p t) y 3 = 2 * ksq2eng * (ki * y 0%nat - kf * y 3%nat).
Proof. intros. unfold mulv, calc_mat_b. cbn. repeat split; lra. Qed.

Lemma mat_b_cols : forall ki kf p t y,
  mulv 4 (transpose (calc_mat_b ki kf p t)) y 0 = cos p * y 0%nat - sin p * y 1%nat + 2 * ksq2eng * ki * y 3%nat /\
  mulv 4 (transpose (calc_mat_b ki kf p t)) y 1 = sin p * y 0%nat + cos p * y 1%nat /\
  mulv 4 (transpose (calc_mat_b ki kf p t)) y 2 = y 2%nat /\
  mulv 4 (transpose (calc_mat_b ki kf p t)) y 3 = - (cos (p - t) * y 0%nat - sin (p - t) * y 1%nat) - 2 * ksq2eng * kf * y 3%nat /\
  mulv 4 (transpose (calc_mat_b ki kf p t)) y 4 = - (sin (p - t) * y 0%nat + cos (p - t) * y 1%nat) /\
  mulv 4 (transpose (calc_mat_b ki kf p t)) y 5 = - y 2%nat.
Proof. intros. unfold mulv, calc_mat_b, transpose. cbn. repeat split; lra. Qed.

Lemma transpose_mul : forall n m A B y j, mulv m (transpose (mul n A B)) y j = mulv n (transpose B) (mulv m (transpose A) y) j.
Proof. intros. rewrite <- mulv_mul. unfold mulv, transpose, mul. apply sum_ext. intros. f_equal. apply sum_ext. intros. ring. Qed.

(** No direction of (Q, E) is without spread. *)
Lemma ba_injective : forall ki kf tm ta p t q y, 0 < ki -> 0 < kf -> tan tm <> 0 -> tan ta <> 0 -> 0 < q ->
  ki * cos p - kf * cos (p - t) = q ->
  (forall j, (j < 8)%nat -> mulv 4 (transpose (mul 6 (calc_mat_b ki kf p t) (calc_mat_a ki kf tm ta))) y j = 0) ->
  forall k, (k < 4)%nat -> y k = 0.
Proof.
  intros ki kf tm ta p t q y Ki Kf Tm Ta Q E H.
  assert (H' : forall j, (j < 8)%nat -> mulv 6 (transpose (calc_mat_a ki kf tm ta)) (mulv 4 (transpose (calc_mat_b ki kf p t)) y) j = 0).
  { intros j J. rewrite <- transpose_mul. auto. } clear H.
  set (Y := mulv 4 (transpose (calc_mat_b ki kf p t)) y) in *.
  destruct (mat_a_cols ki kf tm ta Y) as (A0 & A1 & A3 & A4 & A5 & A6).
  destruct (mat_b_cols ki kf p t y) as (B0 & B1 & B2 & B3 & B4 & B5). fold Y in B0, B1, B2, B3, B4, B5.
  rewrite H' in A0, A1, A3, A4, A5, A6 by lia.
  assert (Y0 : Y 0%nat = 0). { symmetry in A0. apply Rmult_integral in A0. destruct A0 as [A0|A0]; auto. exfalso. unfold Rdiv in A0. apply Rmult_integral in A0. pose proof (Rinv_neq_0_compat _ Tm). lra. }
  assert (Y1 : Y 1%nat = 0). { rewrite Y0 in A1. nra. }
  assert (Y2 : Y 2%nat = 0). { symmetry in A3. apply Rmult_integral in A3. destruct A3; [lra|auto]. }
  assert (Y3 : Y 3%nat = 0). { assert (A : 0.5 * kf / tan ta * Y 3%nat = 0) by lra. apply Rmult_integral in A. destruct A as [A|A]; auto. exfalso. unfold Rdiv in A. apply Rmult_integral in A. pose proof (Rinv_neq_0_compat _ Ta). lra. }
  assert (Y4 : Y 4%nat = 0). { rewrite Y3 in A4. nra. }
  rewrite Y0 in B0. rewrite Y1 in B1. rewrite Y2 in B2. rewrite Y3 in B3. rewrite Y4 in B4. clear A0 A1 A3 A4 A5 A6 H'.
  assert (K : 0 < ksq2eng) by (unfold ksq2eng; lra).
  pose proof (sin2_cos2 p) as P1. pose proof (sin2_cos2 (p - t)) as P2. unfold Rsqr in P1, P2.
  assert (X0 : y 0%nat = - (2 * ksq2eng * ki * y 3%nat) * cos p).
  { transitivity ((sin p * sin p + cos p * cos p) * y 0%nat); [rewrite P1; ring|].
    transitivity (cos p * (cos p * y 0%nat - sin p * y 1%nat) + sin p * (sin p * y 0%nat + cos p * y 1%nat)); [ring|]. rewrite <- B1.
    replace (cos p * y 0%nat - sin p * y 1%nat) with (- (2 * ksq2eng * ki * y 3%nat)) by lra. ring. }
  assert (X0' : y 0%nat = - (2 * ksq2eng * kf * y 3%nat) * cos (p - t)).
  { transitivity ((sin (p - t) * sin (p - t) + cos (p - t) * cos (p - t)) * y 0%nat); [rewrite P2; ring|].
    transitivity (cos (p - t) * (cos (p - t) * y 0%nat - sin (p - t) * y 1%nat) + sin (p - t) * (sin (p - t) * y 0%nat + cos (p - t) * y 1%nat)); [ring|].
    replace (sin (p - t) * y 0%nat + cos (p - t) * y 1%nat) with 0 by lra.
    replace (cos (p - t) * y 0%nat - sin (p - t) * y 1%nat) with (- (2 * ksq2eng * kf * y 3%nat)) by lra. ring. }
  assert (X1 : y 1%nat = (2 * ksq2eng * ki * y 3%nat) * sin p).
  { transitivity ((sin p * sin p + cos p * cos p) * y 1%nat); [rewrite P1; ring|].
    transitivity (cos p * (sin p * y 0%nat + cos p * y 1%nat) - sin p * (cos p * y 0%nat - sin p * y 1%nat)); [ring|]. rewrite <- B1.
    replace (cos p * y 0%nat - sin p * y 1%nat) with (- (2 * ksq2eng * ki * y 3%nat)) by lra. ring. }
  assert (Z : y 3%nat = 0).
  { assert (A : 2 * ksq2eng * q * y 3%nat = 0). { rewrite <- E. replace (2 * ksq2eng * (ki * cos p - kf * cos (p - t)) * y 3%nat) with ((2 * ksq2eng * ki * y 3%nat) * cos p - (2 * ksq2eng * kf * y 3%nat) * cos (p - t)) by ring. lra. }
    apply Rmult_integral in A. destruct A as [A|A]; auto. exfalso. assert (0 < ksq2eng * q) by nra. lra. }
  rewrite Z in *. intros k L. destruct k as [|[|[|[|k]]]]; [lra|lra|lra|auto|lia].
Qed.

(** The triangle in the frame of Q *)
Lemma triangle_frame : forall ki kf tt psi q, transfer ki kf tt = horizontal q psi ->
  ki * cos (deg2rad psi) - kf * cos (deg2rad psi - deg2rad tt) = q.
Proof.
  intros ki kf tt psi q H. unfold transfer, horizontal, vsub, vscale in H. cbn in H. pose proof (f_equal vx H) as H2. pose proof (f_equal vz H) as H1. cbn in H1, H2. clear H.
  change (tt * PI / 180) with (deg2rad tt) in *. change (psi * PI / 180) with (deg2rad psi) in *.
  rewrite cos_minus. pose proof (sin2_cos2 (deg2rad psi)) as S. unfold Rsqr in S.
  set (c := cos (deg2rad psi)) in *. set (s := sin (deg2rad psi)) in *. set (c' := cos (deg2rad tt)) in *. set (s' := sin (deg2rad tt)) in *.
  transitivity (c * (ki - kf * c') + s * (0 - kf * s')); [ring|]. rewrite H1, H2.
  transitivity (q * (s * s + c * c)); [ring|rewrite S; ring].
Qed.

(** ** The computation, opened *)
Definition hmat (thm tha : R) (F G : fmat) : fmat := fadd (mul 4 (mul 4 (transpose (calc_mat_c thm tha)) F) (calc_mat_c thm tha)) G.
Definition bamat (ki kf psi tt thm tha : R) : fmat := mul 6 (calc_mat_b ki kf psi tt) (calc_mat_a ki kf thm tha).
Definition fmat_of (s : setup) : fmat :=
  let i x := 1 / (arcmin x * arcmin x) in diag4 (i (fst (u_mono s))) (i (snd (u_mono s))) (i (fst (u_ana s))) (i (snd (u_ana s))).
Definition gmat_of (s : setup) : fmat :=
  let i x := 1 / (arcmin x * arcmin x) in
  let '(h0, h1, h2, h3) := u_h s in let '(v0, v1, v2, v3) := u_v s in
  diag8 (i h0) (i v0) (i h1) (i v1) (i h2) (i v2) (i h3) (i v3).
Definition h_of (s : setup) : fmat := hmat (degrees (u_thm s)) (degrees (u_tha s)) (fmat_of s) (gmat_of s).
Definition ba_of (s : setup) : fmat := bamat (u_ki s) (u_kf s) (degrees (u_psi s)) (degrees (u_tt s)) (degrees (u_thm s)) (degrees (u_tha s)).
Definition cov_of (s : setup) (Hi : fmat) : fmat :=
  fadd (mul 8 (mul 8 (ba_of s) Hi) (transpose (ba_of s)))
    (entries [put 1 1 ((u_q s * u_q s) * (arcmin (fst (u_sample s)) * arcmin (fst (u_sample s))));
              put 2 2 ((u_q s * u_q s) * (arcmin (snd (u_sample s)) * arcmin (snd (u_sample s))))]).
Definition r0_of (s : setup) : R :=
  (u_ki s * u_ki s * u_ki s / tan (degrees (u_thm s))) * (u_kf s * u_kf s * u_kf s / tan (degrees (u_tha s)))
  * (PI * PI / 4 / sin (degrees (u_thm s)) / sin (degrees (u_tha s))) * sqrt (determinant 4 (fmat_of s) / determinant 8 (h_of s)).

Lemma deg_eq : forall x, deg2rad x = degrees x.
Proof. intros. unfold deg2rad, degrees. field. Qed.
Lemma min_eq : forall x, deg2rad (x / 60) = arcmin x.
Proof. intros. unfold deg2rad, arcmin. field. Qed.
Lemma arcmin_nz : forall x, arcmin x = 0 <-> x = 0.
Proof. intros. unfold arcmin. pose proof PI_RGT_0. split; intros; [|subst; ring]. apply Rmult_integral in H0. destruct H0; auto. lra. Qed.

Lemma num_number : forall k c x, M_Components.num k c = Ok x <-> number c k x.
Proof.
  intros k c x. unfold M_Components.num, opt_num, number, aget. destruct (dget String.eqb k c) as [[]|]; cbn; split; intros H; try discriminate.
  - apply Ok_inj in H. subst. auto.
  - injection H as ->. auto.
Qed.
Lemma mosaic_number : forall k c y, m_mosaic k c = Ok y <-> exists x, number c k x /\ y = arcmin x.
Proof.
  intros k c y. unfold m_mosaic, rmap. split.
  - destruct (M_Components.num k c) as [x|] eqn:E; [|discriminate]. apply num_number in E. intros H. apply Ok_inj in H. exists x. split; auto. rewrite <- H. apply min_eq.
  - intros (x & E & ->). apply num_number in E. rewrite E. f_equal. apply min_eq.
Qed.
Lemma inv_sq_ok : forall x y, inv_sq x = Ok y <-> x <> 0 /\ y = 1 / (x * x).
Proof.
  intros x y. unfold inv_sq. destruct (Req_EM_T x 0) as [E|E]; split; intros H; try discriminate.
  - destruct H; contradiction. - apply Ok_inj in H. auto. - destruct H as [_ ->]. auto.
Qed.

Lemma motor_two_theta : forall t h en a, calculate_motor_angles t h en = Ok a -> get_two_theta t h en = Ok (two_theta a).
Proof.
  intros t h en a H. unfold calculate_motor_angles in H. destruct (get_two_theta t h en) as [th2|] eqn:TT; [|discriminate]. cbn [bind] in H. f_equal.
  destruct (get_psi t h en) as [psi|]; [|discriminate]. cbn [bind] in H. destruct (t_ei_ef t en) as [[ei ef]|]; [|discriminate]. cbn [bind] in H.
  destruct (s_ub_conf (t_sample t)) as [u|]; [|discriminate]. destruct (M_UB.get_ub_mat u) as [[m|]|]; cbn [bind] in H; try discriminate.
  destruct (mode (t_goni t)) as [[md|]|]; cbn [bind] in H; try discriminate.
  - destruct (String.eqb md "bisect"); [|discriminate]. destruct (M_UB._ub_mat u) as [ub|]; [|discriminate].
    unfold angles_in_bisect_mode in H. destruct (motor_senses (t_goni t)) as [[[s0 s1] s2]|]; [|discriminate]. cbn [bind] in H.
    destruct (operating_mode (t_goni t)) as [om|]; [|discriminate]. cbn [bind] in H. destruct (String.eqb om "YZYbisect"); [|discriminate].
    destruct (sense_sign (t_goni t)); [|discriminate]. cbn [bind] in H. match type of H with bind ?v _ = _ => destruct v; [|discriminate] end. cbn [bind] in H. apply Ok_inj in H. subst a. auto.
  - destruct (M_UB.r_matrix_with_minimal_tilt h ei ef th2 u) as [r|]; [|discriminate]. cbn [bind] in H.
    unfold angles_from_r_mat in H. destruct (motor_senses (t_goni t)) as [[[s0 s1] s2]|]; [|discriminate]. cbn [bind] in H.
    destruct (operating_mode (t_goni t)) as [om|]; [|discriminate]. cbn [bind] in H. destruct (String.eqb om "YZX").
    + match type of H with bind ?v _ = _ => destruct v; [|discriminate] end. cbn [bind] in H. apply Ok_inj in H. subst a. auto.
    + match type of H with (if ?b then _ else _) = _ => destruct b; discriminate end.
Qed.

Lemma en2q_wave : forall e k, en2q e = Ok k <-> wavenumber e k.
Proof.
  intros e k. split.
  - intros H. pose proof (en2q_nonneg _ _ H) as N. split; [tauto|]. unfold ksq2eng in N. lra.
  - intros [P W]. assert (E : 0 <= e) by (rewrite W; nra). apply C05_inverse; auto. rewrite q2en_ok by auto. unfold ksq2eng. f_equal. lra.
Qed.

Lemma mat_f_ok : forall mono ana F, mat_f mono ana = Ok F <->
  exists a b c d, number mono "mosaic_h" a /\ number mono "mosaic_v" b /\ number ana "mosaic_h" c /\ number ana "mosaic_v" d /\
    (a <> 0 /\ b <> 0 /\ c <> 0 /\ d <> 0) /\
    F = diag4 (1 / (arcmin a * arcmin a)) (1 / (arcmin b * arcmin b)) (1 / (arcmin c * arcmin c)) (1 / (arcmin d * arcmin d)).
Proof.
  intros mono ana F. unfold mat_f. split.
  - intros H.
    destruct (m_mosaic "mosaic_h" mono) as [a|] eqn:Ea; [|discriminate]. cbn [bind] in H. destruct (inv_sq a) eqn:Ia; [|discriminate]. cbn [bind] in H.
    destruct (m_mosaic "mosaic_v" mono) as [b|] eqn:Eb; [|discriminate]. cbn [bind] in H. destruct (inv_sq b) eqn:Ib; [|discriminate]. cbn [bind] in H.
    destruct (m_mosaic "mosaic_h" ana) as [c|] eqn:Ec; [|discriminate]. cbn [bind] in H. destruct (inv_sq c) eqn:Ic; [|discriminate]. cbn [bind] in H.
    destruct (m_mosaic "mosaic_v" ana) as [d|] eqn:Ed; [|discriminate]. cbn [bind] in H. destruct (inv_sq d) eqn:Id; [|discriminate]. cbn [bind] in H.
    apply Ok_inj in H. subst F. apply mosaic_number in Ea, Eb, Ec, Ed. destruct Ea as (a' & Na & ->), Eb as (b' & Nb & ->), Ec as (c' & Nc & ->), Ed as (d' & Nd & ->).
    apply inv_sq_ok in Ia, Ib, Ic, Id. destruct Ia as [Za ->], Ib as [Zb ->], Ic as [Zc ->], Id as [Zd ->]. rewrite arcmin_nz in Za, Zb, Zc, Zd.
    exists a', b', c', d'. repeat split; auto.
  - intros (a & b & c & d & Na & Nb & Nc & Nd & (Za & Zb & Zc & Zd) & ->).
    rewrite <- arcmin_nz in Za, Zb, Zc, Zd.
    rewrite (proj2 (mosaic_number "mosaic_h" mono _)) by eauto. cbn [bind]. rewrite (proj2 (inv_sq_ok (arcmin a) _)) by eauto. cbn [bind].
    rewrite (proj2 (mosaic_number "mosaic_v" mono _)) by eauto. cbn [bind]. rewrite (proj2 (inv_sq_ok (arcmin b) _)) by eauto. cbn [bind].
    rewrite (proj2 (mosaic_number "mosaic_h" ana _)) by eauto. cbn [bind]. rewrite (proj2 (inv_sq_ok (arcmin c) _)) by eauto. cbn [bind].
    rewrite (proj2 (mosaic_number "mosaic_v" ana _)) by eauto. cbn [bind]. rewrite (proj2 (inv_sq_ok (arcmin d) _)) by eauto. cbn [bind]. reflexivity.
Qed.

Lemma divergence4 : forall k0 k1 k2 k3 c l, divergence [k0; k1; k2; k3] c = Ok l <->
  exists a b d e, number c k0 a /\ number c k1 b /\ number c k2 d /\ number c k3 e /\ l = [arcmin a; arcmin b; arcmin d; arcmin e].
Proof.
  intros k0 k1 k2 k3 c l. unfold divergence. cbn [mapM]. unfold rmap. split.
  - intros H. destruct (M_Components.num k0 c) as [a|] eqn:E0; [|discriminate]. cbn [bind] in H. destruct (M_Components.num k1 c) as [b|] eqn:E1; [|discriminate]. cbn [bind] in H.
    destruct (M_Components.num k2 c) as [d|] eqn:E2; [|discriminate]. cbn [bind] in H. destruct (M_Components.num k3 c) as [e|] eqn:E3; [|discriminate]. cbn [bind] in H.
    apply Ok_inj in H. apply num_number in E0, E1, E2, E3. exists a, b, d, e. rewrite !min_eq in H. auto.
  - intros (a & b & d & e & E0 & E1 & E2 & E3 & ->). apply num_number in E0, E1, E2, E3. rewrite E0, E1, E2, E3. cbn [bind]. rewrite !min_eq. reflexivity.
Qed.

Lemma mat_g_ok : forall coll G, mat_g coll = Ok G <->
  exists h0 h1 h2 h3 v0 v1 v2 v3,
    (number coll "h_pre_mono" h0 /\ number coll "h_pre_sample" h1 /\ number coll "h_post_sample" h2 /\ number coll "h_post_ana" h3) /\
    (number coll "v_pre_mono" v0 /\ number coll "v_pre_sample" v1 /\ number coll "v_post_sample" v2 /\ number coll "v_post_ana" v3) /\
    (h0 <> 0 /\ h1 <> 0 /\ h2 <> 0 /\ h3 <> 0) /\ (v0 <> 0 /\ v1 <> 0 /\ v2 <> 0 /\ v3 <> 0) /\
    G = (let i x := 1 / (arcmin x * arcmin x) in diag8 (i h0) (i v0) (i h1) (i v1) (i h2) (i v2) (i h3) (i v3)).
Proof.
  intros coll G. unfold mat_g. split.
  - intros H. destruct (h_divergence coll) as [hs|] eqn:Eh; [|discriminate]. cbn [bind] in H. destruct (v_divergence coll) as [vs|] eqn:Ev; [|discriminate]. cbn [bind] in H.
    apply divergence4 in Eh, Ev. destruct Eh as (h0 & h1 & h2 & h3 & N0 & N1 & N2 & N3 & ->), Ev as (v0 & v1 & v2 & v3 & M0 & M1 & M2 & M3 & ->).
    repeat match type of H with bind (inv_sq ?x) _ = _ => let Z := fresh "Z" in destruct (inv_sq x) eqn:Z; [apply inv_sq_ok in Z; destruct Z as [Z ->]; rewrite arcmin_nz in Z|discriminate]; cbn [bind] in H end.
    apply Ok_inj in H. subst G. exists h0, h1, h2, h3, v0, v1, v2, v3. repeat split; auto.
  - intros (h0 & h1 & h2 & h3 & v0 & v1 & v2 & v3 & (N0 & N1 & N2 & N3) & (M0 & M1 & M2 & M3) & (Z0 & Z1 & Z2 & Z3) & (W0 & W1 & W2 & W3) & ->).
    unfold h_divergence, v_divergence. rewrite (proj2 (divergence4 _ _ _ _ coll [arcmin h0; arcmin h1; arcmin h2; arcmin h3])) by eauto 10.
    rewrite (proj2 (divergence4 _ _ _ _ coll [arcmin v0; arcmin v1; arcmin v2; arcmin v3])) by eauto 10. cbn [bind].
    rewrite <- arcmin_nz in Z0, Z1, Z2, Z3, W0, W1, W2, W3.
    repeat (match goal with |- bind (inv_sq ?x) _ = _ => rewrite (proj2 (inv_sq_ok x _)) by (split; eauto) end; cbn [bind]). reflexivity.
Qed.

Lemma opened : forall t ps h ei ef M r0, calculate_at_hkle t ps h ei ef = Ok (M, r0) ->
  exists s Hi N, described t ps h ei ef s /\ proper_setup s /\ inv 8 (h_of s) = Ok Hi /\ inv 4 (cov_of s Hi) = Ok N /\
    M = fscale (sig2fwhm * sig2fwhm) N /\ r0 = r0_of s /\ exists a, calculate_motor_angles t h (ei - ef) = Ok a.
Proof.
  intros t ps h ei ef M r0 H. unfold calculate_at_hkle in H.
  destruct (get_q_norm (t_sample t) h) as [q|] eqn:Q; [|discriminate]. cbn [bind] in H.
  destruct (en2q ei) as [ki|] eqn:Ki; [|discriminate]. cbn [bind] in H. destruct (en2q ef) as [kf|] eqn:Kf; [|discriminate]. cbn [bind] in H.
  destruct (calculate_motor_angles t h (ei - ef)) as [a|] eqn:A; [|discriminate]. cbn [bind] in H.
  destruct (get_psi t h (ei - ef)) as [psi|] eqn:P; [|discriminate]. cbn [bind] in H.
  unfold part in H. destruct (dget String.eqb "monochromator" ps) as [mono|] eqn:Mo; [|discriminate]. cbn [bind] in H.
  destruct (dget String.eqb "analyzer" ps) as [ana|] eqn:An; [|discriminate]. cbn [bind] in H.
  destruct (get_theta mono ei) as [tm|] eqn:Tm; [|discriminate]. cbn [bind] in H. destruct (get_theta ana ef) as [ta|] eqn:Ta; [|discriminate]. cbn [bind] in H. cbv zeta in H.
  destruct (Req_EM_T (cos (deg2rad tm)) 0) as [|Cm]; [discriminate|]. destruct (Req_EM_T (cos (deg2rad ta)) 0) as [|Ca]; [discriminate|].
  destruct (mat_f mono ana) as [F|] eqn:EF; [|discriminate]. cbn [bind] in H. destruct (dget String.eqb "collimators" ps) as [coll|] eqn:Co; [|discriminate]. cbn [bind] in H.
  destruct (mat_g coll) as [G|] eqn:EG; [|discriminate]. cbn [bind] in H.
  apply mat_f_ok in EF. destruct EF as (mh & mv & ah & av & N1 & N2 & N3 & N4 & Z & EF).
  apply mat_g_ok in EG. destruct EG as (h0 & h1 & h2 & h3 & v0 & v1 & v2 & v3 & Nh & Nv & Zh & Zv & EG).
  rewrite !deg_eq in H. unfold s_mosaic_rad in H. rewrite !min_eq in H. rewrite deg_eq in Cm, Ca.
  set (s := Setup ki kf (two_theta a) psi tm ta q (mh, mv) (ah, av) (s_mosaic_h (t_sample t), s_mosaic_v (t_sample t)) (h0, h1, h2, h3) (v0, v1, v2, v3)).
  change (fadd (mul 4 (mul 4 (transpose (calc_mat_c (degrees tm) (degrees ta))) F) (calc_mat_c (degrees tm) (degrees ta))) G) with (hmat (degrees tm) (degrees ta) F G) in H.
  assert (HH : hmat (degrees tm) (degrees ta) F G = h_of s) by (subst F G; reflexivity). rewrite HH in H.
  destruct (inv 8 (h_of s)) as [Hi|] eqn:EH; [|discriminate]. cbn [bind] in H.
  match type of H with bind (inv 4 ?c) _ = _ => change c with (cov_of s Hi) in H end.
  destruct (inv 4 (cov_of s Hi)) as [N|] eqn:EN; [|discriminate]. cbn [bind] in H. apply Ok_inj in H. injection H as HM HR.
  exists s, Hi, N. split.
  { apply motor_two_theta in A. apply en2q_wave in Ki, Kf. unfold described. cbn. repeat (split; auto). exists mono, ana, coll. repeat (split; auto). }
  split. { unfold proper_setup. cbn. repeat (split; auto). }
  repeat (split; auto). { rewrite <- HR. subst F. reflexivity. } exists a. auto.
Qed.

(** ** Definiteness *)
Lemma sq_nonneg : forall x, 0 <= sq x.
Proof. intros. apply (Rle_0_sqr x). Qed.
Lemma isq_pos : forall x, x <> 0 -> 0 < 1 / (arcmin x * arcmin x).
Proof. intros x H. rewrite <- arcmin_nz in H. apply Rdiv_lt_0_compat; [lra|]. apply (Rlt_0_sqr (arcmin x)). auto. Qed.
Lemma fmat_nonneg : forall s x, proper_setup s -> 0 <= form 4 (fmat_of s) x.
Proof.
  intros s x P. unfold proper_setup in P. destruct (u_h s) as [[[? ?] ?] ?], (u_v s) as [[[? ?] ?] ?]. destruct P as (_ & _ & (A & B & C & D) & _).
  unfold fmat_of. cbv zeta. rewrite form_diag4. pose proof (isq_pos _ A). pose proof (isq_pos _ B). pose proof (isq_pos _ C). pose proof (isq_pos _ D).
  repeat apply Rplus_le_le_0_compat; apply Rmult_le_pos; try apply sq_nonneg; lra.
Qed.
Lemma fmat_posdef : forall s, proper_setup s -> posdef 4 (fmat_of s).
Proof.
  intros s P x (k & K & X). unfold proper_setup in P. destruct (u_h s) as [[[? ?] ?] ?], (u_v s) as [[[? ?] ?] ?]. destruct P as (_ & _ & (A & B & C & D) & _).
  unfold fmat_of. cbv zeta. rewrite form_diag4. pose proof (isq_pos _ A). pose proof (isq_pos _ B). pose proof (isq_pos _ C). pose proof (isq_pos _ D).
  set (f0 := 1 / (arcmin (fst (u_mono s)) * _)) in *. set (f1 := 1 / (arcmin (snd (u_mono s)) * _)) in *. set (f2 := 1 / (arcmin (fst (u_ana s)) * _)) in *. set (f3 := 1 / (arcmin (snd (u_ana s)) * _)) in *.
  assert (forall f y, 0 < f -> 0 <= f * sq y) by (intros; apply Rmult_le_pos; [lra|apply sq_nonneg]).
  assert (forall f y, 0 < f -> y <> 0 -> 0 < f * sq y) by (intros; apply Rmult_lt_0_compat; [lra|apply (Rlt_0_sqr y); auto]).
  pose proof (H3 f0 (x 0%nat) H). pose proof (H3 f1 (x 1%nat) H0). pose proof (H3 f2 (x 2%nat) H1). pose proof (H3 f3 (x 3%nat) H2).
  destruct k as [|[|[|[|k]]]]; [| | | |lia].
  - pose proof (H4 f0 _ H X). lra. - pose proof (H4 f1 _ H0 X). lra. - pose proof (H4 f2 _ H1 X). lra. - pose proof (H4 f3 _ H2 X). lra.
Qed.
Lemma gmat_posdef : forall s, proper_setup s -> posdef 8 (gmat_of s).
Proof.
  intros s P x (k & K & X). unfold proper_setup in P. unfold gmat_of. destruct (u_h s) as [[[h0 h1] h2] h3], (u_v s) as [[[v0 v1] v2] v3].
  destruct P as ((A0 & A1 & A2 & A3) & (B0 & B1 & B2 & B3) & _).
  cbv zeta. rewrite form_diag8. apply isq_pos in A0, A1, A2, A3, B0, B1, B2, B3.
  set (a0 := 1 / (arcmin h0 * _)) in *. set (a1 := 1 / (arcmin h1 * _)) in *. set (a2 := 1 / (arcmin h2 * _)) in *. set (a3 := 1 / (arcmin h3 * _)) in *.
  set (b0 := 1 / (arcmin v0 * _)) in *. set (b1 := 1 / (arcmin v1 * _)) in *. set (b2 := 1 / (arcmin v2 * _)) in *. set (b3 := 1 / (arcmin v3 * _)) in *.
  assert (N : forall f y, 0 < f -> 0 <= f * sq y) by (intros; apply Rmult_le_pos; [lra|apply sq_nonneg]).
  assert (Q : forall f y, 0 < f -> y <> 0 -> 0 < f * sq y) by (intros; apply Rmult_lt_0_compat; [lra|apply (Rlt_0_sqr y); auto]).
  pose proof (N a0 (x 0%nat) A0). pose proof (N a1 (x 1%nat) A1). pose proof (N a2 (x 4%nat) A2). pose proof (N a3 (x 5%nat) A3).
  pose proof (N b0 (x 2%nat) B0). pose proof (N b1 (x 3%nat) B1). pose proof (N b2 (x 6%nat) B2). pose proof (N b3 (x 7%nat) B3).
  destruct k as [|[|[|[|[|[|[|[|k]]]]]]]]; [| | | | | | | |lia].
  - pose proof (Q a0 _ A0 X). lra. - pose proof (Q a1 _ A1 X). lra. - pose proof (Q b0 _ B0 X). lra. - pose proof (Q b1 _ B1 X). lra.
  - pose proof (Q a2 _ A2 X). lra. - pose proof (Q a3 _ A3 X). lra. - pose proof (Q b2 _ B2 X). lra. - pose proof (Q b3 _ B3 X). lra.
Qed.
Lemma gmat_sym : forall s, symmetric 8 (gmat_of s).
Proof. intros s. unfold gmat_of. destruct (u_h s) as [[[h0 h1] h2] h3], (u_v s) as [[[v0 v1] v2] v3]. apply diag8_sym. Qed.
Lemma h_form : forall s x, form 8 (h_of s) x = form 4 (fmat_of s) (mulv 8 (calc_mat_c (degrees (u_thm s)) (degrees (u_tha s))) x) + form 8 (gmat_of s) x.
Proof. intros. unfold h_of, hmat. rewrite form_plus, form_congruence. reflexivity. Qed.
Lemma h_posdef : forall s, proper_setup s -> posdef 8 (h_of s).
Proof. intros s P x X. rewrite h_form. pose proof (gmat_posdef s P x X). pose proof (fmat_nonneg s (mulv 8 (calc_mat_c (degrees (u_thm s)) (degrees (u_tha s))) x) P). lra. Qed.
Lemma h_sym : forall s, symmetric 8 (h_of s).
Proof.
  intros s i j I J. unfold h_of, hmat, fadd. rewrite (gmat_sym s i j I J). f_equal.
  apply (symmetric_congruence 8 4); auto. apply diag4_sym.
Qed.

Lemma sine_nz : forall mono e th, get_theta mono e = Ok th -> sin (degrees th) <> 0.
Proof.
  intros mono e th H. unfold get_theta in H. destruct (en2q e) as [k|]; [|discriminate]. cbn [bind] in H.
  destruct (M_Components.num "d_spacing" mono) as [d|]; [|discriminate]. cbn [bind] in H.
  destruct (get_angle_bragg k d) as [x|] eqn:B; [|discriminate]. cbn [bind] in H. destruct (m_sense mono) as [s|] eqn:S; [|discriminate]. cbn [bind] in H. apply Ok_inj in H. subst th.
  unfold get_angle_bragg in B. destruct (Req_EM_T (d * k) 0) as [|Z]; [discriminate|]. cbv zeta in B. destruct (Rlt_dec 1 (PI / (d * k))); [discriminate|]. destruct (Rlt_dec (PI / (d * k)) (-1)); [discriminate|].
  apply Ok_inj in B. subst x. rewrite <- deg_eq. unfold deg2rad, rad2deg. pose proof PI_RGT_0.
  replace (asin (PI / (d * k)) * s * 180 / PI * PI / 180) with (s * asin (PI / (d * k))) by (field; lra).
  assert (X : PI / (d * k) <> 0). { unfold Rdiv. apply Rmult_integral_contrapositive_currified; [lra|]. apply Rinv_neq_0_compat. auto. }
  assert (s = 1 \/ s = -1). { unfold m_sense in S. destruct (aget "sense" mono) as [[]|]; try discriminate. destruct (String.eqb s0 "+"); [apply Ok_inj in S; auto|]. destruct (String.eqb s0 "-"); [apply Ok_inj in S; auto|discriminate]. }
  destruct H0; subst s.
  - rewrite Rmult_1_l, sin_asin by lra. auto.
  - replace (-1 * asin (PI / (d * k))) with (- asin (PI / (d * k))) by ring. rewrite sin_neg, sin_asin by lra. lra.
Qed.

(** What the setup of a point satisfies *)
Lemma setup_facts : forall t ps h ei ef s, described t ps h ei ef s -> t_ei_ef t (ei - ef) = Ok (ei, ef) ->
  exists q, 0 < u_ki s /\ 0 < u_kf s /\ 0 < q /\ sin (degrees (u_thm s)) <> 0 /\ sin (degrees (u_tha s)) <> 0 /\
    u_ki s * cos (degrees (u_psi s)) - u_kf s * cos (degrees (u_psi s) - degrees (u_tt s)) = q.
Proof.
  intros t ps h ei ef s (Ki & Kf & TT & PS & Q & Sh & Sv & mono & ana & coll & Mo & An & Co & Tm & Ta & _) E.
  destruct (C07_psi_companion t h (ei - ef) _ _ TT PS) as (ei' & ef' & b & sg & ki & kf & E' & B & _ & Wi & Wf & T & _).
  rewrite E in E'. apply Ok_inj in E'. injection E' as <- <-.
  assert (ki = u_ki s). { apply en2q_wave in Wi, Ki. rewrite Ki in Wi. apply Ok_inj in Wi. auto. }
  assert (kf = u_kf s). { apply en2q_wave in Wf, Kf. rewrite Kf in Wf. apply Ok_inj in Wf. auto. }
  subst ki kf. exists (2 * PI * norm (mv b h)). apply triangle_frame in T. rewrite !deg_eq in T.
  unfold get_two_theta in TT. rewrite E, B in TT. cbn [bind] in TT. unfold two_theta_from_hkle in TT. apply en2q_wave in Ki, Kf. rewrite Ki, Kf in TT. cbn [bind] in TT.
  unfold get_psi in PS. rewrite E, B in PS. cbn [bind] in PS. unfold psi_from_hkle in PS. rewrite Ki, Kf in PS. cbn [bind] in PS.
  unfold get_angle_from_triangle in TT, PS. rewrite q_norm_eq in TT, PS.
  assert (Z : 0 < tri_zero) by (unfold tri_zero; apply Rinv_0_lt_compat; lra).
  destruct (Rlt_dec (Rabs (u_ki s)) tri_zero) as [|Ri]; [discriminate|]. destruct (Rlt_dec (Rabs (u_kf s)) tri_zero) as [|Rf]; [discriminate|].
  destruct (Rlt_dec (Rabs (2 * PI * norm (mv b h))) tri_zero) as [|Rq]; [discriminate|].
  pose proof (proj1 Wi). pose proof (proj1 Wf). assert (0 <= 2 * PI * norm (mv b h)) by (rewrite <- q_norm_eq; apply q_norm_nonneg).
  rewrite Rabs_right in Ri, Rf, Rq by lra. repeat split; auto; try lra; eapply sine_nz; eauto.
Qed.

Lemma tan_nz : forall x, sin x <> 0 -> cos x <> 0 -> tan x <> 0.
Proof. intros x S C. unfold tan, Rdiv. apply Rmult_integral_contrapositive_currified; auto. apply Rinv_neq_0_compat; auto. Qed.

Lemma cov_posdef : forall t ps h ei ef s Hi, described t ps h ei ef s -> t_ei_ef t (ei - ef) = Ok (ei, ef) -> proper_setup s -> inv 8 (h_of s) = Ok Hi ->
  symmetric 4 (cov_of s Hi) /\ posdef 4 (cov_of s Hi).
Proof.
  intros t ps h ei ef s Hi D E P IH. destruct (setup_facts t ps h ei ef s D E) as (q & K1 & K2 & Q & S1 & S2 & T).
  pose proof (inv_correct _ _ _ IH) as IHi. pose proof (symmetric_inverse _ _ _ (h_sym s) IHi) as YHi. pose proof (posdef_inverse _ _ _ (h_sym s) (h_posdef s P) IHi) as PHi.
  assert (TM : tan (degrees (u_thm s)) <> 0 /\ tan (degrees (u_tha s)) <> 0).
  { unfold proper_setup in P. destruct (u_h s) as [[[? ?] ?] ?], (u_v s) as [[[? ?] ?] ?]. destruct P as (_ & _ & _ & C1 & C2). split; apply tan_nz; auto. }
  destruct TM as [T1 T2]. unfold cov_of.
  set (dh := u_q s * u_q s * (arcmin (fst (u_sample s)) * arcmin (fst (u_sample s)))).
  set (dv := u_q s * u_q s * (arcmin (snd (u_sample s)) * arcmin (snd (u_sample s)))).
  assert (Dh : 0 <= dh). { unfold dh. replace (u_q s * u_q s * (arcmin (fst (u_sample s)) * arcmin (fst (u_sample s)))) with (sq (u_q s * arcmin (fst (u_sample s)))) by (unfold sq; ring). apply sq_nonneg. }
  assert (Dv : 0 <= dv). { unfold dv. replace (u_q s * u_q s * (arcmin (snd (u_sample s)) * arcmin (snd (u_sample s)))) with (sq (u_q s * arcmin (snd (u_sample s)))) by (unfold sq; ring). apply sq_nonneg. }
  clearbody dh dv. split.
  - intros i j I J. unfold fadd. f_equal.
    + exact (symmetric_congruence 4 8 Hi (transpose (ba_of s)) YHi i j I J).
    + destruct i as [|[|[|[|i]]]]; [| | | |lia]; destruct j as [|[|[|[|j]]]]; try lia; reflexivity.
  - intros x X. rewrite form_plus. assert (0 < form 4 (mul 8 (mul 8 (ba_of s) Hi) (transpose (ba_of s))) x).
    { apply (posdef_congruence 4 8 Hi (transpose (ba_of s)) PHi); auto.
      intros y Y. apply (ba_injective (u_ki s) (u_kf s) (degrees (u_thm s)) (degrees (u_tha s)) (degrees (u_psi s)) (degrees (u_tt s)) q y); auto. }
    assert (0 <= form 4 (entries [put 1 1 dh; put 2 2 dv]) x).
    { replace (form 4 (entries [put 1 1 dh; put 2 2 dv]) x) with (dh * sq (x 1%nat) + dv * sq (x 2%nat)) by (unfold form, sq; cbn; ring).
      pose proof (sq_nonneg (x 1%nat)). pose proof (sq_nonneg (x 2%nat)). nra. }
    lra.
Qed.

(** The energies of a point belong together: this is so for the energies the instrument assigns to any transfer. *)
Lemma energies_consistent : forall t en ei ef, t_ei_ef t en = Ok (ei, ef) -> t_ei_ef t (ei - ef) = Ok (ei, ef).
Proof.
  intros t en ei ef H. unfold t_ei_ef, get_ei_ef in *. destruct (t_fixed_ei t), (t_fixed_ef t); try discriminate; apply Ok_inj in H; injection H as <- <-; auto; f_equal; f_equal; ring.
Qed.

(** C45: whenever a resolution matrix is returned for the energies of the instrument, it is symmetric and positive definite. *)
Theorem C45_definite : forall t ps h en ei ef M r0, t_ei_ef t en = Ok (ei, ef) -> calculate_at_hkle t ps h ei ef = Ok (M, r0) ->
  symmetric 4 M /\ posdef 4 M.
Proof.
  intros t ps h en ei ef M r0 E H. apply energies_consistent in E.
  destruct (opened _ _ _ _ _ _ _ H) as (s & Hi & N & D & P & IH & IN & -> & _).
  destruct (cov_posdef _ _ _ _ _ s Hi D E P IH) as [Y Q]. pose proof (inv_correct _ _ _ IN) as V. pose proof sig2fwhm_pos as F. split.
  - intros i j I J. unfold fscale. f_equal. exact (symmetric_inverse _ _ _ Y V i j I J).
  - intros x X. rewrite form_scale. pose proof (posdef_inverse _ _ _ Y Q V x X). assert (0 < sig2fwhm * sig2fwhm) by nra. nra.
Qed.
Print Assumptions C45_definite.

(** and it is returned: for every setup with mosaics and divergences that are not zero, whenever the motor angles exist, no
    matrix on the way is singular. *)
Theorem C45_defined : forall t ps h en ei ef s a, t_ei_ef t en = Ok (ei, ef) -> described t ps h ei ef s -> proper_setup s ->
  calculate_motor_angles t h (ei - ef) = Ok a -> exists M r0, calculate_at_hkle t ps h ei ef = Ok (M, r0).
Proof.
  intros t ps h en ei ef s a E D P A. apply energies_consistent in E.
  destruct (inv_exists 8 (h_of s)) as [Hi IH]. { apply posdef_injective, h_posdef, P. }
  destruct (cov_posdef _ _ _ _ _ s Hi D E P IH) as [Y Q]. destruct (inv_exists 4 (cov_of s Hi)) as [N IN]. { apply posdef_injective, Q. }
  destruct D as (Ki & Kf & TT & PS & Qn & Sh & Sv & mono & ana & coll & Mo & An & Co & Tm & Ta & N1 & N2 & N3 & N4 & Nh & Nv).
  unfold proper_setup in P.
  exists (fscale (sig2fwhm * sig2fwhm) N), (r0_of s). unfold calculate_at_hkle. rewrite Qn. cbn [bind].
  apply en2q_wave in Ki, Kf. rewrite Ki, Kf. cbn [bind]. rewrite A, PS. cbn [bind]. unfold part. rewrite Mo, An. cbn [bind]. rewrite Tm, Ta. cbn [bind]. cbv zeta.
  rewrite (motor_two_theta _ _ _ _ A) in TT. apply Ok_inj in TT.
  destruct (u_h s) as [[[h0 h1] h2] h3] eqn:Eh, (u_v s) as [[[v0 v1] v2] v3] eqn:Ev. destruct P as (Zh & Zv & Zm & C1 & C2).
  rewrite !deg_eq. destruct (Req_EM_T (cos (degrees (u_thm s))) 0); [contradiction|]. destruct (Req_EM_T (cos (degrees (u_tha s))) 0); [contradiction|].
  rewrite (proj2 (mat_f_ok mono ana (fmat_of s))).
  2:{ exists (fst (u_mono s)), (snd (u_mono s)), (fst (u_ana s)), (snd (u_ana s)). repeat split; auto; tauto. }
  cbn [bind]. rewrite Co. cbn [bind]. rewrite (proj2 (mat_g_ok coll (gmat_of s))).
  2:{ exists h0, h1, h2, h3, v0, v1, v2, v3. split; auto. split; auto. split; auto. split; auto. unfold gmat_of. rewrite Eh, Ev. reflexivity. }
  cbn [bind]. rewrite TT. change (fadd (mul 4 (mul 4 (transpose (calc_mat_c (degrees (u_thm s)) (degrees (u_tha s)))) (fmat_of s)) (calc_mat_c (degrees (u_thm s)) (degrees (u_tha s)))) (gmat_of s)) with (h_of s).
  rewrite IH. cbn [bind]. unfold s_mosaic_rad. rewrite !min_eq, Sh, Sv. match goal with |- bind (inv 4 ?c) _ = _ => change c with (cov_of s Hi) end. rewrite IN. cbn [bind]. reflexivity.
Qed.
Print Assumptions C45_defined.

(** ** The meaning of the matrix *)
Definition vector_of (p : path) : nat -> R := eight (g0 p) (g1 p) (d0 p) (d1 p) (g2 p) (g3 p) (d2 p) (d3 p).
Definition tilts_of (p : path) : nat -> R := four 0 (tilt_h p) (tilt_v p) 0.
Definition spreads (s : setup) : nat -> R := four 0 (u_q s * arcmin (fst (u_sample s))) (u_q s * arcmin (snd (u_sample s))) 0.

Lemma weigh : forall a x, 1 / (a * a) * sq x = sq (x / a).
Proof. intros. unfold sq, Rdiv. rewrite Rinv_mult. ring. Qed.
Lemma unlikeliness_form : forall s p, form 8 (h_of s) (vector_of p) + sum 4 (fun i => tilts_of p i * tilts_of p i) = unlikeliness s p.
Proof.
  intros s p. rewrite h_form. unfold fmat_of. cbv zeta. rewrite form_diag4.
  destruct (mat_c_rows (degrees (u_thm s)) (degrees (u_tha s)) (vector_of p)) as (-> & -> & -> & ->).
  unfold gmat_of, unlikeliness. destruct (u_h s) as [[[h0 h1] h2] h3], (u_v s) as [[[v0 v1] v2] v3]. cbv zeta. rewrite form_diag8. rewrite !weigh.
  unfold vector_of, eight, tilts_of, four. cbn [sum].
  replace ((d0 p - d1 p) * (0.5 / sin (degrees (u_thm s)))) with ((d0 p - d1 p) / (2 * sin (degrees (u_thm s)))) by (unfold Rdiv; rewrite Rinv_mult; lra).
  replace ((d2 p - d3 p) * (0.5 / sin (degrees (u_tha s)))) with ((d2 p - d3 p) / (2 * sin (degrees (u_tha s)))) by (unfold Rdiv; rewrite Rinv_mult; lra).
  change (tilt_h p * tilt_h p) with (sq (tilt_h p)). change (tilt_v p * tilt_v p) with (sq (tilt_v p)). ring.
Qed.
Lemma cot : forall k x, 0.5 * k / tan x = k * cos x / sin x / 2.
Proof. intros. unfold tan, Rdiv. rewrite Rinv_mult, Rinv_inv. lra. Qed.
Lemma changes_rows : forall s p v, changes s p v <-> (forall i, (i < 4)%nat -> mulv 8 (ba_of s) (vector_of p) i + spreads s i * tilts_of p i = v i).
Proof.
  intros s p v. unfold changes. cbv zeta.
  assert (R : forall i, mulv 8 (ba_of s) (vector_of p) i = mulv 6 (calc_mat_b (u_ki s) (u_kf s) (degrees (u_psi s)) (degrees (u_tt s)))
     (mulv 8 (calc_mat_a (u_ki s) (u_kf s) (degrees (u_thm s)) (degrees (u_tha s))) (vector_of p)) i) by (intros; unfold ba_of, bamat; apply mulv_mul).
  set (Y := mulv 8 (calc_mat_a _ _ _ _) (vector_of p)) in R.
  destruct (mat_a_rows (u_ki s) (u_kf s) (degrees (u_thm s)) (degrees (u_tha s)) (vector_of p)) as (A0 & A1 & A2 & A3 & A4 & A5). fold Y in A0, A1, A2, A3, A4, A5.
  rewrite cot in A0, A3. unfold vector_of, eight in A0, A1, A2, A3, A4, A5.
  destruct (mat_b_rows (u_ki s) (u_kf s) (degrees (u_psi s)) (degrees (u_tt s)) Y) as (B0 & B1 & B2 & B3).
  rewrite <- R in B0, B1, B2, B3. rewrite A0, A1, A3, A4 in B0, B1. rewrite A2, A5 in B2. rewrite A0, A3 in B3.
  rewrite cos_minus, sin_minus in B0, B1.
  assert (P : sq (sin (degrees (u_tt s))) + sq (cos (degrees (u_tt s))) = 1) by exact (sin2_cos2 (degrees (u_tt s))). unfold sq in P.
  unfold delta_ki, delta_kf, along_q, across_q, up, dot, vsub, vadd, vscale. cbn [vx vy vz].
  set (cm := u_ki s * cos (degrees (u_thm s)) / sin (degrees (u_thm s))) in *. set (ca := u_kf s * cos (degrees (u_tha s)) / sin (degrees (u_tha s))) in *.
  set (sp := sin (degrees (u_psi s))) in *. set (cp := cos (degrees (u_psi s))) in *. set (st := sin (degrees (u_tt s))) in *. set (ct := cos (degrees (u_tt s))) in *.
  clearbody cm ca sp cp st ct Y.
  assert (K : ksq2eng = 2.072124855) by (unfold ksq2eng; lra). rewrite K in B3.
  assert (E0 : mulv 8 (ba_of s) (vector_of p) 0%nat = (u_ki s * g1 p - (ca * ((g2 p - g3 p) / 2) * st + (u_kf s * g2 p * ct + 0))) * sp + (u_ki s * d1 p - (ca * ((g2 p - g3 p) / 2) * 0 + (u_kf s * g2 p * 0 + u_kf s * d2 p))) * 0 + (cm * ((g0 p - g1 p) / 2) - (ca * ((g2 p - g3 p) / 2) * ct + (u_kf s * g2 p * - st + 0))) * cp).
  { rewrite B0. unfold Rdiv. ring. }
  assert (E1 : mulv 8 (ba_of s) (vector_of p) 1%nat = (u_ki s * g1 p - (ca * ((g2 p - g3 p) / 2) * st + (u_kf s * g2 p * ct + 0))) * cp + (u_ki s * d1 p - (ca * ((g2 p - g3 p) / 2) * 0 + (u_kf s * g2 p * 0 + u_kf s * d2 p))) * 0 + (cm * ((g0 p - g1 p) / 2) - (ca * ((g2 p - g3 p) / 2) * ct + (u_kf s * g2 p * - st + 0))) * - sp).
  { rewrite B1. unfold Rdiv. ring. }
  assert (E2 : mulv 8 (ba_of s) (vector_of p) 2%nat = u_ki s * d1 p - u_kf s * d2 p) by exact B2.
  assert (E3 : mulv 8 (ba_of s) (vector_of p) 3%nat = 2 * 2.072124855 * (u_ki s * (cm * ((g0 p - g1 p) / 2)) - u_kf s * (ca * ((g2 p - g3 p) / 2) * (st * st + ct * ct)))).
  { rewrite B3, P. unfold Rdiv. ring. }
  split.
  - intros (V0 & V1 & V2 & V3) i I. destruct i as [|[|[|[|i]]]]; [| | | |lia]; unfold spreads, tilts_of, four.
    + rewrite E0, V0. ring. + rewrite E1, V1. ring. + rewrite E2, V2. ring. + rewrite E3, V3. ring.
  - intros V. pose proof (V 0%nat ltac:(lia)) as V0. pose proof (V 1%nat ltac:(lia)) as V1. pose proof (V 2%nat ltac:(lia)) as V2. pose proof (V 3%nat ltac:(lia)) as V3.
    unfold spreads, tilts_of, four in V0, V1, V2, V3. rewrite <- V0, <- V1, <- V2, <- V3, E0, E1, E2, E3. repeat split; ring.
Qed.
Lemma cov_entry : forall s Hi i j, (i < 4)%nat -> (j < 4)%nat ->
  cov_of s Hi i j = mul 8 (mul 8 (ba_of s) Hi) (transpose (ba_of s)) i j + (if Nat.eqb i j then spreads s i * spreads s i else 0).
Proof.
  intros s Hi i j I J. unfold cov_of, fadd. f_equal. unfold spreads, four.
  destruct i as [|[|[|[|i]]]]; [| | | |lia]; destruct j as [|[|[|[|j]]]]; try lia; cbn; try ring.
Qed.

Lemma setup_unique : forall t ps h ei ef s s', described t ps h ei ef s -> described t ps h ei ef s' -> s = s'.
Proof.
  intros t ps h ei ef s s' (Ki & Kf & TT & PS & Q & Sh & Sv & mono & ana & coll & Mo & An & Co & Tm & Ta & N1 & N2 & N3 & N4 & Nh & Nv)
    (Ki' & Kf' & TT' & PS' & Q' & Sh' & Sv' & mono' & ana' & coll' & Mo' & An' & Co' & Tm' & Ta' & N1' & N2' & N3' & N4' & Nh' & Nv').
  apply en2q_wave in Ki, Kf, Ki', Kf'. rewrite Mo in Mo'. injection Mo' as <-. rewrite An in An'. injection An' as <-. rewrite Co in Co'. injection Co' as <-.
  destruct s as [ki kf tt psi thm tha q [mh mv] [ah av] [sh sv] [[[h0 h1] h2] h3] [[[v0 v1] v2] v3]], s' as [ki' kf' tt' psi' thm' tha' q' [mh' mv'] [ah' av'] [sh' sv'] [[[h0' h1'] h2'] h3'] [[[v0' v1'] v2'] v3']].
  cbn in *. unfold number in *. destruct Nh as (Nh0 & Nh1 & Nh2 & Nh3), Nh' as (Nh0' & Nh1' & Nh2' & Nh3'), Nv as (Nv0 & Nv1 & Nv2 & Nv3), Nv' as (Nv0' & Nv1' & Nv2' & Nv3').
  congruence.
Qed.

(** C45: the quadratic form of the matrix at a change of (Q, E) is 8 ln 2 times the least unlikeliness of the neutron paths that
    produce this change: no path is less unlikely, and there is one that attains it. In other words the matrix describes,
    in units of full widths at half maximum, the distribution of (Q, E) of independent collimators, monochromator, analyser
    and sample. *)
Theorem C45_meaning : forall t ps h en ei ef M r0 s, t_ei_ef t en = Ok (ei, ef) -> calculate_at_hkle t ps h ei ef = Ok (M, r0) ->
  described t ps h ei ef s ->
  forall v, (forall p, changes s p v -> form 4 M v <= 8 * ln 2 * unlikeliness s p) /\
            (exists p, changes s p v /\ form 4 M v = 8 * ln 2 * unlikeliness s p).
Proof.
  intros t ps h en ei ef M r0 s E H D v. apply energies_consistent in E.
  destruct (opened _ _ _ _ _ _ _ H) as (s' & Hi & N & D' & P & IH & IN & -> & _).
  rewrite (setup_unique _ _ _ _ _ _ _ D' D) in *. clear s' D'.
  destruct (cov_posdef _ _ _ _ _ s Hi D E P IH) as [Y Q]. pose proof (inv_correct _ _ _ IN) as IC. pose proof (inv_correct _ _ _ IH) as IHi.
  assert (F : sig2fwhm * sig2fwhm = 8 * ln 2). { unfold sig2fwhm. pose proof ln_lt_2. transitivity (4 * (sqrt (2 * ln 2) * sqrt (2 * ln 2))); [ring|]. rewrite sqrt_sqrt by lra. ring. }
  rewrite form_scale, F. assert (LN : 0 < 8 * ln 2) by (pose proof ln_lt_2; lra). split.
  - intros p C. rewrite changes_rows in C. rewrite <- unlikeliness_form. apply Rmult_le_compat_l; [lra|].
    exact (marginal_le 8 4 (h_of s) Hi (ba_of s) (cov_of s Hi) N (spreads s) (h_sym s) (h_posdef s P) IHi (cov_entry s Hi) IC (vector_of p) (tilts_of p) v C).
  - destruct (marginal_eq 8 4 (h_of s) Hi (ba_of s) (cov_of s Hi) N (spreads s) (h_sym s) IHi (cov_entry s Hi) IC v) as (u & z & C & Z & EQ).
    set (p := Path (u 0%nat) (u 1%nat) (u 4%nat) (u 5%nat) (u 2%nat) (u 3%nat) (u 6%nat) (u 7%nat) (z 1%nat) (z 2%nat)).
    assert (U : forall k, (k < 8)%nat -> u k = vector_of p k) by (intros k K; destruct k as [|[|[|[|[|[|[|[|k]]]]]]]]; try reflexivity; lia).
    assert (W : forall i, (i < 4)%nat -> z i = tilts_of p i). { intros i I. destruct i as [|[|[|[|i]]]]; try reflexivity; try lia; unfold tilts_of, four; apply Z; reflexivity. }
    exists p. split.
    + apply changes_rows. intros i I. rewrite <- (C i I), <- (W i I). f_equal.
    + rewrite <- unlikeliness_form, <- EQ. f_equal. f_equal.
      apply sum_ext. intros. rewrite W by auto. reflexivity.
Qed.
Print Assumptions C45_meaning.

Lemma bragg_cos : forall mono e th, get_theta mono e = Ok th -> cos (degrees th) <> 0 -> 0 < cos (degrees th).
Proof.
  intros mono e th H C. unfold get_theta in H. destruct (en2q e) as [k|]; [|discriminate]. cbn [bind] in H.
  destruct (M_Components.num "d_spacing" mono) as [d|]; [|discriminate]. cbn [bind] in H.
  destruct (get_angle_bragg k d) as [x|] eqn:B; [|discriminate]. cbn [bind] in H. destruct (m_sense mono) as [s|] eqn:S; [|discriminate]. cbn [bind] in H. apply Ok_inj in H. subst th.
  unfold get_angle_bragg in B. destruct (Req_EM_T (d * k) 0) as [|Z]; [discriminate|]. cbv zeta in B. destruct (Rlt_dec 1 (PI / (d * k))); [discriminate|]. destruct (Rlt_dec (PI / (d * k)) (-1)); [discriminate|].
  apply Ok_inj in B. subst x. rewrite <- deg_eq in *. unfold deg2rad, rad2deg in *. pose proof PI_RGT_0.
  replace (asin (PI / (d * k)) * s * 180 / PI * PI / 180) with (s * asin (PI / (d * k))) in * by (field; lra).
  assert (s = 1 \/ s = -1). { unfold m_sense in S. destruct (aget "sense" mono) as [[]|]; try discriminate. destruct (String.eqb s0 "+"); [apply Ok_inj in S; auto|]. destruct (String.eqb s0 "-"); [apply Ok_inj in S; auto|discriminate]. }
  assert (E : cos (s * asin (PI / (d * k))) = cos (asin (PI / (d * k)))).
  { destruct H0; subst s; [rewrite Rmult_1_l; auto|]. replace (-1 * asin (PI / (d * k))) with (- asin (PI / (d * k))) by ring. apply cos_neg. }
  rewrite E in *. pose proof (asin_bound (PI / (d * k))). pose proof (cos_ge_0 (asin (PI / (d * k))) ltac:(lra) ltac:(lra)). lra.
Qed.

(** The factor R0 is positive. *)
Theorem C45_r0_positive : forall t ps h en ei ef M r0, t_ei_ef t en = Ok (ei, ef) -> calculate_at_hkle t ps h ei ef = Ok (M, r0) -> 0 < r0.
Proof.
  intros t ps h en ei ef M r0 E H. apply energies_consistent in E.
  destruct (opened _ _ _ _ _ _ _ H) as (s & Hi & N & D & P & IH & IN & _ & -> & _). destruct (setup_facts t ps h ei ef s D E) as (q & K1 & K2 & Q & S1 & S2 & _).
  assert (CC : cos (degrees (u_thm s)) <> 0 /\ cos (degrees (u_tha s)) <> 0).
  { unfold proper_setup in P. destruct (u_h s) as [[[? ?] ?] ?], (u_v s) as [[[? ?] ?] ?]. destruct P as (_ & _ & _ & C1 & C2). split; auto. }
  assert (BR : 0 < cos (degrees (u_thm s)) /\ 0 < cos (degrees (u_tha s))).
  { destruct D as (_ & _ & _ & _ & _ & _ & _ & mono & ana & coll & _ & _ & _ & Tm & Ta & _). destruct CC as [C1 C2].
    split; [apply (bragg_cos mono ei)|apply (bragg_cos ana ef)]; auto. }
  destruct BR as [B1 B2]. unfold r0_of.
  assert (DF : 0 < determinant 4 (fmat_of s)) by (apply determinant_pos; [apply diag4_sym|apply fmat_posdef; auto]).
  assert (DH : 0 < determinant 8 (h_of s)) by (apply determinant_pos; [apply h_sym|apply h_posdef; auto]).
  assert (SQ : 0 < sqrt (determinant 4 (fmat_of s) / determinant 8 (h_of s))) by (apply sqrt_lt_R0, Rdiv_lt_0_compat; auto).
  apply Rmult_lt_0_compat; auto. unfold tan.
  set (s1 := sin (degrees (u_thm s))) in *. set (s2 := sin (degrees (u_tha s))) in *. set (c1 := cos (degrees (u_thm s))) in *. set (c2 := cos (degrees (u_tha s))) in *.
  replace (u_ki s * u_ki s * u_ki s / (s1 / c1) * (u_kf s * u_kf s * u_kf s / (s2 / c2)) * (PI * PI / 4 / s1 / s2))
    with ((u_ki s * u_ki s * u_ki s) * (u_kf s * u_kf s * u_kf s) * c1 * c2 * (PI * PI / 4) * (/ (s1 * s1)) * (/ (s2 * s2))) by (field; lra).
  pose proof PI_RGT_0. assert (0 < / (s1 * s1)) by (apply Rinv_0_lt_compat, (Rlt_0_sqr s1); auto). assert (0 < / (s2 * s2)) by (apply Rinv_0_lt_compat, (Rlt_0_sqr s2); auto).
  assert (0 < PI * PI / 4) by nra. set (w := PI * PI / 4) in *. clearbody w. repeat apply Rmult_lt_0_compat; auto.
Qed.
Print Assumptions C45_r0_positive.
