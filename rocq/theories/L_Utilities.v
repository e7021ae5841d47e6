From Coq Require Import Reals Lra Psatz List String.
From Verif Require Import Base LinAlg S_Geom L_LinAlg M_Utilities M_UB M_Tas.
Import ListNotations.
Open Scope R_scope.

Lemma ksq_pos : 0 < ksq2eng.
Proof. unfold ksq2eng; lra. Qed.

(** ** en2q / q2en *)
Lemma en2q_ok : forall en, 0 <= en -> en2q en = Ok (sqrt (en / ksq2eng)).
Proof. intros; unfold en2q. destruct (Rlt_dec en 0); [lra|reflexivity]. Qed.
Lemma q2en_ok : forall q, 0 <= q -> q2en q = Ok (ksq2eng * (q * q)).
Proof. intros; unfold q2en. destruct (Rlt_dec q 0); [lra|reflexivity]. Qed.

Lemma en2q_inv : forall en, 0 <= en -> exists q, en2q en = Ok q /\ 0 <= q /\ q2en q = Ok en.
Proof.
  intros en H. exists (sqrt (en / ksq2eng)). split; [apply en2q_ok; auto|].
  split; [apply sqrt_pos|]. rewrite q2en_ok by apply sqrt_pos. pose proof ksq_pos.
  rewrite sqrt_sqrt. - f_equal. field. lra. - apply Rmult_le_pos; auto. left; apply Rinv_0_lt_compat; auto.
Qed.

Lemma q2en_inv : forall q, 0 <= q -> exists en, q2en q = Ok en /\ 0 <= en /\ en2q en = Ok q.
Proof.
  intros q H. pose proof ksq_pos. exists (ksq2eng * (q * q)). split; [apply q2en_ok; auto|].
  assert (0 <= ksq2eng * (q * q)) by nra. split; auto. rewrite en2q_ok by auto.
  replace (ksq2eng * (q * q) / ksq2eng) with (q * q) by (field; lra). rewrite sqrt_square; auto.
Qed.

Lemma en2q_err : forall en, en2q en = Err ValueError <-> en < 0.
Proof. intros; unfold en2q; destruct (Rlt_dec en 0); split; intros; auto; try discriminate; lra. Qed.
Lemma q2en_err : forall q, q2en q = Err ValueError <-> q < 0.
Proof. intros; unfold q2en; destruct (Rlt_dec q 0); split; intros; auto; try discriminate; lra. Qed.

Lemma en2q_mono : forall e1 e2 q1 q2, en2q e1 = Ok q1 -> en2q e2 = Ok q2 -> (e1 < e2 <-> q1 < q2).
Proof.
  unfold en2q; intros e1 e2 q1 q2. destruct (Rlt_dec e1 0); [discriminate|]. destruct (Rlt_dec e2 0); [discriminate|].
  intros A B; apply Ok_inj in A; apply Ok_inj in B; subst. pose proof ksq_pos. split; intros L.
  - apply sqrt_lt_1_alt. split. + apply Rmult_le_pos; [lra|]. left; apply Rinv_0_lt_compat; auto.
    + apply Rmult_lt_compat_r; auto. apply Rinv_0_lt_compat; auto.
  - apply sqrt_lt_0_alt in L. apply (Rmult_lt_compat_r ksq2eng) in L; auto.
    replace (e1 / ksq2eng * ksq2eng) with e1 in L by (field; lra).
    replace (e2 / ksq2eng * ksq2eng) with e2 in L by (field; lra). auto.
Qed.

Lemma q2en_mono : forall q1 q2 e1 e2, q2en q1 = Ok e1 -> q2en q2 = Ok e2 -> (q1 < q2 <-> e1 < e2).
Proof.
  unfold q2en; intros q1 q2 e1 e2. destruct (Rlt_dec q1 0); [discriminate|]. destruct (Rlt_dec q2 0); [discriminate|].
  intros A B; apply Ok_inj in A; apply Ok_inj in B; subst. pose proof ksq_pos. split; intros L.
  - apply Rmult_lt_compat_l; auto. nra.
  - apply Rmult_lt_reg_l in L; auto. nra.
Qed.

Lemma en2q_nonneg : forall e q, en2q e = Ok q -> 0 <= q /\ 0 <= e /\ ksq2eng * (q * q) = e.
Proof.
  unfold en2q; intros e q. destruct (Rlt_dec e 0); [discriminate|]. intros A; apply Ok_inj in A; subst.
  split; [apply sqrt_pos|]. split; [lra|]. rewrite sqrt_sqrt. - field. pose proof ksq_pos; lra.
  - apply Rmult_le_pos; [lra|]. left; apply Rinv_0_lt_compat, ksq_pos.
Qed.

Lemma en2q_cases : forall e, (exists q, en2q e = Ok q) \/ en2q e = Err ValueError.
Proof. intros; unfold en2q; destruct (Rlt_dec e 0); eauto. Qed.

(** ** Triangles *)
Lemma tri_zero_pos : 0 < tri_zero. Proof. unfold tri_zero; lra. Qed.

Lemma triangle_arg : forall a b c, 0 < a -> 0 < b -> 0 <= c ->
  (-1 <= (a * a + b * b - c * c) / (2 * a * b) <= 1 <-> Rabs (a - b) <= c <= a + b).
Proof.
  intros a b c Ha Hb Hc.
  assert (P : 0 < 2 * a * b) by nra.
  assert (E : (a * a + b * b - c * c) / (2 * a * b) * (2 * a * b) = a * a + b * b - c * c) by (field; lra).
  set (x := (a * a + b * b - c * c) / (2 * a * b)) in *. clearbody x.
  split.
  - intros [L U]. assert (Q1 : (a - b) * (a - b) <= c * c) by nra. assert (Q2 : c * c <= (a + b) * (a + b)) by nra.
    split. + unfold Rabs; destruct (Rcase_abs (a - b)); nra. + nra.
  - intros [L U]. assert (Q1 : (a - b) * (a - b) <= c * c).
    { unfold Rabs in L; destruct (Rcase_abs (a - b)); nra. }
    assert (Q2 : c * c <= (a + b) * (a + b)) by nra. split; nra.
Qed.

Lemma get_angle_cases : forall a b c, tri_zero <= a -> tri_zero <= b -> 0 <= c ->
  (Rabs (a - b) <= c <= a + b ->
     get_angle_from_triangle a b c = Ok (acos ((a * a + b * b - c * c) / (2 * a * b)))) /\
  (~ (Rabs (a - b) <= c <= a + b) -> get_angle_from_triangle a b c = Err ValueError).
Proof.
  intros a b c Ha Hb Hc. pose proof tri_zero_pos.
  rewrite <- (triangle_arg a b c) by lra. unfold get_angle_from_triangle.
  rewrite (Rabs_right a), (Rabs_right b) by lra.
  destruct (Rlt_dec a tri_zero); [lra|]. destruct (Rlt_dec b tri_zero); [lra|]. cbv zeta.
  generalize ((a * a + b * b - c * c) / (2 * a * b)); intros x.
  split; intros K; destruct (Rlt_dec 1 x); try destruct (Rlt_dec x (-1)); auto; exfalso; try lra.
Qed.

Lemma get_angle_ok_inv : forall a b c t, 0 <= a -> 0 <= b -> 0 <= c -> get_angle_from_triangle a b c = Ok t ->
  tri_zero <= a /\ tri_zero <= b /\ Rabs (a - b) <= c <= a + b /\ 0 <= t <= PI /\
  2 * a * b * cos t = a * a + b * b - c * c.
Proof.
  intros a b c t Ha Hb Hc H. pose proof tri_zero_pos as TP.
  unfold get_angle_from_triangle in H. rewrite (Rabs_right a), (Rabs_right b) in H by lra.
  destruct (Rlt_dec a tri_zero); [discriminate|]. destruct (Rlt_dec b tri_zero); [discriminate|]. cbv zeta in H.
  destruct (Rlt_dec 1 _); [discriminate|]. destruct (Rlt_dec _ (-1)); [discriminate|].
  apply Ok_inj in H; subst t. rewrite <- (triangle_arg a b c) by lra.
  repeat split; try lra. - apply acos_bound. - apply acos_bound.
  - rewrite cos_acos by lra. field. split; lra.
Qed.

Lemma side_of_angle : forall a b c t, 0 < a -> 0 < b -> 0 <= c ->
  get_angle_from_triangle a b c = Ok t -> get_side_from_triangle a b t = Ok c.
Proof.
  intros a b c t Ha Hb Hc H.
  destruct (get_angle_ok_inv a b c t) as (A & B & _ & _ & E); try lra; auto.
  unfold get_side_from_triangle. rewrite (Rabs_right a), (Rabs_right b) by lra.
  destruct (Rlt_dec a tri_zero); [lra|]. destruct (Rlt_dec b tri_zero); [lra|]. f_equal.
  rewrite E. replace (a * a + b * b - (a * a + b * b - c * c)) with (c * c) by ring. apply sqrt_square; auto.
Qed.

Lemma angle_of_side : forall a b c t, 0 < a -> 0 < b -> 0 <= t <= PI ->
  get_side_from_triangle a b t = Ok c -> 0 <= c /\ get_angle_from_triangle a b c = Ok t.
Proof.
  intros a b c t Ha Hb Ht H. pose proof tri_zero_pos as TP.
  unfold get_side_from_triangle in H. rewrite (Rabs_right a), (Rabs_right b) in H by lra.
  destruct (Rlt_dec a tri_zero); [discriminate|]. destruct (Rlt_dec b tri_zero); [discriminate|].
  apply Ok_inj in H; subst c. pose proof (COS_bound t) as CB.
  assert (N : 0 <= a * a + b * b - 2 * a * b * cos t).
  { assert (0 < a * b) by nra. assert (0 <= (a * b) * (1 - cos t)) by (apply Rmult_le_pos; lra).
    pose proof (Rle_0_sqr (a - b)) as SQ. unfold Rsqr in SQ. nra. }
  split; [apply sqrt_pos|].
  unfold get_angle_from_triangle. rewrite (Rabs_right a), (Rabs_right b) by lra.
  destruct (Rlt_dec a tri_zero); [lra|]. destruct (Rlt_dec b tri_zero); [lra|]. cbv zeta.
  rewrite sqrt_sqrt by auto.
  replace ((a * a + b * b - (a * a + b * b - 2 * a * b * cos t)) / (2 * a * b)) with (cos t) by (field; lra).
  destruct (Rlt_dec 1 (cos t)); [lra|]. destruct (Rlt_dec (cos t) (-1)); [lra|].
  f_equal. apply acos_cos; lra.
Qed.

(** ** Two theta and psi describe the same triangle *)
Lemma q_norm_nonneg : forall h b, 0 <= q_norm_from_hkl h b.
Proof. intros; unfold q_norm_from_hkl. pose proof PI_RGT_0. pose proof (sqrt_pos (dot (mv b h) (mv b h))). nra. Qed.

Lemma q_norm_eq : forall h b, q_norm_from_hkl h b = 2 * PI * norm (mv b h).
Proof. intros; unfold q_norm_from_hkl, norm. ring. Qed.

Lemma q_lab_eq : forall ei ef th ki kf, en2q ei = Ok ki -> en2q ef = Ok kf ->
  q_lab ei ef th = Ok (V (- kf * sin (deg2rad th)) 0 (ki - kf * cos (deg2rad th))).
Proof.
  intros. unfold q_lab, q_lab_gen. rewrite H, H0. cbn [bind].
  replace (deg2rad 0) with 0 by (unfold deg2rad; field). rewrite cos_0, sin_0. do 2 f_equal; ring.
Qed.

Lemma deg2rad_sign : forall x s, s = 1 \/ s = -1 -> deg2rad (rad2deg x * s) = s * x.
Proof. intros x s [-> | ->]; unfold deg2rad, rad2deg; field; apply PI_neq0. Qed.

Lemma cos_sign : forall x s, s = 1 \/ s = -1 -> cos (s * x) = cos x.
Proof. intros x s [-> | ->]. - f_equal; ring. - replace (-1 * x) with (- x) by ring. apply cos_neg. Qed.
Lemma sin_sign : forall x s, s = 1 \/ s = -1 -> sin (s * x) = s * sin x.
Proof. intros x s [-> | ->]. - rewrite !Rmult_1_l; auto. - replace (-1 * x) with (- x) by ring. rewrite sin_neg; ring. Qed.

Lemma q_lab_two_theta : forall h ei ef b x s, s = 1 \/ s = -1 ->
  two_theta_from_hkle h ei ef b = Ok x ->
  exists ql, q_lab ei ef (rad2deg x * s) = Ok ql /\ norm ql = q_norm_from_hkl h b /\ 0 <= x <= PI.
Proof.
  intros h ei ef b x s Hs H. unfold two_theta_from_hkle in H.
  destruct (en2q ei) as [ki|] eqn:Ei; [|discriminate]. destruct (en2q ef) as [kf|] eqn:Ef; [|discriminate]. cbn [bind] in H.
  destruct (en2q_nonneg _ _ Ei) as [Ki _]. destruct (en2q_nonneg _ _ Ef) as [Kf _].
  pose proof (q_norm_nonneg h b) as Q.
  destruct (get_angle_ok_inv ki kf _ x Ki Kf Q H) as (_ & _ & _ & R & E).
  rewrite (q_lab_eq _ _ _ _ _ Ei Ef), deg2rad_sign by auto. eexists; split; [reflexivity|]. split; auto.
  rewrite cos_sign, sin_sign by auto. unfold norm, dot; cbn [vx vy vz].
  rewrite <- (sqrt_square (q_norm_from_hkl h b)) by auto. f_equal.
  assert (s * s = 1) by (destruct Hs; subst; ring). pose proof (cos2_sin2 x).
  replace (- kf * (s * sin x) * (- kf * (s * sin x))) with (kf * kf * ((s * s) * (sin x * sin x))) by ring.
  rewrite H0. nra.
Qed.

Lemma two_theta_psi_companion : forall h ei ef b x y s, s = 1 \/ s = -1 ->
  two_theta_from_hkle h ei ef b = Ok x -> psi_from_hkle h ei ef b = Ok y ->
  let p := deg2rad (rad2deg y * s * (-1)) in
  q_lab ei ef (rad2deg x * s) = Ok (vscale (q_norm_from_hkl h b) (V (sin p) 0 (cos p))).
Proof.
  intros h ei ef b x y s Hs H1 H2 p. unfold two_theta_from_hkle in H1. unfold psi_from_hkle in H2.
  destruct (en2q ei) as [ki|] eqn:Ei; [|discriminate]. destruct (en2q ef) as [kf|] eqn:Ef; [|discriminate].
  cbn [bind] in H1, H2.
  destruct (en2q_nonneg _ _ Ei) as [Ki _]. destruct (en2q_nonneg _ _ Ef) as [Kf _].
  pose proof (q_norm_nonneg h b) as Q. pose proof tri_zero_pos.
  destruct (get_angle_ok_inv ki kf _ x Ki Kf Q H1) as (A1 & B1 & _ & R1 & E1).
  destruct (get_angle_ok_inv ki _ kf y Ki Q Kf H2) as (A2 & B2 & _ & R2 & E2).
  set (q := q_norm_from_hkl h b) in *. clearbody q.
  rewrite (q_lab_eq _ _ _ _ _ Ei Ef), deg2rad_sign by auto.
  assert (Ep : p = - (s * y)).
  { unfold p, deg2rad, rad2deg. field. apply PI_neq0. }
  rewrite Ep, sin_neg, cos_neg, !cos_sign, !sin_sign by auto.
  unfold vscale; cbn [vx vy vz].
  assert (C : ki - kf * cos x = q * cos y).
  { apply (Rmult_eq_reg_l (2 * ki)); [|lra]. nra. }
  assert (S : kf * sin x = q * sin y).
  { assert (0 <= sin x) by (apply sin_ge_0; lra). assert (0 <= sin y) by (apply sin_ge_0; lra).
    assert (SQ : (kf * sin x) * (kf * sin x) = (q * sin y) * (q * sin y)).
    { assert (Sx : sin x * sin x = 1 - cos x * cos x) by (pose proof (cos2_sin2 x); lra).
      assert (Sy : sin y * sin y = 1 - cos y * cos y) by (pose proof (cos2_sin2 y); lra).
      replace (kf * sin x * (kf * sin x)) with (kf * kf * (sin x * sin x)) by ring.
      replace (q * sin y * (q * sin y)) with (q * q * (sin y * sin y)) by ring. rewrite Sx, Sy.
      replace (q * q * (1 - cos y * cos y)) with (q * q - (q * cos y) * (q * cos y)) by ring. rewrite <- C. nra. }
    assert (0 <= kf * sin x) by nra. assert (0 <= q * sin y) by nra. nra. }
  f_equal. apply vec_eq; cbn [vx vy vz].
  - replace (- kf * (s * sin x)) with (- s * (kf * sin x)) by ring. rewrite S. ring.
  - ring.
  - rewrite C; reflexivity.
Qed.

(** ** Conventions *)
Lemma t_inverse : mm t_spice_to_mantid t_mantid_to_spice = mid /\ mm t_mantid_to_spice t_spice_to_mantid = mid.
Proof. split; apply mat_eq; la_unfold; cbn; ring. Qed.

Lemma t_rotation : rotation t_mantid_to_spice /\ rotation t_spice_to_mantid.
Proof. split; split; try (apply mat_eq; la_unfold; cbn; ring); la_unfold; cbn; ring. Qed.
