(** Properties C04 - C08: conventions, energies, the scattering triangle. *)
From Coq Require Import Reals Lra Psatz List String.
From Verif Require Import Base LinAlg S_Geom S_Energy M_Utilities M_Lattice M_Goni M_UB M_Sample M_Tas L_LinAlg L_Utilities.
Import ListNotations.
Open Scope R_scope.

(** * C05 *)
Theorem C05_en2q : forall e, 0 <= e -> exists k, en2q e = Ok k /\ wavenumber e k.
Proof.
  intros e H. destruct (en2q_cases e) as [[k K]|K].
  - exists k; split; auto. destruct (en2q_nonneg _ _ K) as (A & _ & B). split; [auto | unfold ksq2eng in B; lra].
  - apply en2q_err in K; lra.
Qed.
Print Assumptions C05_en2q.

Theorem C05_q2en : forall k, 0 <= k -> exists e, q2en k = Ok e /\ wavenumber e k.
Proof. intros k H. rewrite q2en_ok by auto. eexists; split; [reflexivity|]. split; [auto | unfold ksq2eng; lra]. Qed.
Print Assumptions C05_q2en.

Theorem C05_inverse : forall e k, 0 <= e -> 0 <= k -> (en2q e = Ok k <-> q2en k = Ok e).
Proof.
  intros e k He Hk. split; intros H.
  - destruct (en2q_inv e He) as (k' & A & _ & B). rewrite A in H. apply Ok_inj in H. subst. auto.
  - destruct (q2en_inv k Hk) as (e' & A & _ & B). rewrite A in H. apply Ok_inj in H. subst. auto.
Qed.
Print Assumptions C05_inverse.

Theorem C05_increasing : (forall e1 e2 k1 k2, en2q e1 = Ok k1 -> en2q e2 = Ok k2 -> (e1 < e2 <-> k1 < k2)) /\
  (forall k1 k2 e1 e2, q2en k1 = Ok e1 -> q2en k2 = Ok e2 -> (k1 < k2 <-> e1 < e2)).
Proof. split; [exact en2q_mono | exact q2en_mono]. Qed.
Print Assumptions C05_increasing.

Theorem C05_raise_exactly_on_negative : forall x,
  (x < 0 <-> en2q x = Err ValueError) /\ (x < 0 <-> q2en x = Err ValueError) /\
  (0 <= x <-> exists y, en2q x = Ok y) /\ (0 <= x <-> exists y, q2en x = Ok y).
Proof.
  intros x. rewrite en2q_err, q2en_err. repeat split; auto; intros H.
  - rewrite en2q_ok by auto. eauto.
  - destruct H as [y H]. apply en2q_nonneg in H. lra.
  - rewrite q2en_ok by auto. eauto.
  - destruct H as [y H]. unfold q2en in H. destruct (Rlt_dec x 0); [discriminate|lra].
Qed.
Print Assumptions C05_raise_exactly_on_negative.

Example C05_ex : en2q 2.072124855 = Ok 1 /\ q2en 2 = Ok (4 * 2.072124855).
Proof.
  split; [|rewrite q2en_ok by lra; unfold ksq2eng; f_equal; lra].
  apply C05_inverse; try lra. rewrite q2en_ok by lra. unfold ksq2eng; f_equal; lra.
Qed.

(** * C06 *)
Lemma triangle_abs : forall a b c, 0 <= a -> 0 <= b -> 0 <= c -> (triangle a b c <-> Rabs (a - b) <= c <= a + b).
Proof. intros; unfold triangle, Rabs; destruct (Rcase_abs (a - b)); lra. Qed.
Lemma side_ok_zero : forall a, side_ok a <-> tri_zero <= a.
Proof. intros; unfold side_ok, tri_zero; lra. Qed.

Theorem C06_angle_iff_triangle : forall a b c, side_ok a -> side_ok b -> 0 <= c ->
  (triangle a b c -> exists t, get_angle_from_triangle a b c = Ok t) /\
  (~ triangle a b c -> get_angle_from_triangle a b c = Err ValueError).
Proof.
  intros a b c Ha Hb Hc. rewrite side_ok_zero in Ha, Hb. pose proof tri_zero_pos.
  rewrite triangle_abs by lra. destruct (get_angle_cases a b c) as [A B]; auto. split; eauto.
Qed.
Print Assumptions C06_angle_iff_triangle.

Theorem C06_short_sides_rejected : forall a b c t, 0 <= a -> 0 <= b -> ~ side_ok a \/ ~ side_ok b ->
  get_angle_from_triangle a b c = Err ValueError /\ get_side_from_triangle a b t = Err ValueError.
Proof.
  intros a b c t Ha Hb H. rewrite !side_ok_zero in H. unfold get_angle_from_triangle, get_side_from_triangle.
  rewrite !(Rabs_right a), !(Rabs_right b) by lra.
  destruct (Rlt_dec a tri_zero); auto. destruct (Rlt_dec b tri_zero); auto. exfalso; destruct H as [H|H]; apply H; lra.
Qed.
Print Assumptions C06_short_sides_rejected.

(** The angle is in [0, pi] and is the one enclosed by [a] and [b] (law of cosines). *)
Theorem C06_angle_correct : forall a b c t, 0 <= a -> 0 <= b -> 0 <= c -> get_angle_from_triangle a b c = Ok t ->
  triangle a b c /\ 0 <= t <= PI /\ c * c = a * a + b * b - 2 * a * b * cos t.
Proof.
  intros a b c t Ha Hb Hc H. rewrite triangle_abs by auto.
  destruct (get_angle_ok_inv a b c t) as (A & B & T & R & E); auto. repeat split; try tauto; lra.
Qed.
Print Assumptions C06_angle_correct.

Theorem C06_side_of_angle : forall a b c t, 0 < a -> 0 < b -> 0 <= c ->
  get_angle_from_triangle a b c = Ok t -> get_side_from_triangle a b t = Ok c.
Proof. exact side_of_angle. Qed.
Print Assumptions C06_side_of_angle.

Theorem C06_angle_of_side : forall a b c t, 0 < a -> 0 < b -> 0 <= t <= PI ->
  get_side_from_triangle a b t = Ok c -> 0 <= c /\ get_angle_from_triangle a b c = Ok t.
Proof. exact angle_of_side. Qed.
Print Assumptions C06_angle_of_side.

Example C06_ex : triangle 3 4 5 /\ side_ok 3 /\ side_ok 4 /\ get_angle_from_triangle 3 4 5 = Ok (PI / 2).
Proof.
  unfold triangle, side_ok. repeat split; try lra.
  apply (angle_of_side 3 4 5 (PI / 2)); try lra. - pose proof PI_RGT_0; lra.
  - unfold get_side_from_triangle. rewrite !Rabs_right by lra. unfold tri_zero.
    destruct (Rlt_dec 3 _); [lra|]. destruct (Rlt_dec 4 _); [lra|]. f_equal. rewrite cos_PI2.
    replace (3 * 3 + 4 * 4 - 2 * 3 * 4 * 0) with (5 * 5) by ring. apply sqrt_square; lra.
Qed.

(** * C07 *)
Lemma sense_sign_ok : forall g s, sense_sign g = Ok s <-> sense_of (g_sense g) s.
Proof.
  intros g s. unfold sense_sign, sense_of. destruct (g_sense g) as [x|].
  - destruct (String.eqb_spec x "+").
    + subst. split; intros H; [apply Ok_inj in H; subst; auto|]. destruct H as [[_ ->]|[H _]]; auto; discriminate.
    + destruct (String.eqb_spec x "-").
      * subst. split; intros H; [apply Ok_inj in H; subst; auto|]. destruct H as [[H _]|[_ ->]]; auto; discriminate.
      * split; intros H; try discriminate. destruct H as [[H _]|[H _]]; injection H as ->; congruence.
  - split; intros H; try discriminate. destruct H as [[H _]|[H _]]; discriminate.
Qed.

Lemma sense_pm : forall o s, sense_of o s -> s = 1 \/ s = -1.
Proof. intros o s [[_ ->]|[_ ->]]; auto. Qed.

Lemma transfer_q_lab : forall ei ef th ki kf, en2q ei = Ok ki -> en2q ef = Ok kf -> q_lab ei ef th = Ok (transfer ki kf th).
Proof.
  intros. rewrite (q_lab_eq _ _ _ _ _ H H0). f_equal. unfold transfer, deg2rad. la_unfold. apply vec_eq; cbn; ring.
Qed.

Lemma rad2deg_range : forall x, 0 <= x <= PI -> 0 <= rad2deg x <= 180.
Proof.
  intros x [A B]. unfold rad2deg. pose proof PI_RGT_0 as P. split.
  - apply Rmult_le_pos; [nra|]. left; apply Rinv_0_lt_compat; auto.
  - apply (Rmult_le_reg_r PI); auto. replace (x * 180 / PI * PI) with (x * 180) by (field; lra). nra.
Qed.

(** The angle returned closes the triangle: |ki - kf| is the length of Q, with the sign of the sense and size in [0,180]. *)
Theorem C07_two_theta_closes : forall t h en tt, get_two_theta t h en = Ok tt ->
  exists ei ef b s ki kf,
    t_ei_ef t en = Ok (ei, ef) /\ s_b_mat (t_sample t) = Ok b /\ sense_of (g_sense (t_goni t)) s /\
    wavenumber ei ki /\ wavenumber ef kf /\
    norm (transfer ki kf tt) = 2 * PI * norm (mv b h) /\ 0 <= s * tt <= 180.
Proof.
  intros t h en tt H. unfold get_two_theta in H.
  destruct (t_ei_ef t en) as [[ei ef]|] eqn:E; [|discriminate]. cbn [bind] in H.
  destruct (s_b_mat (t_sample t)) as [b|] eqn:B; [|discriminate]. cbn [bind] in H.
  destruct (two_theta_from_hkle h ei ef b) as [x|] eqn:X; [|discriminate]. cbn [bind] in H.
  destruct (sense_sign (t_goni t)) as [s|] eqn:S; [|discriminate]. cbn [bind] in H. apply Ok_inj in H. subst tt.
  apply sense_sign_ok in S. pose proof (sense_pm _ _ S) as PM.
  destruct (q_lab_two_theta h ei ef b x s PM X) as (ql & Q & N & R).
  unfold two_theta_from_hkle in X.
  destruct (en2q ei) as [ki|] eqn:Ki; [|discriminate]. destruct (en2q ef) as [kf|] eqn:Kf; [|discriminate].
  rewrite (transfer_q_lab _ _ _ _ _ Ki Kf) in Q. apply Ok_inj in Q. subst ql.
  exists ei, ef, b, s, ki, kf. repeat split; auto.
  - apply en2q_nonneg in Ki; tauto.
  - apply en2q_nonneg in Ki. unfold ksq2eng in Ki. lra.
  - apply en2q_nonneg in Kf; tauto.
  - apply en2q_nonneg in Kf. unfold ksq2eng in Kf. lra.
  - rewrite N. apply q_norm_eq.
  - replace (s * (rad2deg x * s)) with ((s * s) * rad2deg x) by ring. apply rad2deg_range in R.
    assert (s * s = 1) by (destruct PM; subst; ring). rewrite H. lra.
  - replace (s * (rad2deg x * s)) with ((s * s) * rad2deg x) by ring. apply rad2deg_range in R.
    assert (s * s = 1) by (destruct PM; subst; ring). rewrite H. lra.
Qed.
Print Assumptions C07_two_theta_closes.

(** psi is the companion angle: opposite sign, size in [0,180], and the momentum transfer at [tt] is the horizontal
    vector of length |Q| at the angle psi from the beam. *)
Theorem C07_psi_companion : forall t h en tt psi, get_two_theta t h en = Ok tt -> get_psi t h en = Ok psi ->
  exists ei ef b s ki kf,
    t_ei_ef t en = Ok (ei, ef) /\ s_b_mat (t_sample t) = Ok b /\ sense_of (g_sense (t_goni t)) s /\
    wavenumber ei ki /\ wavenumber ef kf /\
    transfer ki kf tt = horizontal (2 * PI * norm (mv b h)) psi /\ 0 <= - s * psi <= 180.
Proof.
  intros t h en tt psi H K. unfold get_two_theta in H. unfold get_psi in K.
  destruct (t_ei_ef t en) as [[ei ef]|] eqn:E; [|discriminate]. cbn [bind] in H, K.
  destruct (s_b_mat (t_sample t)) as [b|] eqn:B; [|discriminate]. cbn [bind] in H, K.
  destruct (two_theta_from_hkle h ei ef b) as [x|] eqn:X; [|discriminate]. cbn [bind] in H.
  destruct (psi_from_hkle h ei ef b) as [y|] eqn:Y; [|discriminate]. cbn [bind] in K.
  destruct (sense_sign (t_goni t)) as [s|] eqn:S; [|discriminate]. cbn [bind] in H, K. apply Ok_inj in H, K. subst tt psi.
  apply sense_sign_ok in S. pose proof (sense_pm _ _ S) as PM.
  pose proof (two_theta_psi_companion h ei ef b x y s PM X Y) as Q. cbv zeta in Q.
  assert (R : 0 <= y <= PI).
  { unfold psi_from_hkle in Y. destruct (en2q ei) as [ki|] eqn:Ki; [|discriminate].
    destruct (en2q ef) as [kf|] eqn:Kf; [|discriminate]. cbn [bind] in Y.
    apply en2q_nonneg in Ki; apply en2q_nonneg in Kf.
    apply get_angle_ok_inv in Y; try tauto. apply q_norm_nonneg. }
  unfold two_theta_from_hkle in X.
  destruct (en2q ei) as [ki|] eqn:Ki; [|discriminate]. destruct (en2q ef) as [kf|] eqn:Kf; [|discriminate].
  rewrite (transfer_q_lab _ _ _ _ _ Ki Kf) in Q. apply Ok_inj in Q.
  exists ei, ef, b, s, ki, kf. repeat split; auto.
  - apply en2q_nonneg in Ki; tauto.
  - apply en2q_nonneg in Ki. unfold ksq2eng in Ki. lra.
  - apply en2q_nonneg in Kf; tauto.
  - apply en2q_nonneg in Kf. unfold ksq2eng in Kf. lra.
  - rewrite Q, q_norm_eq. reflexivity.
  - replace (- s * (rad2deg y * s * -1)) with ((s * s) * rad2deg y) by ring. apply rad2deg_range in R.
    assert (s * s = 1) by (destruct PM; subst; ring). rewrite H. lra.
  - replace (- s * (rad2deg y * s * -1)) with ((s * s) * rad2deg y) by ring. apply rad2deg_range in R.
    assert (s * s = 1) by (destruct PM; subst; ring). rewrite H. lra.
Qed.
Print Assumptions C07_psi_companion.

(** On an instrument with a known sense and a valid cell, both calls return exactly when the energies are not negative
    and the triangle closes (with non-vanishing sides next to the angle), and raise ValueError otherwise. *)
Theorem C07_raise_exactly_when_open : forall t h en ei ef b s,
  t_ei_ef t en = Ok (ei, ef) -> s_b_mat (t_sample t) = Ok b -> sense_of (g_sense (t_goni t)) s ->
  (ei < 0 \/ ef < 0 -> get_two_theta t h en = Err ValueError /\ get_psi t h en = Err ValueError) /\
  forall ki kf, wavenumber ei ki -> wavenumber ef kf ->
    let q := 2 * PI * norm (mv b h) in
    ((exists x, get_two_theta t h en = Ok x) <-> (side_ok ki /\ side_ok kf /\ triangle ki kf q)) /\
    ((exists x, get_psi t h en = Ok x) <-> (side_ok ki /\ side_ok q /\ triangle ki kf q)) /\
    (~ (exists x, get_two_theta t h en = Ok x) -> get_two_theta t h en = Err ValueError) /\
    (~ (exists x, get_psi t h en = Ok x) -> get_psi t h en = Err ValueError).
Proof.
  intros t h en ei ef b s E B S. apply sense_sign_ok in S. unfold get_two_theta, get_psi. rewrite E, B, S. cbn [bind].
  unfold two_theta_from_hkle, psi_from_hkle. split.
  - intros H. destruct (en2q_cases ei) as [[ki Ki]|Ki]; rewrite Ki; cbn [bind]; auto.
    destruct (en2q_cases ef) as [[kf Kf]|Kf]; rewrite Kf; cbn [bind]; auto.
    apply en2q_nonneg in Ki. apply en2q_nonneg in Kf. lra.
  - intros ki kf [Pi Wi] [Pf Wf]. set (q := 2 * PI * norm (mv b h)).
    assert (Ki : en2q ei = Ok ki).
    { apply C05_inverse; auto; [nra|]. rewrite q2en_ok by auto. unfold ksq2eng. f_equal. lra. }
    assert (Kf : en2q ef = Ok kf).
    { apply C05_inverse; auto; [nra|]. rewrite q2en_ok by auto. unfold ksq2eng. f_equal. lra. }
    rewrite Ki, Kf. cbn [bind]. rewrite (q_norm_eq h b). fold q.
    assert (Q : 0 <= q) by (unfold q; rewrite <- q_norm_eq; apply q_norm_nonneg). clearbody q.
    pose proof tri_zero_pos as TZ.
    assert (T1 : forall x y z, 0 <= x -> 0 <= y -> 0 <= z ->
      ((exists a, get_angle_from_triangle x y z = Ok a) <-> side_ok x /\ side_ok y /\ triangle x y z) /\
      ((exists a, get_angle_from_triangle x y z = Ok a) \/ get_angle_from_triangle x y z = Err ValueError)).
    { intros x y z Hx Hy Hz. rewrite !side_ok_zero.
      destruct (Rlt_dec x tri_zero) as [l|l]; [|destruct (Rlt_dec y tri_zero) as [l'|l']].
      - destruct (C06_short_sides_rejected x y z 0) as [R _]; auto. { left; rewrite side_ok_zero; lra. }
        rewrite R. split; auto. split; [intros [a A]; discriminate | lra].
      - destruct (C06_short_sides_rejected x y z 0) as [R _]; auto. { right; rewrite side_ok_zero; lra. }
        rewrite R. split; auto. split; [intros [a A]; discriminate | lra].
      - destruct (C06_angle_iff_triangle x y z) as [P N]; auto; try (rewrite side_ok_zero; lra).
        split.
        + split; [intros [a A]|intros (_ & _ & T); auto]. destruct (C06_angle_correct x y z a) as [T _]; auto.
          repeat split; auto; lra || (destruct T; tauto).
        + destruct (Rle_dec x (y + z)), (Rle_dec y (x + z)), (Rle_dec z (x + y));
            [left; apply P; split; auto | right; apply N; unfold triangle; tauto ..]. }
    assert (SW : triangle ki kf q <-> triangle ki q kf) by (unfold triangle; lra).
    destruct (T1 ki kf q) as [I1 C1]; auto. destruct (T1 ki q kf) as [I2 C2]; auto.
    rewrite SW, <- I2, <- SW, <- I1.
    assert (M1 : (exists x, (do x0 <- get_angle_from_triangle ki kf q; Ok (rad2deg x0 * s)) = Ok x) <->
                 (exists a, get_angle_from_triangle ki kf q = Ok a)).
    { destruct (get_angle_from_triangle ki kf q); cbn; split; intros [x X]; eauto; discriminate. }
    assert (M2 : (exists x, (do x0 <- get_angle_from_triangle ki q kf; Ok (rad2deg x0 * s * -1)) = Ok x) <->
                 (exists a, get_angle_from_triangle ki q kf = Ok a)).
    { destruct (get_angle_from_triangle ki q kf); cbn; split; intros [x X]; eauto; discriminate. }
    split; [exact M1|]. split; [exact M2|]. split; intros N.
    + destruct C1 as [C1|C1]; [exfalso; tauto|]. rewrite C1. reflexivity.
    + destruct C2 as [C2|C2]; [exfalso; tauto|]. rewrite C2. reflexivity.
Qed.
Print Assumptions C07_raise_exactly_when_open.

(** * C08 *)
(** Explicit arguments win over the fixed values. *)
Definition chosen (arg fixed : option R) : option R := match arg with Some x => Some x | None => fixed end.

Theorem C08_energy_conservation : forall fei fef ei ef en,
  match chosen ei fei, chosen ef fef with
  | Some i, None => get_ei_ef fei fef ei ef en = Ok (i, i - en)
  | None, Some f => get_ei_ef fei fef ei ef en = Ok (f + en, f)
  | None, None => get_ei_ef fei fef ei ef en = Err ValueError
  | Some i, Some f => get_ei_ef fei fef ei ef en = Ok (i, f)
  end.
Proof. intros [?|] [?|] [?|] [?|] en; cbn; auto; do 2 f_equal; ring. Qed.
Print Assumptions C08_energy_conservation.

(** With exactly one known energy the transfer is the requested one. *)
Theorem C08_transfer_honoured : forall fei fef ei ef en i f,
  (chosen ei fei = None \/ chosen ef fef = None) -> get_ei_ef fei fef ei ef en = Ok (i, f) ->
  i - f = en /\ (forall x, chosen ei fei = Some x -> i = x) /\ (forall x, chosen ef fef = Some x -> f = x).
Proof.
  intros fei fef ei ef en i f H K. pose proof (C08_energy_conservation fei fef ei ef en) as T. rewrite K in T.
  destruct (chosen ei fei), (chosen ef fef); try (destruct H; discriminate); try discriminate;
    apply Ok_inj in T; injection T as -> ->; repeat split; try lra; intros; congruence.
Qed.
Print Assumptions C08_transfer_honoured.

(** Finding: with both energies known the requested transfer is ignored. *)
Theorem C08_both_known_refuted : exists fei fef en i f,
  get_ei_ef fei fef None None en = Ok (i, f) /\ i - f <> en.
Proof. exists (Some 14), (Some 14), 5, 14, 14. split; [reflexivity|lra]. Qed.
Print Assumptions C08_both_known_refuted.

Example C08_ex : get_ei_ef None (Some 14.7) None None 3 = Ok (3 + 14.7, 14.7) /\
  get_ei_ef (Some 10) None (Some 12) None 3 = Ok (12, 12 - 3).
Proof. split; reflexivity. Qed.

(** * C04 *)
(** SPICE puts z up, Mantid y up; x is shared. *)
Theorem C04_vector_round_trip : forall v,
  mantid_to_spice_vec (spice_to_mantid_vec v) = v /\ spice_to_mantid_vec (mantid_to_spice_vec v) = v.
Proof. intros [x y z]; split; apply vec_eq; cbn; ring. Qed.
Print Assumptions C04_vector_round_trip.

Theorem C04_axes : mantid_to_spice_vec ex = ex /\ mantid_to_spice_vec ey = ez /\ mantid_to_spice_vec ez = vopp ey.
Proof. repeat split; apply vec_eq; cbn; ring. Qed.
Print Assumptions C04_axes.

Theorem C04_isometry : forall v w,
  dot (mantid_to_spice_vec v) (mantid_to_spice_vec w) = dot v w /\
  dot (spice_to_mantid_vec v) (spice_to_mantid_vec w) = dot v w /\
  norm (mantid_to_spice_vec v) = norm v /\ norm (spice_to_mantid_vec v) = norm v /\
  cross (mantid_to_spice_vec v) (mantid_to_spice_vec w) = mantid_to_spice_vec (cross v w).
Proof.
  intros [x y z] [x' y' z']. unfold norm. repeat split; try (apply vec_eq); la_unfold; cbn; first [ring | f_equal; ring].
Qed.
Print Assumptions C04_isometry.

(** The matrix conversions act column by column as the vector conversion, and are mutually inverse. *)
Theorem C04_matrix_round_trip : forall m v,
  mm t_spice_to_mantid (mm t_mantid_to_spice m) = m /\ mm t_mantid_to_spice (mm t_spice_to_mantid m) = m /\
  mv (mm t_mantid_to_spice m) v = mantid_to_spice_vec (mv m v) /\
  mv (mm t_spice_to_mantid m) v = spice_to_mantid_vec (mv m v).
Proof.
  intros m v. rewrite !mm_assoc. destruct t_inverse as [-> ->]. rewrite !mm_id_l. split; auto. split; auto.
  rewrite !mv_mm. destruct (mv m v). split; apply vec_eq; la_unfold; cbn; ring.
Qed.
Print Assumptions C04_matrix_round_trip.

Definition known_convention (u : ubconf) : Prop := convention u = "Mantid"%string \/ convention u = "Spice"%string.

Lemma conv_mats : forall u, known_convention u ->
  exists f t, from_mantid_mat (convention u) = Ok f /\ to_mantid_mat (convention u) = Ok t /\ mm f t = mid.
Proof.
  intros u [-> | ->]; cbn.
  - exists mid, mid. repeat split; auto. apply mm_id_l.
  - exists t_mantid_to_spice, t_spice_to_mantid. repeat split; auto. apply t_inverse.
Qed.

(** What is written is what is read, in either convention; the other attributes are untouched. *)
Theorem C04_write_read : forall u, known_convention u ->
  (forall m, exists u', set_ub_mat u m = Ok u' /\ get_ub_mat u' = Ok (Some m) /\
     get_u_mat u' = get_u_mat u /\ get_plane_normal u' = get_plane_normal u /\ get_in_plane_ref u' = get_in_plane_ref u) /\
  (forall m, exists u', set_u_mat u m = Ok u' /\ get_u_mat u' = Ok (Some m) /\
     get_ub_mat u' = get_ub_mat u /\ get_plane_normal u' = get_plane_normal u /\ get_in_plane_ref u' = get_in_plane_ref u) /\
  (forall v, exists u', set_plane_normal u v = Ok u' /\ get_plane_normal u' = Ok (Some v) /\
     get_ub_mat u' = get_ub_mat u /\ get_u_mat u' = get_u_mat u /\ get_in_plane_ref u' = get_in_plane_ref u) /\
  (forall v, exists u', set_in_plane_ref u v = Ok u' /\ get_in_plane_ref u' = Ok (Some v) /\
     get_ub_mat u' = get_ub_mat u /\ get_u_mat u' = get_u_mat u /\ get_plane_normal u' = get_plane_normal u).
Proof.
  intros u K. destruct (conv_mats u K) as (f & t & F & T & I).
  unfold set_ub_mat, set_u_mat, set_plane_normal, set_in_plane_ref. rewrite T. cbn [bind].
  repeat split; intros x; eexists; (split; [reflexivity|]);
    unfold get_ub_mat, get_u_mat, get_plane_normal, get_in_plane_ref, from_mantid_opt;
    cbn [convention _ub_mat _u_mat _plane_normal _in_plane_ref]; rewrite ?F; cbn [bind]; repeat split; auto.
  - rewrite mm_assoc, I, mm_id_l. auto.
  - rewrite mm_assoc, I, mm_id_l. auto.
  - rewrite <- mv_mm, I, mv_id. auto.
  - rewrite <- mv_mm, I, mv_id. auto.
Qed.
Print Assumptions C04_write_read.

(** One and the same stored orientation reads, in the two conventions, as related by the change of axes. *)
Theorem C04_conventions_agree : forall um us m v,
  convention um = "Mantid"%string -> convention us = "Spice"%string ->
  _ub_mat um = Some m -> _ub_mat us = Some m -> _plane_normal um = Some v -> _plane_normal us = Some v ->
  exists am av bm bv, get_ub_mat um = Ok (Some am) /\ get_ub_mat us = Ok (Some bm) /\
    get_plane_normal um = Ok (Some av) /\ get_plane_normal us = Ok (Some bv) /\
    bv = mantid_to_spice_vec av /\ forall h, mv bm h = mantid_to_spice_vec (mv am h).
Proof.
  intros um us m v Cm Cs A B C D. unfold get_ub_mat, get_plane_normal. rewrite A, B, C, D, Cm, Cs. cbn.
  do 4 eexists. repeat (split; [reflexivity|]). split.
  - destruct v; apply vec_eq; la_unfold; cbn; ring.
  - intros h. rewrite mm_id_l. apply C04_matrix_round_trip.
Qed.
Print Assumptions C04_conventions_agree.

Theorem C04_unknown_convention : forall u m v, ~ known_convention u ->
  set_ub_mat u m = Err ValueError /\ set_u_mat u m = Err ValueError /\
  set_plane_normal u v = Err ValueError /\ set_in_plane_ref u v = Err ValueError /\
  (_ub_mat u <> None -> get_ub_mat u = Err ValueError) /\ get_u_mat u = Err ValueError /\
  get_plane_normal u = Err ValueError /\ get_in_plane_ref u = Err ValueError.
Proof.
  intros u m v H.
  assert (A : String.eqb (convention u) "Mantid" = false) by (apply String.eqb_neq; intros E; apply H; left; auto).
  assert (B : String.eqb (convention u) "Spice" = false) by (apply String.eqb_neq; intros E; apply H; right; auto).
  unfold set_ub_mat, set_u_mat, set_plane_normal, set_in_plane_ref, get_ub_mat, get_u_mat, get_plane_normal,
    get_in_plane_ref, from_mantid_opt, from_mantid_mat, to_mantid_mat. rewrite A, B. cbn [bind].
  repeat split.
  - destruct (_ub_mat u); cbn; auto; tauto.
  - destruct (_u_mat u); auto.
  - destruct (_plane_normal u); auto.
  - destruct (_in_plane_ref u); auto.
Qed.
Print Assumptions C04_unknown_convention.

(** Finding: reading an attribute that was never set is None under Mantid but a TypeError under Spice. *)
Theorem C04_unset_read_refuted : exists um us,
  convention um = "Mantid"%string /\ convention us = "Spice"%string /\ _plane_normal um = None /\ _plane_normal us = None /\
  get_plane_normal um = Ok None /\ get_plane_normal us = Err TypeError.
Proof.
  exists (UBConf "Mantid" None None None None None None), (UBConf "Spice" None None None None None None).
  repeat split; reflexivity.
Qed.
Print Assumptions C04_unset_read_refuted.

Example C04_ex : known_convention (UBConf "Spice" None None None None None None) /\
  ~ known_convention (UBConf "other" None None None None None None).
Proof. split; [right; reflexivity|intros [H|H]; discriminate]. Qed.
