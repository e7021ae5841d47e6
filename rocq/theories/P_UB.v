(** Properties C15 - C19: orientation from observed peaks. *)
From Coq Require Import Reals Lra Psatz List String Permutation.
From Verif Require Import Base LinAlg S_Geom S_Energy S_Lattice S_Goni S_UB M_Utilities M_Lattice M_Goni M_UB M_Sample M_Tas
  L_LinAlg L_Utilities L_Lattice L_Goni L_UB P_Lattice.
Import ListNotations.
Open Scope R_scope.

(** * C15 *)
(** Whatever is returned is the one rotation that takes B.hkl1 onto the direction measured for the first peak and B.hkl2
    into the measured half-plane. *)
Theorem C15_two_peaks : forall g p1 p2 b ei ef u, find_u_from_two_peaks p1 p2 b (r_mat_inv g) ei ef = Ok u ->
  exists m1 m2, measured g ei ef (angles p1) m1 /\ measured g ei ef (angles p2) m2 /\
    rotation u /\ parallel (mv u (mv b (hkl p1))) m1 /\ half_plane m1 m2 (mv u (mv b (hkl p2))) /\
    forall w, rotation w -> parallel (mv w (mv b (hkl p1))) m1 -> half_plane m1 m2 (mv w (mv b (hkl p2))) -> w = u.
Proof. exact u_two_peaks. Qed.
Print Assumptions C15_two_peaks.

(** A rotation is returned exactly when neither the two Q vectors nor the two measured vectors are collinear. *)
Theorem C15_defined_exactly_when_not_collinear : forall g p1 p2 b ei ef m1 m2,
  measured g ei ef (angles p1) m1 -> measured g ei ef (angles p2) m2 ->
  ((exists u, find_u_from_two_peaks p1 p2 b (r_mat_inv g) ei ef = Ok u) <->
   cross (mv b (hkl p1)) (mv b (hkl p2)) <> vzero /\ cross m1 m2 <> vzero).
Proof.
  intros g p1 p2 b ei ef m1 m2 M1 M2. split.
  - intros (u & H). unfold find_u_from_two_peaks in H. cbv zeta in H.
    apply measured_lab in M1, M2. destruct M1 as (l1 & i1 & L1 & I1 & ->). destruct M2 as (l2 & i2 & L2 & I2 & ->).
    rewrite L1, L2, I1, I2 in H. bb H. bb H. bb H. cbn [bind] in H. bb H. bb H. bb H.
    apply unit_of_spec in E1. apply unit_of_spec in E4. tauto.
  - intros [H C]. eapply u_two_peaks_ok; eauto.
Qed.
Print Assumptions C15_defined_exactly_when_not_collinear.

(** Peaks generated by a rotation U0 give U0 back. *)
Theorem C15_recovers : forall g p1 p2 b ei ef m1 m2 u0, rotation u0 ->
  measured g ei ef (angles p1) m1 -> measured g ei ef (angles p2) m2 ->
  parallel m1 (mv u0 (mv b (hkl p1))) -> parallel m2 (mv u0 (mv b (hkl p2))) ->
  cross (mv b (hkl p1)) (mv b (hkl p2)) <> vzero ->
  find_u_from_two_peaks p1 p2 b (r_mat_inv g) ei ef = Ok u0.
Proof.
  intros g p1 p2 b ei ef m1 m2 u0 R M1 M2 (k1 & K1 & E1) (k2 & K2 & E2) H.
  assert (C : cross m1 m2 <> vzero).
  { rewrite E1, E2, cross_vscale_l, cross_vscale_r, vscale_vscale, rotation_cross by auto. intros Z.
    apply H. destruct R as [O D]. apply norm_zero. rewrite <- (orth_norm u0) by auto.
    assert (N := f_equal norm Z). rewrite norm_vscale, norm_vzero in N.
    assert (0 < Rabs (k1 * k2)) by (apply Rabs_pos_lt; apply Rgt_not_eq, Rmult_lt_0_compat; auto). nra. }
  destruct (u_two_peaks_ok _ _ _ _ _ _ _ _ M1 M2 H C) as (u & U). rewrite U. f_equal.
  destruct (u_two_peaks _ _ _ _ _ _ _ U) as (m1' & m2' & M1' & M2' & _ & _ & _ & UN).
  rewrite <- (measured_fun _ _ _ _ _ _ M1 M1') in UN. rewrite <- (measured_fun _ _ _ _ _ _ M2 M2') in UN.
  symmetry. apply UN; auto.
  - exists (/ k1). split; [apply Rinv_0_lt_compat; auto|]. rewrite E1, vscale_vscale, Rinv_l, vscale_1 by lra. auto.
  - exists 0, (/ k2). split; [apply Rinv_0_lt_compat; auto|]. rewrite E2, vscale_vscale, Rinv_l, vscale_1 by lra.
    rewrite E1. vring.
Qed.
Print Assumptions C15_recovers.

(** The same at the level of TAS.calculate_ub_matrix: what is stored and returned for two peaks. *)
Theorem C15_calculate_ub_matrix : forall t p1 p2 plane t' uc,
  calculate_ub_matrix t [p1; p2] plane = (t', Ok (Some uc)) ->
  exists ei ef b u n m1 m2,
    t_ei_ef t 0 = Ok (ei, ef) /\ s_b_mat (t_sample t) = Ok b /\
    measured (t_goni t) ei ef (angles p1) m1 /\ measured (t_goni t) ei ef (angles p2) m2 /\
    rotation u /\ parallel (mv u (mv b (hkl p1))) m1 /\ half_plane m1 m2 (mv u (mv b (hkl p2))) /\
    _ub_mat uc = Some (mm u b) /\ convention uc = t_convention t /\ ub_peaks uc = Some [p1; p2] /\
    _plane_normal uc = Some n /\ dot n n = 1 /\ dot n (mv u (mv b (hkl p1))) = 0 /\ dot n (mv u (mv b (hkl p2))) = 0 /\ 0 <= vy n /\
    s_ub_conf (t_sample t') = Some uc /\ s_lattice (t_sample t') = s_lattice (t_sample t) /\ t_goni t' = t_goni t.
Proof.
  intros t p1 p2 plane t' uc H. unfold calculate_ub_matrix in H.
  destruct (t_ei_ef t 0) as [[ei ef]|] eqn:E; [|discriminate].
  match type of H with (match ?x with _ => _ end) = _ => destruct x as [uc'|] eqn:X end; [|discriminate].
  injection H as <- <-. bb X. bb X. bb X. destruct a1 as [pn ipr]. cbn in X. apply Ok_inj in X.
  destruct (u_two_peaks _ _ _ _ _ _ _ E1) as (m1 & m2 & M1 & M2 & RO & P1 & P2 & _).
  unfold plane_normal_from_two_peaks in E2. cbv zeta in E2. bb E2. bb E2. apply Ok_inj in E2. injection E2 as PN _.
  exists ei, ef, a, a0, pn, m1, m2. subst uc'. cbn.
  assert (N : pn = mv a0 a1 \/ pn = vopp (mv a0 a1)) by (rewrite <- PN; destruct (Rlt_dec _ _); auto).
  change (dot (row1 a0) a1) with (vy (mv a0 a1)) in PN.
  assert (Y : 0 <= vy pn). { rewrite <- PN. destruct (Rlt_dec (vy (mv a0 a1)) 0) as [l|l]; [unfold vopp; cbn [vy]; lra | lra]. }
  apply unit_of_spec in E3. destruct E3 as (_ & N3 & E3 & D3).
  assert (F : forall x, dot (cross (mv a (hkl p1)) (mv a (hkl p2))) x = 0 -> dot pn (mv a0 x) = 0).
  { intros x Z. assert (G : dot (mv a0 a1) (mv a0 x) = 0).
    { destruct RO as [O _]. rewrite orth_dot by auto. rewrite E3, dot_vscale_l, Z. ring. }
    destruct N as [->| ->]; auto. assert (V : dot (vopp (mv a0 a1)) (mv a0 x) = - dot (mv a0 a1) (mv a0 x)) by (la_unfold; ring). lra. }
  assert (NN : dot pn pn = 1).
  { assert (G : dot (mv a0 a1) (mv a0 a1) = 1) by (destruct RO as [O _]; rewrite orth_dot; auto).
    destruct N as [->| ->]; auto. assert (V : dot (vopp (mv a0 a1)) (vopp (mv a0 a1)) = dot (mv a0 a1) (mv a0 a1)) by (la_unfold; ring). lra. }
  repeat (split; [now auto|]). split; [apply F; rewrite dot_comm; apply dot_cross_l|].
  split; [apply F; rewrite dot_comm; apply dot_cross_r|]. auto.
Qed.
Print Assumptions C15_calculate_ub_matrix.

(** * C16 *)
(** The peak direction is always right, and the line of the plane normal is always vertical. *)
Theorem C16_one_peak : forall g p v1 v2 b ei ef u a c,
  find_u_from_one_peak_and_scattering_plane p v1 v2 b (r_mat_inv g) ei ef = Ok u ->
  hkl p = vadd (vscale a v1) (vscale c v2) ->
  exists m up, measured g ei ef (angles p) m /\ vertical g (angles p) up /\ rotation u /\
    parallel (mv u (mv b (hkl p))) m /\
    let n := mv u (cross (mv b v1) (mv b v2)) in n <> vzero /\ (parallel n up \/ parallel (vopp n) up).
Proof.
  intros g p v1 v2 b ei ef u a c H IP.
  destruct (u_one_peak _ _ _ _ _ _ _ _ H) as (m & up & M & UP & RO & P & TZ & PT).
  exists m, up. split; auto. split; auto. split; auto. split; auto. cbv zeta.
  assert (K : exists k, plane_third b (hkl p) v1 v2 = vscale k (cross (mv b v1) (mv b v2))).
  { unfold plane_third. destruct (Rlt_dec _ _).
    - exists (a * rsign (dot v1 (hkl p))). rewrite cross_vscale_r. rewrite IP at 2. rewrite mv_vadd, !mv_vscale.
      generalize (rsign (dot v1 (hkl p))), (mv b v1), (mv b v2). vring.
    - exists (- c * rsign (dot v2 (hkl p))). rewrite cross_vscale_r. rewrite IP at 2. rewrite mv_vadd, !mv_vscale.
      generalize (rsign (dot v2 (hkl p))), (mv b v1), (mv b v2). vring. }
  destruct K as (k & K). set (n := cross (mv b v1) (mv b v2)) in *.
  assert (NZ : n <> vzero) by (intros Z; apply TZ; rewrite K, Z; vring).
  assert (KZ : k <> 0) by (intros Z; apply TZ; rewrite K, Z; vring).
  split.
  - intros Z. apply NZ. apply norm_zero. destruct RO as [O _]. rewrite <- (orth_norm u) by auto. rewrite Z. apply norm_vzero.
  - rewrite K, mv_vscale in PT. destruct PT as (q & Q & E).
    assert (X : mv u n = vscale (q / k) up).
    { assert (Y : mv u n = vscale (/ k) (vscale k (mv u n))) by (rewrite vscale_vscale, Rinv_l, vscale_1; auto).
      rewrite Y, E, vscale_vscale. f_equal. unfold Rdiv. ring. }
    destruct (Rlt_dec 0 k) as [L|L].
    + left. exists (q / k). split; auto. apply Rdiv_lt_0_compat; auto.
    + right. exists (q / - k). split; [apply Rdiv_lt_0_compat; lra|]. rewrite X.
      replace (q / - k) with (- (q / k)) by (field; lra). generalize (q / k). vring.
Qed.
Print Assumptions C16_one_peak.

(** When the two plane vectors are orthogonal as index triples and the peak is nearer to the first one, the normal
    v1 x v2 goes up, as promised. Missing for the full property: every other peak, see the refutation below. *)
Theorem C16_normal_up : forall g p v1 v2 b ei ef u a c,
  find_u_from_one_peak_and_scattering_plane p v1 v2 b (r_mat_inv g) ei ef = Ok u ->
  hkl p = vadd (vscale a v1) (vscale c v2) -> dot v1 v2 = 0 -> Rabs (dot v2 (hkl p)) < Rabs (dot v1 (hkl p)) ->
  exists m up, measured g ei ef (angles p) m /\ vertical g (angles p) up /\ rotation u /\
    parallel (mv u (mv b (hkl p))) m /\ parallel (mv u (cross (mv b v1) (mv b v2))) up.
Proof.
  intros g p v1 v2 b ei ef u a c H IP O L.
  destruct (u_one_peak _ _ _ _ _ _ _ _ H) as (m & up & M & UP & RO & P & TZ & PT).
  exists m, up. repeat (split; [now auto|]).
  unfold plane_third in PT. destruct (Rlt_dec _ _) as [_|N]; [|contradiction].
  assert (D : dot v1 (hkl p) = a * dot v1 v1) by (rewrite IP, dot_vadd_r, !dot_vscale_r, O; ring).
  assert (A : 0 < a * rsign (dot v1 (hkl p))).
  { pose proof (dot_nonneg v1). assert (dot v1 (hkl p) <> 0). { intros Z. rewrite Z, Rabs_R0 in L. pose proof (Rabs_pos (dot v2 (hkl p))). lra. }
    unfold rsign. destruct (Rlt_dec 0 (dot v1 (hkl p))); [nra|]. destruct (Rlt_dec (dot v1 (hkl p)) 0); nra. }
  rewrite cross_vscale_r in PT.
  assert (X : vscale (rsign (dot v1 (hkl p))) (cross (mv b (hkl p)) (mv b v2)) =
              vscale (a * rsign (dot v1 (hkl p))) (cross (mv b v1) (mv b v2))).
  { rewrite IP at 2. rewrite mv_vadd, !mv_vscale. generalize (rsign (dot v1 (hkl p))), (mv b v1), (mv b v2). vring. }
  rewrite X, mv_vscale in PT. destruct PT as (q & Q & E).
  exists (q / (a * rsign (dot v1 (hkl p)))). split; [apply Rdiv_lt_0_compat; auto|].
  set (k := a * rsign (dot v1 (hkl p))) in *. set (n := cross (mv b v1) (mv b v2)) in *.
  assert (Y : mv u n = vscale (/ k) (vscale k (mv u n))) by (rewrite vscale_vscale, Rinv_l, vscale_1; lra || auto).
  rewrite Y, E, vscale_vscale. f_equal. unfold Rdiv. ring.
Qed.
Print Assumptions C16_normal_up.

(** Finding: for every other in-plane peak the normal v1 x v2 is turned upside down. *)
Theorem C16_normal_down : forall g p v1 v2 b ei ef u a c,
  find_u_from_one_peak_and_scattering_plane p v1 v2 b (r_mat_inv g) ei ef = Ok u ->
  hkl p = vadd (vscale a v1) (vscale c v2) -> dot v1 v2 = 0 -> Rabs (dot v1 (hkl p)) <= Rabs (dot v2 (hkl p)) ->
  exists up, vertical g (angles p) up /\ parallel (vopp (mv u (cross (mv b v1) (mv b v2)))) up.
Proof.
  intros g p v1 v2 b ei ef u a c H IP O L.
  destruct (u_one_peak _ _ _ _ _ _ _ _ H) as (m & up & M & UP & RO & P & TZ & PT).
  exists up. split; auto.
  unfold plane_third in PT, TZ. destruct (Rlt_dec _ _) as [N|_]; [lra|].
  assert (D : dot v2 (hkl p) = c * dot v2 v2) by (rewrite IP, dot_vadd_r, !dot_vscale_r, (dot_comm v2 v1), O; ring).
  assert (NZ : dot v2 (hkl p) <> 0).
  { intros Z. apply TZ. rewrite Z. unfold rsign. destruct (Rlt_dec 0 0); [lra|]. vring. }
  assert (A : 0 < c * rsign (dot v2 (hkl p))).
  { pose proof (dot_nonneg v2).
    unfold rsign. destruct (Rlt_dec 0 (dot v2 (hkl p))); [nra|]. destruct (Rlt_dec (dot v2 (hkl p)) 0); nra. }
  rewrite cross_vscale_r in PT.
  assert (X : vscale (rsign (dot v2 (hkl p))) (cross (mv b (hkl p)) (mv b v1)) =
              vscale (c * rsign (dot v2 (hkl p))) (vopp (cross (mv b v1) (mv b v2)))).
  { rewrite IP at 2. rewrite mv_vadd, !mv_vscale. generalize (rsign (dot v2 (hkl p))), (mv b v1), (mv b v2). vring. }
  rewrite X, mv_vscale in PT. destruct PT as (q & Q & E).
  exists (q / (c * rsign (dot v2 (hkl p)))). split; [apply Rdiv_lt_0_compat; auto|].
  set (k := c * rsign (dot v2 (hkl p))) in *. set (n := cross (mv b v1) (mv b v2)) in *.
  assert (V : vopp (mv u n) = mv u (vopp n)) by vring.
  assert (Y : mv u (vopp n) = vscale (/ k) (vscale k (mv u (vopp n)))) by (rewrite vscale_vscale, Rinv_l, vscale_1; lra || auto).
  rewrite V, Y, E, vscale_vscale. f_equal. unfold Rdiv. ring.
Qed.
Print Assumptions C16_normal_down.

(** A result is returned whenever the measured Q is not zero, the peak is in the plane of two independent vectors
    (orthogonal as index triples) and B is invertible. *)
Lemma cross_mv_nonzero : forall b x y, det b <> 0 -> cross x y <> vzero -> cross (mv b x) (mv b y) <> vzero.
Proof.
  intros b x y D N Z. pose proof (det_cross b x y (cross x y)) as E. rewrite Z in E.
  assert (Z0 : dot vzero (mv b (cross x y)) = 0) by (la_unfold; ring). rewrite Z0 in E.
  apply N. apply dot_zero. symmetry in E. apply Rmult_integral in E. tauto.
Qed.

Theorem C16_defined : forall g p v1 v2 b ei ef m a c,
  measured g ei ef (angles p) m -> m <> vzero -> det b <> 0 -> cross v1 v2 <> vzero -> dot v1 v2 = 0 ->
  hkl p = vadd (vscale a v1) (vscale c v2) -> hkl p <> vzero ->
  exists u, find_u_from_one_peak_and_scattering_plane p v1 v2 b (r_mat_inv g) ei ef = Ok u.
Proof.
  intros g p v1 v2 b ei ef m a c M MZ D NC O IP HZ.
  assert (UP : exists up, vertical g (angles p) up).
  { pose proof M as M'. apply measured_lab in M'. destruct M' as (l & i & _ & I & _). exists (mv i (V 0 1 0)).
    apply vertical_lab; eauto. }
  destruct UP as (up & UP). eapply u_one_peak_ok; eauto.
  assert (D1 : dot v1 (hkl p) = a * dot v1 v1) by (rewrite IP, dot_vadd_r, !dot_vscale_r, O; ring).
  assert (D2 : dot v2 (hkl p) = c * dot v2 v2) by (rewrite IP, dot_vadd_r, !dot_vscale_r, (dot_comm v2 v1), O; ring).
  destruct (cross_nonzero _ _ NC) as (Z1 & Z2 & _). apply norm_pos in Z1, Z2.
  assert (P1 : 0 < dot v1 v1) by (rewrite <- norm_sq; nra). assert (P2 : 0 < dot v2 v2) by (rewrite <- norm_sq; nra).
  assert (SG : forall x, x <> 0 -> rsign x <> 0).
  { intros x X. unfold rsign. destruct (Rlt_dec 0 x); [lra|]. destruct (Rlt_dec x 0); lra. }
  pose proof (cross_mv_nonzero b v1 v2 D NC) as NZ. set (n := cross (mv b v1) (mv b v2)) in *.
  assert (KZ : forall k, k <> 0 -> vscale k n <> vzero).
  { intros k K Z. apply NZ. apply norm_zero. apply (f_equal norm) in Z. rewrite norm_vscale, norm_vzero in Z.
    apply Rmult_integral in Z. destruct Z as [Z|Z]; auto. apply Rabs_no_R0 in K. contradiction. }
  unfold plane_third. destruct (Rlt_dec _ _) as [L|L].
  - assert (X : cross (mv b (hkl p)) (vscale (rsign (dot v1 (hkl p))) (mv b v2)) = vscale (a * rsign (dot v1 (hkl p))) n).
    { unfold n. rewrite IP at 1. rewrite mv_vadd, !mv_vscale. generalize (rsign (dot v1 (hkl p))), (mv b v1), (mv b v2). vring. }
    rewrite X. apply KZ. assert (NZ1 : dot v1 (hkl p) <> 0). { intros Z. rewrite Z, Rabs_R0 in L. pose proof (Rabs_pos (dot v2 (hkl p))). lra. }
    apply Rmult_integral_contrapositive_currified; auto. intros ->. apply NZ1. rewrite D1. ring.
  - assert (X : cross (mv b (hkl p)) (vscale (rsign (dot v2 (hkl p))) (mv b v1)) = vscale (- c * rsign (dot v2 (hkl p))) n).
    { unfold n. rewrite IP at 1. rewrite mv_vadd, !mv_vscale. generalize (rsign (dot v2 (hkl p))), (mv b v1), (mv b v2). vring. }
    rewrite X. apply KZ. assert (NZ2 : dot v2 (hkl p) <> 0).
    { intros Z. rewrite Z, Rabs_R0 in L. assert (Z' : dot v1 (hkl p) = 0).
      { destruct (Req_dec (dot v1 (hkl p)) 0); auto. apply Rabs_pos_lt in H. lra. }
      rewrite D1 in Z'. rewrite D2 in Z. assert (a = 0) by nra. assert (c = 0) by nra. subst. apply HZ. rewrite IP. vring. }
    apply Rmult_integral_contrapositive_currified; auto. intros E. apply NZ2. rewrite D2. assert (c = 0) by lra. subst; ring.
Qed.
Print Assumptions C16_defined.

(** An elastic peak measured with every table motor at zero. *)
Definition huber0 : goniometer := Goniometer "Y,Z,X" (Some "-"%string) default_limits.
Definition pos (th om sl : R) : motor_angles := MotorAngles th (Some om) (Some sl) (Some 0) None None.
Definition e4 : R := 2.072124855 * (2 * 2).

Lemma wavenumber_e4 : wavenumber e4 2.
Proof. split; [lra|]. unfold e4. lra. Qed.

Lemma turn_0 : forall k v, turn k 0 v = v.
Proof. intros k v. unfold turn. replace (0 * PI / 180) with 0 by field. cbv zeta. rewrite sin_0, cos_0. vring. Qed.

Lemma measured_e4 : forall om sl, exists r m, r_mat huber0 (pos 90 om sl) = Ok r /\ measured huber0 e4 e4 (pos 90 om sl) m /\
  mv r m = V (-2) 0 2 /\ (forall v, mv r v = turn ey om (turn ez sl v)).
Proof.
  intros om sl. destruct (r_mat_huber_action huber0 false false false (pos 90 om sl) om sl 0) as (r & H & A); try reflexivity.
  exists r, (mv (tr r) (V (-2) 0 2)). split; auto.
  assert (E : mv r (mv (tr r) (V (-2) 0 2)) = V (-2) 0 2).
  { rewrite <- mv_mm, rotation_tr_r, mv_id; auto. apply (r_mat_is_rotation _ _ _ H). }
  split; [|split; auto].
  - exists 2, 2, r. split; [apply wavenumber_e4|]. split; [apply wavenumber_e4|]. split; auto. rewrite E. cbn [two_theta pos].
    unfold transfer. replace (90 * PI / 180) with (PI / 2) by field. rewrite sin_PI2, cos_PI2. vring.
  - intros v. rewrite A. cbn [sg]. rewrite Rmult_0_r, turn_0, !Rmult_1_l. reflexivity.
Qed.

Theorem C16_normal_up_refuted : exists g p v1 v2 b ei ef u up,
  find_u_from_one_peak_and_scattering_plane p v1 v2 b (r_mat_inv g) ei ef = Ok u /\
  hkl p = v2 /\ dot v1 v2 = 0 /\ det b <> 0 /\ vertical g (angles p) up /\
  ~ parallel (mv u (cross (mv b v1) (mv b v2))) up.
Proof.
  destruct (measured_e4 0 0) as (r & m & H & M & E & _).
  set (p := Peak (V 0 1 0) (pos 90 0 0)).
  assert (MZ : m <> vzero). { intros Z. rewrite Z, mv_vzero in E. apply (f_equal vz) in E. cbn in E. lra. }
  assert (D : det mid <> 0) by (rewrite det_mid; lra).
  assert (IP : hkl p = vadd (vscale 0 (V 1 0 0)) (vscale 1 (V 0 1 0))) by (unfold p; cbn [hkl]; vring).
  assert (O : dot (V 1 0 0) (V 0 1 0) = 0) by (la_unfold; ring).
  destruct (C16_defined huber0 p (V 1 0 0) (V 0 1 0) mid e4 e4 m 0 1) as (u & U); auto.
  { intros Z. apply (f_equal vz) in Z. cbn in Z. lra. }
  { cbn [hkl]; intros Z. apply (f_equal vy) in Z. cbn in Z. lra. }
  destruct (C16_normal_down _ _ _ _ _ _ _ _ 0 1 U IP O) as (up & UP & k & K & Q).
  { cbn [hkl p]. la_unfold. rewrite !Rmult_0_l, !Rmult_0_r, !Rplus_0_l, Rplus_0_r, Rmult_1_l, Rabs_R0, Rabs_R1. lra. }
  exists huber0, p, (V 1 0 0), (V 0 1 0), mid, e4, e4, u, up. repeat (split; [now auto|]).
  intros (k' & K' & Q'). rewrite Q' in Q.
  assert (UPZ : up = vzero).
  { assert (X : vscale (k + k') up = vzero).
    { assert (Y : vscale (k + k') up = vadd (vscale k up) (vscale k' up)) by vring. rewrite Y, <- Q. vring. }
    rewrite <- (vscale_1 up). replace 1 with (/ (k + k') * (k + k')) by (field; lra). rewrite <- vscale_vscale, X. vring. }
  destruct UP as (r' & _ & F). rewrite UPZ, mv_vzero in F. apply (f_equal vy) in F. cbn in F. lra.
Qed.
Print Assumptions C16_normal_up_refuted.

Example C16_ex : exists u m, measured huber0 e4 e4 (pos 90 0 0) m /\ m <> vzero /\
  find_u_from_one_peak_and_scattering_plane (Peak (V 2 1 0) (pos 90 0 0)) (V 1 0 0) (V 0 1 0) mid (r_mat_inv huber0) e4 e4 = Ok u
  /\ Rabs (dot (V 0 1 0) (V 2 1 0)) < Rabs (dot (V 1 0 0) (V 2 1 0)).
Proof.
  destruct (measured_e4 0 0) as (r & m & H & M & E & _).
  assert (MZ : m <> vzero). { intros Z. rewrite Z, mv_vzero in E. apply (f_equal vz) in E. cbn in E. lra. }
  destruct (C16_defined huber0 (Peak (V 2 1 0) (pos 90 0 0)) (V 1 0 0) (V 0 1 0) mid e4 e4 m 2 1) as (u & U); auto.
  { rewrite det_mid; lra. }
  { intros Z. apply (f_equal vz) in Z. cbn in Z. lra. }
  { la_unfold; ring. }
  { cbn [hkl]; vring. }
  { cbn [hkl]; intros Z. apply (f_equal vy) in Z. cbn in Z. lra. }
  exists u, m. repeat (split; [now auto|]). la_unfold.
  replace (0 * 2 + 1 * 1 + 0 * 0) with 1 by ring. replace (1 * 2 + 0 * 1 + 0 * 0) with 2 by ring. rewrite !Rabs_right; lra.
Qed.

(** Two peaks a quarter turn apart, from a crystal itself turned by a quarter turn. *)
Definition u_quarter : mat := M 0 0 1 0 1 0 (-1) 0 0.
Lemma u_quarter_rotation : rotation u_quarter.
Proof. unfold u_quarter. split; [mring|]. la_unfold; ring. Qed.

Lemma two_peaks_at : exists m1 m2, measured huber0 e4 e4 (pos 90 0 0) m1 /\ measured huber0 e4 e4 (pos 90 90 0) m2 /\
  m1 = V (-2) 0 2 /\ m2 = V (-2) 0 (-2).
Proof.
  destruct (measured_e4 0 0) as (r1 & m1 & H1 & M1 & E1 & A1). destruct (measured_e4 90 0) as (r2 & m2 & H2 & M2 & E2 & A2).
  rewrite A1, !turn_0 in E1. rewrite A2, turn_0 in E2. exists m1, m2. repeat (split; [now auto|]).
  unfold turn, ey in E2. cbv zeta in E2. replace (90 * PI / 180) with (PI / 2) in E2 by field. rewrite sin_PI2, cos_PI2 in E2.
  destruct m2 as [x y z]. assert (P := f_equal vx E2). assert (Q := f_equal vy E2). assert (W := f_equal vz E2).
  unfold dot in P, Q, W. cbn in P, Q, W. f_equal; lra.
Qed.

Example C15_ex : exists m1 m2, rotation u_quarter /\
  measured huber0 e4 e4 (pos 90 0 0) m1 /\ measured huber0 e4 e4 (pos 90 90 0) m2 /\
  parallel m1 (mv u_quarter (mv mid (V (-1) 0 (-1)))) /\ parallel m2 (mv u_quarter (mv mid (V 1 0 (-1)))) /\
  cross (mv mid (V (-1) 0 (-1))) (mv mid (V 1 0 (-1))) <> vzero.
Proof.
  destruct two_peaks_at as (m1 & m2 & M1 & M2 & E1 & E2). exists m1, m2. split; [apply u_quarter_rotation|].
  repeat (split; [now auto|]). rewrite E1, E2. split; [|split].
  - exists 2. split; [lra|]. unfold u_quarter. vring.
  - exists 2. split; [lra|]. unfold u_quarter. vring.
  - intros Z. apply (f_equal vy) in Z. cbn in Z. unfold dot in Z. cbn in Z. lra.
Qed.

(** The same at the level of TAS.calculate_ub_matrix: what is stored and returned for one peak. *)
Theorem C16_calculate_ub_matrix : forall t p v1 v2 a c t' uc,
  calculate_ub_matrix t [p] (Some (v1, v2)) = (t', Ok (Some uc)) -> hkl p = vadd (vscale a v1) (vscale c v2) ->
  exists ei ef b u m up,
    t_ei_ef t 0 = Ok (ei, ef) /\ s_b_mat (t_sample t) = Ok b /\
    measured (t_goni t) ei ef (angles p) m /\ vertical (t_goni t) (angles p) up /\
    rotation u /\ parallel (mv u (mv b (hkl p))) m /\
    _ub_mat uc = Some (mm u b) /\ convention uc = t_convention t /\ ub_peaks uc = Some [p] /\ _plane_normal uc = Some up /\
    s_ub_conf (t_sample t') = Some uc /\ s_lattice (t_sample t') = s_lattice (t_sample t) /\ t_goni t' = t_goni t.
Proof.
  intros t p v1 v2 a c t' uc H IP. unfold calculate_ub_matrix in H.
  destruct (t_ei_ef t 0) as [[ei ef]|] eqn:E; [|discriminate].
  match type of H with (match ?x with _ => _ end) = _ => destruct x as [uc'|] eqn:X end; [|discriminate].
  injection H as <- <-. bb X. cbn [bind] in X. bb X. bb X. destruct a2 as [pn ipr]. cbn in X. apply Ok_inj in X.
  destruct (C16_one_peak _ _ _ _ _ _ _ _ _ _ E1 IP) as (m & up & M & UP & RO & P & _).
  unfold plane_normal_from_one_peak in E2. bb E2. bb E2. apply Ok_inj in E2. injection E2 as PN _.
  exists ei, ef, a0, a1, m, up. subst uc'. cbn.
  assert (PU : pn = up). { apply vertical_lab in UP. destruct UP as (i & I & ->). rewrite I in E3. apply Ok_inj in E3. subst. auto. }
  subst pn. rewrite PU. repeat (split; [now auto|]). auto.
Qed.
Print Assumptions C16_calculate_ub_matrix.

(** * C17 *)
(** The matrix returned is the only one for which 2 pi UB.hkl is the measured Q for all three peaks. *)
Theorem C17_three_peaks : forall g p1 p2 p3 ei ef ub,
  find_ub_from_three_peaks p1 p2 p3 (r_mat_inv g) ei ef = Ok ub ->
  exists m1 m2 m3, measured g ei ef (angles p1) m1 /\ measured g ei ef (angles p2) m2 /\ measured g ei ef (angles p3) m3 /\
    vscale (2 * PI) (mv ub (hkl p1)) = m1 /\ vscale (2 * PI) (mv ub (hkl p2)) = m2 /\ vscale (2 * PI) (mv ub (hkl p3)) = m3 /\
    forall x, vscale (2 * PI) (mv x (hkl p1)) = m1 -> vscale (2 * PI) (mv x (hkl p2)) = m2 ->
              vscale (2 * PI) (mv x (hkl p3)) = m3 -> x = ub.
Proof.
  intros g p1 p2 p3 ei ef ub H. destruct (ub_three_peaks _ _ _ _ _ _ _ H) as (_ & m1 & m2 & m3 & M1 & M2 & M3 & U).
  exists m1, m2, m3. repeat (split; [now auto|]). destruct (proj1 (U ub) eq_refl) as (A & B & C).
  repeat (split; [now auto|]). intros x A' B' C'. apply U. auto.
Qed.
Print Assumptions C17_three_peaks.

Theorem C17_defined_exactly_when_not_coplanar : forall g p1 p2 p3 ei ef m1 m2 m3,
  measured g ei ef (angles p1) m1 -> measured g ei ef (angles p2) m2 -> measured g ei ef (angles p3) m3 ->
  ((exists ub, find_ub_from_three_peaks p1 p2 p3 (r_mat_inv g) ei ef = Ok ub) <->
   dot (hkl p1) (cross (hkl p2) (hkl p3)) <> 0).
Proof.
  intros g p1 p2 p3 ei ef m1 m2 m3 M1 M2 M3. split.
  - intros (ub & H). apply (ub_three_peaks _ _ _ _ _ _ _ H).
  - intros D. eapply ub_three_peaks_ok; eauto.
Qed.
Print Assumptions C17_defined_exactly_when_not_coplanar.

(** calculate_ub_matrix with three peaks: a triple product below 1e-6 is refused and nothing changes ... *)
Theorem C17_refused : forall t p1 p2 p3 plane ei ef, t_ei_ef t 0 = Ok (ei, ef) ->
  dot (hkl p1) (cross (hkl p2) (hkl p3)) < 1 / 1000000 -> calculate_ub_matrix t [p1; p2; p3] plane = (t, Ok None).
Proof.
  intros t p1 p2 p3 plane ei ef E L. unfold calculate_ub_matrix. rewrite E. unfold coplanar_zero.
  destruct (Rlt_dec _ _) as [_|N]; auto. lra.
Qed.
Print Assumptions C17_refused.

(** ... which includes left-handed triples that determine UB perfectly well: swapping two peaks of an accepted triple. *)
Theorem C17_left_handed_refuted : forall t p1 p2 p3 plane ei ef, t_ei_ef t 0 = Ok (ei, ef) ->
  0 < dot (hkl p1) (cross (hkl p2) (hkl p3)) -> calculate_ub_matrix t [p2; p1; p3] plane = (t, Ok None).
Proof.
  intros t p1 p2 p3 plane ei ef E L. eapply C17_refused; eauto.
  assert (X : dot (hkl p2) (cross (hkl p1) (hkl p3)) = - dot (hkl p1) (cross (hkl p2) (hkl p3))) by (la_unfold; ring). lra.
Qed.
Print Assumptions C17_left_handed_refuted.

(** What an accepted triple (or longer list) stores: UB, a B matrix and lattice parameters belonging to it, the peaks, and
    no plane normal. *)
Definition stored_ub (t t' : tas) (uc : ubconf) (ub : mat) (ps : list peak) : Prop :=
  _ub_mat uc = Some ub /\ ub_peaks uc = Some ps /\ convention uc = t_convention t /\ _plane_normal uc = None /\ _in_plane_ref uc = None /\
  s_ub_conf (t_sample t') = Some uc /\ t_goni t' = t_goni t /\
  exists b u, b_mat_field uc = Some b /\ b_mat_from_lattice (s_lattice (t_sample t')) = Ok b /\ valid_cell (s_lattice (t_sample t')) /\
    mm (tr u) u = mid /\ ub = mm u b.

Lemma store_ub_ok : forall t ub ps, det ub <> 0 -> exists t' uc, store_ub t ub ps = (t', Ok (Some uc)) /\ stored_ub t t' uc ub ps.
Proof.
  intros t ub ps D. destruct (ub_params ub D) as (p & P & VC & G). unfold store_ub, update_lattice_parametres_from_g_star_mat.
  rewrite P. unfold update_lattice_parameters. pose proof VC as (A & B & C & Al & Be & Ga & _).
  assert (CL : check_lattice (lattice_list p) = Ok p).
  { unfold check_lattice, lattice_list. destruct (Rle_dec (la p) 0); [lra|]. destruct (Rle_dec (lb p) 0); [lra|]. destruct (Rle_dec (lc p) 0); [lra|].
    destruct (Rlt_dec (lalpha p) 0); [lra|]. destruct (Rlt_dec 180 (lalpha p)); [lra|].
    destruct (Rlt_dec (lbeta p) 0); [lra|]. destruct (Rlt_dec 180 (lbeta p)); [lra|].
    destruct (Rlt_dec (lgamma p) 0); [lra|]. destruct (Rlt_dec 180 (lgamma p)); [lra|]. destruct p; reflexivity. }
  rewrite CL. unfold s_b_mat. cbn [s_lattice]. rewrite (b_mat_ok p VC). cbn [bind]. unfold new_ubconf. cbn [ub_setattrs ub_setattr bind].
  do 2 eexists. split; [reflexivity|]. unfold stored_ub. cbn. repeat (split; [reflexivity|]).
  destruct (u_of_ub ub p G VC) as (u & _ & _ & O & UB). exists (bclosed p), u.
  repeat (split; [now auto using b_mat_ok|]). auto.
Qed.

Lemma store_ub_inv : forall t ub ps t' uc, det ub <> 0 -> store_ub t ub ps = (t', Ok (Some uc)) -> stored_ub t t' uc ub ps.
Proof. intros t ub ps t' uc D H. destruct (store_ub_ok t ub ps D) as (t2 & uc2 & H2 & S). rewrite H in H2. injection H2 as -> ->. auto. Qed.

Theorem C17_calculate_ub_matrix : forall t p1 p2 p3 plane ei ef m1 m2 m3, t_ei_ef t 0 = Ok (ei, ef) ->
  measured (t_goni t) ei ef (angles p1) m1 -> measured (t_goni t) ei ef (angles p2) m2 -> measured (t_goni t) ei ef (angles p3) m3 ->
  dot m1 (cross m2 m3) <> 0 -> 1 / 1000000 <= dot (hkl p1) (cross (hkl p2) (hkl p3)) ->
  exists ub t' uc, calculate_ub_matrix t [p1; p2; p3] plane = (t', Ok (Some uc)) /\ stored_ub t t' uc ub [p1; p2; p3] /\
    vscale (2 * PI) (mv ub (hkl p1)) = m1 /\ vscale (2 * PI) (mv ub (hkl p2)) = m2 /\ vscale (2 * PI) (mv ub (hkl p3)) = m3.
Proof.
  intros t p1 p2 p3 plane ei ef m1 m2 m3 E M1 M2 M3 NC L.
  destruct (ub_three_peaks_ok _ _ _ _ _ _ _ _ _ M1 M2 M3 ltac:(lra)) as (ub & U).
  destruct (C17_three_peaks _ _ _ _ _ _ _ U) as (m1' & m2' & m3' & M1' & M2' & M3' & A & B & C & _).
  rewrite <- (measured_fun _ _ _ _ _ _ M1 M1') in A. rewrite <- (measured_fun _ _ _ _ _ _ M2 M2') in B.
  rewrite <- (measured_fun _ _ _ _ _ _ M3 M3') in C.
  assert (D : det ub <> 0).
  { intros Z. apply NC. rewrite <- A, <- B, <- C.
    assert (X : dot (vscale (2 * PI) (mv ub (hkl p1))) (cross (vscale (2 * PI) (mv ub (hkl p2))) (vscale (2 * PI) (mv ub (hkl p3)))) =
      2 * PI * (2 * PI) * (2 * PI) * dot (cross (mv ub (hkl p2)) (mv ub (hkl p3))) (mv ub (hkl p1))).
    { generalize (mv ub (hkl p1)), (mv ub (hkl p2)), (mv ub (hkl p3)). intros. la_unfold. ring. }
    rewrite X, det_cross, Z. ring. }
  destruct (store_ub_ok t ub [p1; p2; p3] D) as (t' & uc & H & S). exists ub, t', uc. split; auto.
  unfold calculate_ub_matrix. rewrite E. unfold coplanar_zero. destruct (Rlt_dec _ _) as [N|_]; [lra|]. rewrite U. auto.
Qed.
Print Assumptions C17_calculate_ub_matrix.

(** Finding: after three or more peaks there is no plane normal, so no motor angle can be computed in the normal mode. *)
Theorem C17_no_angles_afterwards : forall t t' uc ub ps h en, stored_ub t t' uc ub ps -> mode (t_goni t) = Ok None ->
  exists e, calculate_motor_angles t' h en = Err e.
Proof.
  intros t t' uc ub ps h en (U & _ & _ & PN & _ & S & G & _) MO. unfold calculate_motor_angles.
  destruct (get_two_theta t' h en); cbn [bind]; [|eauto]. destruct (get_psi t' h en); cbn [bind]; [|eauto].
  destruct (t_ei_ef t' en) as [[ei ef]|]; cbn [bind]; [|eauto]. rewrite S.
  destruct (get_ub_mat uc) as [[m|]|]; cbn [bind]; eauto. rewrite G, MO. cbn [bind].
  unfold r_matrix_with_minimal_tilt. rewrite U, PN. cbn [bind]. eauto.
Qed.
Print Assumptions C17_no_angles_afterwards.

(** * C18 *)
(** The measurement made of each peak: Miller indices and measured Q over 2 pi, in the order of the peaks. *)
Definition observed (g : goniometer) (ei ef : R) (ps : list peak) (data : list (vec * vec)) : Prop :=
  Forall2 (fun p d => fst d = hkl p /\ measured g ei ef (angles p) (vscale (2 * PI) (snd d))) ps data.

Lemma observed_sample : forall g ei ef ps data, observed g ei ef ps data <->
  Forall2 (fun p d => fst d = hkl p /\ q_sample p (r_mat_inv g) ei ef = Ok (snd d)) ps data.
Proof.
  assert (X : forall g ei ef p q, measured g ei ef (angles p) (vscale (2 * PI) q) <-> q_sample p (r_mat_inv g) ei ef = Ok q).
  { intros g ei ef p q. split.
    - intros M. rewrite (q_sample_ok _ _ _ _ _ M). f_equal. symmetry. apply two_pi_scale. auto.
    - intros S. destruct (q_sample_inv _ _ _ _ _ S) as (m & M & ->). replace (vscale (2 * PI) (vscale (/ (2 * PI)) m)) with m; auto.
      symmetry. apply two_pi_scale. auto. }
  intros g ei ef ps data. split; intros F; induction F as [|p d ps data [A B] F IH]; constructor; auto; (split; [auto|apply X; auto]).
Qed.

Lemma many_spec : forall g ei ef ps data, observed g ei ef ps data ->
  find_ub_from_multiple_peaks ps (r_mat_inv g) ei ef = do vi <- minv (hh data); Ok (mm (tr (hq data)) (tr vi)).
Proof.
  intros g ei ef ps data O. apply observed_sample in O. unfold find_ub_from_multiple_peaks.
  rewrite (accumulate_ok _ _ _ _ _ O). cbn [bind]. rewrite !(madd_comm _ mzero), !madd_zero. reflexivity.
Qed.

Lemma fst_observed : forall g ei ef ps data, observed g ei ef ps data -> map fst data = map hkl ps.
Proof. intros g ei ef ps data O. induction O as [|p d ps data [A B] O IH]; cbn; congruence. Qed.

(** The result is the unique minimiser of the summed squared residual. *)
Theorem C18_least_squares : forall g ei ef ps ub, find_ub_from_multiple_peaks ps (r_mat_inv g) ei ef = Ok ub ->
  exists data, observed g ei ef ps data /\
    forall x, residual ub data <= residual x data /\ (residual x data = residual ub data -> x = ub).
Proof.
  intros g ei ef ps ub H. pose proof H as H'. unfold find_ub_from_multiple_peaks in H. bb H. destruct a as [qv vv].
  destruct (accumulate_spec _ _ _ _ _ _ _ _ E) as (data & F & _ & _). apply observed_sample in F. exists data. split; auto.
  rewrite (many_spec _ _ _ _ _ F) in H'. destruct (minv (hh data)) as [vi|] eqn:I; [|discriminate]. cbn [bind] in H'. apply Ok_inj in H'.
  destruct (least_squares data vi I) as [A B]. rewrite H' in A, B. auto.
Qed.
Print Assumptions C18_least_squares.

(** It is defined exactly when the indices of the measured peaks span reciprocal space. *)
Theorem C18_defined : forall g ei ef ps data, observed g ei ef ps data ->
  ((exists ub, find_ub_from_multiple_peaks ps (r_mat_inv g) ei ef = Ok ub) <-> spanning (map hkl ps)).
Proof.
  intros g ei ef ps data O. rewrite (many_spec _ _ _ _ _ O), <- (fst_observed _ _ _ _ _ O), hh_invertible. split.
  - intros (ub & H). destruct (minv (hh data)) as [vi|] eqn:I; [|discriminate]. apply minv_spec in I. tauto.
  - intros D. rewrite minv_ok by auto. cbn [bind]. eauto.
Qed.
Print Assumptions C18_defined.

(** Peaks generated by UB0 give UB0 back, whatever their number. *)
Theorem C18_recovers : forall g ei ef ps ub0, spanning (map hkl ps) ->
  (forall p, In p ps -> measured g ei ef (angles p) (vscale (2 * PI) (mv ub0 (hkl p)))) ->
  find_ub_from_multiple_peaks ps (r_mat_inv g) ei ef = Ok ub0.
Proof.
  intros g ei ef ps ub0 S M. set (data := map (fun p => (hkl p, mv ub0 (hkl p))) ps).
  assert (O : observed g ei ef ps data).
  { unfold data, observed. clear S. induction ps as [|p ps IH]; cbn; constructor.
    - split; auto. apply M. left; auto.
    - apply IH. intros; apply M; right; auto. }
  destruct (proj2 (C18_defined _ _ _ _ _ O) S) as (ub & H). rewrite H. f_equal.
  rewrite (many_spec _ _ _ _ _ O) in H. destruct (minv (hh data)) as [vi|] eqn:I; [|discriminate]. cbn [bind] in H. apply Ok_inj in H.
  destruct (least_squares data vi I) as [A B]. rewrite H in A, B. symmetry. apply B.
  assert (Z : residual ub0 data = 0).
  { apply residual_zero_iff. intros d D. unfold data in D. apply in_map_iff in D. destruct D as (p & <- & _). reflexivity. }
  specialize (A ub0). assert (P : 0 <= residual ub data).
  { clear. induction data as [|[h q] l IH]; cbn; [lra|]. pose proof (dot_nonneg (vsub (mv ub h) q)). lra. }
  lra.
Qed.
Print Assumptions C18_recovers.

(** The order of the peaks does not matter, not even for the outcome being defined. *)
Lemma permuted_data : forall g ei ef ps ps', Permutation ps ps' -> forall data, observed g ei ef ps data ->
  exists data', observed g ei ef ps' data' /\ Permutation data data'.
Proof.
  intros g ei ef ps ps' P. induction P; intros data O.
  - inversion O; subst. exists []. split; constructor.
  - inversion O; subst. destruct (IHP _ H3) as (d' & O' & P'). exists (y :: d'). split; [constructor; auto|constructor; auto].
  - inversion O; subst. inversion H3; subst. exists (y1 :: y0 :: l'0). split; [repeat constructor; tauto || auto|constructor].
  - destruct (IHP1 _ O) as (d1 & O1 & P1'). destruct (IHP2 _ O1) as (d2 & O2 & P2'). exists d2. split; auto. eapply perm_trans; eauto.
Qed.

Theorem C18_order_independent : forall g ei ef ps ps' ub, Permutation ps ps' ->
  find_ub_from_multiple_peaks ps (r_mat_inv g) ei ef = Ok ub -> find_ub_from_multiple_peaks ps' (r_mat_inv g) ei ef = Ok ub.
Proof.
  intros g ei ef ps ps' ub P H. destruct (C18_least_squares _ _ _ _ _ H) as (data & O & _).
  destruct (permuted_data _ _ _ _ _ P _ O) as (data' & O' & P'). rewrite (many_spec _ _ _ _ _ O'), <- H, (many_spec _ _ _ _ _ O).
  destruct (hh_perm _ _ P') as [-> ->]. reflexivity.
Qed.
Print Assumptions C18_order_independent.

(** Using every peak twice changes nothing. *)
Theorem C18_duplication : forall g ei ef ps ub,
  find_ub_from_multiple_peaks ps (r_mat_inv g) ei ef = Ok ub -> find_ub_from_multiple_peaks (ps ++ ps) (r_mat_inv g) ei ef = Ok ub.
Proof.
  intros g ei ef ps ub H. destruct (C18_least_squares _ _ _ _ _ H) as (data & O & _).
  assert (O2 : observed g ei ef (ps ++ ps) (data ++ data)) by (apply Forall2_app; auto).
  rewrite (many_spec _ _ _ _ _ O2). rewrite (many_spec _ _ _ _ _ O) in H. destruct (hh_app data data) as [-> ->].
  destruct (minv (hh data)) as [vi|] eqn:I; [|discriminate]. cbn [bind] in H. apply Ok_inj in H.
  apply minv_spec in I. destruct I as (D & I1 & I2).
  assert (X : madd (hh data) (hh data) = mscale 2 (hh data)) by mring. assert (Y : madd (hq data) (hq data) = mscale 2 (hq data)) by mring.
  rewrite X, Y. rewrite (minv_of_left_inv (mscale (/ 2) vi) (mscale 2 (hh data))).
  - cbn [bind]. f_equal. rewrite <- H.
    assert (T : forall k m, tr (mscale k m) = mscale k (tr m)) by mring. rewrite !T, mm_mscale_l, mm_mscale_r, mscale_mscale.
    replace (2 * / 2) with 1 by field. apply mscale_1.
  - rewrite mm_mscale_l, mm_mscale_r, mscale_mscale, I1. replace (/ 2 * 2) with 1 by field. apply mscale_1.
Qed.
Print Assumptions C18_duplication.

(** At the level of calculate_ub_matrix: four peaks or more generated by an invertible UB0 leave UB0 in the sample, together
    with its own lattice parameters. *)
Theorem C18_calculate_ub_matrix : forall t ps plane ei ef ub0, t_ei_ef t 0 = Ok (ei, ef) -> (4 <= List.length ps)%nat ->
  spanning (map hkl ps) -> det ub0 <> 0 ->
  (forall p, In p ps -> measured (t_goni t) ei ef (angles p) (vscale (2 * PI) (mv ub0 (hkl p)))) ->
  exists t' uc, calculate_ub_matrix t ps plane = (t', Ok (Some uc)) /\ stored_ub t t' uc ub0 ps.
Proof.
  intros t ps plane ei ef ub0 E L S D M. destruct (store_ub_ok t ub0 ps D) as (t' & uc & H & SU). exists t', uc. split; auto.
  unfold calculate_ub_matrix. rewrite E. pose proof (C18_recovers _ _ _ _ _ S M) as U.
  destruct ps as [|p1 [|p2 [|p3 [|p4 ps]]]]; cbn in L; try lia. rewrite U. auto.
Qed.
Print Assumptions C18_calculate_ub_matrix.

Lemma third_peak_at : exists m3, measured huber0 e4 e4 (pos 90 0 90) m3 /\ m3 = V 0 2 2.
Proof.
  destruct (measured_e4 0 90) as (r2 & m2 & H2 & M2 & E2 & A2).
  rewrite A2, turn_0 in E2. exists m2. split; auto.
  unfold turn, ez in E2. cbv zeta in E2. replace (90 * PI / 180) with (PI / 2) in E2 by field. rewrite sin_PI2, cos_PI2 in E2.
  destruct m2 as [x y z]. assert (P := f_equal vx E2). assert (Q := f_equal vy E2). assert (W := f_equal vz E2).
  unfold dot in P, Q, W. cbn in P, Q, W. f_equal; lra.
Qed.

Definition ub_ex : mat := mscale (/ (2 * PI)) mid.
Definition peaks_ex : list peak :=
  [Peak (V (-2) 0 2) (pos 90 0 0); Peak (V (-2) 0 (-2)) (pos 90 90 0); Peak (V 0 2 2) (pos 90 0 90); Peak (V (-2) 0 2) (pos 90 0 0)].

Example C18_ex : spanning (map hkl peaks_ex) /\ det ub_ex <> 0 /\
  (forall p, In p peaks_ex -> measured huber0 e4 e4 (angles p) (vscale (2 * PI) (mv ub_ex (hkl p)))).
Proof.
  destruct two_peaks_at as (m1 & m2 & M1 & M2 & E1 & E2). destruct third_peak_at as (m3 & M3 & E3). subst m1 m2 m3.
  pose proof PI_RGT_0 as P. split; [|split].
  - intros [x y z] H. pose proof (H (V (-2) 0 2) (or_introl eq_refl)) as A. pose proof (H (V (-2) 0 (-2)) (or_intror (or_introl eq_refl))) as B.
    pose proof (H (V 0 2 2) (or_intror (or_intror (or_introl eq_refl)))) as C. unfold dot in A, B, C. cbn in A, B, C. unfold vzero. f_equal; lra.
  - unfold ub_ex. rewrite det_mscale, det_mid, Rmult_1_r. assert (0 < / (2 * PI)) by (apply Rinv_0_lt_compat; lra). apply Rgt_not_eq. repeat apply Rmult_lt_0_compat; auto.
  - assert (X : forall v, vscale (2 * PI) (mv ub_ex v) = v).
    { intros v. unfold ub_ex. rewrite mv_mscale, mv_id, vscale_vscale. replace (2 * PI * / (2 * PI)) with 1 by (field; lra). apply vscale_1. }
    intros p H. rewrite X. unfold peaks_ex in H. cbn in H. destruct H as [<-|[<-|[<-|[<-|[]]]]]; auto.
Qed.

Example C17_ex : exists m1 m2 m3, measured huber0 e4 e4 (pos 90 0 0) m1 /\ measured huber0 e4 e4 (pos 90 90 0) m2 /\
  measured huber0 e4 e4 (pos 90 0 90) m3 /\ dot m1 (cross m2 m3) <> 0 /\
  1 / 1000000 <= dot (V (-2) 0 2) (cross (V 0 2 2) (V (-2) 0 (-2))).
Proof.
  destruct two_peaks_at as (m1 & m2 & M1 & M2 & E1 & E2). destruct third_peak_at as (m3 & M3 & E3).
  exists m1, m2, m3. repeat (split; [now auto|]). subst. unfold dot, cross. cbn. split; lra.
Qed.

(** * C19 *)
Lemma lab_frame : frame ez ex ey.
Proof. unfold frame, ez, ex, ey. la_unfold. cbn. repeat split; try ring. f_equal; ring. Qed.

Lemma uv_closed : forall u v p, valid_cell p -> cross (mv (bclosed p) u) (mv (bclosed p) v) <> vzero ->
  exists u1 u2 u3, frame u1 u2 u3 /\ unit_of (mv (bclosed p) u) = Ok u1 /\
    (exists s k, 0 < k /\ mv (bclosed p) v = vadd (vscale s u1) (vscale k u2)) /\
    uv_to_ub_matrix u v p = Ok (mm (mm (of_cols ez ex ey) (tr (of_cols u1 u2 u3))) (bclosed p)).
Proof.
  intros u v p VC NC. destruct (triad_ok _ _ NC) as (u1 & u2 & u3 & U1 & U2 & U3).
  destruct (triad_frame _ _ _ _ _ U1 U2 U3) as (F & B). exists u1, u2, u3. split; auto. split; auto. split; auto.
  unfold uv_to_ub_matrix. rewrite (b_mat_ok p VC). cbn [bind]. cbv zeta. rewrite U1, U2, U3. cbn [bind].
  rewrite (rotation_minv _ (frame_rotation _ _ _ F)). cbn [bind]. f_equal. rewrite mm_assoc. reflexivity.
Qed.

(** For any non-collinear u, v the result is U.B with U the one rotation that sends u along the beam (z) and v into the
    horizontal half-plane (z, +x). *)
Theorem C19_uv_to_ub : forall u v p b, valid_cell p -> b_mat_from_lattice p = Ok b -> cross u v <> vzero ->
  exists r, rotation r /\ uv_to_ub_matrix u v p = Ok (mm r b) /\
    parallel (mv (mm r b) u) ez /\ half_plane ez ex (mv (mm r b) v) /\
    forall w, rotation w -> parallel (mv (mm w b) u) ez -> half_plane ez ex (mv (mm w b) v) -> w = r.
Proof.
  intros u v p b VC B NC. rewrite (b_mat_ok p VC) in B. apply Ok_inj in B. subst b.
  assert (D : det (bclosed p) <> 0) by (pose proof (bclosed_det p VC); lra).
  destruct (uv_closed u v p VC (cross_mv_nonzero _ _ _ D NC)) as (u1 & u2 & u3 & F & U1 & (s & k & K & BV) & E).
  destruct (carry _ _ _ _ _ _ F lab_frame) as (_ & RU & C1 & C2 & C3). set (r := mm (of_cols ez ex ey) (tr (of_cols u1 u2 u3))) in *.
  exists r. split; auto. split; auto. rewrite !mv_mm. pose proof (unit_scale _ _ U1) as S1.
  pose proof (unit_of_spec _ _ U1) as (_ & N1 & _).
  split; [|split].
  - rewrite S1, mv_vscale, C1. exists (norm (mv (bclosed p) u)). auto.
  - rewrite BV, mv_vadd, !mv_vscale, C1, C2. exists s, k. auto.
  - intros w W P H. rewrite mv_mm in P, H. destruct P as (q & Q & P). destruct H as (s0 & k0 & K0 & H).
    assert (W1 : mv w u1 = ez).
    { rewrite S1, mv_vscale in P. assert (X : mv w u1 = vscale (q / norm (mv (bclosed p) u)) ez).
      { assert (Y : mv w u1 = vscale (/ norm (mv (bclosed p) u)) (vscale (norm (mv (bclosed p) u)) (mv w u1))).
        { rewrite vscale_vscale, Rinv_l, vscale_1 by lra. auto. }
        rewrite Y, P, vscale_vscale. f_equal. unfold Rdiv. ring. }
      assert (NN : norm (mv w u1) = 1). { destruct W as [O _]. rewrite orth_norm by auto. destruct F as (D1 & _). apply norm_of_sq; lra. }
      assert (NE : norm ez = 1) by (apply norm_of_sq; [lra | unfold ez; la_unfold; cbn; ring]).
      rewrite X, norm_vscale, NE, Rabs_right in NN by (apply Rle_ge, Rlt_le, Rdiv_lt_0_compat; auto).
      rewrite X. rewrite Rmult_1_r in NN. rewrite NN, vscale_1. auto. }
    assert (W2 : mv w u2 = ex).
    { rewrite BV, mv_vadd, !mv_vscale, W1 in H.
      assert (X : mv w u2 = vadd (vscale ((s0 - s) / k) ez) (vscale (k0 / k) ex)).
      { assert (H' := f_equal (fun z => vscale (/ k) (vsub z (vscale s ez))) H). cbv beta in H'.
        transitivity (vscale (/ k) (vsub (vadd (vscale s ez) (vscale k (mv w u2))) (vscale s ez))).
        - generalize (mv w u2) ez. intros x y. apply vec_eq; la_unfold; field; lra.
        - rewrite H'. generalize ez ex. intros. apply vec_eq; la_unfold; field; lra. }
      assert (OR : dot (mv w u1) (mv w u2) = 0). { destruct W as [OW _]. rewrite orth_dot by auto. apply F. }
      assert (NN : dot (mv w u2) (mv w u2) = 1). { destruct W as [OW _]. rewrite orth_dot by auto. apply F. }
      rewrite W1, X in OR. rewrite X in NN. unfold ez, ex, vadd, vscale, dot in OR, NN. cbn in OR, NN.
      assert (C : 0 < k0 / k) by (apply Rdiv_lt_0_compat; auto). rewrite X.
      set (c := (s0 - s) / k) in *. set (d := k0 / k) in *. clearbody c d. assert (c = 0) by lra. subst c. assert (d = 1) by nra. subst d.
      unfold ez, ex. vring. }
    apply (rotation_determined w r u1 u2 u3); auto; congruence.
Qed.
Print Assumptions C19_uv_to_ub.

(** uv_to_ub_matrix inverts ub_matrix_to_uv for every UB = U.B. *)
Theorem C19_round_trip : forall p b r, valid_cell p -> b_mat_from_lattice p = Ok b -> rotation r ->
  exists u v, ub_matrix_to_uv (mm r b) = Ok (u, v) /\ uv_to_ub_matrix u v p = Ok (mm r b).
Proof.
  intros p b r VC B RO. pose proof B as B'. rewrite (b_mat_ok p VC) in B'. apply Ok_inj in B'. subst b.
  assert (D : det (bclosed p) <> 0) by (pose proof (bclosed_det p VC); lra).
  assert (DU : det (mm r (bclosed p)) <> 0) by (rewrite det_mm; destruct RO as [_ ->]; lra).
  unfold ub_matrix_to_uv. rewrite (minv_ok _ DU). cbn [bind]. set (i := mscale _ _).
  destruct (minv_spec _ _ (minv_ok _ DU)) as [_ [I1 I2]]. fold i in I1, I2.
  exists (mv i (V 0 0 1)), (mv i (V 1 0 0)). split; auto.
  assert (NC : cross (mv i (V 0 0 1)) (mv i (V 1 0 0)) <> vzero).
  { apply cross_mv_nonzero; [apply (left_inv_det _ _ I2)|]. intros Z. apply (f_equal vy) in Z. cbn in Z. lra. }
  destruct (C19_uv_to_ub _ _ _ _ VC B NC) as (w & W & E & _ & _ & UN). rewrite E. f_equal. f_equal. symmetry. apply UN; auto.
  - rewrite <- mv_mm, I2, mv_id. exists 1. split; [lra|]. unfold ez. vring.
  - rewrite <- mv_mm, I2, mv_id. exists 0, 1. split; [lra|]. unfold ez, ex. vring.
Qed.
Print Assumptions C19_round_trip.

(** Collinear u and v are not turned into a matrix. *)
Theorem C19_collinear : forall u v p, valid_cell p -> cross u v = vzero -> exists e, uv_to_ub_matrix u v p = Err e.
Proof.
  intros u v p VC Z. unfold uv_to_ub_matrix. rewrite (b_mat_ok p VC). cbn [bind]. cbv zeta.
  assert (X : cross (mv (bclosed p) u) (mv (bclosed p) v) = vzero).
  { apply dot_zero. destruct (Req_dec (dot (cross (mv (bclosed p) u) (mv (bclosed p) v)) (cross (mv (bclosed p) u) (mv (bclosed p) v))) 0) as [|N]; auto.
    exfalso. assert (D : det (bclosed p) <> 0) by (pose proof (bclosed_det p VC); lra).
    destruct (minv_spec _ _ (minv_ok _ D)) as [_ [I1 I2]]. set (i := mscale _ _) in *.
    set (c := cross (mv (bclosed p) u) (mv (bclosed p) v)) in *.
    assert (Y : c = mv (bclosed p) (mv i c)) by (rewrite <- mv_mm, I2, mv_id; auto).
    apply N. rewrite Y at 2. unfold c at 1. rewrite det_cross, Z. la_unfold. ring. }
  rewrite X. destruct (unit_of (mv (bclosed p) u)); cbn [bind]; [|eauto].
  destruct (unit_of (cross vzero (mv (bclosed p) u))); cbn [bind]; [|eauto].
  unfold unit_of. rewrite norm_vzero. destruct (Req_EM_T 0 0); [|lra]. cbn [bind]. eauto.
Qed.
Print Assumptions C19_collinear.

Example C19_ex : valid_cell cell1 /\ rotation u_quarter /\ cross (V 1 2 0) (V 0 1 (-1)) <> vzero.
Proof.
  split; [apply cell1_valid|]. split; [apply u_quarter_rotation|]. intros Z. apply (f_equal vx) in Z. cbn in Z. lra.
Qed.
