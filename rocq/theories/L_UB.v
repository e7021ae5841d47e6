(** Lemmas about orientation matrices. *)
From Coq Require Import Reals Lra Psatz List Permutation.
From Verif Require Import Base LinAlg S_Geom S_Energy S_UB M_Utilities M_Lattice M_Goni M_UB L_LinAlg L_Utilities L_Lattice L_Goni.
Import ListNotations.
Open Scope R_scope.

Ltac bb H := break_bind H.

Lemma frame_decompose : forall a b c v, frame a b c ->
  v = vadd (vscale (dot v a) a) (vadd (vscale (dot v b) b) (vscale (dot v c) c)).
Proof.
  intros a b c v F. pose proof (frame_rotation a b c F) as [O _]. apply left_inv_right_inv in O.
  rewrite <- (mv_id v) at 1. rewrite <- O, mv_mm, mv_of_cols. f_equal; [|f_equal].
  all: f_equal; la_unfold; ring.
Qed.

Lemma unit_scale : forall v u, unit_of v = Ok u -> v = vscale (norm v) u.
Proof.
  intros v u H. apply unit_of_spec in H. destruct H as (_ & N & -> & _). rewrite vscale_vscale.
  replace (norm v * / norm v) with 1 by (field; lra). rewrite vscale_1; auto.
Qed.

Lemma unit_parallel : forall v u, unit_of v = Ok u -> parallel u v.
Proof. intros v u H. apply unit_of_spec in H. destruct H as (_ & N & -> & _). exists (/ norm v). split; auto. apply Rinv_0_lt_compat; auto. Qed.

Lemma norm_cross_perp : forall a c, dot a c = 0 -> norm (cross c a) = norm c * norm a.
Proof.
  intros a c H. apply norm_of_sq. - pose proof (norm_nonneg a); pose proof (norm_nonneg c); nra.
  - rewrite lagrange, (dot_comm c a), H, <- !norm_sq. ring.
Qed.

Lemma triad_frame : forall a b u1 u2 u3,
  unit_of a = Ok u1 -> unit_of (cross (cross a b) a) = Ok u2 -> unit_of (cross a b) = Ok u3 ->
  frame u1 u2 u3 /\ exists s k, 0 < k /\ b = vadd (vscale s u1) (vscale k u2).
Proof.
  intros a b u1 u2 u3 H1 H2 H3.
  apply unit_of_spec in H1. apply unit_of_spec in H2. apply unit_of_spec in H3.
  destruct H1 as (_ & N1 & E1 & D1). destruct H2 as (_ & N2 & E2 & D2). destruct H3 as (_ & N3 & E3 & D3).
  assert (P : dot a (cross a b) = 0) by apply dot_cross_l.
  pose proof (norm_cross_perp a (cross a b) P) as NC.
  assert (F : frame u1 u2 u3).
  { unfold frame. rewrite D1, D2, D3. subst u1 u2 u3. rewrite !dot_vscale_l, !dot_vscale_r.
    assert (Z1 : dot a (cross (cross a b) a) = 0) by apply dot_cross_r.
    assert (Z2 : dot (cross (cross a b) a) (cross a b) = 0) by (rewrite dot_comm; apply dot_cross_l).
    rewrite Z1, Z2, P. repeat split; try ring.
    rewrite cross_vscale_l, cross_vscale_r, vscale_vscale, NC, triple_cross, P, <- norm_sq.
    set (na := norm a) in *. set (nc := norm (cross a b)) in *. clearbody na nc.
    generalize (cross a b) as c. intros c. apply vec_eq; la_unfold; field; lra. }
  split; auto. exists (dot b u1), (dot b u2). split.
  - subst u2. rewrite dot_vscale_r. apply Rmult_lt_0_compat; [apply Rinv_0_lt_compat; auto|].
    assert (L : dot b (cross (cross a b) a) = dot (cross a b) (cross a b)) by (la_unfold; ring). rewrite L, <- norm_sq. nra.
  - rewrite (frame_decompose u1 u2 u3 b F) at 1.
    assert (Z : dot b u3 = 0). { subst u3. rewrite dot_vscale_r, dot_cross_r. ring. }
    rewrite Z. generalize (dot b u1), (dot b u2). intros. apply vec_eq; la_unfold; ring.
Qed.

Lemma cross_nonzero : forall a b, cross a b <> vzero -> a <> vzero /\ b <> vzero /\ cross (cross a b) a <> vzero.
Proof.
  intros a b H. assert (A : a <> vzero) by (intros ->; apply H; vring). split; auto.
  split; [intros ->; apply H; vring|]. intros Z.
  pose proof (norm_cross_perp a (cross a b) (dot_cross_l a b)) as N. rewrite Z, norm_vzero in N.
  apply norm_pos in H. apply norm_pos in A. nra.
Qed.

Lemma triad_ok : forall a b, cross a b <> vzero -> exists u1 u2 u3,
  unit_of a = Ok u1 /\ unit_of (cross (cross a b) a) = Ok u2 /\ unit_of (cross a b) = Ok u3.
Proof.
  intros a b H. destruct (cross_nonzero a b H) as (A & _ & C). rewrite (unit_of_ok a A), (unit_of_ok _ C), (unit_of_ok _ H).
  do 3 eexists; repeat split; reflexivity.
Qed.

(** The rotation carrying one frame onto another. *)
Lemma carry : forall h1 h2 h3 s1 s2 s3, frame h1 h2 h3 -> frame s1 s2 s3 ->
  minv (of_cols h1 h2 h3) = Ok (tr (of_cols h1 h2 h3)) /\
  let u := mm (of_cols s1 s2 s3) (tr (of_cols h1 h2 h3)) in
  rotation u /\ mv u h1 = s1 /\ mv u h2 = s2 /\ mv u h3 = s3.
Proof.
  intros h1 h2 h3 s1 s2 s3 H S. pose proof (frame_rotation _ _ _ H) as RH. pose proof (frame_rotation _ _ _ S) as RS.
  split; [apply rotation_minv; auto|]. intros u. assert (RU : rotation u) by (apply rotation_mm; auto; apply rotation_tr; auto).
  split; auto.
  assert (E : mm u (of_cols h1 h2 h3) = of_cols s1 s2 s3).
  { unfold u. destruct RH as [O _]. rewrite <- mm_assoc, O, mm_id_r; auto. }
  rewrite mm_of_cols in E. assert (C0 := f_equal col0 E). assert (C1 := f_equal col1 E). assert (C2 := f_equal col2 E).
  clear E. destruct (mv u h1), (mv u h2), (mv u h3), s1, s2, s3. cbn in C0, C1, C2. auto.
Qed.

(** A rotation is determined by its action on the first two vectors of a frame. *)
Lemma rotation_determined : forall u w h1 h2 h3, rotation u -> rotation w -> frame h1 h2 h3 ->
  mv u h1 = mv w h1 -> mv u h2 = mv w h2 -> u = w.
Proof.
  intros u w h1 h2 h3 U W F E1 E2. pose proof F as (_ & _ & _ & _ & _ & _ & X).
  assert (E3 : mv u h3 = mv w h3). { rewrite <- X, <- !rotation_cross, E1, E2; auto. }
  pose proof (frame_rotation _ _ _ F) as [O _]. apply (mm_cancel_r _ _ (of_cols h1 h2 h3)).
  - apply (left_inv_det _ _ O).
  - rewrite !mm_of_cols, E1, E2, E3. reflexivity.
Qed.

Lemma unit_of_scale : forall k v u, 0 < k -> unit_of v = Ok u -> unit_of (vscale k v) = Ok u.
Proof.
  intros k v u K H. apply unit_of_spec in H. destruct H as (Z & N & -> & _).
  rewrite unit_of_ok. - rewrite norm_vscale, Rabs_right by lra. f_equal. rewrite vscale_vscale. f_equal. field. lra.
  - intros E. assert (L : norm (vscale k v) = 0) by (rewrite E; apply norm_vzero). rewrite norm_vscale, Rabs_right in L by lra. nra.
Qed.

Lemma unit_of_rotated : forall r v u, rotation r -> unit_of v = Ok u -> unit_of (mv r v) = Ok (mv r u).
Proof.
  intros r v u [O D] H. apply unit_of_spec in H. destruct H as (Z & N & -> & _).
  rewrite unit_of_ok. - rewrite orth_norm by auto. rewrite mv_vscale. auto.
  - intros E. pose proof (orth_norm r v O) as L. rewrite E, norm_vzero in L. lra.
Qed.

(** ** Measured vectors *)
Lemma wavenumber_en2q : forall e k, wavenumber e k <-> en2q e = Ok k.
Proof.
  intros e k. split.
  - intros [K E]. rewrite en2q_ok by nra. f_equal. rewrite E. replace (2.072124855 * (k * k) / ksq2eng) with (k * k).
    + apply sqrt_square; auto.
    + replace 2.072124855 with ksq2eng by (unfold ksq2eng; lra). field. pose proof ksq_pos; lra.
  - intros H. apply en2q_nonneg in H. destruct H as (K & _ & E). split; [auto | unfold ksq2eng in E; lra].
Qed.

Lemma transfer_lab : forall ei ef th ki kf, en2q ei = Ok ki -> en2q ef = Ok kf -> q_lab ei ef th = Ok (transfer ki kf th).
Proof.
  intros. rewrite (q_lab_eq _ _ _ _ _ H H0). f_equal. unfold transfer, deg2rad. la_unfold. apply vec_eq; cbn; ring.
Qed.

Lemma measured_lab : forall g ei ef a m, measured g ei ef a m <->
  exists l i, q_lab ei ef (two_theta a) = Ok l /\ r_mat_inv g a = Ok i /\ m = mv i l.
Proof.
  intros g ei ef a m. split.
  - intros (ki & kf & r & Wi & Wf & R & E). apply wavenumber_en2q in Wi. apply wavenumber_en2q in Wf.
    exists (transfer ki kf (two_theta a)), (tr r). split; [apply transfer_lab; auto|].
    unfold r_mat_inv. rewrite R. split; auto. rewrite <- E. apply r_mat_is_rotation in R. destruct R as [O _].
    rewrite <- mv_mm, O, mv_id; auto.
  - intros (l & i & L & I & ->). unfold q_lab, q_lab_gen in L. destruct (en2q ei) as [ki|] eqn:Ki; [|discriminate].
    destruct (en2q ef) as [kf|] eqn:Kf; [|discriminate]. fold (q_lab_gen ei ef (two_theta a) 0) in L.
    assert (L2 : q_lab ei ef (two_theta a) = Ok l) by (unfold q_lab, q_lab_gen; rewrite Ki, Kf; exact L).
    rewrite (transfer_lab _ _ _ _ _ Ki Kf) in L2. apply Ok_inj in L2. subst l.
    unfold r_mat_inv in I. destruct (r_mat g a) as [r|] eqn:R; [|discriminate]. cbn in I. apply Ok_inj in I. subst i.
    exists ki, kf, r. rewrite !wavenumber_en2q. repeat split; auto.
    apply r_mat_is_rotation in R. rewrite <- mv_mm, rotation_tr_r, mv_id; auto.
Qed.

Lemma measured_fun : forall g ei ef a m m', measured g ei ef a m -> measured g ei ef a m' -> m = m'.
Proof.
  intros g ei ef a m m' H H'. apply measured_lab in H. apply measured_lab in H'.
  destruct H as (l & i & L & I & ->). destruct H' as (l' & i' & L' & I' & ->).
  rewrite L in L'. rewrite I in I'. apply Ok_inj in L', I'. subst. auto.
Qed.

Lemma vertical_lab : forall g a u, vertical g a u <-> exists i, r_mat_inv g a = Ok i /\ u = mv i (V 0 1 0).
Proof.
  intros g a u. unfold vertical, r_mat_inv, ey. split.
  - intros (r & R & E). rewrite R. exists (tr r). split; auto. rewrite <- E. apply r_mat_is_rotation in R. destruct R as [O _].
    rewrite <- mv_mm, O, mv_id; auto.
  - intros (i & I & ->). destruct (r_mat g a) as [r|] eqn:R; [|discriminate]. cbn in I. apply Ok_inj in I. subst i.
    exists r. split; auto. apply r_mat_is_rotation in R. rewrite <- mv_mm, rotation_tr_r, mv_id; auto.
Qed.

(** ** Two peaks *)
Lemma u_two_peaks : forall g p1 p2 b ei ef u, find_u_from_two_peaks p1 p2 b (r_mat_inv g) ei ef = Ok u ->
  exists m1 m2, measured g ei ef (angles p1) m1 /\ measured g ei ef (angles p2) m2 /\
    rotation u /\ parallel (mv u (mv b (hkl p1))) m1 /\ half_plane m1 m2 (mv u (mv b (hkl p2))) /\
    forall w, rotation w -> parallel (mv w (mv b (hkl p1))) m1 -> half_plane m1 m2 (mv w (mv b (hkl p2))) -> w = u.
Proof.
  intros g p1 p2 b ei ef u H. unfold find_u_from_two_peaks in H. cbv zeta in H.
  bb H. bb H. bb H. bb H. bb H. bb H. bb H. bb H. bb H. bb H. bb H. apply Ok_inj in H. subst u.
  rename a into h1, a0 into h2, a1 into h3, a2 into l1, a3 into l2, a4 into r1, a5 into r2, a6 into s1, a7 into s2, a8 into s3, a9 into hi.
  set (m1 := mv r1 l1) in *. set (m2 := mv r2 l2) in *.
  exists m1, m2. split; [apply measured_lab; eauto|]. split; [apply measured_lab; eauto|].
  destruct (triad_frame _ _ _ _ _ E E0 E1) as (FH & s & k & K & B2).
  destruct (triad_frame _ _ _ _ _ E6 E7 E8) as (FS & s' & k' & K' & B2').
  destruct (carry _ _ _ _ _ _ FH FS) as (MI & RU & U1 & U2 & U3). rewrite MI in E9. apply Ok_inj in E9. subst hi.
  set (u := mm (of_cols s1 s2 s3) (tr (of_cols h1 h2 h3))) in *.
  pose proof (unit_scale _ _ E) as S1. pose proof (unit_scale _ _ E6) as S6.
  apply unit_of_spec in E. destruct E as (_ & N1 & _). apply unit_of_spec in E6. destruct E6 as (_ & N6 & S6' & _).
  split; auto. split; [|split].
  - rewrite S1, mv_vscale, U1. rewrite S6. exists (norm (mv b (hkl p1)) / norm m1). split; [apply Rdiv_lt_0_compat; auto|].
    rewrite vscale_vscale. f_equal. field. lra.
  - rewrite B2, mv_vadd, !mv_vscale, U1, U2.
    assert (X : s2 = vadd (vscale (- s' / k') s1) (vscale (/ k') m2)).
    { rewrite B2'. apply vec_eq; la_unfold; field; lra. }
    rewrite X. exists ((s - k * s' / k') / norm m1), (k / k'). split; [apply Rdiv_lt_0_compat; auto|].
    rewrite S6'. revert N6. generalize (norm m1), m1, m2. intros n x y N6. apply vec_eq; la_unfold; field; lra.
  - intros w W [q [Q P]] (s0 & k0 & K0 & HP).
    apply (rotation_determined w u h1 h2 h3); auto.
    + rewrite U1. rewrite S1, mv_vscale in P. assert (P2 : mv w h1 = vscale (q / norm (mv b (hkl p1))) m1).
      { rewrite <- (vscale_1 (mv w h1)). replace 1 with (/ norm (mv b (hkl p1)) * norm (mv b (hkl p1))) by (field; lra).
        rewrite <- vscale_vscale, P, vscale_vscale. f_equal. field. lra. }
      assert (N : norm (mv w h1) = 1).
      { destruct W as [OW _]. rewrite orth_norm by auto. destruct FH as (D & _). apply norm_of_sq; lra. }
      rewrite P2, norm_vscale, Rabs_right in N by (apply Rle_ge, Rlt_le, Rdiv_lt_0_compat; auto).
      rewrite P2, S6, vscale_vscale. rewrite N, vscale_1. auto.
    + (* w h2 is the component of m2 orthogonal to s1, up to a positive factor *)
      assert (W1 : mv w h1 = s1).
      { rewrite S1, mv_vscale in P. assert (P2 : mv w h1 = vscale (q / norm (mv b (hkl p1))) m1).
        { rewrite <- (vscale_1 (mv w h1)). replace 1 with (/ norm (mv b (hkl p1)) * norm (mv b (hkl p1))) by (field; lra).
          rewrite <- vscale_vscale, P, vscale_vscale. f_equal. field. lra. }
        assert (N : norm (mv w h1) = 1).
        { destruct W as [OW _]. rewrite orth_norm by auto. destruct FH as (D & _). apply norm_of_sq; lra. }
        rewrite P2, norm_vscale, Rabs_right in N by (apply Rle_ge, Rlt_le, Rdiv_lt_0_compat; auto).
        rewrite P2, S6, vscale_vscale. rewrite N, vscale_1. auto. }
      rewrite B2, mv_vadd, !mv_vscale, W1, S6, B2' in HP.
      assert (X : mv w h2 = vadd (vscale ((s0 * norm m1 + k0 * s' - s) / k) s1) (vscale (k0 * k' / k) s2)).
      { assert (HP' := f_equal (fun z => vscale (/ k) (vsub z (vscale s s1))) HP). cbv beta in HP'.
        transitivity (vscale (/ k) (vsub (vadd (vscale s s1) (vscale k (mv w h2))) (vscale s s1))).
        - generalize (mv w h2). intros x. apply vec_eq; la_unfold; field; lra.
        - rewrite HP'. generalize s1, s2, (norm m1). intros. apply vec_eq; la_unfold; field; lra. }
      assert (OR : dot (mv w h1) (mv w h2) = 0). { destruct W as [OW _]. rewrite orth_dot by auto. apply FH. }
      assert (NN : dot (mv w h2) (mv w h2) = 1). { destruct W as [OW _]. rewrite orth_dot by auto. apply FH. }
      destruct FS as (D1 & D2 & D3 & D12 & _).
      assert (Z : (s0 * norm m1 + k0 * s' - s) / k = 0).
      { rewrite W1, X, dot_vadd_r, !dot_vscale_r, D1, D12 in OR. lra. }
      rewrite Z in X. rewrite X in NN. rewrite dot_vadd_l, !dot_vadd_r, !dot_vscale_l, !dot_vscale_r, D1, D2, (dot_comm s2 s1), D12 in NN.
      assert (C : 0 < k0 * k' / k) by (apply Rdiv_lt_0_compat; auto; nra).
      assert (C1 : k0 * k' / k = 1) by nra. rewrite X, C1, U2. apply vec_eq; la_unfold; ring.
Qed.

Lemma u_two_peaks_ok : forall g p1 p2 b ei ef m1 m2,
  measured g ei ef (angles p1) m1 -> measured g ei ef (angles p2) m2 ->
  cross (mv b (hkl p1)) (mv b (hkl p2)) <> vzero -> cross m1 m2 <> vzero ->
  exists u, find_u_from_two_peaks p1 p2 b (r_mat_inv g) ei ef = Ok u.
Proof.
  intros g p1 p2 b ei ef m1 m2 M1 M2 H C. apply measured_lab in M1, M2.
  destruct M1 as (l1 & i1 & L1 & I1 & ->). destruct M2 as (l2 & i2 & L2 & I2 & ->).
  unfold find_u_from_two_peaks. cbv zeta. destruct (triad_ok _ _ H) as (h1 & h2 & h3 & H1 & H2 & H3).
  destruct (triad_ok _ _ C) as (s1 & s2 & s3 & S1 & S2 & S3).
  rewrite H1, H2, H3, L1, L2, I1, I2. cbn [bind]. rewrite S1, S2, S3. cbn [bind].
  destruct (triad_frame _ _ _ _ _ H1 H2 H3) as (FH & _). rewrite (rotation_minv _ (frame_rotation _ _ _ FH)). cbn [bind]. eauto.
Qed.

(** ** One peak and a plane *)
Definition plane_third (b : mat) (h v1 v2 : vec) : vec :=
  cross (mv b h) (if Rlt_dec (Rabs (dot v2 h)) (Rabs (dot v1 h)) then vscale (rsign (dot v1 h)) (mv b v2)
                  else vscale (rsign (dot v2 h)) (mv b v1)).

Lemma perp_frame : forall a n s1 s2 s3, dot n a = 0 ->
  unit_of a = Ok s1 -> unit_of (cross n a) = Ok s2 -> unit_of n = Ok s3 -> frame s1 s2 s3.
Proof.
  intros a n s1 s2 s3 P H1 H2 H3. pose proof (unit_of_spec _ _ H1) as (_ & N1 & _).
  assert (S : 0 < norm a * norm a) by nra.
  assert (X : cross a (cross n a) = vscale (norm a * norm a) n).
  { rewrite triple_cross, (dot_comm a n), P, <- norm_sq. apply vec_eq; la_unfold; ring. }
  apply (triad_frame a (cross n a) s1 s2 s3); auto.
  - rewrite X, cross_vscale_l. apply unit_of_scale; auto.
  - rewrite X. apply unit_of_scale; auto.
Qed.

Lemma q_lab_horizontal : forall ei ef th l, q_lab ei ef th = Ok l -> vy l = 0.
Proof.
  intros ei ef th l H. unfold q_lab, q_lab_gen in H. bb H. bb H. apply Ok_inj in H. subst l. cbn.
  replace (deg2rad 0) with 0 by (unfold deg2rad; field). rewrite sin_0. ring.
Qed.

Lemma u_one_peak : forall g p v1 v2 b ei ef u,
  find_u_from_one_peak_and_scattering_plane p v1 v2 b (r_mat_inv g) ei ef = Ok u ->
  exists m up, measured g ei ef (angles p) m /\ vertical g (angles p) up /\ rotation u /\
    parallel (mv u (mv b (hkl p))) m /\ plane_third b (hkl p) v1 v2 <> vzero /\
    parallel (mv u (plane_third b (hkl p) v1 v2)) up.
Proof.
  intros g p v1 v2 b ei ef u H. unfold find_u_from_one_peak_and_scattering_plane in H. cbv zeta in H.
  unfold plane_third.
  match type of H with context [if Rlt_dec ?a ?b then ?x else ?y] => set (q2p := if Rlt_dec a b then x else y) in * end.
  clearbody q2p.
  bb H. bb H. bb H. bb H. bb H. bb H. bb H. bb H. bb H. apply Ok_inj in H. subst u.
  rename a into h1, a0 into h2, a1 into h3, a2 into l1, a3 into r1, a4 into s1, a5 into s2, a6 into s3, a7 into hi.
  set (m := mv r1 l1) in *. set (up := mv r1 (V 0 1 0)) in *.
  assert (ME : measured g ei ef (angles p) m) by (apply measured_lab; eauto).
  assert (VE : vertical g (angles p) up) by (apply vertical_lab; eauto).
  assert (RO : rotation r1).
  { unfold r_mat_inv in E3. destruct (r_mat g (angles p)) as [r|] eqn:R; [|discriminate]. cbn in E3. apply Ok_inj in E3. subst r1.
    apply rotation_tr, (r_mat_is_rotation _ _ _ R). }
  assert (P : dot up m = 0).
  { unfold up, m. destruct RO as [O _]. rewrite orth_dot by auto. apply q_lab_horizontal in E2. la_unfold. rewrite E2. ring. }
  destruct (triad_frame _ _ _ _ _ E E0 E1) as (FH & _).
  pose proof (perp_frame _ _ _ _ _ P E4 E5 E6) as FS.
  destruct (carry _ _ _ _ _ _ FH FS) as (MI & RU & U1 & U2 & U3). rewrite MI in E7. apply Ok_inj in E7. subst hi.
  set (u := mm (of_cols s1 s2 s3) (tr (of_cols h1 h2 h3))) in *.
  exists m, up. split; auto. split; auto. split; auto.
  assert (PAR : forall x xh y ys, unit_of x = Ok xh -> unit_of y = Ok ys -> mv u xh = ys -> parallel (mv u x) y).
  { intros x xh y ys X Y M. rewrite (unit_scale _ _ X), mv_vscale, M.
    apply unit_of_spec in X. apply unit_of_spec in Y. destruct X as (_ & NX & _). destruct Y as (_ & NY & -> & _).
    exists (norm x / norm y). split; [apply Rdiv_lt_0_compat; auto|]. rewrite vscale_vscale. reflexivity. }
  split; [apply (PAR _ h1 _ s1); auto|]. split; [apply unit_of_spec in E1; tauto|]. apply (PAR _ h3 _ s3); auto.
Qed.

Lemma u_one_peak_ok : forall g p v1 v2 b ei ef m up,
  measured g ei ef (angles p) m -> vertical g (angles p) up -> m <> vzero -> plane_third b (hkl p) v1 v2 <> vzero ->
  exists u, find_u_from_one_peak_and_scattering_plane p v1 v2 b (r_mat_inv g) ei ef = Ok u.
Proof.
  intros g p v1 v2 b ei ef m up ME VE MZ PZ. apply measured_lab in ME. apply vertical_lab in VE.
  destruct ME as (l & i & L & I & ->). destruct VE as (i' & I' & ->). rewrite I in I'. apply Ok_inj in I'. subst i'.
  unfold find_u_from_one_peak_and_scattering_plane. cbv zeta. unfold plane_third in PZ.
  match goal with |- context [if Rlt_dec ?a ?b then ?x else ?y] => set (q2p := if Rlt_dec a b then x else y) in * end. clearbody q2p.
  destruct (triad_ok _ _ PZ) as (h1 & h2 & h3 & H1 & H2 & H3). rewrite H1, H2, H3, L, I. cbn [bind].
  assert (RO : rotation i).
  { unfold r_mat_inv in I. destruct (r_mat g (angles p)) as [r|] eqn:R; [|discriminate]. cbn in I. apply Ok_inj in I. subst i.
    apply rotation_tr, (r_mat_is_rotation _ _ _ R). }
  assert (UP : norm (mv i (V 0 1 0)) = 1).
  { destruct RO as [O _]. rewrite orth_norm by auto. apply norm_of_sq; [lra|]. la_unfold; ring. }
  assert (P : dot (mv i (V 0 1 0)) (mv i l) = 0).
  { destruct RO as [O _]. rewrite orth_dot by auto. apply q_lab_horizontal in L. la_unfold. rewrite L. ring. }
  assert (UZ : mv i (V 0 1 0) <> vzero) by (intros Z; rewrite Z, norm_vzero in UP; lra).
  assert (CZ : cross (mv i (V 0 1 0)) (mv i l) <> vzero).
  { intros Z. rewrite dot_comm in P. pose proof (norm_cross_perp _ _ P) as N. rewrite Z, norm_vzero, UP in N.
    apply norm_pos in MZ. lra. }
  rewrite (unit_of_ok _ MZ), (unit_of_ok _ CZ), (unit_of_ok _ UZ). cbn [bind].
  destruct (triad_frame _ _ _ _ _ H1 H2 H3) as (FH & _). rewrite (rotation_minv _ (frame_rotation _ _ _ FH)). cbn [bind]. eauto.
Qed.

(** ** Three peaks *)
Lemma q_sample_ok : forall g p ei ef m, measured g ei ef (angles p) m -> q_sample p (r_mat_inv g) ei ef = Ok (vscale (/ (2 * PI)) m).
Proof.
  intros g p ei ef m M. apply measured_lab in M. destruct M as (l & i & L & I & ->). unfold q_sample. rewrite L, I. reflexivity.
Qed.
Lemma q_sample_inv : forall g p ei ef q, q_sample p (r_mat_inv g) ei ef = Ok q ->
  exists m, measured g ei ef (angles p) m /\ q = vscale (/ (2 * PI)) m.
Proof.
  intros g p ei ef q H. unfold q_sample in H. bb H. bb H. apply Ok_inj in H. eexists. split; [apply measured_lab; eauto|]. auto.
Qed.

Lemma of_cols_inj : forall a b c a' b' c', of_cols a b c = of_cols a' b' c' -> a = a' /\ b = b' /\ c = c'.
Proof.
  intros a b c a' b' c' E. assert (C0 := f_equal col0 E). assert (C1 := f_equal col1 E). assert (C2 := f_equal col2 E).
  destruct a, b, c, a', b', c'. cbn in *. auto.
Qed.

Lemma two_pi_scale : forall x y, vscale (2 * PI) x = y <-> x = vscale (/ (2 * PI)) y.
Proof.
  intros x y. pose proof PI_RGT_0. split; intros E; [rewrite <- E | rewrite E]; rewrite vscale_vscale.
  - replace (/ (2 * PI) * (2 * PI)) with 1 by (field; lra). rewrite vscale_1; auto.
  - replace (2 * PI * / (2 * PI)) with 1 by (field; lra). rewrite vscale_1; auto.
Qed.

Lemma det_cols : forall a b c, det (of_cols a b c) = dot a (cross b c).
Proof. intros; la_unfold; ring. Qed.

Lemma ub_three_peaks : forall g p1 p2 p3 ei ef ub,
  find_ub_from_three_peaks p1 p2 p3 (r_mat_inv g) ei ef = Ok ub ->
  dot (hkl p1) (cross (hkl p2) (hkl p3)) <> 0 /\
  exists m1 m2 m3, measured g ei ef (angles p1) m1 /\ measured g ei ef (angles p2) m2 /\ measured g ei ef (angles p3) m3 /\
    forall x, x = ub <-> (vscale (2 * PI) (mv x (hkl p1)) = m1 /\ vscale (2 * PI) (mv x (hkl p2)) = m2 /\ vscale (2 * PI) (mv x (hkl p3)) = m3).
Proof.
  intros g p1 p2 p3 ei ef ub H. unfold find_ub_from_three_peaks in H. cbv zeta in H. bb H. bb H. bb H. bb H. apply Ok_inj in H. subst ub.
  apply q_sample_inv in E, E0, E1. destruct E as (m1 & M1 & ->). destruct E0 as (m2 & M2 & ->). destruct E1 as (m3 & M3 & ->).
  apply minv_spec in E2. destruct E2 as (D & I1 & I2). split; [rewrite <- det_cols; auto|].
  exists m1, m2, m3. split; auto. split; auto. split; auto. intros x. rewrite !two_pi_scale. split.
  - intros ->. apply of_cols_inj. rewrite <- mm_of_cols, <- mm_assoc, I1, mm_id_r. reflexivity.
  - intros (A & B & C). rewrite <- A, <- B, <- C, <- mm_of_cols, <- mm_assoc, I2, mm_id_r. reflexivity.
Qed.

Lemma ub_three_peaks_ok : forall g p1 p2 p3 ei ef m1 m2 m3,
  measured g ei ef (angles p1) m1 -> measured g ei ef (angles p2) m2 -> measured g ei ef (angles p3) m3 ->
  dot (hkl p1) (cross (hkl p2) (hkl p3)) <> 0 ->
  exists ub, find_ub_from_three_peaks p1 p2 p3 (r_mat_inv g) ei ef = Ok ub.
Proof.
  intros g p1 p2 p3 ei ef m1 m2 m3 M1 M2 M3 D. unfold find_ub_from_three_peaks. cbv zeta.
  rewrite (q_sample_ok _ _ _ _ _ M1), (q_sample_ok _ _ _ _ _ M2), (q_sample_ok _ _ _ _ _ M3). cbn [bind].
  rewrite minv_ok by (rewrite det_cols; auto). cbn [bind]. eauto.
Qed.

(** ** Many peaks *)
Fixpoint hh (data : list (vec * vec)) : mat :=
  match data with [] => mzero | (h, _) :: l => add_outer (hh l) h h end.
Fixpoint hq (data : list (vec * vec)) : mat :=
  match data with [] => mzero | (h, q) :: l => add_outer (hq l) h q end.

Lemma madd_assoc : forall a b c, madd a (madd b c) = madd (madd a b) c. Proof. mring. Qed.
Lemma madd_comm : forall a b, madd a b = madd b a. Proof. mring. Qed.
Lemma madd_zero : forall a, madd mzero a = a. Proof. mring. Qed.
Lemma add_outer_madd : forall m n a b, add_outer (madd m n) a b = madd (add_outer m a b) n.
Proof. intros; unfold add_outer; mring. Qed.

Lemma accumulate_spec : forall g ei ef ps qv vv qv' vv', accumulate ps (r_mat_inv g) ei ef qv vv = Ok (qv', vv') ->
  exists data, Forall2 (fun p d => fst d = hkl p /\ q_sample p (r_mat_inv g) ei ef = Ok (snd d)) ps data /\
    qv' = madd (hq data) qv /\ vv' = madd (hh data) vv.
Proof.
  intros g ei ef ps. induction ps as [|p ps IH]; intros qv vv qv' vv' H; cbn [accumulate] in H.
  - apply Ok_inj in H. injection H as <- <-. exists []. split; [constructor|]. cbn. rewrite !madd_zero. auto.
  - bb H. apply IH in H. destruct H as (data & F & -> & ->). exists ((hkl p, a) :: data). split; [constructor; auto|].
    cbn [hq hh]. split; unfold add_outer; mring.
Qed.

Lemma accumulate_ok : forall g ei ef ps data,
  Forall2 (fun p d => fst d = hkl p /\ q_sample p (r_mat_inv g) ei ef = Ok (snd d)) ps data ->
  forall qv vv, accumulate ps (r_mat_inv g) ei ef qv vv = Ok (madd (hq data) qv, madd (hh data) vv).
Proof.
  intros g ei ef ps data F. induction F as [|p [h q] ps data [A B] F IH]; intros qv vv; cbn [accumulate hq hh].
  - rewrite !madd_zero. reflexivity.
  - cbn in A, B. subst h. rewrite B. cbn [bind]. rewrite IH. do 2 f_equal; unfold add_outer; mring.
Qed.

Lemma hh_sym : forall data, tr (hh data) = hh data.
Proof. induction data as [|[h q] l IH]; cbn [hh]; [mring|]. rewrite <- IH at 2. unfold add_outer. mring. Qed.

Lemma dot_hh : forall data n, (forall d, In d data -> dot n (fst d) = 0) -> mv (hh data) n = vzero.
Proof.
  induction data as [|[h q] l IH]; intros n H; cbn [hh]; [vring|].
  assert (Z : dot n h = 0) by (apply (H (h, q)); left; auto). assert (ZL : mv (hh l) n = vzero) by (apply IH; intros; apply H; right; auto).
  assert (E : mv (add_outer (hh l) h h) n = vadd (mv (hh l) n) (vscale (dot n h) h)) by (unfold add_outer; vring).
  rewrite E, Z, ZL. vring.
Qed.

Lemma quad_hh : forall data n, dot n (mv (hh data) n) = 0 -> forall d, In d data -> dot n (fst d) = 0.
Proof.
  assert (NN : forall data n, 0 <= dot n (mv (hh data) n)).
  { induction data as [|[h q] l IH]; intros n; cbn [hh]; [la_unfold; lra|].
    assert (E : dot n (mv (add_outer (hh l) h h) n) = dot n (mv (hh l) n) + dot n h * dot n h) by (unfold add_outer; la_unfold; ring).
    rewrite E. specialize (IH n). nra. }
  induction data as [|[h q] l IH]; intros n H d D; [destruct D|]. cbn [hh] in H.
  assert (E : dot n (mv (add_outer (hh l) h h) n) = dot n (mv (hh l) n) + dot n h * dot n h) by (unfold add_outer; la_unfold; ring).
  rewrite E in H. specialize (NN l n). destruct D as [<-|D]; cbn [fst].
  - nra.
  - apply IH; auto. nra.
Qed.

(** A singular matrix has a null vector. *)
Lemma singular_null : forall m, det m = 0 -> exists v, v <> vzero /\ mv m v = vzero.
Proof.
  intros m D.
  assert (K : forall v, mv m (mv (adj m) v) = vzero).
  { intros v. rewrite <- mv_mm, mm_adj_r, D. vring. }
  destruct (Req_dec (norm (mv (adj m) (V 1 0 0))) 0) as [A|A].
  2:{ exists (mv (adj m) (V 1 0 0)). split; auto. intros Z. apply A. rewrite Z. apply norm_vzero. }
  destruct (Req_dec (norm (mv (adj m) (V 0 1 0))) 0) as [B|B].
  2:{ exists (mv (adj m) (V 0 1 0)). split; auto. intros Z. apply B. rewrite Z. apply norm_vzero. }
  destruct (Req_dec (norm (mv (adj m) (V 0 0 1))) 0) as [C|C].
  2:{ exists (mv (adj m) (V 0 0 1)). split; auto. intros Z. apply C. rewrite Z. apply norm_vzero. }
  apply norm_zero in A, B, C.
  (* all 2x2 minors vanish: rows are parallel *)
  assert (M : adj m = mzero).
  { assert (E : adj m = of_cols (mv (adj m) (V 1 0 0)) (mv (adj m) (V 0 1 0)) (mv (adj m) (V 0 0 1))) by mring.
    rewrite E, A, B, C. mring. }
  assert (C12 : cross (row0 m) (row1 m) = vzero).
  { assert (E : cross (row0 m) (row1 m) = col2 (adj m)) by vring. rewrite E, M. vring. }
  assert (C13 : cross (row0 m) (row2 m) = vzero).
  { assert (E : cross (row0 m) (row2 m) = vscale (-1) (col1 (adj m))) by vring. rewrite E, M. vring. }
  assert (C23 : cross (row1 m) (row2 m) = vzero).
  { assert (E : cross (row1 m) (row2 m) = col0 (adj m)) by vring. rewrite E, M. vring. }
  (* any vector orthogonal to a non-zero row is a null vector *)
  assert (PERP : forall r : vec, exists v, v <> vzero /\ dot r v = 0).
  { intros [x y z]. destruct (Req_dec x 0) as [X|X].
    - exists (V 1 0 0). split; [intros Z; injection Z; lra|]. la_unfold; subst; ring.
    - exists (V y (- x) 0). split; [intros Z; injection Z; lra|]. la_unfold; ring. }
  assert (MVR : forall v, mv m v = V (dot (row0 m) v) (dot (row1 m) v) (dot (row2 m) v)) by vring.
  assert (PAR : forall a b v, cross a b = vzero -> a <> vzero -> dot a v = 0 -> dot b v = 0).
  { intros a b v X N O. assert (L : dot a a * dot b v = dot a b * dot a v + dot (cross a v) (cross a b)) by (la_unfold; ring).
    rewrite X, O in L. assert (Z : dot (cross a v) vzero = 0) by (la_unfold; ring). rewrite Z in L.
    apply norm_pos in N. rewrite <- norm_sq in L. assert (0 < norm a * norm a) by nra. nra. }
  destruct (Req_dec (norm (row0 m)) 0) as [Z0|Z0].
  - apply norm_zero in Z0. destruct (Req_dec (norm (row1 m)) 0) as [Z1|Z1].
    + apply norm_zero in Z1. destruct (PERP (row2 m)) as (v & NV & O). exists v. split; auto. rewrite MVR, Z0, Z1, O. vring.
    + assert (R1 : row1 m <> vzero) by (intros Z; apply Z1; rewrite Z; apply norm_vzero).
      destruct (PERP (row1 m)) as (v & NV & O). exists v. split; auto. rewrite MVR, Z0, O, (PAR _ _ _ C23 R1 O). vring.
  - assert (R0 : row0 m <> vzero) by (intros Z; apply Z0; rewrite Z; apply norm_vzero).
    destruct (PERP (row0 m)) as (v & NV & O). exists v. split; auto. rewrite MVR, O, (PAR _ _ _ C12 R0 O), (PAR _ _ _ C13 R0 O). vring.
Qed.

Lemma hh_invertible : forall data, spanning (map fst data) <-> det (hh data) <> 0.
Proof.
  intros data. split.
  - intros S D. destruct (singular_null _ D) as (v & NV & Z). apply NV. apply S. intros h I. apply in_map_iff in I.
    destruct I as (d & <- & I). apply (quad_hh data v); auto. rewrite Z. la_unfold; ring.
  - intros D n O. assert (Z : mv (hh data) n = vzero).
    { apply dot_hh. intros d I. apply O. apply in_map; auto. }
    apply (mv_inj (hh data)); auto. rewrite Z, mv_vzero. auto.
Qed.

(** Normal equations give the decomposition of the residual. *)
Fixpoint spread (d : mat) (data : list (vec * vec)) : R :=
  match data with [] => 0 | (h, _) :: l => dot (mv d h) (mv d h) + spread d l end.

Definition trace (m : mat) : R := m00 m + m11 m + m22 m.
Definition msub (a b : mat) : mat := madd a (mscale (-1) b).

Lemma mm_add_outer : forall u m a b, mm u (add_outer m a b) = add_outer (mm u m) (mv u a) b.
Proof. intros; unfold add_outer; mring. Qed.
Lemma tr_add_outer : forall m a b, tr (add_outer m a b) = add_outer (tr m) b a.
Proof. intros; unfold add_outer; mring. Qed.
Lemma msub_add_outer : forall m n a c b, msub (add_outer m a b) (add_outer n c b) = add_outer (msub m n) (vsub a c) b.
Proof. intros; unfold add_outer, msub; mring. Qed.
Lemma trace_add_outer : forall w a h d, trace (mm (add_outer w a h) (tr d)) = trace (mm w (tr d)) + dot (mv d h) a.
Proof. intros [] [] [] []; unfold add_outer, trace; la_unfold; ring. Qed.
Lemma mv_msub : forall x u h, mv (msub x u) h = vsub (mv x h) (mv u h).
Proof. intros; unfold msub; vring. Qed.
Lemma trace_mzero : forall d, trace (mm mzero d) = 0.
Proof. intros []; unfold trace; la_unfold; ring. Qed.
Lemma msub_self : forall m, msub m m = mzero.
Proof. intros; unfold msub; mring. Qed.
Lemma mm_mzero : forall m, mm m mzero = mzero.
Proof. mring. Qed.

Lemma residual_shift : forall data x u,
  residual x data = residual u data + spread (msub x u) data
    + 2 * trace (mm (msub (mm u (hh data)) (tr (hq data))) (tr (msub x u))).
Proof.
  induction data as [|[h q] l IH]; intros x u; cbn [residual spread hh hq].
  - replace (tr mzero) with mzero by mring. rewrite mm_mzero, msub_self, trace_mzero. ring.
  - rewrite (IH x u), mm_add_outer, tr_add_outer, msub_add_outer, trace_add_outer.
    rewrite !mv_msub. generalize (mv x h) as a, (mv u h) as b. intros [] [].
    generalize (trace (mm (msub (mm u (hh l)) (tr (hq l))) (tr (msub x u)))), (residual u l), (spread (msub x u) l).
    destruct q. intros. la_unfold. ring.
Qed.

Lemma spread_nonneg : forall d data, 0 <= spread d data.
Proof. induction data as [|[h q] l IH]; cbn [spread]; [lra|]. pose proof (dot_nonneg (mv d h)). lra. Qed.

Lemma spread_zero : forall d data, spread d data = 0 -> forall x, In x data -> mv d (fst x) = vzero.
Proof.
  induction data as [|[h q] l IH]; cbn [spread]; intros H x X; [destruct X|].
  pose proof (dot_nonneg (mv d h)). pose proof (spread_nonneg d l). destruct X as [<-|X]; cbn [fst].
  - apply dot_zero. lra.
  - apply IH; auto. lra.
Qed.

Lemma least_squares : forall data vi, minv (hh data) = Ok vi ->
  let u := mm (tr (hq data)) (tr vi) in
  (forall x, residual u data <= residual x data) /\ (forall x, residual x data = residual u data -> x = u).
Proof.
  intros data vi I u. apply minv_spec in I. destruct I as (D & I1 & I2).
  assert (NE : mm u (hh data) = tr (hq data)).
  { unfold u. rewrite <- mm_assoc. assert (X : mm (tr vi) (hh data) = mid) by (rewrite <- (hh_sym data), <- tr_mm, I2; apply tr_mid).
    rewrite X, mm_id_r. reflexivity. }
  assert (SH : forall x, residual x data = residual u data + spread (msub x u) data).
  { intros x. rewrite (residual_shift data x u), NE.
    assert (Z : trace (mm (msub (tr (hq data)) (tr (hq data))) (tr (msub x u))) = 0).
    { rewrite msub_self. apply trace_mzero. }
    rewrite Z. ring. }
  split.
  - intros x. rewrite (SH x). pose proof (spread_nonneg (msub x u) data). lra.
  - intros x E. rewrite (SH x) in E. assert (Z : spread (msub x u) data = 0) by lra.
    pose proof (spread_zero _ _ Z) as SZ. apply hh_invertible in D.
    assert (ROW : forall r, (forall h, In h (map fst data) -> dot r h = 0) -> r = vzero) by (intros r R; apply D; auto).
    set (dm := msub x u) in *.
    assert (R0 : row0 dm = vzero). { apply ROW. intros h H. apply in_map_iff in H. destruct H as (y & <- & Y). apply SZ in Y. apply (f_equal vx) in Y. la_unfold. exact Y. }
    assert (R1 : row1 dm = vzero). { apply ROW. intros h H. apply in_map_iff in H. destruct H as (y & <- & Y). apply SZ in Y. apply (f_equal vy) in Y. la_unfold. exact Y. }
    assert (R2 : row2 dm = vzero). { apply ROW. intros h H. apply in_map_iff in H. destruct H as (y & <- & Y). apply SZ in Y. apply (f_equal vz) in Y. la_unfold. exact Y. }
    assert (DM : x = madd u (of_rows (row0 dm) (row1 dm) (row2 dm))).
    { unfold dm, msub. mring. }
    rewrite DM, R0, R1, R2. mring.
Qed.

Lemma residual_zero_iff : forall x data, residual x data = 0 <-> forall d, In d data -> mv x (fst d) = snd d.
Proof.
  intros x data. assert (NN : forall l, 0 <= residual x l).
  { induction l as [|[h q] l IH]; cbn; [lra|]. pose proof (dot_nonneg (vsub (mv x h) q)). lra. }
  induction data as [|[h q] l IH]; cbn [residual].
  - split; auto. intros _ d [].
  - pose proof (dot_nonneg (vsub (mv x h) q)) as P. specialize (NN l). split.
    + intros Z d [<-|I]; cbn.
      * assert (Q : vsub (mv x h) q = vzero) by (apply dot_zero; lra).
        assert (E : mv x h = vadd (vsub (mv x h) q) q) by vring. rewrite E, Q. vring.
      * apply IH; auto. lra.
    + intros A. rewrite (proj2 IH) by (intros; apply A; right; auto). rewrite (A (h, q) (or_introl eq_refl) : mv x h = q).
      la_unfold. ring.
Qed.

Lemma hh_perm : forall l l', Permutation l l' -> hh l = hh l' /\ hq l = hq l'.
Proof.
  intros l l' P. induction P as [|[h q] l l' P [IH1 IH2]|[h q] [h' q'] l|l l' l'' P1 [A B] P2 [C D]]; cbn [hh hq]; auto.
  - rewrite IH1, IH2; auto.
  - split; unfold add_outer; generalize (hh l), (hq l); mring.
  - split; congruence.
Qed.

Lemma hh_app : forall l l', hh (l ++ l') = madd (hh l) (hh l') /\ hq (l ++ l') = madd (hq l) (hq l').
Proof.
  induction l as [|[h q] l IH]; intros l'; cbn [hh hq app].
  - rewrite !madd_zero; auto.
  - destruct (IH l') as [-> ->]. split; apply add_outer_madd.
Qed.
