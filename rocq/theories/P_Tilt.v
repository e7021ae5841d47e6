(** Properties C20 and C21: from hkl to motor positions and back. *)
From Coq Require Import Reals Lra Psatz List String.
From Verif Require Import Base LinAlg S_Geom S_Energy S_Lattice S_Goni S_UB M_Utilities M_Lattice M_Goni M_UB M_Sample M_Tas
  L_LinAlg L_Utilities L_Lattice L_Goni L_UB P_Energy P_Lattice P_UB.
Import ListNotations.
Open Scope R_scope.

(** * C20 *)
(** The basis chosen around t1 = UB.hkl for the plane normal n. *)
Definition tilt_basis (u : ubconf) (n t1 : vec) : result (vec * vec) :=
  if Rlt_dec (Rabs (dot t1 n)) tilt_zero then Ok (cross n t1, n)
  else if Rlt_dec (norm (cross n t1)) tilt_zero then
    match _in_plane_ref u with None => Err ValueError | Some ipr => Ok (ipr, cross t1 ipr) end
  else Ok (cross n t1, cross t1 (cross n t1)).

Definition second (t : vec) : vec := V (vz t) 0 (- vx t).

Lemma tilt_inv : forall h ei ef tt u r, r_matrix_with_minimal_tilt h ei ef tt u = Ok r ->
  exists ub n ki kf t2 t3 u1 u2 u3 ti,
    _ub_mat u = Some ub /\ _plane_normal u = Some n /\ wavenumber ei ki /\ wavenumber ef kf /\
    tilt_basis u n (mv ub h) = Ok (t2, t3) /\ unit_of (mv ub h) = Ok u1 /\ unit_of t2 = Ok u2 /\ unit_of t3 = Ok u3 /\
    minv (of_cols u1 u2 u3) = Ok ti /\
    let q := 2 * PI * norm (mv ub h) in let t := transfer ki kf tt in
    r = mm (of_cols (vscale (/ q) t) (vscale (/ q) (second t)) ey) ti.
Proof.
  intros h ei ef tt u r H. unfold r_matrix_with_minimal_tilt in H.
  destruct (_ub_mat u) as [ub|]; [|discriminate]. destruct (_plane_normal u) as [n|]; [|discriminate].
  bb H. bb H. cbv zeta in H. rewrite q_norm_eq in H. unfold fdiv in H.
  destruct (Req_EM_T (2 * PI * norm (mv ub h)) 0) as [Z|NZ]; [discriminate|]. cbn [bind] in H.
  fold (tilt_basis u n (mv ub h)) in H. destruct (tilt_basis u n (mv ub h)) as [[t2 t3]|] eqn:TB; [|discriminate]. cbn [bind] in H.
  bb H. bb H. bb H. bb H. apply Ok_inj in H. subst r.
  exists ub, n, a, a0, t2, t3, a1, a2, a3, a4. apply wavenumber_en2q in E, E0. repeat (split; [now auto|]). cbv zeta.
  f_equal. clear - NZ. revert NZ. generalize (2 * PI * norm (mv ub h)). intros q NZ. unfold transfer, second, deg2rad, ey.
  apply mat_eq; la_unfold; field; auto.
Qed.

Lemma tilt_first : forall u1 u2 u3 ti c1 c2 c3, minv (of_cols u1 u2 u3) = Ok ti ->
  let r := mm (of_cols c1 c2 c3) ti in mv r u1 = c1 /\ mv r u2 = c2 /\ mv r u3 = c3.
Proof.
  intros u1 u2 u3 ti c1 c2 c3 I r. apply minv_spec in I. destruct I as (_ & I1 & _).
  apply of_cols_inj. rewrite <- mm_of_cols. unfold r. rewrite <- mm_assoc, I1, mm_id_r. auto.
Qed.

(** Whatever is returned turns 2 pi UB.hkl exactly onto the laboratory momentum transfer ki - kf at that two theta. *)
Theorem C20_diffraction_condition : forall h ei ef tt u r, r_matrix_with_minimal_tilt h ei ef tt u = Ok r ->
  exists ub ki kf, _ub_mat u = Some ub /\ wavenumber ei ki /\ wavenumber ef kf /\
    mv r (vscale (2 * PI) (mv ub h)) = transfer ki kf tt.
Proof.
  intros h ei ef tt u r H. destruct (tilt_inv _ _ _ _ _ _ H) as (ub & n & ki & kf & t2 & t3 & u1 & u2 & u3 & ti & UB & N & Ki & Kf & TB & U1 & U2 & U3 & I & E).
  exists ub, ki, kf. repeat (split; [now auto|]). cbv zeta in E.
  destruct (tilt_first _ _ _ _ (vscale (/ (2 * PI * norm (mv ub h))) (transfer ki kf tt))
    (vscale (/ (2 * PI * norm (mv ub h))) (second (transfer ki kf tt))) ey I) as (A & _). rewrite <- E in A.
  pose proof (unit_scale _ _ U1) as S. apply unit_of_spec in U1. destruct U1 as (_ & NP & _).
  rewrite S, !mv_vscale, A, !vscale_vscale. pose proof PI_RGT_0.
  replace (2 * PI * norm (mv ub h) * / (2 * PI * norm (mv ub h))) with 1 by (field; split; lra). apply vscale_1.
Qed.
Print Assumptions C20_diffraction_condition.

(** The lab frame built on the momentum transfer is orthonormal when the triangle closes. *)
Lemma lab_triangle_frame : forall ki kf tt q, 0 < q -> norm (transfer ki kf tt) = q ->
  frame (vscale (/ q) (transfer ki kf tt)) (vscale (/ q) (second (transfer ki kf tt))) ey.
Proof.
  intros ki kf tt q Q N. assert (D : dot (transfer ki kf tt) (transfer ki kf tt) = q * q) by (rewrite <- norm_sq, N; auto).
  set (t := transfer ki kf tt) in *. assert (Y : vy t = 0) by (unfold t, transfer; la_unfold; ring). clearbody t. clear N.
  destruct t as [x y z]. cbn in Y. subst y. unfold dot in D. cbn in D.
  assert (D' : x * x + z * z = q * q) by lra. clear D.
  unfold frame, second, ey, vscale, dot, cross. cbn.
  assert (X : (x * x + z * z) / (q * q) = 1) by (rewrite D'; field; lra).
  repeat split.
  1: transitivity ((x * x + z * z) / (q * q)); [field; lra | auto].
  1: transitivity ((x * x + z * z) / (q * q)); [field; lra | auto].
  1: ring. 1: field; lra. 1: field; lra. 1: field; lra.
  f_equal; [field; lra| |field; lra]. transitivity ((x * x + z * z) / (q * q)); [field; lra | auto].
Qed.

(** When the reflection is exactly in the scattering plane, the result is a proper rotation that keeps the plane normal
    vertical. *)
Theorem C20_in_plane : forall h ei ef tt u r ub n ki kf, r_matrix_with_minimal_tilt h ei ef tt u = Ok r ->
  _ub_mat u = Some ub -> _plane_normal u = Some n -> wavenumber ei ki -> wavenumber ef kf ->
  norm (transfer ki kf tt) = 2 * PI * norm (mv ub h) -> dot n (mv ub h) = 0 ->
  rotation r /\ mv r n = vscale (norm n) ey.
Proof.
  intros h ei ef tt u r ub n ki kf H UB N Ki Kf C P.
  destruct (tilt_inv _ _ _ _ _ _ H) as (ub' & n' & ki' & kf' & t2 & t3 & u1 & u2 & u3 & ti & UB' & N' & Ki' & Kf' & TB & U1 & U2 & U3 & I & E).
  rewrite UB in UB'. injection UB' as <-. rewrite N in N'. injection N' as <-.
  apply wavenumber_en2q in Ki, Kf, Ki', Kf'. rewrite Ki in Ki'. rewrite Kf in Kf'. apply Ok_inj in Ki', Kf'. subst ki' kf'. cbv zeta in E.
  unfold tilt_basis in TB. rewrite (dot_comm _ n), P, Rabs_R0 in TB.
  assert (TZ : 0 < tilt_zero) by (unfold tilt_zero; lra). destruct (Rlt_dec 0 tilt_zero) as [_|X]; [|lra].
  apply Ok_inj in TB. injection TB as <- <-. pose proof (perp_frame _ _ _ _ _ P U1 U2 U3) as F.
  pose proof U1 as U1'. apply unit_of_spec in U1'. destruct U1' as (_ & NP & _). pose proof PI_RGT_0.
  assert (Q : 0 < 2 * PI * norm (mv ub h)) by (apply Rmult_lt_0_compat; lra).
  pose proof (lab_triangle_frame _ _ _ _ Q C) as L. rewrite (rotation_minv _ (frame_rotation _ _ _ F)) in I. apply Ok_inj in I. subst ti.
  destruct (carry _ _ _ _ _ _ F L) as (_ & RO & _ & _ & C3). rewrite <- E in RO, C3. split; auto.
  rewrite (unit_scale _ _ U3) at 1. rewrite mv_vscale, C3. auto.
Qed.
Print Assumptions C20_in_plane.

(** Genuinely out of the plane and not along its normal: a proper rotation, and among all rotations satisfying the
    diffraction condition the one with the least tilt (the plane normal is as near the vertical as possible). *)
Theorem C20_out_of_plane : forall h ei ef tt u r ub n ki kf, r_matrix_with_minimal_tilt h ei ef tt u = Ok r ->
  _ub_mat u = Some ub -> _plane_normal u = Some n -> wavenumber ei ki -> wavenumber ef kf ->
  norm (transfer ki kf tt) = 2 * PI * norm (mv ub h) ->
  1 / 100000 <= Rabs (dot n (mv ub h)) -> 1 / 100000 <= norm (cross n (mv ub h)) ->
  rotation r /\
  forall w, rotation w -> mv w (vscale (2 * PI) (mv ub h)) = transfer ki kf tt -> vy (mv w n) <= vy (mv r n).
Proof.
  intros h ei ef tt u r ub n ki kf H UB N Ki Kf C P1 P2.
  destruct (C20_diffraction_condition _ _ _ _ _ _ H) as (ub0 & ki0 & kf0 & UB0 & Ki0 & Kf0 & DC).
  destruct (tilt_inv _ _ _ _ _ _ H) as (ub' & n' & ki' & kf' & t2 & t3 & u1 & u2 & u3 & ti & UB' & N' & Ki' & Kf' & TB & U1 & U2 & U3 & I & E).
  rewrite UB in UB'. injection UB' as <-. rewrite N in N'. injection N' as <-. rewrite UB in UB0. injection UB0 as <-.
  apply wavenumber_en2q in Ki, Kf, Ki', Kf', Ki0, Kf0. rewrite Ki in Ki', Ki0. rewrite Kf in Kf', Kf0.
  apply Ok_inj in Ki', Kf', Ki0, Kf0. subst ki' kf' ki0 kf0. cbv zeta in E.
  unfold tilt_basis in TB. rewrite (dot_comm _ n) in TB. unfold tilt_zero in TB.
  destruct (Rlt_dec (Rabs (dot n (mv ub h))) (/ 100000)); [lra|]. destruct (Rlt_dec (norm (cross n (mv ub h))) (/ 100000)); [lra|].
  apply Ok_inj in TB. injection TB as <- <-. set (t1 := mv ub h) in *.
  assert (F : frame u1 u2 u3).
  { refine (proj1 (triad_frame t1 (cross n t1) u1 u2 u3 _ _ _)); auto.
    assert (X : cross (cross t1 (cross n t1)) t1 = vscale (dot t1 t1) (cross n t1)).
    { generalize t1 n. vring. }
    rewrite X. apply unit_of_scale; auto. apply unit_of_spec in U1. rewrite <- norm_sq. nra. }
  pose proof U1 as U1'. apply unit_of_spec in U1'. destruct U1' as (_ & NP & _). pose proof PI_RGT_0.
  assert (Q : 0 < 2 * PI * norm t1) by (apply Rmult_lt_0_compat; lra).
  pose proof (lab_triangle_frame _ _ _ _ Q C) as L. rewrite (rotation_minv _ (frame_rotation _ _ _ F)) in I. apply Ok_inj in I. subst ti.
  destruct (carry _ _ _ _ _ _ F L) as (_ & RO & C1 & _ & C3). rewrite <- E in RO, C1, C3. split; auto.
  intros w W WC.
  assert (W1 : mv w u1 = mv r u1).
  { assert (X : u1 = vscale (/ (2 * PI * norm t1)) (vscale (2 * PI) t1)).
    { pose proof (unit_of_spec _ _ U1) as (_ & _ & Eu & _). rewrite Eu at 1. rewrite vscale_vscale. f_equal. field. split; lra. }
    rewrite X, !(mv_vscale _ (/ (2 * PI * norm t1))), WC, DC. auto. }
  assert (B : exists al be, 0 <= be /\ n = vadd (vscale al u1) (vscale be u3)).
  { exists (dot n u1), (dot n u3). split.
    - apply unit_of_spec in U3. destruct U3 as (_ & N3 & -> & _). rewrite dot_vscale_r. apply Rmult_le_pos; [left; apply Rinv_0_lt_compat; auto|].
      assert (X : dot n (cross t1 (cross n t1)) = dot (cross n t1) (cross n t1)) by (generalize t1 n; intros; la_unfold; ring).
      rewrite X. apply dot_nonneg.
    - rewrite (frame_decompose u1 u2 u3 n F) at 1.
      assert (Z : dot n u2 = 0). { apply unit_of_spec in U2. destruct U2 as (_ & _ & -> & _). rewrite dot_vscale_r, dot_cross_l. ring. }
      rewrite Z. generalize (dot n u1), (dot n u3). intros. apply vec_eq; la_unfold; ring. }
  destruct B as (al & be & Be & NB). rewrite NB, !mv_vadd, !mv_vscale, W1, C3.
  assert (X : vy (mv w u3) <= 1).
  { assert (D : dot (mv w u3) (mv w u3) = 1). { destruct W as [O _]. rewrite orth_dot by auto. apply F. }
    generalize dependent (mv w u3). intros x D. unfold dot in D. nra. }
  unfold vadd, vscale, ey. cbn [vx vy vz]. nra.
Qed.
Print Assumptions C20_out_of_plane.

(** Along the plane normal the stored reference direction fixes the rotation, provided it is perpendicular to Q. *)
Theorem C20_along_normal : forall h ei ef tt u r ub n ki kf ipr, r_matrix_with_minimal_tilt h ei ef tt u = Ok r ->
  _ub_mat u = Some ub -> _plane_normal u = Some n -> _in_plane_ref u = Some ipr -> wavenumber ei ki -> wavenumber ef kf ->
  norm (transfer ki kf tt) = 2 * PI * norm (mv ub h) ->
  1 / 100000 <= Rabs (dot n (mv ub h)) -> norm (cross n (mv ub h)) < 1 / 100000 -> dot ipr (mv ub h) = 0 ->
  rotation r.
Proof.
  intros h ei ef tt u r ub n ki kf ipr H UB N IP Ki Kf C P1 P2 O.
  destruct (tilt_inv _ _ _ _ _ _ H) as (ub' & n' & ki' & kf' & t2 & t3 & u1 & u2 & u3 & ti & UB' & N' & Ki' & Kf' & TB & U1 & U2 & U3 & I & E).
  rewrite UB in UB'. injection UB' as <-. rewrite N in N'. injection N' as <-.
  apply wavenumber_en2q in Ki, Kf, Ki', Kf'. rewrite Ki in Ki'. rewrite Kf in Kf'. apply Ok_inj in Ki', Kf'. subst ki' kf'. cbv zeta in E.
  unfold tilt_basis in TB. rewrite (dot_comm _ n) in TB. unfold tilt_zero in TB.
  destruct (Rlt_dec (Rabs (dot n (mv ub h))) (/ 100000)); [lra|]. destruct (Rlt_dec (norm (cross n (mv ub h))) (/ 100000)); [|lra].
  rewrite IP in TB. apply Ok_inj in TB. injection TB as <- <-. set (t1 := mv ub h) in *.
  assert (F : frame u1 u2 u3).
  { refine (proj1 (triad_frame t1 ipr u1 u2 u3 _ _ _)); auto.
    assert (X : cross (cross t1 ipr) t1 = vscale (dot t1 t1) ipr).
    { assert (Y : cross (cross t1 ipr) t1 = vsub (vscale (dot t1 t1) ipr) (vscale (dot ipr t1) t1)) by (generalize t1 ipr; vring).
      rewrite Y, O. generalize (dot t1 t1) t1 ipr. vring. }
    rewrite X. apply unit_of_scale; auto. apply unit_of_spec in U1. rewrite <- norm_sq. nra. }
  pose proof U1 as U1'. apply unit_of_spec in U1'. destruct U1' as (_ & NP & _). pose proof PI_RGT_0.
  assert (Q : 0 < 2 * PI * norm t1) by (apply Rmult_lt_0_compat; lra).
  pose proof (lab_triangle_frame _ _ _ _ Q C) as L. rewrite (rotation_minv _ (frame_rotation _ _ _ F)) in I. apply Ok_inj in I. subst ti.
  destruct (carry _ _ _ _ _ _ F L) as (_ & RO & _). rewrite <- E in RO. auto.
Qed.
Print Assumptions C20_along_normal.

(** Finding: closer to the plane than the 1e-5 tolerance but not in it, the matrix is never a rotation. *)
Theorem C20_tolerance_refuted : forall h ei ef tt u r ub n, r_matrix_with_minimal_tilt h ei ef tt u = Ok r ->
  _ub_mat u = Some ub -> _plane_normal u = Some n ->
  0 < Rabs (dot n (mv ub h)) < 1 / 100000 -> ~ rotation r.
Proof.
  intros h ei ef tt u r ub n H UB N [P1 P2] [O _].
  destruct (tilt_inv _ _ _ _ _ _ H) as (ub' & n' & ki & kf & t2 & t3 & u1 & u2 & u3 & ti & UB' & N' & Ki' & Kf' & TB & U1 & U2 & U3 & I & E).
  rewrite UB in UB'. injection UB' as <-. rewrite N in N'. injection N' as <-. cbv zeta in E.
  unfold tilt_basis in TB. rewrite (dot_comm _ n) in TB. unfold tilt_zero in TB.
  destruct (Rlt_dec (Rabs (dot n (mv ub h))) (/ 100000)); [|lra]. apply Ok_inj in TB. injection TB as <- <-.
  destruct (tilt_first _ _ _ _ (vscale (/ (2 * PI * norm (mv ub h))) (transfer ki kf tt))
    (vscale (/ (2 * PI * norm (mv ub h))) (second (transfer ki kf tt))) ey I) as (A & _ & B). rewrite <- E in A, B.
  assert (Z : dot u1 u3 = 0).
  { rewrite <- (orth_dot r u1 u3 O), A, B. unfold transfer, ey. la_unfold. ring. }
  apply unit_of_spec in U1, U3. destruct U1 as (_ & N1 & -> & _). destruct U3 as (_ & N3 & -> & _).
  rewrite dot_vscale_l, dot_vscale_r, (dot_comm _ n) in Z.
  assert (D : dot n (mv ub h) = 0).
  { apply Rmult_integral in Z. destruct Z as [Z|Z]; [apply Rinv_0_lt_compat in N1; lra|].
    apply Rmult_integral in Z. destruct Z as [Z|Z]; auto. apply Rinv_0_lt_compat in N3; lra. }
  rewrite D, Rabs_R0 in P1. lra.
Qed.
Print Assumptions C20_tolerance_refuted.

(** It needs a UB matrix and a plane normal. *)
Theorem C20_needs_plane : forall h ei ef tt u ub, _ub_mat u = Some ub -> _plane_normal u = None ->
  r_matrix_with_minimal_tilt h ei ef tt u = Err ValueError.
Proof. intros h ei ef tt u ub U P. unfold r_matrix_with_minimal_tilt. rewrite U, P. reflexivity. Qed.
Print Assumptions C20_needs_plane.

(** Apart from a missing UB matrix, plane normal or reference direction, nothing raises: in the plane and out of it the
    matrix exists for every reflection with UB.hkl different from 0 and every energy that is not negative. *)
Lemma tilt_fwd : forall h ei ef tt u ub n ki kf t2 t3 u1 u2 u3, _ub_mat u = Some ub -> _plane_normal u = Some n ->
  wavenumber ei ki -> wavenumber ef kf -> tilt_basis u n (mv ub h) = Ok (t2, t3) ->
  unit_of (mv ub h) = Ok u1 -> unit_of t2 = Ok u2 -> unit_of t3 = Ok u3 -> frame u1 u2 u3 ->
  exists r, r_matrix_with_minimal_tilt h ei ef tt u = Ok r.
Proof.
  intros h ei ef tt u ub n ki kf t2 t3 u1 u2 u3 UB N Ki Kf TB U1 U2 U3 F.
  apply wavenumber_en2q in Ki, Kf. unfold r_matrix_with_minimal_tilt. rewrite UB, N, Ki, Kf. cbn [bind]. cbv zeta. rewrite q_norm_eq.
  pose proof U1 as U1'. apply unit_of_spec in U1'. destruct U1' as (_ & NP & _). pose proof PI_RGT_0.
  assert (Q : 0 < 2 * PI * norm (mv ub h)) by (apply Rmult_lt_0_compat; lra).
  rewrite !fdiv_ok by lra. cbn [bind]. fold (tilt_basis u n (mv ub h)). rewrite TB. cbn [bind]. rewrite U1, U2, U3. cbn [bind].
  rewrite (rotation_minv _ (frame_rotation _ _ _ F)). cbn [bind]. eexists; reflexivity.
Qed.

Theorem C20_defined : forall h ei ef tt u ub n ki kf, _ub_mat u = Some ub -> _plane_normal u = Some n ->
  wavenumber ei ki -> wavenumber ef kf -> mv ub h <> vzero -> n <> vzero ->
  dot n (mv ub h) = 0 \/ (1 / 100000 <= Rabs (dot n (mv ub h)) /\ 1 / 100000 <= norm (cross n (mv ub h))) ->
  exists r, r_matrix_with_minimal_tilt h ei ef tt u = Ok r.
Proof.
  intros h ei ef tt u ub n ki kf UB N Ki Kf HZ NZ [P|[P1 P2]].
  - assert (CZ : cross n (mv ub h) <> vzero).
    { intros Z. pose proof (lagrange n (mv ub h)) as L. rewrite Z, P in L.
      assert (D : dot n n * dot (mv ub h) (mv ub h) = 0) by (revert L; unfold dot, vzero; cbn; lra).
      apply Rmult_integral in D. destruct D as [D|D]; apply dot_zero in D; auto. }
    apply unit_of_ok in HZ as H1. apply unit_of_ok in NZ as H3. apply unit_of_ok in CZ as H2.
    apply (tilt_fwd h ei ef tt u ub n ki kf (cross n (mv ub h)) n _ _ _ UB N Ki Kf) with (3 := H2) (2 := H1) (4 := H3).
    + unfold tilt_basis. rewrite (dot_comm _ n), P, Rabs_R0. unfold tilt_zero. destruct (Rlt_dec 0 (/ 100000)); [auto|lra].
    + apply (perp_frame _ _ _ _ _ P); auto.
  - set (t1 := mv ub h) in *.
    assert (CZ : cross n t1 <> vzero). { intros Z. rewrite Z, norm_vzero in P2. lra. }
    assert (DZ : cross t1 (cross n t1) <> vzero).
    { intros Z. pose proof (lagrange t1 (cross n t1)) as L. rewrite Z, dot_cross_r in L.
      assert (D : dot t1 t1 * dot (cross n t1) (cross n t1) = 0).
      { revert L. replace (dot vzero vzero) with 0 by (unfold dot, vzero; cbn; ring). lra. }
      apply Rmult_integral in D. destruct D as [D|D]; apply dot_zero in D; auto. }
    apply unit_of_ok in HZ as H1. apply unit_of_ok in CZ as H2. apply unit_of_ok in DZ as H3.
    apply (tilt_fwd h ei ef tt u ub n ki kf (cross n t1) (cross t1 (cross n t1)) _ _ _ UB N Ki Kf) with (3 := H2) (2 := H1) (4 := H3).
    + unfold tilt_basis. fold t1. rewrite (dot_comm _ n). unfold tilt_zero.
      destruct (Rlt_dec (Rabs (dot n t1)) (/ 100000)); [lra|]. destruct (Rlt_dec (norm (cross n t1)) (/ 100000)); [lra|auto].
    + refine (proj1 (triad_frame t1 (cross n t1) _ _ _ H1 _ H3)).
      assert (X : cross (cross t1 (cross n t1)) t1 = vscale (dot t1 t1) (cross n t1)) by (generalize t1 n; vring).
      rewrite X. apply unit_of_scale; auto. apply unit_of_spec in H1. rewrite <- norm_sq. nra.
Qed.
Print Assumptions C20_defined.

Lemma tilt_fwd_det : forall h ei ef tt u ub n ki kf t2 t3, _ub_mat u = Some ub -> _plane_normal u = Some n ->
  wavenumber ei ki -> wavenumber ef kf -> tilt_basis u n (mv ub h) = Ok (t2, t3) ->
  mv ub h <> vzero -> t2 <> vzero -> t3 <> vzero -> dot (mv ub h) (cross t2 t3) <> 0 ->
  exists r, r_matrix_with_minimal_tilt h ei ef tt u = Ok r.
Proof.
  intros h ei ef tt u ub n ki kf t2 t3 UB N Ki Kf TB Z1 Z2 Z3 D.
  apply wavenumber_en2q in Ki, Kf. unfold r_matrix_with_minimal_tilt. rewrite UB, N, Ki, Kf. cbn [bind]. cbv zeta. rewrite q_norm_eq.
  pose proof (norm_pos _ Z1) as NP. pose proof (norm_pos _ Z2) as N2. pose proof (norm_pos _ Z3) as N3. pose proof PI_RGT_0.
  assert (Q : 0 < 2 * PI * norm (mv ub h)) by (apply Rmult_lt_0_compat; lra).
  rewrite !fdiv_ok by lra. cbn [bind]. fold (tilt_basis u n (mv ub h)). rewrite TB. cbn [bind]. rewrite !unit_of_ok by auto. cbn [bind].
  rewrite minv_ok; [cbn [bind]; eexists; reflexivity|]. rewrite det_cols.
  assert (E : dot (vscale (/ norm (mv ub h)) (mv ub h)) (cross (vscale (/ norm t2) t2) (vscale (/ norm t3) t3)) =
    / norm (mv ub h) * / norm t2 * / norm t3 * dot (mv ub h) (cross t2 t3)).
  { generalize (/ norm (mv ub h)) (/ norm t2) (/ norm t3) (mv ub h). intros a b c w. unfold dot, cross, vscale. cbn. ring. }
  rewrite E. repeat apply Rmult_integral_contrapositive_currified; auto; apply Rinv_neq_0_compat; lra.
Qed.

(** The matrix exists exactly when the reflection is not along the plane normal, or is along it and the reference direction in the plane is
    not along the reflection (the tolerances are those of the code). *)
Theorem C20_defined_exactly : forall h ei ef tt u ub n ki kf, _ub_mat u = Some ub -> _plane_normal u = Some n ->
  wavenumber ei ki -> wavenumber ef kf ->
  ((exists r, r_matrix_with_minimal_tilt h ei ef tt u = Ok r) <->
   (if Rlt_dec (Rabs (dot n (mv ub h))) (1 / 100000) then cross n (mv ub h) <> vzero
    else 1 / 100000 <= norm (cross n (mv ub h)) \/ exists ipr, _in_plane_ref u = Some ipr /\ cross (mv ub h) ipr <> vzero)).
Proof.
  intros h ei ef tt u ub n ki kf UB N Ki Kf.
  assert (cross_l : forall a b, cross a b <> vzero -> a <> vzero) by (intros a b K ->; apply K; vring).
  assert (cross_r : forall a b, cross a b <> vzero -> b <> vzero) by (intros a b K ->; apply K; vring).
  assert (sq : forall a, a <> vzero -> dot a a <> 0) by (intros a K Z; apply K, dot_zero, Z).
  assert (triad : forall t v, dot t (cross v (cross t v)) = dot (cross t v) (cross t v)) by (intros t v; unfold dot, cross; cbn; ring).
  assert (flat : forall t v, dot t (cross (cross v t) v) = dot (cross v t) (cross v t)) by (intros t v; unfold dot, cross; cbn; ring).
  assert (TZ : tilt_zero = 1 / 100000) by (unfold tilt_zero; lra). split.
  - intros (r & H). destruct (tilt_inv _ _ _ _ _ _ H) as (ub' & n' & ki' & kf' & t2 & t3 & u1 & u2 & u3 & ti & UB' & N' & _ & _ & TB & U1 & U2 & U3 & _ & _).
    rewrite UB in UB'. injection UB' as <-. rewrite N in N'. injection N' as <-. unfold tilt_basis in TB. rewrite (dot_comm _ n), TZ in TB.
    destruct (Rlt_dec (Rabs (dot n (mv ub h))) (1 / 100000)).
    + injection TB as <- <-. apply unit_of_spec in U2. apply U2.
    + destruct (Rlt_dec (norm (cross n (mv ub h))) (1 / 100000)); [right|left; lra].
      destruct (_in_plane_ref u) as [ipr|]; [|discriminate]. injection TB as <- <-. exists ipr. split; auto. apply unit_of_spec in U3. apply U3.
  - intros H. destruct (Rlt_dec (Rabs (dot n (mv ub h))) (1 / 100000)) as [L|L].
    + eapply (tilt_fwd_det h ei ef tt u ub n ki kf (cross n (mv ub h)) n); eauto.
      * unfold tilt_basis. rewrite (dot_comm _ n), TZ. destruct (Rlt_dec _ _); [auto|contradiction].
      * rewrite flat. auto.
    + destruct (Rlt_dec (norm (cross n (mv ub h))) (1 / 100000)) as [L'|L'].
      * destruct H as [H|(ipr & I & C)]; [lra|]. eapply (tilt_fwd_det h ei ef tt u ub n ki kf ipr (cross (mv ub h) ipr)); eauto.
        { unfold tilt_basis. rewrite (dot_comm _ n), TZ, I. destruct (Rlt_dec (Rabs _) _); [contradiction|]. destruct (Rlt_dec (norm _) _); [auto|contradiction]. }
        { rewrite triad. auto. }
      * assert (CZ : cross n (mv ub h) <> vzero) by (intros Z; rewrite Z, norm_vzero in L'; lra).
        assert (DZ : cross (mv ub h) (cross n (mv ub h)) <> vzero).
        { intros Z. pose proof (lagrange (mv ub h) (cross n (mv ub h))) as G. rewrite Z, dot_cross_r in G.
          assert (D : dot (mv ub h) (mv ub h) * dot (cross n (mv ub h)) (cross n (mv ub h)) = 0).
          { revert G. replace (dot vzero vzero) with 0 by (unfold dot, vzero; cbn; ring). lra. }
          apply Rmult_integral in D. destruct D as [D|D]; apply dot_zero in D; eauto. apply (cross_r _ _ CZ); auto. }
        eapply (tilt_fwd_det h ei ef tt u ub n ki kf (cross n (mv ub h)) (cross (mv ub h) (cross n (mv ub h)))); eauto.
        { unfold tilt_basis. rewrite (dot_comm _ n), TZ. destruct (Rlt_dec (Rabs _) _); [contradiction|]. destruct (Rlt_dec (norm _) _); [contradiction|auto]. }
        { rewrite triad. auto. }
Qed.
Print Assumptions C20_defined_exactly.

(** A concrete configuration meets the hypotheses of C20: 2 pi UB the identity, 90 degrees scattering at k = 2. *)
Definition conf20 (n ipr : vec) : ubconf := UBConf "Mantid"%string (Some ub_ex) (Some n) (Some ipr) None None None.
Lemma ub_ex_scale : forall v, vscale (2 * PI) (mv ub_ex v) = v.
Proof.
  intros v. pose proof PI_RGT_0. unfold ub_ex. rewrite mv_mscale, mv_id, vscale_vscale.
  replace (2 * PI * / (2 * PI)) with 1 by (field; lra). apply vscale_1.
Qed.

Lemma transfer_90 : transfer 2 2 90 = V (-2) 0 2.
Proof. unfold transfer. replace (90 * PI / 180) with (PI / 2) by field. rewrite sin_PI2, cos_PI2. vring. Qed.

Lemma norm_ub_ex : forall v, 2 * PI * norm (mv ub_ex v) = norm v.
Proof. intros v. rewrite <- (ub_ex_scale v) at 2. rewrite norm_vscale, Rabs_right; auto. pose proof PI_RGT_0. lra. Qed.

(** In the plane (normal y) and out of it (normal (1,1,0)). *)
Example C20_ex : let h := V (-2) 0 2 in
  norm (transfer 2 2 90) = 2 * PI * norm (mv ub_ex h) /\ dot ey (mv ub_ex h) = 0 /\
  (exists r, r_matrix_with_minimal_tilt h e4 e4 90 (conf20 ey ez) = Ok r) /\
  1 / 100000 <= Rabs (dot (V 1 1 0) (mv ub_ex h)) /\ 1 / 100000 <= norm (cross (V 1 1 0) (mv ub_ex h)) /\
  (exists r, r_matrix_with_minimal_tilt h e4 e4 90 (conf20 (V 1 1 0) ez) = Ok r).
Proof.
  intros h. pose proof PI_RGT_0. pose proof PI_4.
  assert (MV : mv ub_ex h = vscale (/ PI) (V (-1) 0 1)).
  { unfold ub_ex, h. rewrite mv_mscale, mv_id. apply vec_eq; la_unfold; field; lra. }
  assert (HZ : mv ub_ex h <> vzero).
  { rewrite MV. intros Z. apply (f_equal vz) in Z. cbn in Z. assert (0 < / PI) by (apply Rinv_0_lt_compat; lra). lra. }
  assert (IP : / 4 <= / PI) by (apply Rinv_le_contravar; lra).
  assert (P1 : 1 / 100000 <= Rabs (dot (V 1 1 0) (mv ub_ex h))).
  { rewrite MV, dot_vscale_r. unfold dot. cbn. rewrite Rabs_left by lra. lra. }
  assert (P2 : 1 / 100000 <= norm (cross (V 1 1 0) (mv ub_ex h))).
  { rewrite MV. replace (cross (V 1 1 0) (vscale (/ PI) (V (-1) 0 1))) with (vscale (/ PI) (V 1 (-1) 1)) by vring.
    rewrite norm_vscale, Rabs_right by lra. assert (1 <= norm (V 1 (-1) 1)).
    { unfold norm, dot; cbn. rewrite <- sqrt_1 at 1. apply sqrt_le_1; lra. } nra. }
  split. { rewrite transfer_90, norm_ub_ex. reflexivity. }
  assert (P0 : dot ey (mv ub_ex h) = 0). { rewrite MV. unfold ey. la_unfold. ring. } split; auto.
  split. { apply (C20_defined _ _ _ _ _ ub_ex ey 2 2); auto; try apply wavenumber_e4. intros Z. apply (f_equal vy) in Z. cbn in Z. lra. }
  split; auto. split; auto.
  apply (C20_defined _ _ _ _ _ ub_ex (V 1 1 0) 2 2); auto; try apply wavenumber_e4. intros Z. apply (f_equal vy) in Z. cbn in Z. lra.
Qed.

(** Along the normal, with a reference direction perpendicular to the reflection; and a reflection a little off the plane, within the tolerance. *)
Example C20_ex_normal : let h := V (-2) 0 2 in let n := V 1 0 (-1) in let n' := V (1 / 1000000) 1 0 in
  1 / 100000 <= Rabs (dot n (mv ub_ex h)) /\ norm (cross n (mv ub_ex h)) < 1 / 100000 /\ dot ey (mv ub_ex h) = 0 /\
  (exists r, r_matrix_with_minimal_tilt h e4 e4 90 (conf20 n ey) = Ok r) /\
  0 < Rabs (dot n' (mv ub_ex h)) < 1 / 100000 /\ (exists r, r_matrix_with_minimal_tilt h e4 e4 90 (conf20 n' ez) = Ok r).
Proof.
  intros h n n'. pose proof PI_RGT_0. pose proof PI2_3_2.
  assert (MV : mv ub_ex h = vscale (/ PI) (V (-1) 0 1)).
  { unfold ub_ex, h. rewrite mv_mscale, mv_id. apply vec_eq; la_unfold; field; lra. }
  assert (IP : / 4 <= / PI) by (apply Rinv_le_contravar; [lra|apply PI_4]).
  assert (IQ : / PI <= / 3) by (apply Rinv_le_contravar; lra).
  assert (D1 : 1 / 100000 <= Rabs (dot n (mv ub_ex h))). { rewrite MV, dot_vscale_r. unfold dot, n. cbn. rewrite Rabs_left by lra. lra. }
  assert (C1 : cross n (mv ub_ex h) = vzero) by (rewrite MV; unfold n; vring).
  assert (D2 : 0 < Rabs (dot n' (mv ub_ex h)) < 1 / 100000). { rewrite MV, dot_vscale_r. unfold dot, n'. cbn. rewrite Rabs_left by lra. lra. }
  split; auto. split; [rewrite C1, norm_vzero; lra|]. split; [rewrite MV; unfold ey; la_unfold; ring|]. split.
  - apply (C20_defined_exactly h e4 e4 90 (conf20 n ey) ub_ex n 2 2); auto; try apply wavenumber_e4.
    destruct (Rlt_dec _ _); [lra|]. right. exists ey. split; auto. rewrite MV. intros Z. apply (f_equal vx) in Z. cbn in Z. lra.
  - split; auto. apply (C20_defined_exactly h e4 e4 90 (conf20 n' ez) ub_ex n' 2 2); auto; try apply wavenumber_e4.
    destruct (Rlt_dec _ _); [|lra]. rewrite MV. intros Z. apply (f_equal vx) in Z. cbn in Z. lra.
Qed.

(** * C21 *)
(** The reflection [h] is placed without the tolerance: exactly in the plane; or off it by at least the tolerance, and
    then either off its normal, or along it with a reference direction perpendicular to it. *)
Definition placed (u : ubconf) (q : vec) : Prop :=
  exists n, _plane_normal u = Some n /\
    (dot n q = 0 \/
     (1 / 100000 <= Rabs (dot n q) /\
      (1 / 100000 <= norm (cross n q) \/ exists ipr, _in_plane_ref u = Some ipr /\ dot ipr q = 0))).

Lemma norm_rot : forall w v, rotation w -> norm (mv w v) = norm v.
Proof. intros w v [O _]. unfold norm. rewrite orth_dot by auto. auto. Qed.

Lemma tilt_rotation : forall h ei ef tt u r ub ki kf, r_matrix_with_minimal_tilt h ei ef tt u = Ok r ->
  _ub_mat u = Some ub -> wavenumber ei ki -> wavenumber ef kf ->
  norm (transfer ki kf tt) = 2 * PI * norm (mv ub h) -> placed u (mv ub h) -> rotation r.
Proof.
  intros h ei ef tt u r ub ki kf H UB Ki Kf C (n & N & [P|(P1 & P2)]).
  - destruct (C20_in_plane _ _ _ _ _ _ _ _ _ _ H UB N Ki Kf C P); auto.
  - destruct (Rlt_le_dec (norm (cross n (mv ub h))) (1 / 100000)) as [L|L].
    + destruct P2 as [P2|(ipr & IP & O)]; [lra|]. eapply C20_along_normal; eauto.
    + destruct (C20_out_of_plane _ _ _ _ _ _ _ _ _ _ H UB N Ki Kf C P1 L); auto.
Qed.

Lemma sgl_inside : forall g n0 n1 n2 r t a l, g_type g = huber_type n0 n1 n2 -> rotation r ->
  angles_from_r_mat g r t = Ok a -> sgl a = Some l -> -90 < l < 90 -> -1 < m10 r < 1.
Proof.
  intros g n0 n1 n2 r t a l Hg Hr H S L. pose proof (rotation_col0 r Hr) as C0.
  assert (Hle : -1 <= m10 r <= 1) by nra. destruct (huber_parse _ _ _ _ Hg) as (E1 & E2 & _).
  unfold angles_from_r_mat in H. rewrite E1, E2 in H. cbn [bind] in H. rewrite String.eqb_refl in H. break_bind H. apply Ok_inj in H; subst a.
  cbn [sgl] in S. injection S as S.
  assert (A1 : atan2 1 0 = PI / 2). { unfold atan2. repeat (destruct (Rlt_dec _ _); try lra). }
  assert (A2 : atan2 (-1) 0 = - (PI / 2)). { unfold atan2. repeat (destruct (Rlt_dec _ _); try lra). }
  assert (P1 : forall s, rad2deg (sg n1 * (s * (PI / 2))) = sg n1 * s * 90) by (intros; unfold rad2deg; field; apply PI_neq0).
  split; apply Rnot_le_lt; intros C.
  - assert (E' : m10 r = -1) by lra. rewrite E' in *. assert (Z : m00 r * m00 r + m20 r * m20 r = 0) by lra. rewrite Z, sqrt_0, A2 in S.
    replace (- (PI / 2)) with (-1 * (PI / 2)) in S by ring. rewrite P1 in S. destruct n1; unfold sg in S; lra.
  - assert (E' : m10 r = 1) by lra. rewrite E' in *. assert (Z : m00 r * m00 r + m20 r * m20 r = 0) by lra. rewrite Z, sqrt_0, A1 in S.
    replace (PI / 2) with (1 * (PI / 2)) in S by ring. rewrite P1 in S. destruct n1; unfold sg in S; lra.
Qed.

(** The value of [calculate_hkl_from_angles] for a position whose rotation carries 2 pi UB.h onto k times the elastic
    momentum transfer. *)
Lemma hkl_back : forall t a u ub r ei ef ki kf k h, s_ub_conf (t_sample t) = Some u -> _ub_mat u = Some ub -> det ub <> 0 ->
  r_mat (t_goni t) a = Ok r -> t_ei_ef t 0 = Ok (ei, ef) -> wavenumber ei ki -> wavenumber ef kf ->
  mv r (vscale (2 * PI) (mv ub h)) = vscale k (transfer ki kf (two_theta a)) -> k * k = 1 ->
  calculate_hkl_from_angles t a = Ok (Some (vscale k h)).
Proof.
  intros t a u ub r ei ef ki kf k h U UB D RM E Ki Kf A K. unfold calculate_hkl_from_angles. rewrite E. cbn [bind].
  apply wavenumber_en2q in Ki, Kf. rewrite (transfer_lab _ _ _ _ _ Ki Kf), RM. cbn [bind]. rewrite U, UB.
  assert (DR : det (mm r ub) <> 0).
  { rewrite det_mm. apply r_mat_is_rotation in RM. destruct RM as [_ ->]. lra. }
  destruct (minv (mm r ub)) as [i|] eqn:I. 2:{ rewrite minv_ok in I by auto. discriminate. } cbn [bind].
  apply minv_spec in I. destruct I as (_ & I & _). do 2 f_equal.
  assert (X : transfer ki kf (two_theta a) = mv (mm r ub) (vscale (2 * PI * k) h)).
  { rewrite mv_mm. replace (vscale (2 * PI * k) h) with (vscale k (vscale (2 * PI) h)) by (rewrite vscale_vscale; f_equal; ring).
    rewrite 2 (mv_vscale _ k), (mv_vscale _ (2 * PI)), A, vscale_vscale, K, vscale_1. auto. }
  rewrite X, <- mv_mm, I, mv_id, vscale_vscale. f_equal. field. apply PI_neq0.
Qed.

(** On a Huber table: the round trip at zero energy transfer (or with both energies fixed) is the identity. *)
Theorem C21_huber : forall t h en a n0 n1 n2 u ub b w l,
  g_type (t_goni t) = huber_type n0 n1 n2 ->
  en = 0 \/ (exists ei ef, t_fixed_ei t = Some ei /\ t_fixed_ef t = Some ef) ->
  s_ub_conf (t_sample t) = Some u -> _ub_mat u = Some ub ->
  s_b_mat (t_sample t) = Ok b -> det b <> 0 -> rotation w -> ub = mm w b -> placed u (mv ub h) ->
  calculate_motor_angles t h en = Ok a -> sgl a = Some l -> -90 < l < 90 ->
  calculate_hkl_from_angles t a = Ok (Some h).
Proof.
  intros t h en a n0 n1 n2 u ub b w l G EN U UB B DB W EU PL H S L.
  assert (EN' : t_ei_ef t en = t_ei_ef t 0).
  { destruct EN as [->|(ei & ef & F1 & F2)]; auto. unfold t_ei_ef, get_ei_ef. rewrite F1, F2. reflexivity. }
  unfold calculate_motor_angles in H. destruct (get_two_theta t h en) as [th2|] eqn:TT; [|discriminate]. cbn [bind] in H.
  bb H. destruct (C07_two_theta_closes _ _ _ _ TT) as (ei & ef & b' & s & ki & kf & E1 & B' & _ & Ki & Kf & C & _).
  rewrite B in B'. apply Ok_inj in B'. subst b'. rewrite E1 in H. cbn [bind] in H. rewrite U in H. bb H.
  destruct a1; [|discriminate]. destruct (huber_parse _ _ _ _ G) as (_ & _ & MD). rewrite MD in H. cbn [bind] in H.
  bb H. assert (C' : norm (transfer ki kf th2) = 2 * PI * norm (mv ub h)). { rewrite C, EU, mv_mm, (norm_rot w) by auto. auto. }
  pose proof (tilt_rotation _ _ _ _ _ _ _ _ _ E2 UB Ki Kf C' PL) as RO.
  pose proof (sgl_inside _ _ _ _ _ _ _ _ G RO H S L) as IN.
  destruct (angles_from_r_mat_inv _ _ _ _ _ _ _ G RO IN H) as (RM & T2).
  destruct (C20_diffraction_condition _ _ _ _ _ _ E2) as (ub' & ki' & kf' & UB' & Ki' & Kf' & DC).
  rewrite UB in UB'. injection UB' as <-. pose proof Ki as Ki1. pose proof Kf as Kf1. apply wavenumber_en2q in Ki1, Kf1, Ki', Kf'.
  rewrite Ki1 in Ki'. rewrite Kf1 in Kf'. apply Ok_inj in Ki', Kf'. subst ki' kf'.
  rewrite <- (vscale_1 h). rewrite EN' in E1. apply (hkl_back t a u ub a1 ei ef ki kf 1 h); auto.
  - rewrite EU, det_mm. destruct W as [_ ->]. lra.
  - rewrite T2, DC, vscale_1. auto.
  - lra.
Qed.
Print Assumptions C21_huber.

(** Finding: at any other energy transfer (one energy fixed) the round trip never gives hkl back, because the angles are
    inverted with the elastic energies. *)
Theorem C21_inelastic_refuted : forall t h en a n0 n1 n2 u ub b w l,
  g_type (t_goni t) = huber_type n0 n1 n2 ->
  en <> 0 -> t_fixed_ei t = None \/ t_fixed_ef t = None ->
  s_ub_conf (t_sample t) = Some u -> _ub_mat u = Some ub ->
  s_b_mat (t_sample t) = Ok b -> rotation w -> ub = mm w b -> placed u (mv ub h) ->
  calculate_motor_angles t h en = Ok a -> sgl a = Some l -> -90 < l < 90 ->
  calculate_hkl_from_angles t a <> Ok (Some h).
Proof.
  intros t h en a n0 n1 n2 u ub b w l G EN FX U UB B W EU PL H S L HK.
  unfold calculate_motor_angles in H. destruct (get_two_theta t h en) as [th2|] eqn:TT; [|discriminate]. cbn [bind] in H.
  bb H. destruct (C07_two_theta_closes _ _ _ _ TT) as (ei & ef & b' & s & ki & kf & E1 & B' & _ & Ki & Kf & C & _).
  rewrite B in B'. apply Ok_inj in B'. subst b'. rewrite E1 in H. cbn [bind] in H. rewrite U in H. bb H.
  destruct a1; [|discriminate]. destruct (huber_parse _ _ _ _ G) as (_ & _ & MD). rewrite MD in H. cbn [bind] in H.
  bb H. assert (C' : norm (transfer ki kf th2) = 2 * PI * norm (mv ub h)). { rewrite C, EU, mv_mm, (norm_rot w) by auto. auto. }
  pose proof (tilt_rotation _ _ _ _ _ _ _ _ _ E2 UB Ki Kf C' PL) as RO.
  pose proof (sgl_inside _ _ _ _ _ _ _ _ G RO H S L) as IN.
  destruct (angles_from_r_mat_inv _ _ _ _ _ _ _ G RO IN H) as (RM & T2).
  destruct (C20_diffraction_condition _ _ _ _ _ _ E2) as (ub' & ki' & kf' & UB' & Ki' & Kf' & DC).
  rewrite UB in UB'. injection UB' as <-. pose proof Ki as Ki1. pose proof Kf as Kf1. apply wavenumber_en2q in Ki1, Kf1, Ki', Kf'.
  rewrite Ki1 in Ki'. rewrite Kf1 in Kf'. apply Ok_inj in Ki', Kf'. subst ki' kf'.
  unfold calculate_hkl_from_angles in HK. destruct (t_ei_ef t 0) as [[ei0 ef0]|] eqn:EZ; [|discriminate]. cbn [bind] in HK.
  destruct (q_lab ei0 ef0 (two_theta a)) as [ql|] eqn:QL; [|discriminate]. cbn [bind] in HK. rewrite RM, U, UB in HK. cbn [bind] in HK.
  destruct (minv (mm a1 ub)) as [i|] eqn:I; [|discriminate]. cbn [bind] in HK. apply Ok_inj in HK. injection HK as HK.
  apply minv_spec in I. destruct I as (_ & _ & I).
  assert (X : ql = transfer ki kf th2).
  { rewrite <- DC. rewrite <- HK, <- mv_vscale, <- mv_mm, !mv_vscale, vscale_vscale.
    replace (2 * PI * / (2 * PI)) with 1 by (field; apply PI_neq0). rewrite vscale_1, <- mv_mm, I, mv_id. auto. }
  assert (QQ : exists ki0 kf0, en2q ei0 = Ok ki0 /\ en2q ef0 = Ok kf0).
  { unfold q_lab, q_lab_gen in QL. destruct (en2q ei0) as [ki0|] eqn:Q1; [|discriminate]. cbn [bind] in QL.
    destruct (en2q ef0) as [kf0|] eqn:Q2; [|discriminate]. eauto. }
  destruct QQ as (ki0 & kf0 & Q1 & Q2). rewrite (transfer_lab _ _ (two_theta a) _ _ Q1 Q2), T2 in QL. apply Ok_inj in QL.
  rewrite <- QL in X.
 apply wavenumber_en2q in Q1, Q2. unfold wavenumber in Ki, Kf, Q1, Q2.
  unfold transfer in X. set (c := cos (th2 * PI / 180)) in *. set (s' := sin (th2 * PI / 180)) in *.
  assert (CS : c * c + s' * s' = 1) by (unfold c, s'; apply cos2_sin2).
  unfold vsub, vscale in X. cbn in X. injection X as X1 X3.
  unfold t_ei_ef, get_ei_ef in E1, EZ.
  destruct (t_fixed_ei t) as [fi|], (t_fixed_ef t) as [ff|]; try (destruct FX; discriminate); try discriminate;
    apply Ok_inj in E1, EZ; injection E1 as <- <-; injection EZ as <- <-.
  - assert (ki = ki0) by nra. subst ki0.
    assert (kf = kf0).
    { assert (Z1 : (kf - kf0) * s' = 0) by lra. assert (Z2 : (kf - kf0) * c = 0) by lra.
      assert (Z : (kf - kf0) * (c * c + s' * s') = 0).
      { transitivity ((kf - kf0) * c * c + (kf - kf0) * s' * s'); [ring|]. rewrite Z1, Z2. ring. }
      rewrite CS in Z. lra. }
    subst kf0. lra.
  - assert (kf = kf0) by nra. subst kf0. assert (ki = ki0) by lra. subst ki0. lra.
Qed.
Print Assumptions C21_inelastic_refuted.

(** On a four-circle in bisect mode: hkl comes back for sense "-". Finding: for sense "+" it is -hkl. *)
Lemma y_turn_flat : forall x y z, let p := atan2 z x in
  mv (rot_y (rad2deg p)) (V x y z) = V (sqrt (x * x + z * z)) y 0.
Proof.
  intros x y z p. unfold rot_y. rewrite deg2rad_rad2deg.
  assert (X : cos p * x + sin p * z = sqrt (x * x + z * z) /\ - sin p * x + cos p * z = 0).
  { destruct (Req_dec x 0) as [X0|X0]; [destruct (Req_dec z 0) as [Z0|Z0]|].
    - rewrite X0, Z0. replace (0 * 0 + 0 * 0) with 0 by ring. rewrite sqrt_0. split; ring.
    - destruct (atan2_polar x z) as (A & B). { intros E. injection E as _ E. auto. }
      fold p in A, B. pose proof (cos2_sin2 p) as C. set (r := sqrt (x * x + z * z)) in *.
      clearbody p r. split; [|rewrite <- A, <- B; ring]. rewrite <- A, <- B. transitivity (r * (cos p * cos p + sin p * sin p)); [ring|]. rewrite C. ring.
    - destruct (atan2_polar x z) as (A & B). { intros E. injection E as E _. auto. }
      fold p in A, B. pose proof (cos2_sin2 p) as C. set (r := sqrt (x * x + z * z)) in *.
      clearbody p r. split; [|rewrite <- A, <- B; ring]. rewrite <- A, <- B. transitivity (r * (cos p * cos p + sin p * sin p)); [ring|]. rewrite C. ring. }
  destruct X as (X1 & X2). apply vec_eq; la_unfold; [|ring|]. - rewrite <- X1. ring. - lra.
Qed.

Lemma z_turn_flat : forall x y, 0 <= x -> let c := - atan2 y x in mv (rot_z (rad2deg c)) (V x y 0) = V (sqrt (x * x + y * y)) 0 0.
Proof.
  intros x y N c. unfold rot_z. rewrite deg2rad_rad2deg. unfold c. rewrite cos_neg, sin_neg. set (p := atan2 y x).
  assert (X : cos p * x + sin p * y = sqrt (x * x + y * y) /\ - sin p * x + cos p * y = 0).
  { destruct (Req_dec x 0) as [X0|X0]; [destruct (Req_dec y 0) as [Z0|Z0]|].
    - rewrite X0, Z0. replace (0 * 0 + 0 * 0) with 0 by ring. rewrite sqrt_0. split; ring.
    - destruct (atan2_polar x y) as (A & B). { intros E. injection E as _ E. auto. }
      fold p in A, B. pose proof (cos2_sin2 p) as C. set (r := sqrt (x * x + y * y)) in *.
      clearbody p r. split; [|rewrite <- A, <- B; ring]. rewrite <- A, <- B. transitivity (r * (cos p * cos p + sin p * sin p)); [ring|]. rewrite C. ring.
    - destruct (atan2_polar x y) as (A & B). { intros E. injection E as E _. auto. }
      fold p in A, B. pose proof (cos2_sin2 p) as C. set (r := sqrt (x * x + y * y)) in *.
      clearbody p r. split; [|rewrite <- A, <- B; ring]. rewrite <- A, <- B. transitivity (r * (cos p * cos p + sin p * sin p)); [ring|]. rewrite C. ring. }
  destruct X as (X1 & X2). apply vec_eq; la_unfold; [| |ring]. - rewrite <- X1. ring. - lra.
Qed.

Theorem C21_bisect : forall t h en a n0 n1 n2 u ub b w s,
  g_type (t_goni t) = four_circle_type n0 n1 n2 -> sense_of (g_sense (t_goni t)) s ->
  en = 0 \/ (exists ei ef, t_fixed_ei t = Some ei /\ t_fixed_ef t = Some ef) ->
  s_ub_conf (t_sample t) = Some u -> _ub_mat u = Some ub ->
  s_b_mat (t_sample t) = Ok b -> det b <> 0 -> rotation w -> ub = mm w b ->
  calculate_motor_angles t h en = Ok a ->
  calculate_hkl_from_angles t a = Ok (Some (vscale (- s) h)).
Proof.
  intros t h en a n0 n1 n2 u ub b w s G SE EN U UB B DB W EU H.
  assert (EN' : t_ei_ef t en = t_ei_ef t 0).
  { destruct EN as [->|(ei & ef & F1 & F2)]; auto. unfold t_ei_ef, get_ei_ef. rewrite F1, F2. reflexivity. }
  unfold calculate_motor_angles in H. destruct (get_two_theta t h en) as [th2|] eqn:TT; [|discriminate]. cbn [bind] in H.
  destruct (get_psi t h en) as [psi|] eqn:PS; [|discriminate]. cbn [bind] in H.
  destruct (C07_psi_companion _ _ _ _ _ TT PS) as (ei & ef & b' & s' & ki & kf & E1 & B' & _ & Ki & Kf & C & _).
  rewrite B in B'. apply Ok_inj in B'. subst b'. rewrite E1 in H. cbn [bind] in H. rewrite U in H. bb H.
  destruct a0; [|discriminate]. destruct (four_circle_parse _ _ _ _ G) as (MS & OM & MD). rewrite MD in H. cbn [bind] in H.
  rewrite String.eqb_refl, UB in H. unfold angles_in_bisect_mode in H. rewrite MS, OM in H. cbn [bind] in H. rewrite String.eqb_refl in H.
  assert (SS : sense_sign (t_goni t) = Ok s) by (apply sense_sign_ok; auto). rewrite SS in H. cbn [bind] in H. cbv zeta in H.
  bb H. apply Ok_inj in H. set (q := mv ub h) in *.
  assert (N : 2 * PI * norm (mv b h) = 2 * PI * norm q). { unfold q. rewrite EU, mv_mm, (norm_rot w) by auto. auto. }
  rewrite N in C.
  set (r := mm (rot_y (s * 90 + psi)) (mm (rot_z (rad2deg (- atan2 (vy q) (sqrt (vx q * vx q + vz q * vz q))))) (rot_y (rad2deg (atan2 (vz q) (vx q)))))).
  assert (RM : r_mat (t_goni t) a = Ok r).
  { rewrite (r_mat_four_circle_eq _ _ _ _ _ G). rewrite <- H. cbn [omega chi phi]. unfold r. rewrite !rad2deg_sg'.
    replace ((s * 90 + psi) * sg n0 * sg n0) with (s * 90 + psi); auto. rewrite Rmult_assoc, sg_sq. ring. }
  rewrite EN' in E1.
  apply (hkl_back t a u ub r ei ef ki kf (- s) h); auto.
  - rewrite EU, det_mm. destruct W as [_ ->]. lra.
  - fold q. rewrite mv_vscale. unfold r. rewrite !mv_mm. clearbody r.
    assert (Y : mv (rot_y (rad2deg (atan2 (vz q) (vx q)))) q = V (sqrt (vx q * vx q + vz q * vz q)) (vy q) 0).
    { pose proof (y_turn_flat (vx q) (vy q) (vz q)) as Y. cbv zeta in Y. rewrite <- Y. destruct q; reflexivity. }
    rewrite Y, z_turn_flat by apply sqrt_pos.
    rewrite sqrt_sqrt by nra. rewrite <- H. cbn [two_theta]. rewrite C.
    assert (NQ : sqrt (vx q * vx q + vz q * vz q + vy q * vy q) = norm q) by (unfold norm, dot; f_equal; ring). rewrite NQ.
    unfold horizontal, rot_y. destruct SE as [(_ & ->)|(_ & ->)].
    + assert (T1 : cos (deg2rad (1 * 90 + psi)) = - sin (psi * PI / 180)).
      { replace (deg2rad (1 * 90 + psi)) with (PI / 2 + psi * PI / 180) by (unfold deg2rad; field). symmetry. rewrite sin_cos. ring. }
      assert (T2 : sin (deg2rad (1 * 90 + psi)) = cos (psi * PI / 180)).
      { replace (deg2rad (1 * 90 + psi)) with (PI / 2 + psi * PI / 180) by (unfold deg2rad; field). symmetry. apply cos_sin. }
      rewrite T1, T2. generalize (sin (psi * PI / 180)) (cos (psi * PI / 180)) (norm q). intros. apply vec_eq; la_unfold; ring.
    + assert (T1 : cos (deg2rad (-1 * 90 + psi)) = sin (psi * PI / 180)).
      { replace (deg2rad (-1 * 90 + psi)) with (psi * PI / 180 - PI / 2) by (unfold deg2rad; field). rewrite cos_minus, cos_PI2, sin_PI2. ring. }
      assert (T2 : sin (deg2rad (-1 * 90 + psi)) = - cos (psi * PI / 180)).
      { replace (deg2rad (-1 * 90 + psi)) with (psi * PI / 180 - PI / 2) by (unfold deg2rad; field). rewrite sin_minus, cos_PI2, sin_PI2. ring. }
      rewrite T1, T2. generalize (sin (psi * PI / 180)) (cos (psi * PI / 180)) (norm q). intros. apply vec_eq; la_unfold; ring.
  - destruct SE as [(_ & ->)|(_ & ->)]; lra.
Qed.
Print Assumptions C21_bisect.

Corollary C21_bisect_minus : forall t h en a n0 n1 n2 u ub b w,
  g_type (t_goni t) = four_circle_type n0 n1 n2 -> g_sense (t_goni t) = Some "-"%string ->
  en = 0 \/ (exists ei ef, t_fixed_ei t = Some ei /\ t_fixed_ef t = Some ef) ->
  s_ub_conf (t_sample t) = Some u -> _ub_mat u = Some ub ->
  s_b_mat (t_sample t) = Ok b -> det b <> 0 -> rotation w -> ub = mm w b ->
  calculate_motor_angles t h en = Ok a ->
  calculate_hkl_from_angles t a = Ok (Some h).
Proof.
  intros t h en a n0 n1 n2 u ub b w G SE EN U UB B DB W EU H.
  rewrite (C21_bisect t h en a n0 n1 n2 u ub b w (-1)); auto; [|right; auto]. replace (- -1) with 1 by lra. rewrite vscale_1. auto.
Qed.
Print Assumptions C21_bisect_minus.

Corollary C21_bisect_plus_refuted : forall t h en a n0 n1 n2 u ub b w,
  g_type (t_goni t) = four_circle_type n0 n1 n2 -> g_sense (t_goni t) = Some "+"%string ->
  en = 0 \/ (exists ei ef, t_fixed_ei t = Some ei /\ t_fixed_ef t = Some ef) ->
  s_ub_conf (t_sample t) = Some u -> _ub_mat u = Some ub ->
  s_b_mat (t_sample t) = Ok b -> det b <> 0 -> rotation w -> ub = mm w b -> h <> vzero ->
  calculate_motor_angles t h en = Ok a ->
  calculate_hkl_from_angles t a = Ok (Some (vopp h)) /\ calculate_hkl_from_angles t a <> Ok (Some h).
Proof.
  intros t h en a n0 n1 n2 u ub b w G SE EN U UB B DB W EU HZ H.
  rewrite (C21_bisect t h en a n0 n1 n2 u ub b w 1); auto; [|left; auto]. split.
  - do 2 f_equal. vring.
  - intros X. apply Ok_inj in X. injection X as X. apply HZ. destruct h as [x y z]. unfold vscale, vzero in *. cbn in X. injection X as X1 X2 X3. f_equal; lra.
Qed.
Print Assumptions C21_bisect_plus_refuted.

(** Concrete instruments meet the hypotheses: a cubic crystal at fixed Ef, on a Huber table and on a four-circle. *)
Definition cubic1 : lattice := Lattice 1 1 1 90 90 90.
Definition ub21 : ubconf := UBConf "Mantid" (Some (bclosed cubic1)) (Some ey) None None None None.
Definition tas21 (ty s : string) : tas :=
  TAS "Mantid" None (Some (ksq2eng * (2 * 2))) (Goniometer ty (Some s) []) (Sample cubic1 (Some ub21) 30 30).

Lemma validate_free : forall ty s a, validate_motor_positions (Goniometer ty s []) a = Ok tt.
Proof. intros. apply validate_iff. intros name v _. unfold bounds_of. cbn. split; intros ? E; discriminate. Qed.

(** the energy transfer at which ki = k when kf = 2 *)
Definition en21 (k : R) : R := ksq2eng * (k * k - 2 * 2).
Lemma tas21_two_theta : forall ty s sn k, sense_of (Some s) sn -> 1 <= k <= 3 -> exists th psi,
  get_two_theta (tas21 ty s) (V (/ PI) 0 0) (en21 k) = Ok th /\ get_psi (tas21 ty s) (V (/ PI) 0 0) (en21 k) = Ok psi /\
  mv (bclosed cubic1) (V (/ PI) 0 0) = V (/ PI) 0 0 /\ s_b_mat (t_sample (tas21 ty s)) = Ok (bclosed cubic1) /\ valid_cell cubic1.
Proof.
  intros ty s sn k SN K. assert (VC : valid_cell cubic1) by (unfold valid_cell; cbn; lra).
  set (b := bclosed cubic1). assert (B : s_b_mat (t_sample (tas21 ty s)) = Ok b) by (apply b_mat_ok; auto).
  assert (E : t_ei_ef (tas21 ty s) (en21 k) = Ok (en21 k + ksq2eng * (2 * 2), ksq2eng * (2 * 2))) by reflexivity.
  destruct (C07_raise_exactly_when_open (tas21 ty s) (V (/ PI) 0 0) (en21 k) _ _ b sn E B SN) as [_ RO].
  destruct (RO k 2) as (T & P & _). { split; [lra|]. unfold en21, ksq2eng. lra. } { split; [lra|]. unfold ksq2eng. lra. }
  assert (BE : mv b (V (/ PI) 0 0) = V (/ PI) 0 0).
  { unfold b, bclosed, vol2, cubic1. cbv zeta. cbn [la lb lc lalpha lbeta lgamma].
    replace (deg2rad 90) with (PI / 2) by (unfold deg2rad; field). rewrite cos_PI2, sin_PI2.
    replace (1 - 0 * 0 - 0 * 0 - 0 * 0 + 2 * 0 * 0 * 0) with 1 by ring. rewrite sqrt_1.
    apply vec_eq; la_unfold; cbn; field; apply PI_neq0. }
  assert (Q : 2 * PI * norm (mv b (V (/ PI) 0 0)) = 2).
  { assert (N : norm (mv b (V (/ PI) 0 0)) = / PI).
    { rewrite BE. apply norm_of_sq; [left; apply Rinv_0_lt_compat, PI_RGT_0|]. la_unfold; ring. }
    rewrite N. field. apply PI_neq0. }
  rewrite Q in T, P. destruct T as [_ [th T]]. { unfold side_ok, triangle. lra. }
  destruct P as [_ [psi P]]. { unfold side_ok, triangle. lra. }
  exists th, psi. auto.
Qed.

Example C21_huber_ex : forall k, 1 <= k <= 3 -> let t := tas21 "Y,-Z,X" "-" in let h := V (/ PI) 0 0 in
  placed ub21 (mv (bclosed cubic1) h) /\ det (bclosed cubic1) <> 0 /\ rotation mid /\
  exists a l, calculate_motor_angles t h (en21 k) = Ok a /\ sgl a = Some l /\ -90 < l < 90.
Proof.
  intros k K t h. destruct (tas21_two_theta "Y,-Z,X" "-" (-1) k) as (th & psi & T & P & BE & B & VC); [right; auto|auto|].
  fold h in T, P, BE. set (b := bclosed cubic1) in *.
  assert (D0 : dot ey (mv b h) = 0) by (rewrite BE; unfold h, ey, dot; cbn; ring).
  split. { exists ey. split; auto. }
  split. { pose proof (bclosed_det _ VC). fold b in H. lra. }
  split. { split; [mring|la_unfold; ring]. }
  destruct (C07_two_theta_closes _ _ _ _ T) as (ei & ef & b' & s & ki & kf & E1 & B' & _ & Ki & Kf & C & _).
  rewrite B in B'. apply Ok_inj in B'. subst b'.
  assert (HZ : mv b h <> vzero).
  { rewrite BE. unfold h. intros Z. apply (f_equal vx) in Z. cbn in Z. assert (0 < / PI) by (apply Rinv_0_lt_compat, PI_RGT_0). lra. }
  destruct (C20_defined h ei ef th ub21 b ey ki kf eq_refl eq_refl Ki Kf HZ) as (r & HR).
  { intros Z. apply (f_equal vy) in Z. cbn in Z. lra. } { left; auto. }
  destruct (C20_in_plane _ _ _ _ _ _ _ _ _ _ HR eq_refl eq_refl Ki Kf C D0) as (RO & RN).
  assert (M10 : m10 r = 0 /\ m00 r * m00 r + m20 r * m20 r = 1).
  { assert (X : dot (mv r ex) (mv r ey) = 0). { destruct RO as [O _]. rewrite orth_dot by auto. unfold dot, ex, ey. cbn. ring. }
    rewrite RN in X. replace (norm ey) with 1 in X by (unfold norm, dot, ey; cbn; replace (0 * 0 + 1 * 1 + 0 * 0) with 1 by ring; rewrite sqrt_1; auto).
    rewrite vscale_1 in X. assert (Y : m10 r = 0) by (revert X; unfold ex, ey; la_unfold; lra). split; auto.
    pose proof (rotation_col0 r RO) as C0. rewrite Y in C0. lra. }
  destruct M10 as (M10 & M0).
  unfold calculate_motor_angles, t. rewrite T, P. cbn [bind]. rewrite E1. cbn [bind s_ub_conf t_sample tas21].
  assert (GU : exists m, get_ub_mat ub21 = Ok (Some m)) by (eexists; reflexivity). destruct GU as (m & ->). cbn [bind].
  assert (G : g_type (t_goni (tas21 "Y,-Z,X" "-")) = huber_type false true false) by reflexivity.
  destruct (huber_parse _ _ _ _ G) as (MS & OM & MD). rewrite MD. cbn [bind]. rewrite HR. cbn [bind].
  unfold angles_from_r_mat. rewrite MS, OM. cbn [bind]. rewrite String.eqb_refl. cbv zeta.
  unfold tas21 at 1. cbn [t_goni]. rewrite validate_free. cbn [bind]. eexists. eexists. split; [reflexivity|]. cbn [sgl]. split; [reflexivity|].
  rewrite M0, M10, sqrt_1. unfold atan2. destruct (Rlt_dec 0 1); [|lra]. replace (0 / 1) with 0 by field. rewrite atan_0. unfold rad2deg. lra.
Qed.

Example C21_bisect_ex : forall s sn, sense_of (Some s) sn ->
  exists a, calculate_motor_angles (tas21 "Y,Z,-Y,bisect" s) (V (/ PI) 0 0) (en21 2) = Ok a.
Proof.
  intros s sn SN. destruct (tas21_two_theta "Y,Z,-Y,bisect" s sn 2 SN ltac:(lra)) as (th & psi & T & P & BE & B & VC).
  unfold calculate_motor_angles. rewrite T, P. cbn [bind]. cbn [bind s_ub_conf t_sample tas21 t_ei_ef get_ei_ef t_fixed_ei t_fixed_ef].
  assert (GU : exists m, get_ub_mat ub21 = Ok (Some m)) by (eexists; reflexivity). destruct GU as (m & ->). cbn [bind].
  assert (G : g_type (t_goni (tas21 "Y,Z,-Y,bisect" s)) = four_circle_type false false true) by reflexivity.
  destruct (four_circle_parse _ _ _ _ G) as (MS & OM & MD). rewrite MD. cbn [bind]. rewrite String.eqb_refl.
  unfold ub21. cbn [_ub_mat]. unfold angles_in_bisect_mode. rewrite MS, OM. cbn [bind]. rewrite String.eqb_refl.
  assert (SS : sense_sign (t_goni (tas21 "Y,Z,-Y,bisect" s)) = Ok sn) by (apply sense_sign_ok; auto). rewrite SS. cbn [bind]. cbv zeta.
  unfold tas21. cbn [t_goni]. rewrite validate_free. cbn [bind]. eauto.
Qed.
Lemma en21_elastic : en21 2 = 0.
Proof. unfold en21. ring. Qed.
Lemma en21_inelastic : en21 3 <> 0.
Proof. unfold en21, ksq2eng. lra. Qed.
