(** Lemmas about 3-vectors, 3x3 matrices and arctan2. *)
From Coq Require Import Reals Lra Psatz.
From Verif Require Import Base LinAlg S_Geom.
Open Scope R_scope.

Ltac la_unfold :=
  unfold mm, mv, tr, mid, mzero, mscale, madd, det, adj, of_rows, of_cols,
    row0, row1, row2, col0, col1, col2, vadd, vsub, vopp, vscale, vzero, cross, dot in *; cbn [vx vy vz m00 m01 m02 m10 m11 m12 m20 m21 m22] in *.

Lemma vec_eq : forall a b, vx a = vx b -> vy a = vy b -> vz a = vz b -> a = b.
Proof. intros [] []; cbn; intros; subst; reflexivity. Qed.

Lemma mat_eq : forall a b,
  m00 a = m00 b -> m01 a = m01 b -> m02 a = m02 b ->
  m10 a = m10 b -> m11 a = m11 b -> m12 a = m12 b ->
  m20 a = m20 b -> m21 a = m21 b -> m22 a = m22 b -> a = b.
Proof. intros [] []; cbn; intros; subst; reflexivity. Qed.

Ltac mring := intros; apply mat_eq; la_unfold; ring.
Ltac vring := intros; apply vec_eq; la_unfold; ring.

Lemma mm_assoc : forall a b c, mm a (mm b c) = mm (mm a b) c. Proof. mring. Qed.
Lemma mm_id_l : forall a, mm mid a = a. Proof. mring. Qed.
Lemma mm_id_r : forall a, mm a mid = a. Proof. mring. Qed.
Lemma mv_mm : forall a b v, mv (mm a b) v = mv a (mv b v). Proof. vring. Qed.
Lemma mv_id : forall v, mv mid v = v. Proof. vring. Qed.
Lemma tr_mm : forall a b, tr (mm a b) = mm (tr b) (tr a). Proof. mring. Qed.
Lemma tr_tr : forall a, tr (tr a) = a. Proof. mring. Qed.
Lemma tr_mid : tr mid = mid. Proof. mring. Qed.
Lemma det_mm : forall a b, det (mm a b) = det a * det b.
Proof. intros; la_unfold; ring. Qed.
Lemma det_tr : forall a, det (tr a) = det a. Proof. intros; la_unfold; ring. Qed.
Lemma det_mid : det mid = 1. Proof. la_unfold; ring. Qed.
Lemma det_mscale : forall k a, det (mscale k a) = k * k * k * det a.
Proof. intros; la_unfold; ring. Qed.
Lemma mm_adj_r : forall a, mm a (adj a) = mscale (det a) mid. Proof. mring. Qed.
Lemma mm_adj_l : forall a, mm (adj a) a = mscale (det a) mid. Proof. mring. Qed.
Lemma mm_mscale_l : forall k a b, mm (mscale k a) b = mscale k (mm a b). Proof. mring. Qed.
Lemma mm_mscale_r : forall k a b, mm a (mscale k b) = mscale k (mm a b). Proof. mring. Qed.
Lemma mscale_mscale : forall k l a, mscale k (mscale l a) = mscale (k * l) a. Proof. mring. Qed.
Lemma mscale_1 : forall a, mscale 1 a = a. Proof. mring. Qed.
Lemma mv_vscale : forall m k v, mv m (vscale k v) = vscale k (mv m v). Proof. vring. Qed.
Lemma mv_mscale : forall m k v, mv (mscale k m) v = vscale k (mv m v). Proof. vring. Qed.
Lemma mv_vadd : forall m u v, mv m (vadd u v) = vadd (mv m u) (mv m v). Proof. vring. Qed.
Lemma vscale_vscale : forall k l v, vscale k (vscale l v) = vscale (k * l) v. Proof. vring. Qed.
Lemma vscale_1 : forall v, vscale 1 v = v. Proof. vring. Qed.
Lemma mv_vzero : forall m, mv m vzero = vzero. Proof. vring. Qed.
Lemma dot_comm : forall a b, dot a b = dot b a. Proof. intros; la_unfold; ring. Qed.
Lemma dot_vscale_l : forall k a b, dot (vscale k a) b = k * dot a b. Proof. intros; la_unfold; ring. Qed.
Lemma dot_vscale_r : forall k a b, dot a (vscale k b) = k * dot a b. Proof. intros; la_unfold; ring. Qed.
Lemma dot_vadd_l : forall a b c, dot (vadd a b) c = dot a c + dot b c. Proof. intros; la_unfold; ring. Qed.
Lemma dot_vadd_r : forall a b c, dot c (vadd a b) = dot c a + dot c b. Proof. intros; la_unfold; ring. Qed.
Lemma dot_mv : forall m a b, dot (mv m a) b = dot a (mv (tr m) b). Proof. intros; la_unfold; ring. Qed.
Lemma cross_vscale_l : forall k a b, cross (vscale k a) b = vscale k (cross a b). Proof. vring. Qed.
Lemma cross_vscale_r : forall k a b, cross a (vscale k b) = vscale k (cross a b). Proof. vring. Qed.
Lemma dot_cross_l : forall a b, dot a (cross a b) = 0. Proof. intros; la_unfold; ring. Qed.
Lemma dot_cross_r : forall a b, dot b (cross a b) = 0. Proof. intros; la_unfold; ring. Qed.
Lemma cross_anti : forall a b, cross a b = vopp (cross b a). Proof. vring. Qed.
Lemma lagrange : forall a b, dot (cross a b) (cross a b) = dot a a * dot b b - dot a b * dot a b.
Proof. intros; la_unfold; ring. Qed.
Lemma triple_cross : forall a b c, cross a (cross b c) = vsub (vscale (dot a c) b) (vscale (dot a b) c).
Proof. vring. Qed.

Lemma dot_nonneg : forall a, 0 <= dot a a.
Proof. intros; la_unfold; nra. Qed.

Lemma dot_zero : forall a, dot a a = 0 -> a = vzero.
Proof. intros [x y z]; unfold dot, vzero; cbn; intros.
  assert (x = 0) by nra. assert (y = 0) by nra. assert (z = 0) by nra. subst; reflexivity. Qed.

Lemma norm_nonneg : forall a, 0 <= norm a.
Proof. intros; apply sqrt_pos. Qed.

Lemma norm_sq : forall a, norm a * norm a = dot a a.
Proof. intros; unfold norm; apply sqrt_sqrt, dot_nonneg. Qed.

Lemma norm_zero : forall a, norm a = 0 -> a = vzero.
Proof. intros a H; apply dot_zero. rewrite <- norm_sq, H; ring. Qed.

Lemma norm_pos : forall a, a <> vzero -> 0 < norm a.
Proof. intros a H. destruct (Rle_lt_or_eq_dec _ _ (norm_nonneg a)) as [|E]; auto.
  exfalso; apply H, norm_zero; auto. Qed.

Lemma norm_vzero : norm vzero = 0.
Proof. unfold norm. replace (dot vzero vzero) with 0 by (la_unfold; ring). apply sqrt_0. Qed.

Lemma norm_vscale : forall k a, norm (vscale k a) = Rabs k * norm a.
Proof.
  intros. unfold norm. rewrite dot_vscale_l, dot_vscale_r, <- Rmult_assoc.
  rewrite sqrt_mult; [| nra | apply dot_nonneg]. f_equal.
  replace (k * k) with (Rsqr k) by reflexivity. apply sqrt_Rsqr_abs.
Qed.

Lemma cauchy_schwarz : forall a b, dot a b * dot a b <= dot a a * dot b b.
Proof. intros. pose proof (dot_nonneg (cross a b)). rewrite lagrange in H. lra. Qed.

Lemma dot_le_norm : forall a b, dot a b <= norm a * norm b.
Proof.
  intros. pose proof (cauchy_schwarz a b) as H. rewrite <- !norm_sq in H.
  pose proof (norm_nonneg a); pose proof (norm_nonneg b).
  assert (0 <= norm a * norm b) by nra.
  destruct (Rle_lt_dec (dot a b) (norm a * norm b)); auto. nra.
Qed.

Lemma norm_triangle : forall a b, norm (vadd a b) <= norm a + norm b.
Proof.
  intros. pose proof (norm_nonneg a); pose proof (norm_nonneg b); pose proof (norm_nonneg (vadd a b)).
  pose proof (dot_le_norm a b).
  assert (norm (vadd a b) * norm (vadd a b) <= (norm a + norm b) * (norm a + norm b)).
  { rewrite norm_sq, dot_vadd_l, !dot_vadd_r, (dot_comm b a), <- !norm_sq. nra. }
  nra.
Qed.

(** ** Inverses *)
Lemma minv_ok : forall m, det m <> 0 -> minv m = Ok (mscale (/ det m) (adj m)).
Proof. intros; unfold minv. destruct (Req_EM_T (det m) 0); congruence. Qed.

Lemma minv_spec : forall m i, minv m = Ok i -> det m <> 0 /\ inverse_of i m.
Proof.
  unfold minv; intros m i. destruct (Req_EM_T (det m) 0) as [|N]; intros E; inversion E; subst.
  split; auto. split.
  - rewrite mm_mscale_l, mm_adj_l, mscale_mscale, Rinv_l by auto. apply mscale_1.
  - rewrite mm_mscale_r, mm_adj_r, mscale_mscale, Rinv_l by auto. apply mscale_1.
Qed.

Lemma minv_err : forall m e, minv m = Err e -> det m = 0 /\ e = LinAlgError.
Proof. unfold minv; intros m e. destruct (Req_EM_T (det m) 0); intros E; inversion E; auto. Qed.

Lemma left_inv_det : forall i m, mm i m = mid -> det m <> 0.
Proof. intros i m H D. apply (f_equal det) in H. rewrite det_mm, D, det_mid in H. lra. Qed.

Lemma left_inv_unique : forall a b m, mm a m = mid -> mm m b = mid -> a = b.
Proof. intros. rewrite <- (mm_id_r a), <- H0, mm_assoc, H, mm_id_l; reflexivity. Qed.

Lemma left_inv_right_inv : forall i m, mm i m = mid -> mm m i = mid.
Proof.
  intros i m H. pose proof (left_inv_det _ _ H) as D.
  destruct (minv_spec m _ (minv_ok m D)) as [_ [L Rr]].
  rewrite (left_inv_unique i _ m H Rr). exact Rr.
Qed.

Lemma minv_of_left_inv : forall i m, mm i m = mid -> minv m = Ok i.
Proof.
  intros i m H. pose proof (left_inv_det _ _ H) as D.
  rewrite (minv_ok _ D). f_equal. symmetry.
  destruct (minv_spec m _ (minv_ok m D)) as [_ [L Rr]]. apply (left_inv_unique i _ m H Rr).
Qed.

Lemma mm_cancel_r : forall a b m, det m <> 0 -> mm a m = mm b m -> a = b.
Proof.
  intros a b m D E. destruct (minv_spec m _ (minv_ok m D)) as [_ [L Rr]].
  rewrite <- (mm_id_r a), <- Rr, mm_assoc, E, <- mm_assoc, Rr, mm_id_r. reflexivity.
Qed.

Lemma mv_inj : forall m a b, det m <> 0 -> mv m a = mv m b -> a = b.
Proof.
  intros m a b D E. destruct (minv_spec m _ (minv_ok m D)) as [_ [L Rr]].
  rewrite <- (mv_id a), <- L, mv_mm, E, <- mv_mm, L, mv_id. reflexivity.
Qed.

(** ** Rotations *)
Lemma rotation_id : rotation mid.
Proof. split; [apply mat_eq; la_unfold; ring | apply det_mid]. Qed.

Lemma rotation_mm : forall a b, rotation a -> rotation b -> rotation (mm a b).
Proof.
  intros a b [Ha Da] [Hb Db]; split.
  - rewrite tr_mm, <- mm_assoc, (mm_assoc (tr a)), Ha, mm_id_l. exact Hb.
  - rewrite det_mm, Da, Db; ring.
Qed.

Lemma rotation_tr_r : forall a, rotation a -> mm a (tr a) = mid.
Proof. intros a [H _]. apply left_inv_right_inv; auto. Qed.

Lemma rotation_tr : forall a, rotation a -> rotation (tr a).
Proof. intros a H; split. - rewrite tr_tr; apply rotation_tr_r; auto. - rewrite det_tr; apply H. Qed.

Lemma rotation_minv : forall a, rotation a -> minv a = Ok (tr a).
Proof. intros a [H _]; apply minv_of_left_inv; auto. Qed.

Lemma orth_dot : forall r a b, mm (tr r) r = mid -> dot (mv r a) (mv r b) = dot a b.
Proof. intros. rewrite dot_mv, <- mv_mm, H, mv_id. reflexivity. Qed.

Lemma orth_norm : forall r a, mm (tr r) r = mid -> norm (mv r a) = norm a.
Proof. intros; unfold norm; rewrite orth_dot; auto. Qed.

Lemma dot_ext : forall a b, (forall c, dot a c = dot b c) -> a = b.
Proof.
  intros [a1 a2 a3] [b1 b2 b3] H.
  pose proof (H (V 1 0 0)); pose proof (H (V 0 1 0)); pose proof (H (V 0 0 1)).
  unfold dot in *; cbn in *. apply vec_eq; cbn; lra.
Qed.

Lemma det_cross : forall m a b c, dot (cross (mv m a) (mv m b)) (mv m c) = det m * dot (cross a b) c.
Proof. intros; la_unfold; ring. Qed.

Lemma rotation_cross : forall r a b, rotation r -> cross (mv r a) (mv r b) = mv r (cross a b).
Proof.
  intros r a b [H D]. apply dot_ext; intros c.
  assert (Hc : c = mv r (mv (tr r) c)).
  { rewrite <- mv_mm. rewrite (left_inv_right_inv _ _ H), mv_id; auto. }
  rewrite Hc, det_cross, D, orth_dot by auto. ring.
Qed.

Lemma frame_rotation : forall a b c, frame a b c -> rotation (of_cols a b c).
Proof.
  intros a b c (Ha & Hb & Hc & Hab & Hbc & Hac & Hx). split.
  - apply mat_eq; la_unfold; lra.
  - assert (det (of_cols a b c) = dot (cross a b) c) by (la_unfold; ring).
    rewrite H, Hx. exact Hc.
Qed.

Lemma rotation_frame : forall r, rotation r -> frame (col0 r) (col1 r) (col2 r).
Proof.
  intros r Hr. pose proof Hr as [H D].
  assert (C0 : col0 r = mv r (V 1 0 0)) by vring.
  assert (C1 : col1 r = mv r (V 0 1 0)) by vring.
  assert (C2 : col2 r = mv r (V 0 0 1)) by vring.
  rewrite C0, C1, C2. unfold frame. rewrite !orth_dot by auto. rewrite rotation_cross by auto.
  repeat split; try (la_unfold; ring). f_equal; vring.
Qed.

Lemma of_cols_cols : forall m, of_cols (col0 m) (col1 m) (col2 m) = m.
Proof. mring. Qed.

Lemma mm_of_cols : forall m a b c, mm m (of_cols a b c) = of_cols (mv m a) (mv m b) (mv m c).
Proof. mring. Qed.

Lemma mv_of_cols : forall a b c v,
  mv (of_cols a b c) v = vadd (vscale (vx v) a) (vadd (vscale (vy v) b) (vscale (vz v) c)).
Proof. vring. Qed.

(** ** Unit vectors *)
Lemma unit_of_ok : forall v, v <> vzero -> unit_of v = Ok (vscale (/ norm v) v).
Proof. intros v H; unfold unit_of. destruct (Req_EM_T (norm v) 0) as [E|]; auto.
  exfalso; apply H, norm_zero; auto. Qed.

Lemma unit_of_spec : forall v u, unit_of v = Ok u ->
  v <> vzero /\ 0 < norm v /\ u = vscale (/ norm v) v /\ dot u u = 1.
Proof.
  unfold unit_of; intros v u. destruct (Req_EM_T (norm v) 0) as [|N]; intros E; inversion E; subst.
  assert (v <> vzero) by (intros ->; apply N, norm_vzero).
  pose proof (norm_pos v H). repeat split; auto.
  rewrite dot_vscale_l, dot_vscale_r, <- norm_sq. field; lra.
Qed.

(** ** arctan2 *)
Lemma sqrt_sumsq_pos : forall x y, (x, y) <> (0, 0) -> 0 < sqrt (x * x + y * y).
Proof.
  intros. apply sqrt_lt_R0.
  destruct (Req_dec x 0); destruct (Req_dec y 0); subst; try nra; try (exfalso; apply H; reflexivity).
Qed.

Lemma atan2_polar : forall x y, (x, y) <> (0, 0) ->
  sqrt (x * x + y * y) * cos (atan2 y x) = x /\ sqrt (x * x + y * y) * sin (atan2 y x) = y.
Proof.
  intros x y H. set (r := sqrt (x * x + y * y)).
  assert (Hr : 0 < r) by (apply sqrt_sumsq_pos; auto).
  assert (Hrr : r * r = x * x + y * y) by (unfold r; apply sqrt_sqrt; nra).
  assert (Key : x <> 0 -> sqrt (1 + (y / x)²) = r / Rabs x).
  { intros Hx. rewrite <- (sqrt_Rsqr (r / Rabs x)).
    - f_equal. unfold Rsqr. unfold Rdiv. rewrite !Rmult_assoc.
      assert (Rabs x <> 0) by (apply Rabs_no_R0; auto).
      assert (Rabs x * Rabs x = x * x) by (rewrite <- Rabs_mult; apply Rabs_right; nra).
      field_simplify; auto. rewrite <- !Rsqr_pow2. unfold Rsqr. rewrite Hrr, H1. field; auto.
    - apply Rmult_le_pos; [lra|]. left; apply Rinv_0_lt_compat, Rabs_pos_lt; auto. }
  unfold atan2.
  destruct (Rlt_dec 0 x) as [P|P].
  - assert (x <> 0) by lra. specialize (Key H0). rewrite Rabs_right in Key by lra.
    rewrite cos_atan, sin_atan, Key. split; field; lra.
  - destruct (Rlt_dec x 0) as [Q|Q].
    + assert (x <> 0) by lra. specialize (Key H0). rewrite Rabs_left in Key by lra.
      destruct (Rle_dec 0 y).
      * rewrite neg_cos, neg_sin, cos_atan, sin_atan, Key. split; field; lra.
      * replace (atan (y / x) - PI) with (- (PI - atan (y / x))) by ring.
        rewrite cos_neg, sin_neg. replace (PI - atan (y/x)) with (- atan (y / x) + PI) by ring.
        rewrite neg_cos, neg_sin, cos_neg, sin_neg, cos_atan, sin_atan, Key. split; field; lra.
    + assert (x = 0) by lra. subst x.
      destruct (Rlt_dec 0 y).
      * rewrite cos_PI2, sin_PI2. split; [ring|].
        assert (r = y). { unfold r. replace (0*0+y*y) with (Rsqr y) by (unfold Rsqr; ring). apply sqrt_Rsqr; lra. } lra.
      * destruct (Rlt_dec y 0).
        -- rewrite cos_neg, sin_neg, cos_PI2, sin_PI2. split; [ring|].
           assert (r = - y). { unfold r. replace (0*0+y*y) with (Rsqr (-y)) by (unfold Rsqr; ring). apply sqrt_Rsqr; lra. } lra.
        -- exfalso; apply H. f_equal; lra.
Qed.

Lemma atan2_range : forall y x, - PI < atan2 y x <= PI.
Proof.
  intros. pose proof PI_RGT_0. pose proof (atan_bound (y / x)). unfold atan2.
  destruct (Rlt_dec 0 x); [lra|]. destruct (Rlt_dec x 0).
  - destruct (Rle_dec 0 y).
    + split; [lra|]. assert (y / x <= 0).
      { unfold Rdiv. assert (/ x < 0) by (apply Rinv_lt_0_compat; auto). nra. }
      assert (atan (y / x) <= atan 0). { destruct H1; [left; apply atan_increasing; auto | rewrite H1; lra]. }
      rewrite atan_0 in H2. lra.
    + split; [|lra]. assert (0 < y / x).
      { unfold Rdiv. assert (/ x < 0) by (apply Rinv_lt_0_compat; auto). nra. }
      apply atan_increasing in H1. rewrite atan_0 in H1. lra.
  - destruct (Rlt_dec 0 y); [lra|]. destruct (Rlt_dec y 0); lra.
Qed.

(** An angle in (-PI, PI] is determined by its sine and cosine. *)
Lemma angle_unique : forall a b, - PI < a <= PI -> - PI < b <= PI -> cos a = cos b -> sin a = sin b -> a = b.
Proof.
  intros a b Ha Hb Hc Hs.
  assert (C : cos (a - b) = 1).
  { rewrite cos_minus, Hc, Hs. pose proof (sin2_cos2 b) as E. unfold Rsqr in E. lra. }
  assert (S : sin (a - b) = 0).
  { rewrite sin_minus, Hc, Hs. ring. }
  pose proof PI_RGT_0.
  assert (W : forall d, 0 <= d < 2 * PI -> cos d = 1 -> sin d = 0 -> d = 0).
  { intros d Hd Cd Sd. destruct (Req_dec d 0); auto. exfalso.
    destruct (Rlt_dec d PI).
    - assert (0 < sin d) by (apply sin_gt_0; lra). lra.
    - destruct (Req_dec d PI). + subst d. rewrite cos_PI in Cd. lra.
      + assert (sin d < 0) by (apply sin_lt_0; lra). lra. }
  destruct (Rle_lt_dec 0 (a - b)).
  - assert (a - b = 0) by (apply W; auto; lra). lra.
  - assert (b - a = 0).
    { apply W; try lra. - replace (b - a) with (- (a - b)) by ring. rewrite cos_neg; auto.
      - replace (b - a) with (- (a - b)) by ring. rewrite sin_neg; lra. } lra.
Qed.

Lemma atan2_unique : forall k t, 0 < k -> - PI < t <= PI -> atan2 (k * sin t) (k * cos t) = t.
Proof.
  intros k t Hk Ht.
  assert (E : k * cos t * (k * cos t) + k * sin t * (k * sin t) = Rsqr k).
  { pose proof (sin2_cos2 t) as S2. unfold Rsqr in *. nra. }
  assert (N : (k * cos t, k * sin t) <> (0, 0)).
  { intros C; inversion C. rewrite H0, H1 in E. unfold Rsqr in E; nra. }
  destruct (atan2_polar _ _ N) as [C S]. rewrite E, sqrt_Rsqr in C, S by lra.
  apply angle_unique; auto. - apply atan2_range. - nra. - nra.
Qed.

(** ** degrees and radians *)
Lemma deg2rad_rad2deg : forall r, deg2rad (rad2deg r) = r.
Proof. intros; unfold deg2rad, rad2deg. field. apply PI_neq0. Qed.
Lemma rad2deg_deg2rad : forall r, rad2deg (deg2rad r) = r.
Proof. intros; unfold deg2rad, rad2deg. field. apply PI_neq0. Qed.

Lemma cos2_sin2 : forall x, cos x * cos x + sin x * sin x = 1.
Proof. intros. pose proof (sin2_cos2 x). unfold Rsqr in H. lra. Qed.
