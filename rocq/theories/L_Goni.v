From Coq Require Import Reals Lra Psatz List String Ascii Bool.
From Verif Require Import Base LinAlg PyStr S_Geom S_Goni L_LinAlg M_Utilities M_Goni.
Import ListNotations.
Open Scope R_scope.

Lemma rot_x_rotation : forall t, rotation (rot_x t).
Proof.
  intros; split; unfold rot_x.
  - pose proof (cos2_sin2 (deg2rad t)). apply mat_eq; la_unfold; lra.
  - pose proof (cos2_sin2 (deg2rad t)). la_unfold. lra.
Qed.
Lemma rot_y_rotation : forall t, rotation (rot_y t).
Proof.
  intros; split; unfold rot_y.
  - pose proof (cos2_sin2 (deg2rad t)). apply mat_eq; la_unfold; lra.
  - pose proof (cos2_sin2 (deg2rad t)). la_unfold. lra.
Qed.
Lemma rot_z_rotation : forall t, rotation (rot_z t).
Proof.
  intros; split; unfold rot_z.
  - pose proof (cos2_sin2 (deg2rad t)). apply mat_eq; la_unfold; lra.
  - pose proof (cos2_sin2 (deg2rad t)). la_unfold. lra.
Qed.

Lemma rot_x_turn : forall t v, mv (rot_x t) v = turn ex t v.
Proof. intros; unfold rot_x, turn, ex, deg2rad. apply vec_eq; la_unfold; ring. Qed.
Lemma rot_y_turn : forall t v, mv (rot_y t) v = turn ey t v.
Proof. intros; unfold rot_y, turn, ey, deg2rad. apply vec_eq; la_unfold; ring. Qed.
Lemma rot_z_turn : forall t v, mv (rot_z t) v = turn ez t v.
Proof. intros; unfold rot_z, turn, ez, deg2rad. apply vec_eq; la_unfold; ring. Qed.

Ltac break_bind H :=
  match type of H with
  | bind ?x _ = _ => let E := fresh "E" in destruct x eqn:E; cbn [bind] in H; [|discriminate H]
  end.

Lemma r_mat_is_rotation : forall g a r, r_mat g a = Ok r -> rotation r.
Proof.
  intros g a r H. unfold r_mat in H.
  break_bind H. destruct a0 as [[s0 s1] s2]. break_bind H.
  destruct (String.eqb a0 "YZX").
  - destruct (omega a), (sgl a), (sgu a); try discriminate. apply Ok_inj in H; subst.
    repeat apply rotation_mm; auto using rot_x_rotation, rot_y_rotation, rot_z_rotation.
  - destruct (String.eqb a0 "YZYbisect"); [|discriminate].
    destruct (omega a), (chi a), (phi a); try discriminate. apply Ok_inj in H; subst.
    repeat apply rotation_mm; auto using rot_x_rotation, rot_y_rotation, rot_z_rotation.
Qed.

Lemma r_mat_inv_is_inverse : forall g a r, r_mat g a = Ok r ->
  exists i, r_mat_inv g a = Ok i /\ inverse_of i r.
Proof.
  intros g a r H. exists (tr r). unfold r_mat_inv. rewrite H. split; auto.
  pose proof (r_mat_is_rotation _ _ _ H) as Hr. split; [apply Hr | apply rotation_tr_r; auto].
Qed.

Lemma r_mat_total : forall g a, (exists r, r_mat g a = Ok r) \/ r_mat g a = Err ValueError.
Proof.
  intros. unfold r_mat, motor_senses, operating_mode, stacking_order, mode, split_type.
  destruct (split_on comma (g_type g)) as [|x0 [|x1 [|x2 rest]]]; cbn; auto.
  repeat match goal with
  | |- context [if ?b then _ else _] => destruct b
  | |- context [match ?o with Some _ => _ | None => _ end] => destruct o
  end; eauto.
Qed.

(** The documented types are parsed to the expected signs and mode. *)
Lemma huber_parse : forall g n0 n1 n2, g_type g = huber_type n0 n1 n2 ->
  motor_senses g = Ok (sg n0, sg n1, sg n2) /\ operating_mode g = Ok "YZX"%string /\ mode g = Ok None.
Proof.
  intros g n0 n1 n2 H. unfold motor_senses, operating_mode, mode, stacking_order, split_type.
  rewrite H. destruct n0, n1, n2; cbn; auto.
Qed.

Lemma four_circle_parse : forall g n0 n1 n2, g_type g = four_circle_type n0 n1 n2 ->
  motor_senses g = Ok (sg n0, sg n1, sg n2) /\ operating_mode g = Ok "YZYbisect"%string
  /\ mode g = Ok (Some "bisect"%string).
Proof.
  intros g n0 n1 n2 H. unfold motor_senses, operating_mode, mode, stacking_order, split_type.
  rewrite H. destruct n0, n1, n2; cbn; auto.
Qed.

Lemma r_mat_huber_eq : forall g n0 n1 n2 a, g_type g = huber_type n0 n1 n2 ->
  r_mat g a = match omega a, sgl a, sgu a with
    | Some w, Some l, Some u => Ok (mm (rot_y (w * sg n0)) (mm (rot_z (l * sg n1)) (rot_x (u * sg n2))))
    | _, _, _ => Err ValueError end.
Proof.
  intros. destruct (huber_parse _ _ _ _ H) as (E1 & E2 & _). unfold r_mat. rewrite E1, E2. reflexivity.
Qed.

Lemma r_mat_four_circle_eq : forall g n0 n1 n2 a, g_type g = four_circle_type n0 n1 n2 ->
  r_mat g a = match omega a, chi a, phi a with
    | Some w, Some l, Some u => Ok (mm (rot_y (w * sg n0)) (mm (rot_z (l * sg n1)) (rot_y (u * sg n2))))
    | _, _, _ => Err ValueError end.
Proof.
  intros. destruct (four_circle_parse _ _ _ _ H) as (E1 & E2 & _). unfold r_mat. rewrite E1, E2. reflexivity.
Qed.

Lemma r_mat_huber_action : forall g n0 n1 n2 a w l u, g_type g = huber_type n0 n1 n2 ->
  omega a = Some w -> sgl a = Some l -> sgu a = Some u ->
  exists r, r_mat g a = Ok r /\
    forall v, mv r v = turn ey (sg n0 * w) (turn ez (sg n1 * l) (turn ex (sg n2 * u) v)).
Proof.
  intros. rewrite (r_mat_huber_eq _ _ _ _ _ H), H0, H1, H2. eexists; split; [reflexivity|].
  intros. rewrite !mv_mm, rot_x_turn, rot_z_turn, rot_y_turn.
  rewrite (Rmult_comm w), (Rmult_comm l), (Rmult_comm u). reflexivity.
Qed.

Lemma r_mat_four_circle_action : forall g n0 n1 n2 a w c p, g_type g = four_circle_type n0 n1 n2 ->
  omega a = Some w -> chi a = Some c -> phi a = Some p ->
  exists r, r_mat g a = Ok r /\
    forall v, mv r v = turn ey (sg n0 * w) (turn ez (sg n1 * c) (turn ey (sg n2 * p) v)).
Proof.
  intros. rewrite (r_mat_four_circle_eq _ _ _ _ _ H), H0, H1, H2. eexists; split; [reflexivity|].
  intros. rewrite !mv_mm, rot_y_turn, rot_z_turn, rot_y_turn.
  rewrite (Rmult_comm w), (Rmult_comm c), (Rmult_comm p). reflexivity.
Qed.

Lemma sg_sq : forall n, sg n * sg n = 1.
Proof. destruct n; unfold sg; lra. Qed.

Lemma rad2deg_sg : forall n t, deg2rad (rad2deg (sg n * t) * sg n) = t.
Proof. intros. unfold deg2rad, rad2deg. destruct n; unfold sg; field; apply PI_neq0. Qed.

(** Entries of Ry.Rz.Rx *)
Lemma yzx_entries : forall w l u,
  mm (rot_y w) (mm (rot_z l) (rot_x u)) =
  let cw := cos (deg2rad w) in let sw := sin (deg2rad w) in
  let cl := cos (deg2rad l) in let sl := sin (deg2rad l) in
  let cu := cos (deg2rad u) in let su := sin (deg2rad u) in
  M (cw * cl) (- cw * sl * cu + sw * su) (cw * sl * su + sw * cu)
    sl (cl * cu) (- cl * su)
    (- sw * cl) (sw * sl * cu + cw * su) (- sw * sl * su + cw * cu).
Proof.
  intros. unfold rot_x, rot_y, rot_z. cbv zeta.
  generalize (cos (deg2rad w)) (sin (deg2rad w)) (cos (deg2rad l)) (sin (deg2rad l)) (cos (deg2rad u)) (sin (deg2rad u)).
  intros. apply mat_eq; la_unfold; ring.
Qed.

Lemma rotation_cofactor : forall r, rotation r -> tr r = adj r.
Proof.
  intros r Hr. pose proof (rotation_minv r Hr) as E1. destruct Hr as [_ D].
  rewrite minv_ok, D in E1 by lra. apply Ok_inj in E1. rewrite Rinv_1, mscale_1 in E1. auto.
Qed.

Lemma rotation_row1 : forall r, rotation r -> m10 r * m10 r + m11 r * m11 r + m12 r * m12 r = 1.
Proof. intros r Hr. pose proof (rotation_tr_r r Hr) as H. apply (f_equal m11) in H. la_unfold. lra. Qed.
Lemma rotation_col0 : forall r, rotation r -> m00 r * m00 r + m10 r * m10 r + m20 r * m20 r = 1.
Proof. intros r Hr. destruct Hr as [H _]. apply (f_equal m00) in H. la_unfold. lra. Qed.

(** angles_from_r_mat inverts r_mat away from gimbal lock. *)
Lemma yzx_decompose : forall r, rotation r -> -1 < m10 r < 1 ->
  let w := atan2 (- m20 r) (m00 r) in
  let l := atan2 (m10 r) (sqrt (m00 r * m00 r + m20 r * m20 r)) in
  let u := atan2 (- m12 r) (m11 r) in
  mm (rot_y (rad2deg w)) (mm (rot_z (rad2deg l)) (rot_x (rad2deg u))) = r.
Proof.
  intros r Hr Hb w l u. rewrite yzx_entries. cbv zeta. rewrite !deg2rad_rad2deg.
  pose proof (rotation_row1 r Hr) as R1. pose proof (rotation_col0 r Hr) as C0.
  pose proof (rotation_cofactor r Hr) as CF.
  assert (Hpos : 0 < m00 r * m00 r + m20 r * m20 r) by nra.
  set (d := sqrt (m00 r * m00 r + m20 r * m20 r)) in *.
  assert (Hd : 0 < d) by (apply sqrt_lt_R0; auto).
  assert (Hdd : d * d = m00 r * m00 r + m20 r * m20 r) by (apply sqrt_sqrt; lra).
  destruct (atan2_polar (m00 r) (- m20 r)) as [Cw Sw].
  { intros E; inversion E. nra. }
  fold w in Cw, Sw.
  replace (m00 r * m00 r + - m20 r * - m20 r) with (m00 r * m00 r + m20 r * m20 r) in Cw, Sw by ring.
  fold d in Cw, Sw.
  destruct (atan2_polar d (m10 r)) as [Cl Sl]. { intros E; inversion E. lra. }
  fold l in Cl, Sl.
  replace (d * d + m10 r * m10 r) with 1 in Cl, Sl by lra. rewrite sqrt_1 in Cl, Sl.
  rewrite Rmult_1_l in Cl, Sl.
  destruct (atan2_polar (m11 r) (- m12 r)) as [Cu Su].
  { intros E; inversion E. nra. }
  fold u in Cu, Su.
  replace (m11 r * m11 r + - m12 r * - m12 r) with (m00 r * m00 r + m20 r * m20 r) in Cu, Su by lra.
  fold d in Cu, Su.
  rewrite Cl, Sl.
  clearbody w l u d.
  set (cw := cos w) in *. set (sw := sin w) in *. set (cu := cos u) in *. set (su := sin u) in *.
  clearbody cw sw cu su.
  pose proof (f_equal m10 CF) as F01. pose proof (f_equal m20 CF) as F02.
  pose proof (f_equal m12 CF) as F21. pose proof (f_equal m22 CF) as F22.
  unfold tr, adj in F01, F02, F21, F22; cbn in F01, F02, F21, F22.
  assert (Hdd2 : d * d = 1 - m10 r * m10 r) by lra.
  assert (W1 : d * d * m01 r = - m10 r * m00 r * m11 r + m12 r * m20 r)
    by (rewrite Hdd2; rewrite F22 in F01; lra).
  assert (W2 : d * d * m02 r = - m10 r * m00 r * m12 r - m11 r * m20 r)
    by (rewrite Hdd2; rewrite F21 in F02; lra).
  assert (W3 : d * d * m21 r = - m10 r * m20 r * m11 r - m00 r * m12 r)
    by (rewrite Hdd2; rewrite F02 in F21; lra).
  assert (W4 : d * d * m22 r = m00 r * m11 r - m10 r * m20 r * m12 r)
    by (rewrite Hdd2; rewrite F01 in F22; lra).
  assert (Hdd0 : d * d <> 0) by nra.
  apply mat_eq; cbn; try lra.
  - apply (Rmult_eq_reg_l (d * d)); auto. rewrite W1, <- Sl at 1.
    replace (m00 r) with (d * cw) by lra. replace (m20 r) with (- (d * sw)) by lra.
    replace (m11 r) with (d * cu) by lra. replace (m12 r) with (- (d * su)) by lra. try rewrite Sl. ring.
  - apply (Rmult_eq_reg_l (d * d)); auto. rewrite W2.
    replace (m00 r) with (d * cw) by lra. replace (m20 r) with (- (d * sw)) by lra.
    replace (m11 r) with (d * cu) by lra. replace (m12 r) with (- (d * su)) by lra. ring.
  - apply (Rmult_eq_reg_l (d * d)); auto. rewrite W3.
    replace (m00 r) with (d * cw) by lra. replace (m20 r) with (- (d * sw)) by lra.
    replace (m11 r) with (d * cu) by lra. replace (m12 r) with (- (d * su)) by lra. ring.
  - apply (Rmult_eq_reg_l (d * d)); auto. rewrite W4.
    replace (m00 r) with (d * cw) by lra. replace (m20 r) with (- (d * sw)) by lra.
    replace (m11 r) with (d * cu) by lra. replace (m12 r) with (- (d * su)) by lra. ring.
Qed.

Lemma rad2deg_sg' : forall n t, rad2deg (sg n * t) * sg n = rad2deg t.
Proof. intros. unfold rad2deg. destruct n; unfold sg; field; apply PI_neq0. Qed.

Lemma angles_from_r_mat_inv : forall g n0 n1 n2 r tt a,
  g_type g = huber_type n0 n1 n2 -> rotation r -> -1 < m10 r < 1 ->
  angles_from_r_mat g r tt = Ok a -> r_mat g a = Ok r /\ two_theta a = tt.
Proof.
  intros g n0 n1 n2 r tt a Hg Hr Hb H.
  destruct (huber_parse _ _ _ _ Hg) as (E1 & E2 & _).
  unfold angles_from_r_mat in H. rewrite E1, E2 in H. cbn [bind] in H.
  rewrite String.eqb_refl in H. break_bind H. apply Ok_inj in H; subst a.
  split; [|reflexivity].
  rewrite (r_mat_huber_eq _ _ _ _ _ Hg). cbn [omega sgl sgu]. rewrite !rad2deg_sg'.
  f_equal. apply yzx_decompose; auto.
Qed.

(** The converse: angles in the principal ranges are recovered exactly. *)
Lemma r_mat_angles_from : forall g n0 n1 n2 w l u tt r,
  g_type g = huber_type n0 n1 n2 ->
  -180 < sg n0 * w <= 180 -> -90 < l < 90 -> -180 < sg n2 * u <= 180 ->
  let a := MotorAngles tt (Some w) (Some l) (Some u) None None in
  r_mat g a = Ok r ->
  angles_from_r_mat g r tt = do _ <- validate_motor_positions g a; Ok a.
Proof.
  intros g n0 n1 n2 w l u tt r Hg Hw Hl Hu a Hr.
  rewrite (r_mat_huber_eq _ _ _ _ _ Hg) in Hr. cbn [a omega sgl sgu] in Hr.
  rewrite yzx_entries in Hr. cbv zeta in Hr. apply Ok_inj in Hr; subst r.
  destruct (huber_parse _ _ _ _ Hg) as (E1 & E2 & _).
  unfold angles_from_r_mat. rewrite E1, E2. cbn [bind]. rewrite String.eqb_refl.
  cbn [m00 m10 m20 m11 m12].
  set (tw := deg2rad (w * sg n0)) in *. set (tl := deg2rad (l * sg n1)) in *. set (tu := deg2rad (u * sg n2)) in *.
  assert (HP := PI_RGT_0).
  assert (Bl : - (PI / 2) < tl < PI / 2).
  { unfold tl, deg2rad. destruct n1; unfold sg; nra. }
  assert (Bw : - PI < tw <= PI). { unfold tw, deg2rad. nra. }
  assert (Bu : - PI < tu <= PI). { unfold tu, deg2rad. nra. }
  assert (Cl : 0 < cos tl) by (apply cos_gt_0; lra).
  assert (S1 : sqrt (cos tw * cos tl * (cos tw * cos tl) + - sin tw * cos tl * (- sin tw * cos tl)) = cos tl).
  { replace (cos tw * cos tl * (cos tw * cos tl) + - sin tw * cos tl * (- sin tw * cos tl))
      with ((cos tw * cos tw + sin tw * sin tw) * (cos tl * cos tl)) by ring.
    rewrite cos2_sin2, Rmult_1_l. apply sqrt_square; lra. }
  rewrite S1.
  replace (- (- sin tw * cos tl)) with (cos tl * sin tw) by ring.
  replace (cos tw * cos tl) with (cos tl * cos tw) by ring.
  replace (- (- cos tl * sin tu)) with (cos tl * sin tu) by ring.
  rewrite !atan2_unique by auto.
  replace (atan2 (sin tl) (cos tl)) with tl
    by (rewrite <- (atan2_unique 1 tl) at 1; [rewrite !Rmult_1_l; auto | lra | lra]).
  assert (X : forall n v, rad2deg (sg n * deg2rad (v * sg n)) = v).
  { intros. unfold rad2deg, deg2rad. destruct n; unfold sg; field; auto using PI_neq0. }
  unfold tw, tl, tu. rewrite !X. fold a. reflexivity.
Qed.

(** ** limits *)
Lemma check_limit_ok : forall lim name v, check_limit lim name (Some v) = Ok tt ->
  within (match dget String.eqb name lim with Some b => b | None => (None, None) end) v.
Proof.
  unfold check_limit, within; intros lim name v.
  destruct (match dget String.eqb name lim with Some b => b | None => (None, None) end) as [lo hi]; cbn.
  destruct lo as [lo|]; destruct hi as [hi|]; cbn;
  repeat match goal with |- context [Rlt_dec ?x ?y] => destruct (Rlt_dec x y); cbn end;
  intros H; try discriminate; split; intros z Hz; inversion Hz; subst; lra.
Qed.

Lemma check_limit_iff : forall lim name v, check_limit lim name (Some v) = Ok tt <->
  within (match dget String.eqb name lim with Some b => b | None => (None, None) end) v.
Proof.
  split; [apply check_limit_ok|].
  unfold check_limit, within.
  destruct (match dget String.eqb name lim with Some b => b | None => (None, None) end) as [lo hi]; cbn.
  intros [Hl Hh].
  destruct lo as [lo|]; destruct hi as [hi|]; cbn;
  repeat match goal with |- context [Rlt_dec ?x ?y] => destruct (Rlt_dec x y); cbn end; auto;
  try (specialize (Hl _ eq_refl)); try (specialize (Hh _ eq_refl)); lra.
Qed.

Lemma check_limit_cases : forall lim name v, check_limit lim name v = Ok tt \/ check_limit lim name v = Err ValueError.
Proof.
  intros lim name [v|]; cbn; auto.
  destruct (match dget String.eqb name lim with Some b => b | None => (None, None) end) as [[lo|] [hi|]]; cbn;
  repeat match goal with |- context [Rlt_dec ?x ?y] => destruct (Rlt_dec x y); cbn end; auto.
Qed.

Lemma check_limit_opt : forall g name v,
  check_limit (g_limits g) name v = Ok tt <-> (forall x, v = Some x -> within (bounds_of g name) x).
Proof.
  intros g name [x|].
  - rewrite check_limit_iff. split. + intros H y E; inversion E; subst; auto. + intros H; apply (H x eq_refl).
  - cbn; split; auto. intros _ y E; discriminate.
Qed.

Lemma validate_iff : forall g a, validate_motor_positions g a = Ok tt <->
  (forall name v, In (name, Some v) (motors a) -> within (bounds_of g name) v).
Proof.
  intros g a. unfold validate_motor_positions. split.
  - intros H.
    assert (P : forall n o, In (n, o) (motors a) -> check_limit (g_limits g) n o = Ok tt).
    { repeat match type of H with bind ?x _ = _ =>
        let E := fresh "E" in destruct x as [[]|] eqn:E; cbn [bind] in H; [|discriminate H] end.
      intros n o Hin. unfold motors in Hin. cbn in Hin.
      repeat (destruct Hin as [Hin|Hin]; [inversion Hin; subst; assumption|]). destruct Hin. }
    intros name v Hin. apply P in Hin. rewrite check_limit_iff in Hin. exact Hin.
  - intros H.
    assert (P : forall n o, In (n, o) (motors a) -> check_limit (g_limits g) n o = Ok tt).
    { intros n o Hin. apply check_limit_opt. intros x E; subst; auto. }
    assert (Q : forall n o, In (n, o) (motors a) -> check_limit (g_limits g) n o = Ok tt) by exact P.
    unfold motors in P. cbn [In] in P.
    rewrite !(fun n o k => P n o k) by (repeat (try (left; reflexivity); right)).
    repeat (rewrite P by (repeat (try (left; reflexivity); right)); cbn [bind]). reflexivity.
Qed.

Lemma validate_cases : forall g a, validate_motor_positions g a = Ok tt \/ validate_motor_positions g a = Err ValueError.
Proof.
  intros. unfold validate_motor_positions.
  repeat match goal with |- context [bind (check_limit ?l ?n ?v) _] =>
    let E := fresh "E" in destruct (check_limit_cases l n v) as [E|E]; rewrite E; cbn [bind]; auto end.
  apply check_limit_cases.
Qed.

Lemma dget_dset_same : forall A k (v : A) d, dget String.eqb k (dset String.eqb k v d) = Some v.
Proof.
  induction d as [|[k' v'] d]; cbn. - rewrite String.eqb_refl; auto.
  - destruct (String.eqb k k') eqn:E; cbn; rewrite E; auto.
Qed.

Lemma dget_dset_other : forall A k k2 (v : A) d, k2 <> k -> dget String.eqb k2 (dset String.eqb k v d) = dget String.eqb k2 d.
Proof.
  induction d as [|[k' v'] d]; cbn; intros N.
  - destruct (String.eqb k2 k) eqn:E; auto. apply String.eqb_eq in E. contradiction.
  - destruct (String.eqb k k') eqn:E; cbn.
    + apply String.eqb_eq in E. subst k'. destruct (String.eqb k2 k) eqn:E2; auto.
      apply String.eqb_eq in E2. contradiction.
    + destruct (String.eqb k2 k'); auto.
Qed.

Lemma run_limits_type : forall h g, g_type (run_limits g h) = g_type g /\ g_sense (run_limits g h) = g_sense g.
Proof.
  induction h as [|[n r] h]; intros; cbn; auto.
  destruct (set_limit g n r) eqn:E; [|apply IHh].
  destruct (IHh a). unfold set_limit in E. destruct (existsb _ _); inversion E; subst; auto.
Qed.

Lemma run_limits_bounds : forall h g name,
  bounds_of (run_limits g h) name = latest name (filter (fun nr => known (fst nr)) h) (bounds_of g name).
Proof.
  induction h as [|[n r] h]; intros g name; [reflexivity|].
  cbn [run_limits fold_left fst snd]. fold (run_limits).
  change (fold_left _ h ?x) with (run_limits x h). rewrite IHh. cbn [filter fst]. unfold known at 2.
  unfold set_limit. destruct (existsb (String.eqb n) motor_names) eqn:E; cbn [latest].
  - f_equal. unfold bounds_of. cbn [g_limits].
    destruct (String.eqb n name) eqn:E2.
    + apply String.eqb_eq in E2; subst. rewrite dget_dset_same. reflexivity.
    + apply String.eqb_neq in E2. rewrite dget_dset_other by congruence. reflexivity.
  - reflexivity.
Qed.

Lemma angles_from_r_mat_within : forall g r t a, angles_from_r_mat g r t = Ok a ->
  forall name v, In (name, Some v) (motors a) -> within (bounds_of g name) v.
Proof.
  intros g r t a H. apply validate_iff. unfold angles_from_r_mat in H.
  break_bind H. destruct a0 as [[s0 s1] s2]. break_bind H.
  destruct (String.eqb a0 "YZX").
  - break_bind H. apply Ok_inj in H; subst. destruct a1. auto.
  - destruct (_ || _)%bool; discriminate.
Qed.

Lemma angles_in_bisect_within : forall g h t psi ub a, angles_in_bisect_mode g h t psi ub = Ok a ->
  forall name v, In (name, Some v) (motors a) -> within (bounds_of g name) v.
Proof.
  intros g h t psi ub a H. apply validate_iff. unfold angles_in_bisect_mode in H.
  break_bind H. destruct a0 as [[s0 s1] s2]. break_bind H.
  destruct (String.eqb a0 "YZYbisect"); [|discriminate].
  break_bind H. break_bind H. apply Ok_inj in H; subst. destruct a2. auto.
Qed.

Lemma r_mat_angles_from_cases : forall g n0 n1 n2 w l u t r,
  g_type g = huber_type n0 n1 n2 ->
  -180 < sg n0 * w <= 180 -> -90 < l < 90 -> -180 < sg n2 * u <= 180 ->
  let a := MotorAngles t (Some w) (Some l) (Some u) None None in
  r_mat g a = Ok r ->
  ((forall name v, In (name, Some v) (motors a) -> within (bounds_of g name) v) -> angles_from_r_mat g r t = Ok a)
  /\ (~ (forall name v, In (name, Some v) (motors a) -> within (bounds_of g name) v) ->
      angles_from_r_mat g r t = Err ValueError).
Proof.
  intros. pose proof (r_mat_angles_from g n0 n1 n2 w l u t r H H0 H1 H2 H3) as E. fold a in E.
  rewrite <- validate_iff. split; intros V.
  - rewrite E, V. reflexivity.
  - destruct (validate_cases g a) as [W|W]; [contradiction|]. rewrite E, W. reflexivity.
Qed.

Lemma set_limit_cases : forall g name range,
  (In name motor_names -> exists g', set_limit g name range = Ok g' /\ g_type g' = g_type g /\ g_sense g' = g_sense g
     /\ bounds_of g' name = range /\ forall other, other <> name -> bounds_of g' other = bounds_of g other)
  /\ (~ In name motor_names -> set_limit g name range = Err ValueError).
Proof.
  intros g name range. unfold set_limit.
  assert (E : existsb (String.eqb name) motor_names = true <-> In name motor_names).
  { rewrite existsb_exists. split. - intros (x & Hx & Ex). apply String.eqb_eq in Ex; subst; auto.
    - intros H; exists name; split; auto. apply String.eqb_refl. }
  destruct (existsb (String.eqb name) motor_names); split; intros H.
  - eexists; split; [reflexivity|]. cbn. repeat split; auto.
    + unfold bounds_of; cbn. rewrite dget_dset_same; auto.
    + intros o No. unfold bounds_of; cbn. rewrite dget_dset_other; auto.
  - exfalso; apply H, E; reflexivity.
  - apply E in H; discriminate.
  - reflexivity.
Qed.

(** With sgl limited strictly inside (-90, 90) gimbal lock is never returned. *)
Lemma angles_from_r_mat_inv_limited : forall g n0 n1 n2 r t a lo hi,
  g_type g = huber_type n0 n1 n2 -> rotation r ->
  bounds_of g "sgl" = (Some lo, Some hi) -> -90 < lo -> hi < 90 ->
  angles_from_r_mat g r t = Ok a -> r_mat g a = Ok r /\ two_theta a = t.
Proof.
  intros g n0 n1 n2 r t a lo hi Hg Hr Hb Hlo Hhi H.
  apply (angles_from_r_mat_inv g n0 n1 n2); auto.
  pose proof (rotation_col0 r Hr) as C0.
  assert (Hle : -1 <= m10 r <= 1) by nra.
  pose proof (angles_from_r_mat_within _ _ _ _ H) as W.
  destruct (huber_parse _ _ _ _ Hg) as (E1 & E2 & _).
  unfold angles_from_r_mat in H. rewrite E1, E2 in H. cbn [bind] in H.
  rewrite String.eqb_refl in H. break_bind H. apply Ok_inj in H; subst a.
  specialize (W "sgl"%string _ (or_intror (or_intror (or_introl eq_refl)))).
  rewrite Hb in W. destruct W as [W1 W2]. specialize (W1 _ eq_refl). specialize (W2 _ eq_refl).
  pose proof PI_RGT_0 as HP.
  assert (P1 : rad2deg (PI / 2) = 90) by (unfold rad2deg; field; lra).
  split; apply Rnot_le_lt; intros C.
  - assert (E' : m10 r = -1) by lra. rewrite E' in *.
    assert (Z : m00 r * m00 r + m20 r * m20 r = 0) by lra. rewrite Z, sqrt_0 in *.
    assert (A : atan2 (-1) 0 = - (PI / 2)).
    { unfold atan2. repeat (destruct (Rlt_dec _ _); try lra). }
    rewrite A in *. destruct n1; unfold sg in *; unfold rad2deg in *.
    + replace (-1 * - (PI/2) * 180 / PI) with 90 in W2 by (field; lra). lra.
    + replace (1 * - (PI/2) * 180 / PI) with (-90) in W1 by (field; lra). lra.
  - assert (E' : m10 r = 1) by lra. rewrite E' in *.
    assert (Z : m00 r * m00 r + m20 r * m20 r = 0) by lra. rewrite Z, sqrt_0 in *.
    assert (A : atan2 1 0 = PI / 2).
    { unfold atan2. repeat (destruct (Rlt_dec _ _); try lra). }
    rewrite A in *. destruct n1; unfold sg in *; unfold rad2deg in *.
    + replace (-1 * (PI/2) * 180 / PI) with (-90) in W1 by (field; lra). lra.
    + replace (1 * (PI/2) * 180 / PI) with 90 in W2 by (field; lra). lra.
Qed.

Definition gimbal : mat := M 0 0 1 1 0 0 0 1 0.
Definition gimbal_goni : goniometer :=
  Goniometer "Y,Z,X" (Some "+"%string) (dset String.eqb "sgl" (Some (-180), Some 180) default_limits).

Lemma gimbal_lock : exists g r t a, g_type g = huber_type false false false /\ rotation r /\
  angles_from_r_mat g r t = Ok a /\ r_mat g a <> Ok r.
Proof.
  pose proof PI_RGT_0 as HP.
  set (a := MotorAngles 0 (Some (rad2deg (1 * 0))) (Some (rad2deg (1 * (PI/2)))) (Some (rad2deg (1 * 0))) None None).
  exists gimbal_goni, gimbal, 0, a.
  assert (T : g_type gimbal_goni = huber_type false false false) by reflexivity.
  split; [reflexivity|]. split.
  { split; [apply mat_eq; la_unfold; cbn; ring | la_unfold; cbn; ring]. }
  assert (P1 : rad2deg (1 * (PI / 2)) = 90) by (unfold rad2deg; field; lra).
  assert (P2 : rad2deg (1 * 0) = 0) by (unfold rad2deg; field; lra).
  split.
  - destruct (huber_parse _ _ _ _ T) as (E1 & E2 & _).
    unfold angles_from_r_mat. rewrite E1, E2. cbn [bind]. rewrite String.eqb_refl. cbn [gimbal m00 m10 m20 m11 m12].
    replace (0 * 0 + 0 * 0) with 0 by ring. rewrite sqrt_0, Ropp_0.
    replace (atan2 1 0) with (PI / 2) by (unfold atan2; repeat (destruct (Rlt_dec _ _); try lra)).
    replace (atan2 0 0) with 0 by (unfold atan2; repeat (destruct (Rlt_dec _ _); try lra)).
    unfold sg. fold a.
    assert (Vd : validate_motor_positions gimbal_goni a = Ok tt).
    { apply validate_iff. intros name v Hin. unfold motors in Hin. cbn in Hin.
      rewrite P1, P2 in Hin.
      repeat (destruct Hin as [Hin|Hin]; [inversion Hin; subst; unfold within, bounds_of; cbn;
        split; intros z Hz; inversion Hz; subst; lra|]). destruct Hin. }
    rewrite Vd. reflexivity.
  - rewrite (r_mat_huber_eq _ _ _ _ _ T). cbn [a omega sgl sgu]. intros H. apply Ok_inj in H.
    rewrite yzx_entries in H. cbv zeta in H. apply (f_equal m22) in H. cbn [m22 gimbal] in H.
    rewrite P1, P2 in H. unfold sg, deg2rad in H.
    replace (0 * 1 * PI / 180) with 0 in H by field. rewrite cos_0, sin_0 in H. lra.
Qed.
