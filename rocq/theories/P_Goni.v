(** Properties C01, C02, C03: the goniometer. *)
From Coq Require Import Reals Lra List String Bool.
From Verif Require Import Base LinAlg S_Geom S_Goni M_Utilities M_Goni L_LinAlg L_Goni.
Import ListNotations.
Open Scope R_scope.

(** A concrete instrument used in the examples: the Huber table of HB1A with its default limits. *)
Definition hb1a : goniometer := Goniometer "Y,-Z,X" (Some "-"%string) default_limits.
Definition pos1 : motor_angles := MotorAngles 60 (Some 30) (Some 5) (Some (-2)) None None.

(** * C01 *)
Theorem C01_r_mat_proper_rotation : forall g a r, r_mat g a = Ok r -> rotation r.
Proof. exact r_mat_is_rotation. Qed.
Print Assumptions C01_r_mat_proper_rotation.

Theorem C01_r_mat_inv_inverse : forall g a r, r_mat g a = Ok r ->
  exists i, r_mat_inv g a = Ok i /\ inverse_of i r.
Proof. exact r_mat_inv_is_inverse. Qed.
Print Assumptions C01_r_mat_inv_inverse.

(** The only exception is ValueError. *)
Theorem C01_r_mat_ok_or_value_error : forall g a, (exists r, r_mat g a = Ok r) \/ r_mat g a = Err ValueError.
Proof. exact r_mat_total. Qed.
Print Assumptions C01_r_mat_ok_or_value_error.

(** For the two documented families the call succeeds exactly when the three needed angles are present, and the
    matrix is the right-handed turn about X, then Z, then Y (resp. Y, Z, Y), each motor reversed by its minus sign. *)
Theorem C01_huber_action : forall g n0 n1 n2 a w l u, g_type g = huber_type n0 n1 n2 ->
  omega a = Some w -> sgl a = Some l -> sgu a = Some u ->
  exists r, r_mat g a = Ok r /\
    forall v, mv r v = turn ey (sg n0 * w) (turn ez (sg n1 * l) (turn ex (sg n2 * u) v)).
Proof. exact r_mat_huber_action. Qed.
Print Assumptions C01_huber_action.

Theorem C01_huber_missing : forall g n0 n1 n2 a, g_type g = huber_type n0 n1 n2 ->
  omega a = None \/ sgl a = None \/ sgu a = None -> r_mat g a = Err ValueError.
Proof.
  intros g n0 n1 n2 a H K. rewrite (r_mat_huber_eq _ _ _ _ _ H).
  destruct (omega a), (sgl a), (sgu a); auto; destruct K as [K|[K|K]]; discriminate.
Qed.
Print Assumptions C01_huber_missing.

Theorem C01_four_circle_action : forall g n0 n1 n2 a w c p, g_type g = four_circle_type n0 n1 n2 ->
  omega a = Some w -> chi a = Some c -> phi a = Some p ->
  exists r, r_mat g a = Ok r /\
    forall v, mv r v = turn ey (sg n0 * w) (turn ez (sg n1 * c) (turn ey (sg n2 * p) v)).
Proof. exact r_mat_four_circle_action. Qed.
Print Assumptions C01_four_circle_action.

Theorem C01_four_circle_missing : forall g n0 n1 n2 a, g_type g = four_circle_type n0 n1 n2 ->
  omega a = None \/ chi a = None \/ phi a = None -> r_mat g a = Err ValueError.
Proof.
  intros g n0 n1 n2 a H K. rewrite (r_mat_four_circle_eq _ _ _ _ _ H).
  destruct (omega a), (chi a), (phi a); auto; destruct K as [K|[K|K]]; discriminate.
Qed.
Print Assumptions C01_four_circle_missing.

Example C01_ex : g_type hb1a = huber_type false true false /\ exists r, r_mat hb1a pos1 = Ok r.
Proof. split; [reflexivity|]. destruct (C01_huber_action hb1a false true false pos1 30 5 (-2)) as (r & H & _); eauto. Qed.
Example C01_ex_unsupported : r_mat (Goniometer "X,Y,Z" None []) pos1 = Err ValueError
  /\ r_mat (Goniometer "Y,Z" None []) pos1 = Err ValueError.
Proof. split; reflexivity. Qed.

(** * C02 *)
Theorem C02_r_mat_of_angles_from_r_mat : forall g n0 n1 n2 r tt a,
  g_type g = huber_type n0 n1 n2 -> rotation r -> -1 < m10 r < 1 ->
  angles_from_r_mat g r tt = Ok a -> r_mat g a = Ok r /\ two_theta a = tt.
Proof. exact angles_from_r_mat_inv. Qed.
Print Assumptions C02_r_mat_of_angles_from_r_mat.

(** No side condition on the rotation when sgl is limited strictly inside +-90 degrees, as it is by default. *)
Theorem C02_with_sgl_limit : forall g n0 n1 n2 r t a lo hi,
  g_type g = huber_type n0 n1 n2 -> rotation r ->
  bounds_of g "sgl" = (Some lo, Some hi) -> -90 < lo -> hi < 90 ->
  angles_from_r_mat g r t = Ok a -> r_mat g a = Ok r /\ two_theta a = t.
Proof. exact angles_from_r_mat_inv_limited. Qed.
Print Assumptions C02_with_sgl_limit.

(** Angles in the principal ranges are recovered exactly when allowed by the limits, and rejected otherwise. *)
Theorem C02_angles_from_r_mat_of_r_mat : forall g n0 n1 n2 w l u t r,
  g_type g = huber_type n0 n1 n2 ->
  -180 < sg n0 * w <= 180 -> -90 < l < 90 -> -180 < sg n2 * u <= 180 ->
  let a := MotorAngles t (Some w) (Some l) (Some u) None None in
  r_mat g a = Ok r ->
  ((forall name v, In (name, Some v) (motors a) -> within (bounds_of g name) v) -> angles_from_r_mat g r t = Ok a)
  /\ (~ (forall name v, In (name, Some v) (motors a) -> within (bounds_of g name) v) ->
      angles_from_r_mat g r t = Err ValueError).
Proof. exact r_mat_angles_from_cases. Qed.
Print Assumptions C02_angles_from_r_mat_of_r_mat.

(** The side condition is needed: at a 90 degree tilt the returned position is a different rotation. *)
Theorem C02_gimbal_lock_refuted : exists g r t a, g_type g = huber_type false false false /\ rotation r /\
  angles_from_r_mat g r t = Ok a /\ r_mat g a <> Ok r.
Proof. exact gimbal_lock. Qed.
Print Assumptions C02_gimbal_lock_refuted.

Example C02_ex : exists r, r_mat hb1a pos1 = Ok r /\ rotation r /\ -1 < m10 r < 1 /\
  angles_from_r_mat hb1a r 60 = Ok pos1.
Proof.
  destruct (C01_huber_action hb1a false true false pos1 30 5 (-2)) as (r & H & A); try reflexivity.
  exists r. split; auto. pose proof (C01_r_mat_proper_rotation _ _ _ H) as Hr.
  assert (Ok1 : angles_from_r_mat hb1a r 60 = Ok pos1).
  { apply (C02_angles_from_r_mat_of_r_mat hb1a false true false 30 5 (-2) 60 r); try reflexivity; unfold sg; try lra; auto.
    intros name v Hin. cbn in Hin.
    repeat (destruct Hin as [Hin|Hin]; [inversion Hin; subst; unfold within, bounds_of; cbn;
        split; intros z Hz; inversion Hz; subst; lra|]). destruct Hin. }
  repeat split; auto; try apply Hr.
  - rewrite (r_mat_huber_eq hb1a false true false) in H by reflexivity. cbn [pos1 omega sgl sgu] in H.
    apply Ok_inj in H. subst r. rewrite yzx_entries. cbv zeta. cbn [m10]. unfold sg, deg2rad.
    replace (5 * -1 * PI / 180) with (- (PI / 36)) by field. rewrite sin_neg.
    pose proof PI_RGT_0. assert (sin (PI / 36) < sin (PI / 2)) by (apply sin_increasing_1; lra).
    rewrite sin_PI2 in H0. lra.
  - rewrite (r_mat_huber_eq hb1a false true false) in H by reflexivity. cbn [pos1 omega sgl sgu] in H.
    apply Ok_inj in H. subst r. rewrite yzx_entries. cbv zeta. cbn [m10]. unfold sg, deg2rad.
    replace (5 * -1 * PI / 180) with (- (PI / 36)) by field. rewrite sin_neg.
    pose proof PI_RGT_0. assert (0 < sin (PI / 36)) by (apply sin_gt_0; lra). lra.
Qed.
Example C02_ex_limit : bounds_of hb1a "sgl" = (Some (-10), Some 10). Proof. reflexivity. Qed.

(** * C03 *)
(** Whatever set_limit calls were made (rejected ones included), any position returned respects, for every motor,
    the range of the latest accepted call, or the original one. *)
Theorem C03_limits_respected : forall hist g r t a,
  angles_from_r_mat (run_limits g hist) r t = Ok a ->
  forall name v, In (name, Some v) (motors a) ->
    within (latest name (filter (fun nr => known (fst nr)) hist) (bounds_of g name)) v.
Proof.
  intros hist g r t a H name v Hin. rewrite <- run_limits_bounds.
  exact (angles_from_r_mat_within _ _ _ _ H name v Hin).
Qed.
Print Assumptions C03_limits_respected.

Theorem C03_limits_respected_bisect : forall hist g h t psi ub a,
  angles_in_bisect_mode (run_limits g hist) h t psi ub = Ok a ->
  forall name v, In (name, Some v) (motors a) ->
    within (latest name (filter (fun nr => known (fst nr)) hist) (bounds_of g name)) v.
Proof.
  intros hist g h t psi ub a H name v Hin. rewrite <- run_limits_bounds.
  exact (angles_in_bisect_within _ _ _ _ _ _ H name v Hin).
Qed.
Print Assumptions C03_limits_respected_bisect.

(** validate_motor_positions accepts exactly the positions within the limits. *)
Theorem C03_validate_exact : forall g a, validate_motor_positions g a = Ok tt <->
  (forall name v, In (name, Some v) (motors a) -> within (bounds_of g name) v).
Proof. exact validate_iff. Qed.
Print Assumptions C03_validate_exact.

Theorem C03_set_limit : forall g name range,
  (In name ["two_theta"; "omega"; "sgl"; "sgu"; "chi"; "phi"]%string ->
   exists g', set_limit g name range = Ok g' /\ g_type g' = g_type g /\ g_sense g' = g_sense g
     /\ bounds_of g' name = range /\ forall other, other <> name -> bounds_of g' other = bounds_of g other)
  /\ (~ In name ["two_theta"; "omega"; "sgl"; "sgu"; "chi"; "phi"]%string -> set_limit g name range = Err ValueError).
Proof. exact set_limit_cases. Qed.
Print Assumptions C03_set_limit.

Example C03_ex : bounds_of (run_limits hb1a [("sgl"%string, (Some (-3), Some 4)); ("psi"%string, (None, None));
                                            ("sgl"%string, (None, Some 7))]) "sgl" = (None, Some 7).
Proof. reflexivity. Qed.
