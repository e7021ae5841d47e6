(** C45: the axes of the resolution ellipsoid. *)
From Coq Require Import Reals List Arith Bool String Lra Lia.
From Verif Require Import Base LinAlg M_Utilities M_Lattice M_UB M_Sample M_Goni M_Tas M_Components M_Mat M_Labels M_Ellipsoid M_Reso
  S_Geom S_Lattice S_Goni S_Energy S_UB L_LinAlg L_Utilities L_Lattice L_Goni L_UB P_Lattice P_Energy P_UB P_Tilt S_Mat S_Reso S_Grid S_Frame L_Mat L_Reso P_Quadric P_Widths P_Reso.
Import ListNotations.
Open Scope R_scope.

(** Four axes of which three are vectors and one is the energy *)
Lemma four_axes : forall ax p1 p2 p3 k, List.length ax = 4%nat -> keep_some vec_of ax = [p1; p2; p3] -> en_index ax = Ok k ->
  forall x, hkl_change ax x = combination (x (nth 0 (match k with 0 => [1;2;3] | 1 => [0;2;3] | 2 => [0;1;3] | _ => [0;1;2] end) 0))%nat
                                      (x (nth 1 (match k with 0 => [1;2;3] | 1 => [0;2;3] | 2 => [0;1;3] | _ => [0;1;2] end) 0))%nat
                                      (x (nth 2 (match k with 0 => [1;2;3] | 1 => [0;2;3] | 2 => [0;1;3] | _ => [0;1;2] end) 0))%nat p1 p2 p3 /\
            energy_change ax x = x k /\ (k < 4)%nat.
Proof.
  intros ax p1 p2 p3 k L K E x. destruct ax as [|a [|b [|c [|d [|]]]]]; try discriminate.
  destruct a, b, c, d; try discriminate; cbn in K; injection K as <- <- <-; cbn in E; apply Ok_inj in E; subst k; cbn -[combination]; unfold combination, vadd, vscale, vzero, direction; cbn;
    (split; [|split; [ring|lia]]); f_equal; ring.
Qed.

Lemma embed_rows : forall m y, mulv 4 (embed m) y 0 = dot (row0 m) (V (y 0%nat) (y 1%nat) (y 2%nat)) /\ mulv 4 (embed m) y 1 = dot (row1 m) (V (y 0%nat) (y 1%nat) (y 2%nat)) /\
  mulv 4 (embed m) y 2 = dot (row2 m) (V (y 0%nat) (y 1%nat) (y 2%nat)) /\ mulv 4 (embed m) y 3 = y 3%nat.
Proof. intros. unfold mulv, embed, mat_entry, eye, dot, row0, row1, row2. cbn. repeat split; ring. Qed.
Lemma form_roll : forall k A x, (k < 4)%nat -> form 4 (roll k A) x =
  form 4 A (four (x (nth 0 (match k with 0 => [1;2;3] | 1 => [0;2;3] | 2 => [0;1;3] | _ => [0;1;2] end) 0))%nat
                 (x (nth 1 (match k with 0 => [1;2;3] | 1 => [0;2;3] | 2 => [0;1;3] | _ => [0;1;2] end) 0))%nat
                 (x (nth 2 (match k with 0 => [1;2;3] | 1 => [0;2;3] | 2 => [0;1;3] | _ => [0;1;2] end) 0))%nat (x k)).
Proof. intros k A x K. destruct k as [|[|[|[|k]]]]; [| | | |lia]; unfold form, roll, four; cbn; ring. Qed.

Lemma scaled_mv : forall k g z, mv (mscale k g) z = vscale k (mv g z).
Proof. intros k g z. destruct g, z. unfold mv, mscale, vscale, dot, row0, row1, row2. cbn. f_equal; ring. Qed.
Lemma cols_combination : forall p1 p2 p3 a b c, mv (of_cols p1 p2 p3) (V a b c) = combination a b c p1 p2 p3.
Proof. intros [p11 p12 p13] [p21 p22 p23] [p31 p32 p33] a b c. unfold mv, of_cols, combination, dot, row0, row1, row2. cbn. f_equal; ring. Qed.
Lemma frame_rows : forall psi r ub w y k, (k < 4)%nat ->
  mulv 4 (embed (mm (mm (mat_lab_to_local (deg2rad psi)) (mscale (2 * PI) (mm r ub))) w)) y k =
  in_q_frame psi (vscale (2 * PI) (mv r (mv ub (mv w (V (y 0%nat) (y 1%nat) (y 2%nat)))))) (y 3%nat) k.
Proof.
  intros psi r ub w y k K. set (m := mm _ w). destruct (embed_rows m y) as (E0 & E1 & E2 & E3).
  assert (X : mv m (V (y 0%nat) (y 1%nat) (y 2%nat)) = mv (mat_lab_to_local (deg2rad psi)) (vscale (2 * PI) (mv r (mv ub (mv w (V (y 0%nat) (y 1%nat) (y 2%nat))))))).
  { unfold m. rewrite !mv_mm. f_equal. set (z := mv w _). clearbody z. rewrite <- mv_mm. apply scaled_mv. }
  set (z := vscale (2 * PI) _) in *. clearbody z.
  pose proof (f_equal vx X) as X0. pose proof (f_equal vy X) as X1. pose proof (f_equal vz X) as X2. unfold mv in X0, X1, X2. cbn [vx vy vz] in X0, X1, X2.
  destruct k as [|[|[|[|k]]]]; [rewrite E0, X0|rewrite E1, X1|rewrite E2, X2|rewrite E3|lia]; unfold in_q_frame, mat_lab_to_local, row0, row1, row2; rewrite <- ?deg_eq; unfold dot; cbn; ring.
Qed.

Lemma hkl_axes : forall ax, is_hkl ax = true -> exists a1 a2 a3 b1 b2 b3 c1 c2 c3, ax = [Vec a1 a2 a3; Vec b1 b2 b3; Vec c1 c2 c3; En] /\
  comp_val a1 = 1 /\ comp_val a2 = 0 /\ comp_val a3 = 0 /\ comp_val b1 = 0 /\ comp_val b2 = 1 /\ comp_val b3 = 0 /\ comp_val c1 = 0 /\ comp_val c2 = 0 /\ comp_val c3 = 1.
Proof.
  intros ax H. unfold is_hkl in H. destruct ax as [|[|a1 a2 a3] [|[|b1 b2 b3] [|[|c1 c2 c3] [|[|] [|]]]]]; try discriminate.
  exists a1, a2, a3, b1, b2, b3, c1, c2, c3. split; auto. unfold comp_eqb in H.
  repeat (apply andb_prop in H; destruct H as [H ?]). repeat match goal with K : (if Req_EM_T ?a ?b then true else false) = true |- _ => destruct (Req_EM_T a b) as [|]; [clear K|discriminate] end. repeat split; auto.
Qed.

(** What a successful projection rests on *)
Lemma frame_opened : forall fmt3 ints t h en axes A r0 e, new_ellipsoid fmt3 ints t h en (Some axes) A r0 = Ok e ->
  exists motors r u ub psi, calculate_motor_angles t h en = Ok motors /\ r_mat (t_goni t) motors = Ok r /\ s_ub_conf (t_sample t) = Some u /\ _ub_mat u = Some ub /\ get_psi t h en = Ok psi /\
  ((is_hkl axes = true /\ el_mat e = (let c := embed (mm (mat_lab_to_local (deg2rad psi)) (mscale (2 * PI) (mm r ub))) in mul 4 (mul 4 (transpose c) A) c) /\ el_q_vec e = h) \/
   (exists p1 p2 p3 k, is_hkl axes = false /\ keep_some vec_of axes = [p1; p2; p3] /\ en_index axes = Ok k /\ dot p1 (cross p2 p3) <> 0 /\
     el_mat e = roll k (let c := embed (mm (mm (mat_lab_to_local (deg2rad psi)) (mscale (2 * PI) (mm r ub))) (of_cols p1 p2 p3)) in mul 4 (mul 4 (transpose c) A) c) /\
     el_q_vec e = mv (mscale (/ dot p1 (cross p2 p3)) (of_rows (cross p2 p3) (cross p3 p1) (cross p1 p2))) h)).
Proof.
  intros fmt3 ints t h en axes A r0 e H. unfold new_ellipsoid in H.
  destruct (s_b_mat (t_sample t)) as [b|]; [|discriminate]. cbn [bind] in H. cbv zeta in H.
  destruct (calculate_motor_angles t h en) as [a|] eqn:MA; [|discriminate]. cbn [bind] in H. destruct (r_mat (t_goni t) a) as [r|] eqn:RM; [|discriminate]. cbn [bind] in H.
  destruct (s_ub_conf (t_sample t)) as [u|] eqn:U; [|discriminate]. destruct (_ub_mat u) as [ub|] eqn:UB; [|discriminate]. cbn [bind] in H.
  destruct (get_psi t h en) as [psi|] eqn:PS; [|discriminate]. cbn [bind] in H.
  exists a, r, u, ub, psi. split; [reflexivity|]. do 4 (split; [first [assumption|reflexivity]|]). destruct (is_hkl axes) eqn:HK.
  - left. destruct (reciprocal_latt_params (s_lattice (t_sample t))) as [l|]; [|discriminate]. cbn [bind] in H.
    match type of H with bind ?v _ = _ => destruct v; [|discriminate] end. cbn [bind] in H. apply Ok_inj in H. subst e. repeat split.
  - right. destruct (keep_some vec_of axes) as [|p1 [|p2 [|p3 [|]]]] eqn:KS; try discriminate.
    destruct (reciprocal_space_vectors (s_lattice (t_sample t))) as [[[av bv] cv]|]; [|discriminate]. cbn [bind] in H.
    match type of H with (if ?v then _ else _) = _ => destruct v; [discriminate|] end. match type of H with (if ?v then _ else _) = _ => destruct v; [discriminate|] end.
    destruct (Req_EM_T (dot p1 (cross p2 p3)) 0) as [|D]; [discriminate|].
    repeat (match type of H with bind (get_angle_vec ?x ?y) _ = _ => destruct (get_angle_vec x y); [|discriminate] end; cbn [bind] in H).
    destruct (en_index axes) as [k|] eqn:EI; [|discriminate]. cbn [bind] in H. match type of H with bind ?v _ = _ => destruct v; [|discriminate] end. cbn [bind] in H.
    apply Ok_inj in H. subst e. exists p1, p2, p3, k. repeat (split; [auto; fail|]). split; auto.
Qed.

(** The matrix of an ellipsoid expressed along axes: its form at a displacement is the form of the matrix in the frame of Q at
    the corresponding change of the momentum transfer (2 pi R UB times the change of hkl, in the laboratory) and of energy. *)
Theorem C45_frames : forall fmt3 ints t h en axes A r0 e, new_ellipsoid fmt3 ints t h en (Some axes) A r0 = Ok e -> List.length axes = 4%nat ->
  exists motors r u ub psi, calculate_motor_angles t h en = Ok motors /\ r_mat (t_goni t) motors = Ok r /\
    s_ub_conf (t_sample t) = Some u /\ _ub_mat u = Some ub /\ get_psi t h en = Ok psi /\
    forall x, form 4 (el_mat e) x = form 4 A (in_q_frame psi (vscale (2 * PI) (mv r (mv ub (hkl_change axes x)))) (energy_change axes x)).
Proof.
  intros fmt3 ints t h en axes A r0 e H L. destruct (frame_opened _ _ _ _ _ _ _ _ _ H) as (a & r & u & ub & psi & MA & RM & U & UB & PS & D).
  exists a, r, u, ub, psi. repeat (split; [assumption|]). intros x. destruct D as [(HK & E & _)|(p1 & p2 & p3 & k & HK & KS & EI & DN & E & _)]; rewrite E; cbv zeta.
  - rewrite form_congruence. apply form_ext; auto. intros i I.
    destruct (hkl_axes _ HK) as (a1 & a2 & a3 & b1 & b2 & b3 & c1 & c2 & c3 & -> & V1 & V2 & V3 & V4 & V5 & V6 & V7 & V8 & V9).
    rewrite <- (mm_id_r (mm (mat_lab_to_local (deg2rad psi)) (mscale (2 * PI) (mm r ub)))).
    rewrite frame_rows by auto. rewrite mv_id.
    replace (hkl_change [Vec a1 a2 a3; Vec b1 b2 b3; Vec c1 c2 c3; En] x) with (V (x 0%nat) (x 1%nat) (x 2%nat)).
    2:{ cbn. rewrite V1, V2, V3, V4, V5, V6, V7, V8, V9. unfold vadd, vscale, vzero. cbn [vx vy vz]. f_equal; ring. }
    replace (energy_change [Vec a1 a2 a3; Vec b1 b2 b3; Vec c1 c2 c3; En] x) with (x 3%nat) by (cbn; ring). reflexivity.
  - destruct (four_axes axes p1 p2 p3 k L KS EI x) as (-> & -> & K4). rewrite form_roll by auto. set (y := four _ _ _ _).
    rewrite form_congruence. apply form_ext; auto. intros i I. rewrite frame_rows by auto. rewrite cols_combination. reflexivity.
Qed.
Print Assumptions C45_frames.

(** Without axes the matrix is the one in the frame of Q. *)
Theorem C45_q_frame : forall fmt3 ints t h en A r0 e, new_ellipsoid fmt3 ints t h en None A r0 = Ok e ->
  el_mat e = A /\ el_r0 e = r0 /\ el_hkl e = h /\ el_en e = en /\ el_angles e = (90, 90, 90) /\
  exists b, s_b_mat (t_sample t) = Ok b /\ el_q_vec e = V (norm (vscale (2 * PI) (mv b h))) 0 0.
Proof.
  intros fmt3 ints t h en A r0 e H. unfold new_ellipsoid in H. destruct (s_b_mat (t_sample t)) as [b|]; [|discriminate]. cbn [bind] in H. cbv zeta in H.
  match type of H with bind ?v _ = _ => destruct v; [|discriminate] end. cbn [bind] in H. apply Ok_inj in H. subst e. repeat (split; [reflexivity|]).
  exists b. split; auto. cbn [el_q_vec]. f_equal. rewrite norm_vscale. rewrite Rabs_pos_eq; [ring|]. pose proof PI_RGT_0. lra.
Qed.
Print Assumptions C45_q_frame.

(** The angles of an ellipsoid expressed along axes are those between the directions of the axes in reciprocal space: of the
    first two, of the last two, and of the third and the first. *)
Lemma angle_vec_is : forall u v a, get_angle_vec u v = Ok a -> angle_is u v a.
Proof.
  intros u v a H. unfold get_angle_vec in H. destruct (Req_EM_T (norm u) 0) as [|U]; [discriminate|]. destruct (Req_EM_T (norm v) 0) as [|W]; [discriminate|]. apply Ok_inj in H. subst a.
  pose proof PI_RGT_0. pose proof (acos_bound (dot u v / norm u / norm v)) as [L1 L2]. unfold angle_is. split.
  - split. { apply Rmult_le_pos; [|lra]. apply Rmult_le_pos; auto. left. apply Rinv_0_lt_compat. auto. }
    apply (Rmult_le_reg_r (PI / 180)); [lra|]. replace (acos (dot u v / norm u / norm v) / PI * 180 * (PI / 180)) with (acos (dot u v / norm u / norm v)) by (field; lra). lra.
  - replace (acos (dot u v / norm u / norm v) / PI * 180 * PI / 180) with (acos (dot u v / norm u / norm v)) by (field; lra).
    rewrite cos_acos; [field; auto|]. pose proof (dot_le_norm u v) as C. pose proof (dot_le_norm (vscale (-1) u) v) as C'. rewrite dot_vscale_l, norm_vscale in C'. replace (Rabs (-1)) with 1 in C' by (rewrite Rabs_left; lra). pose proof (norm_nonneg u) as N1. pose proof (norm_nonneg v) as N2.
    assert (P : 0 < norm u * norm v) by (apply Rmult_lt_0_compat; lra).
    replace (dot u v / norm u / norm v) with (dot u v / (norm u * norm v)) by (field; auto).
    split; apply (Rmult_le_reg_r (norm u * norm v)); auto; unfold Rdiv; rewrite Rmult_assoc, Rinv_l by lra; lra.
Qed.
Theorem C45_axis_angles : forall fmt3 ints t h en axes A r0 e, new_ellipsoid fmt3 ints t h en (Some axes) A r0 = Ok e -> valid_cell (s_lattice (t_sample t)) ->
  exists a b c p1 p2 p3, reciprocal_space_vectors (s_lattice (t_sample t)) = Ok (a, b, c) /\ keep_some vec_of axes = [p1; p2; p3] /\
    let v p := combination (vx p) (vy p) (vz p) a b c in
    let '(a12, a23, a31) := el_angles e in
    angle_is (v p1) (v p2) a12 /\ angle_is (v p2) (v p3) a23 /\ angle_is (v p3) (v p1) a31.
Proof.
  intros fmt3 ints t h en axes A r0 e H VC. destruct (C10_reciprocal_parameters _ VC) as (l & a & b & c & RL & RV & _ & _ & _ & X1 & X2 & X3).
  exists a, b, c. unfold new_ellipsoid in H.
  destruct (s_b_mat (t_sample t)) as [bm|]; [|discriminate]. cbn [bind] in H. cbv zeta in H.
  destruct (calculate_motor_angles t h en) as [mo|] eqn:MA; [|discriminate]. cbn [bind] in H. destruct (r_mat (t_goni t) mo) as [r|] eqn:RM; [|discriminate]. cbn [bind] in H.
  destruct (s_ub_conf (t_sample t)) as [u|] eqn:U; [|discriminate]. destruct (_ub_mat u) as [ub|] eqn:UB; [|discriminate]. cbn [bind] in H.
  destruct (get_psi t h en) as [psi|] eqn:PS; [|discriminate]. cbn [bind] in H. destruct (is_hkl axes) eqn:HK.
  - rewrite RL in H. cbn [bind] in H. match type of H with bind ?v _ = _ => destruct v; [|discriminate] end. cbn [bind] in H. apply Ok_inj in H. subst e.
    destruct (hkl_axes _ HK) as (a1 & a2 & a3 & b1 & b2 & b3 & c1 & c2 & c3 & -> & V1 & V2 & V3 & V4 & V5 & V6 & V7 & V8 & V9).
    cbn [keep_some vec_of]. do 3 eexists. split; [exact RV|]. split; [reflexivity|]. cbn [el_angles]. cbv beta zeta. cbn [vx vy vz]. rewrite V1, V2, V3, V4, V5, V6, V7, V8, V9.
    replace (combination 1 0 0 a b c) with a by (destruct a; unfold combination; cbn; f_equal; ring).
    replace (combination 0 1 0 a b c) with b by (destruct b; unfold combination; cbn; f_equal; ring).
    replace (combination 0 0 1 a b c) with c by (destruct c; unfold combination; cbn; f_equal; ring). auto.
  - destruct (keep_some vec_of axes) as [|p1 [|p2 [|p3 [|]]]] eqn:KS; try discriminate. rewrite RV in H. cbn [bind] in H.
    match type of H with (if ?v then _ else _) = _ => destruct v; [discriminate|] end. match type of H with (if ?v then _ else _) = _ => destruct v; [discriminate|] end.
    destruct (Req_EM_T (dot p1 (cross p2 p3)) 0) as [|D]; [discriminate|].
    destruct (get_angle_vec (lincomb p1 a b c) (lincomb p2 a b c)) as [a12|] eqn:G1; [|discriminate]. cbn [bind] in H.
    destruct (get_angle_vec (lincomb p2 a b c) (lincomb p3 a b c)) as [a23|] eqn:G2; [|discriminate]. cbn [bind] in H.
    destruct (get_angle_vec (lincomb p3 a b c) (lincomb p1 a b c)) as [a31|] eqn:G3; [|discriminate]. cbn [bind] in H.
    destruct (en_index axes) as [k|] eqn:EI; [|discriminate]. cbn [bind] in H. match type of H with bind ?v _ = _ => destruct v; [|discriminate] end. cbn [bind] in H.
    apply Ok_inj in H. subst e. exists p1, p2, p3. split; [exact RV|]. split; [reflexivity|]. cbn [el_angles]. cbv beta zeta.
    assert (L : forall p, lincomb p a b c = combination (vx p) (vy p) (vz p) a b c).
    { intros p. unfold lincomb, combination, vadd, vscale. cbn. f_equal; ring. }
    rewrite !L in *. auto using angle_vec_is.
Qed.
Print Assumptions C45_axis_angles.

(** The centre in the coordinates of the axes is the reflection. *)
Theorem C45_centre : forall fmt3 ints t h en axes A r0 e, new_ellipsoid fmt3 ints t h en (Some axes) A r0 = Ok e ->
  exists p1 p2 p3, keep_some vec_of axes = [p1; p2; p3] /\
    h = combination (vx (el_q_vec e)) (vy (el_q_vec e)) (vz (el_q_vec e)) p1 p2 p3.
Proof.
  intros fmt3 ints t h en axes A r0 e H. destruct (frame_opened _ _ _ _ _ _ _ _ _ H) as (a & r & u & ub & psi & _ & _ & _ & _ & _ & D).
  destruct D as [(HK & _ & E)|(p1 & p2 & p3 & k & HK & KS & EI & DN & _ & E)].
  - destruct (hkl_axes _ HK) as (a1 & a2 & a3 & b1 & b2 & b3 & c1 & c2 & c3 & -> & V1 & V2 & V3 & V4 & V5 & V6 & V7 & V8 & V9).
    cbn [keep_some vec_of]. do 3 eexists. split; [reflexivity|]. rewrite E, V1, V2, V3, V4, V5, V6, V7, V8, V9. unfold combination. destruct h; cbn. f_equal; ring.
  - exists p1, p2, p3. split; auto. rewrite E. set (d := dot p1 (cross p2 p3)) in *.
    destruct p1 as [p11 p12 p13], p2 as [p21 p22 p23], p3 as [p31 p32 p33], h as [h1 h2 h3]. unfold combination, mv, mscale, of_rows, row0, row1, row2, cross, dot in *. cbn in *.
    assert (DE : d = p11 * (p22 * p33 - p23 * p32) + p12 * (p23 * p31 - p21 * p33) + p13 * (p21 * p32 - p22 * p31)) by reflexivity. clearbody d.
    f_equal.
    + apply (Rmult_eq_reg_l d); auto. transitivity (h1 * d); [ring|]. rewrite DE at 1. field_simplify; auto; ring.
    + apply (Rmult_eq_reg_l d); auto. transitivity (h2 * d); [ring|]. rewrite DE at 1. field_simplify; auto; ring.
    + apply (Rmult_eq_reg_l d); auto. transitivity (h3 * d); [ring|]. rewrite DE at 1. field_simplify; auto; ring.
Qed.
Print Assumptions C45_centre.

(** ** Definiteness survives the change of axes *)
Lemma mv_injective : forall m v, det m <> 0 -> mv m v = vzero -> v = vzero.
Proof.
  intros m v D H. destruct (minv m) as [i|] eqn:I. 2:{ rewrite minv_ok in I by auto. discriminate. }
  apply minv_spec in I. destruct I as (_ & I & _). rewrite <- (mv_id v), <- I, mv_mm, H. apply vec_eq; la_unfold; ring.
Qed.
Lemma rotation_turn : forall r v, rotation r -> mv r v = vzero -> v = vzero.
Proof. intros r v [_ D] H. apply (mv_injective r); auto. lra. Qed.
Lemma q_frame_zero : forall psi w e, (forall k, (k < 4)%nat -> in_q_frame psi w e k = 0) -> w = vzero /\ e = 0.
Proof.
  intros psi w e H. pose proof (H 0%nat ltac:(lia)) as H0. pose proof (H 1%nat ltac:(lia)) as H1. pose proof (H 2%nat ltac:(lia)) as H2. pose proof (H 3%nat ltac:(lia)) as H3.
  unfold in_q_frame, dot in H0, H1, H2, H3. cbn in H0, H1, H2, H3. split; auto.
  pose proof (sin2_cos2 (degrees psi)) as P. unfold Rsqr in P. set (s := sin (degrees psi)) in *. set (c := cos (degrees psi)) in *. destruct w as [x y z]. cbn in *.
  assert (A : x * (s * s + c * c) = 0) by (transitivity (s * (x * s + y * 0 + z * c) + c * (x * c + y * 0 + z * - s)); [ring|rewrite H0, H1; ring]).
  assert (B : z * (s * s + c * c) = 0) by (transitivity (c * (x * s + y * 0 + z * c) - s * (x * c + y * 0 + z * - s)); [ring|rewrite H0, H1; ring]).
  rewrite P in A, B. unfold vzero. f_equal; lra.
Qed.
Lemma axes_zero : forall ax p1 p2 p3 k x, List.length ax = 4%nat -> keep_some vec_of ax = [p1; p2; p3] -> en_index ax = Ok k -> dot p1 (cross p2 p3) <> 0 ->
  hkl_change ax x = vzero -> energy_change ax x = 0 -> forall i, (i < 4)%nat -> x i = 0.
Proof.
  intros ax p1 p2 p3 k x L KS EI D H E. destruct (four_axes ax p1 p2 p3 k L KS EI x) as (C & X & K4). rewrite C, <- cols_combination in H. rewrite X in E.
  apply mv_injective in H.
  2:{ replace (det (of_cols p1 p2 p3)) with (dot p1 (cross p2 p3)); auto. destruct p1, p2, p3. unfold det, of_cols, dot, cross. cbn. ring. }
  pose proof (f_equal vx H) as H0. pose proof (f_equal vy H) as H1. pose proof (f_equal vz H) as H2. cbn [vx vy vz vzero] in H0, H1, H2.
  intros i I. destruct k as [|[|[|[|k]]]]; [| | | |lia]; cbn [nth] in H0, H1, H2; destruct i as [|[|[|[|i]]]]; auto; lia.
Qed.

(** Along any accepted axes the matrix is symmetric and positive definite, when UB is invertible. *)
Theorem C45_axes_definite : forall fmt3 ints t ps h en ei ef axes A r0 e u ub, t_ei_ef t en = Ok (ei, ef) ->
  calculate_at_hkle t ps h ei ef = Ok (A, r0) -> new_ellipsoid fmt3 ints t h en (Some axes) A r0 = Ok e -> List.length axes = 4%nat ->
  s_ub_conf (t_sample t) = Some u -> _ub_mat u = Some ub -> det ub <> 0 ->
  symmetric 4 (el_mat e) /\ posdef 4 (el_mat e).
Proof.
  intros fmt3 ints t ps h en ei ef axes A r0 e u ub EE C H L U UB DU.
  destruct (C45_definite _ _ _ _ _ _ _ _ EE C) as (SY & PD).
  destruct (frame_opened _ _ _ _ _ _ _ _ _ H) as (a & r & u' & ub' & psi & MA & RM & U' & UB' & PS & D).
  rewrite U in U'. injection U' as <-. rewrite UB in UB'. injection UB' as <-. split.
  - destruct D as [(HK & E & _)|(p1 & p2 & p3 & k & HK & KS & EI & DN & E & _)]; rewrite E; cbv zeta.
    + apply symmetric_congruence. auto.
    + destruct (four_axes axes p1 p2 p3 k L KS EI (fun _ => 0)) as (_ & _ & K4). set (c := embed _). pose proof (symmetric_congruence 4 4 A c SY) as S2. intros i j I J. unfold roll.
      apply S2; destruct k as [|[|[|[|k]]]]; try lia; cbn; [destruct i as [|[|[|[|i]]]]|destruct i as [|[|[|[|i]]]]|destruct i as [|[|[|[|i]]]]|destruct i as [|[|[|[|i]]]]| | | |]; try lia; destruct j as [|[|[|[|j]]]]; try lia.
  - destruct (C45_frames _ _ _ _ _ _ _ _ _ H L) as (a1 & r1 & u1 & ub1 & psi1 & MA1 & RM1 & U1 & UB1 & PS1 & F).
    rewrite MA in MA1. apply Ok_inj in MA1. subst a1. rewrite RM in RM1. apply Ok_inj in RM1. subst r1. rewrite U in U1. injection U1 as <-. rewrite UB in UB1. injection UB1 as <-. rewrite PS in PS1. apply Ok_inj in PS1. subst psi1.
    intros x (i & I & X). rewrite F. apply PD. destruct (classic_zero 4 (in_q_frame psi (vscale (2 * PI) (mv r (mv ub (hkl_change axes x)))) (energy_change axes x))) as [Z|Z]; auto.
    exfalso. apply X. apply q_frame_zero in Z. destruct Z as (Z & ZE).
    assert (Z' : mv r (mv ub (hkl_change axes x)) = vzero).
    { pose proof PI_RGT_0. rewrite <- (vscale_1 (mv r _)). replace 1 with (/ (2 * PI) * (2 * PI)) by (field; lra). rewrite <- vscale_vscale, Z. unfold vscale, vzero. cbn [vx vy vz]. f_equal; ring. }
    apply rotation_turn in Z'; [|apply (r_mat_is_rotation (t_goni t) a); auto]. apply mv_injective in Z'; auto.
    destruct D as [(HK & _)|(p1 & p2 & p3 & k & HK & KS & EI & DN & _)]; [|apply (axes_zero axes p1 p2 p3 k); auto].
    destruct (hkl_axes _ HK) as (a1 & a2 & a3 & b1 & b2 & b3 & c1 & c2 & c3 & -> & V1 & V2 & V3 & V4 & V5 & V6 & V7 & V8 & V9).
    apply (axes_zero [Vec a1 a2 a3; Vec b1 b2 b3; Vec c1 c2 c3; En] (V 1 0 0) (V 0 1 0) (V 0 0 1) 3%nat); auto.
    + cbn. rewrite V1, V2, V3, V4, V5, V6, V7, V8, V9. reflexivity.
    + unfold dot, cross. cbn. lra.
Qed.
Print Assumptions C45_axes_definite.

(** ** Where the frame puts the reflection itself *)
(** On a Huber table the reflection lies along the first axis of the frame of Q, at the length of Q. *)
Lemma horizontal_frame : forall q psi e k, (k < 4)%nat -> in_q_frame psi (horizontal q psi) e k = four q 0 0 e k.
Proof.
  intros q psi e k K. unfold in_q_frame, horizontal, degrees, vscale, dot, four. cbn [vx vy vz].
  replace (psi * PI / 180) with (psi * (PI / 180)) by field. pose proof (sin2_cos2 (psi * (PI / 180))) as P. unfold Rsqr in P.
  destruct k as [|[|[|[|k]]]]; [| | | |lia]; try ring. transitivity (q * (sin (psi * (PI / 180)) * sin (psi * (PI / 180)) + cos (psi * (PI / 180)) * cos (psi * (PI / 180)))); [ring|rewrite P; ring].
Qed.
Theorem C45_aligned : forall t h en a n0 n1 n2 u ub b w l r psi e,
  g_type (t_goni t) = huber_type n0 n1 n2 -> s_ub_conf (t_sample t) = Some u -> _ub_mat u = Some ub ->
  s_b_mat (t_sample t) = Ok b -> rotation w -> ub = mm w b -> P_Tilt.placed u (mv ub h) ->
  calculate_motor_angles t h en = Ok a -> sgl a = Some l -> -90 < l < 90 -> r_mat (t_goni t) a = Ok r -> get_psi t h en = Ok psi ->
  forall k, (k < 4)%nat -> in_q_frame psi (vscale (2 * PI) (mv r (mv ub h))) e k = four (2 * PI * norm (mv b h)) 0 0 e k.
Proof.
  intros t h en a n0 n1 n2 u ub b w l r psi e G U UB B W EU PL H S L RM PS k K. rewrite <- (horizontal_frame _ psi) by auto. f_equal.
  unfold calculate_motor_angles in H. destruct (get_two_theta t h en) as [th2|] eqn:TT; [|discriminate]. cbn [bind] in H.
  rewrite PS in H. cbn [bind] in H. destruct (C07_two_theta_closes _ _ _ _ TT) as (ei & ef & b' & s & ki & kf & E1 & B' & _ & Ki & Kf & C & _).
  destruct (C07_psi_companion _ _ _ _ _ TT PS) as (ei2 & ef2 & b2 & s2 & ki2 & kf2 & E12 & B2 & _ & Ki2 & Kf2 & C2 & _).
  rewrite B in B', B2. apply Ok_inj in B', B2. subst b' b2. rewrite E1 in E12, H. apply Ok_inj in E12. injection E12 as <- <-.
  apply wavenumber_en2q in Ki2, Kf2. pose proof Ki as Ki1. pose proof Kf as Kf1. apply wavenumber_en2q in Ki1, Kf1.
  rewrite Ki1 in Ki2. rewrite Kf1 in Kf2. apply Ok_inj in Ki2, Kf2. subst ki2 kf2. rewrite <- C2.
  cbn [bind] in H. rewrite U in H. destruct (get_ub_mat u) as [m|]; [|discriminate]. cbn [bind] in H.
  destruct m; [|discriminate]. destruct (huber_parse _ _ _ _ G) as (_ & _ & MD). rewrite MD in H. cbn [bind] in H.
  destruct (r_matrix_with_minimal_tilt h ei ef th2 u) as [r'|] eqn:E2; [|discriminate]. cbn [bind] in H.
  assert (C' : norm (transfer ki kf th2) = 2 * PI * norm (mv ub h)). { rewrite C, EU, mv_mm, (norm_rot w) by auto. auto. }
  pose proof (tilt_rotation _ _ _ _ _ _ _ _ _ E2 UB Ki Kf C' PL) as RO.
  pose proof (sgl_inside _ _ _ _ _ _ _ _ G RO H S L) as IN.
  destruct (angles_from_r_mat_inv _ _ _ _ _ _ _ G RO IN H) as (RM' & T2). rewrite RM in RM'. apply Ok_inj in RM'. subst r'.
  destruct (C20_diffraction_condition _ _ _ _ _ _ E2) as (ub' & ki' & kf' & UB' & Ki' & Kf' & DC).
  rewrite UB in UB'. injection UB' as <-. apply wavenumber_en2q in Ki', Kf'.
  rewrite Ki1 in Ki'. rewrite Kf1 in Kf'. apply Ok_inj in Ki', Kf'. subst ki' kf'. rewrite <- DC, !mv_vscale. reflexivity.
Qed.
Print Assumptions C45_aligned.

(** On a four-circle in bisect mode it does so for sense "-" only. Finding: for sense "+" the frame of the ellipsoid puts the
    reflection at minus Q, so a matrix along axes of hkl has its correlations between Q and energy reversed. *)
Theorem C45_aligned_bisect : forall t h en a n0 n1 n2 u ub b w s r psi e,
  g_type (t_goni t) = four_circle_type n0 n1 n2 -> sense_of (g_sense (t_goni t)) s ->
  s_ub_conf (t_sample t) = Some u -> _ub_mat u = Some ub -> s_b_mat (t_sample t) = Ok b -> rotation w -> ub = mm w b ->
  calculate_motor_angles t h en = Ok a -> r_mat (t_goni t) a = Ok r -> get_psi t h en = Ok psi ->
  forall k, (k < 4)%nat -> in_q_frame psi (vscale (2 * PI) (mv r (mv ub h))) e k = four (- s * (2 * PI * norm (mv b h))) 0 0 e k.
Proof.
  intros t h en a n0 n1 n2 u ub b w s r0 psi e G SE U UB B W EU H RM0 PS k K. rewrite <- (horizontal_frame _ psi) by auto. f_equal.
  unfold calculate_motor_angles in H. destruct (get_two_theta t h en) as [th2|] eqn:TT; [|discriminate]. cbn [bind] in H.
  rewrite PS in H. cbn [bind] in H. destruct (C07_two_theta_closes _ _ _ _ TT) as (ei & ef & b' & s' & ki & kf & E1 & B' & _).
  rewrite E1 in H. cbn [bind] in H. rewrite U in H. destruct (get_ub_mat u) as [m|]; [|discriminate]. cbn [bind] in H.
  destruct m; [|discriminate]. destruct (four_circle_parse _ _ _ _ G) as (MS & OM & MD). rewrite MD in H. cbn [bind] in H.
  rewrite String.eqb_refl, UB in H. unfold angles_in_bisect_mode in H. rewrite MS, OM in H. cbn [bind] in H. rewrite String.eqb_refl in H.
  assert (SS : sense_sign (t_goni t) = Ok s) by (apply sense_sign_ok; auto). rewrite SS in H. cbn [bind] in H. cbv zeta in H.
  match type of H with bind ?v _ = _ => destruct v; [|discriminate] end. cbn [bind] in H. apply Ok_inj in H. set (q := mv ub h) in *.
  assert (N : 2 * PI * norm (mv b h) = 2 * PI * norm q). { unfold q. rewrite EU, mv_mm, (norm_rot w) by auto. auto. }
  rewrite N.
  set (r := mm (rot_y (s * 90 + psi)) (mm (rot_z (rad2deg (- atan2 (vy q) (sqrt (vx q * vx q + vz q * vz q))))) (rot_y (rad2deg (atan2 (vz q) (vx q)))))).
  assert (RM : r_mat (t_goni t) a = Ok r).
  { rewrite (r_mat_four_circle_eq _ _ _ _ _ G). rewrite <- H. cbn [omega chi phi]. unfold r. rewrite !rad2deg_sg'.
    replace ((s * 90 + psi) * sg n0 * sg n0) with (s * 90 + psi); auto. rewrite Rmult_assoc, sg_sq. ring. }
  rewrite RM0 in RM. apply Ok_inj in RM. rewrite RM. unfold r. rewrite !mv_mm. clear RM0 RM r r0.
  assert (Y : mv (rot_y (rad2deg (atan2 (vz q) (vx q)))) q = V (sqrt (vx q * vx q + vz q * vz q)) (vy q) 0).
  { pose proof (y_turn_flat (vx q) (vy q) (vz q)) as Y. cbv zeta in Y. rewrite <- Y. destruct q; reflexivity. }
  rewrite Y, z_turn_flat by apply sqrt_pos.
  rewrite sqrt_sqrt by nra.
  assert (NQ : sqrt (vx q * vx q + vz q * vz q + vy q * vy q) = norm q) by (unfold norm, dot; f_equal; ring). rewrite NQ.
  unfold horizontal, rot_y. destruct SE as [(_ & ->)|(_ & ->)].
  + assert (T1 : cos (deg2rad (1 * 90 + psi)) = - sin (psi * PI / 180)).
    { replace (deg2rad (1 * 90 + psi)) with (PI / 2 + psi * PI / 180) by (unfold deg2rad; field). symmetry. rewrite sin_cos. ring. }
    assert (T2 : sin (deg2rad (1 * 90 + psi)) = cos (psi * PI / 180)).
    { replace (deg2rad (1 * 90 + psi)) with (PI / 2 + psi * PI / 180) by (unfold deg2rad; field). symmetry. apply cos_sin. }
    rewrite T1, T2. generalize (sin (psi * PI / 180)) (cos (psi * PI / 180)) (norm q). intros. apply vec_eq; la_unfold; ring.
  + assert (T1 : cos (deg2rad (-1 * 90 + psi)) = sin (psi * PI / 180)).
    { replace (deg2rad (-1 * 90 + psi)) with (psi * PI / 180 - PI / 2) by (unfold deg2rad; field). rewrite cos_minus, cos_PI2, sin_PI2. ring. }
    assert (T2 : sin (deg2rad (-1 * 90 + psi)) = - cos (psi * PI / 180)).
    { replace (deg2rad (-1 * 90 + psi)) with (psi * PI / 180 - PI / 2) by (unfold deg2rad; field). rewrite sin_minus, cos_PI2, sin_PI2. ring. }
    rewrite T1, T2. generalize (sin (psi * PI / 180)) (cos (psi * PI / 180)) (norm q). intros. apply vec_eq; la_unfold; ring.
Qed.
Print Assumptions C45_aligned_bisect.

Corollary C45_four_circle_plus_refuted : forall t h en a n0 n1 n2 u ub b w r psi e,
  g_type (t_goni t) = four_circle_type n0 n1 n2 -> g_sense (t_goni t) = Some "+"%string ->
  s_ub_conf (t_sample t) = Some u -> _ub_mat u = Some ub -> s_b_mat (t_sample t) = Ok b -> rotation w -> ub = mm w b ->
  calculate_motor_angles t h en = Ok a -> r_mat (t_goni t) a = Ok r -> get_psi t h en = Ok psi -> mv b h <> vzero ->
  in_q_frame psi (vscale (2 * PI) (mv r (mv ub h))) e 0 = - (2 * PI * norm (mv b h)) /\
  in_q_frame psi (vscale (2 * PI) (mv r (mv ub h))) e 0 <> 2 * PI * norm (mv b h).
Proof.
  intros t h en a n0 n1 n2 u ub b w r psi e G SE U UB B W EU MA RM PS Z.
  rewrite (C45_aligned_bisect t h en a n0 n1 n2 u ub b w 1 r psi e) by (auto; left; auto). unfold four. pose proof PI_RGT_0.
  assert (0 < norm (mv b h)). { assert (0 <= norm (mv b h)) by apply sqrt_pos. destruct (Req_dec (norm (mv b h)) 0) as [N|N]; [|lra]. exfalso. apply Z. apply norm_zero. auto. }
  split; [ring|]. nra.
Qed.
Print Assumptions C45_four_circle_plus_refuted.

(** The calculated angles have a rotation. *)
Lemma motor_r_mat : forall t h en a, calculate_motor_angles t h en = Ok a -> exists r, r_mat (t_goni t) a = Ok r.
Proof.
  intros t h en a H. unfold calculate_motor_angles in H. destruct (get_two_theta t h en) as [th2|] eqn:TT; [|discriminate]. cbn [bind] in H.
  destruct (get_psi t h en) as [psi|]; [|discriminate]. cbn [bind] in H. destruct (t_ei_ef t en) as [[ei ef]|]; [|discriminate]. cbn [bind] in H.
  destruct (s_ub_conf (t_sample t)) as [u|]; [|discriminate]. destruct (M_UB.get_ub_mat u) as [[m|]|]; cbn [bind] in H; try discriminate.
  destruct (mode (t_goni t)) as [[md|]|]; cbn [bind] in H; try discriminate.
  - destruct (String.eqb md "bisect"); [|discriminate]. destruct (M_UB._ub_mat u) as [ub|]; [|discriminate].
    unfold angles_in_bisect_mode in H. unfold r_mat. destruct (motor_senses (t_goni t)) as [[[s0 s1] s2]|]; [|discriminate]. cbn [bind] in *.
    destruct (operating_mode (t_goni t)) as [om|]; [|discriminate]. cbn [bind] in *. destruct (String.eqb om "YZYbisect") eqn:OM; [|discriminate]. apply String.eqb_eq in OM. subst om.
    destruct (sense_sign (t_goni t)); [|discriminate]. cbn [bind] in H. match type of H with bind ?v _ = _ => destruct v; [|discriminate] end. cbn [bind] in H. apply Ok_inj in H. subst a. cbn. eauto.
  - destruct (M_UB.r_matrix_with_minimal_tilt h ei ef th2 u) as [r|]; [|discriminate]. cbn [bind] in H.
    unfold angles_from_r_mat in H. unfold r_mat. destruct (motor_senses (t_goni t)) as [[[s0 s1] s2]|]; [|discriminate]. cbn [bind] in *.
    destruct (operating_mode (t_goni t)) as [om|]; [|discriminate]. cbn [bind] in *. destruct (String.eqb om "YZX").
    + match type of H with bind ?v _ = _ => destruct v; [|discriminate] end. cbn [bind] in H. apply Ok_inj in H. subst a. cbn. eauto.
    + match type of H with (if ?b then _ else _) = _ => destruct b; discriminate end.
Qed.

(** ** A concrete instrument: fixed Ef, an inelastic point, along (h, k, l, E) *)
Definition crystal45 : attrs := [("d_spacing", ANum 4); ("sense", AStr "+"); ("mosaic_h", ANum 30); ("mosaic_v", ANum 40)]%string.
Definition coll45 : attrs :=
  [("h_pre_mono", ANum 40); ("h_pre_sample", ANum 100); ("h_post_sample", ANum 80); ("h_post_ana", ANum 120);
   ("v_pre_mono", ANum 600); ("v_pre_sample", ANum 600); ("v_post_sample", ANum 600); ("v_post_ana", ANum 600)]%string.
Definition parts45 : parts := [("monochromator", crystal45); ("analyzer", crystal45); ("collimators", coll45)]%string.

Lemma theta45 : forall e k, wavenumber e k -> 2 <= k -> exists th, get_theta crystal45 e = Ok th /\ cos (degrees th) <> 0.
Proof.
  intros e k W K. apply en2q_wave in W. unfold get_theta. rewrite W. cbn [bind]. unfold M_Components.num, opt_num, aget, crystal45. cbn [dget fst snd String.eqb Ascii.eqb Bool.eqb bind].
  assert (P : 0 < PI <= 4) by (split; [apply PI_RGT_0|apply PI_4]). assert (X : 0 < PI / (4 * k) < 1).
  { split; [apply Rdiv_lt_0_compat; lra|]. apply (Rmult_lt_reg_r (4 * k)); [lra|]. unfold Rdiv. rewrite Rmult_assoc, Rinv_l by lra. lra. }
  unfold get_angle_bragg. destruct (Req_EM_T (4 * k) 0) as [|_]; [lra|]. cbv zeta. destruct (Rlt_dec 1 (PI / (4 * k))); [lra|]. destruct (Rlt_dec (PI / (4 * k)) (-1)); [lra|].
  cbn [bind]. unfold m_sense, aget. cbn [dget fst snd String.eqb Ascii.eqb Bool.eqb bind]. eexists. split; [reflexivity|].
  rewrite <- deg_eq. unfold deg2rad, rad2deg. replace (asin (PI / (4 * k)) * 1 * 180 / PI * PI / 180) with (asin (PI / (4 * k))) by (field; lra).
  intros C. pose proof (sin2_cos2 (asin (PI / (4 * k)))) as S. rewrite C, sin_asin in S by lra. unfold Rsqr in S. nra.
Qed.

Example C45_example : forall ints, exists A r0 e, let t := tas21 "Y,-Z,X" "-" in
  t_ei_ef t (en21 3) = Ok (en21 3 + ksq2eng * (2 * 2), ksq2eng * (2 * 2)) /\
  calculate_at_hkle t parts45 (V (/ PI) 0 0) (en21 3 + ksq2eng * (2 * 2)) (ksq2eng * (2 * 2)) = Ok (A, r0) /\
  new_ellipsoid (fun _ => ""%string) ints t (V (/ PI) 0 0) (en21 3) (Some [Vec (CInt 1) (CInt 0) (CInt 0); Vec (CInt 0) (CInt 1) (CInt 0); Vec (CInt 0) (CInt 0) (CInt 1); En]) A r0 = Ok e.
Proof.
  intros ints. cbv zeta. set (t := tas21 "Y,-Z,X" "-"). set (h := V (/ PI) 0 0).
  assert (E : t_ei_ef t (en21 3) = Ok (en21 3 + ksq2eng * (2 * 2), ksq2eng * (2 * 2))) by reflexivity.
  destruct (tas21_two_theta "Y,-Z,X" "-" (-1) 3) as (th & psi & T & P & BE & B & VC); [right; auto|lra|]. fold t h in T, P, B.
  destruct (C21_huber_ex 3 ltac:(lra)) as (_ & _ & _ & a & l & MA & _). fold t h in MA.
  assert (EN : en21 3 + ksq2eng * (2 * 2) - ksq2eng * (2 * 2) = en21 3) by ring.
  assert (Wi : wavenumber (en21 3 + ksq2eng * (2 * 2)) 3) by (split; [lra|unfold en21, ksq2eng; lra]).
  assert (Wf : wavenumber (ksq2eng * (2 * 2)) 2) by (split; [lra|unfold ksq2eng; lra]).
  destruct (theta45 _ _ Wi ltac:(lra)) as (tm & Tm & Cm). destruct (theta45 _ _ Wf ltac:(lra)) as (ta & Ta & Ca).
  assert (Q : exists q, get_q_norm (t_sample t) h = Ok q). { unfold get_q_norm. change (s_lattice (t_sample t)) with cubic1. rewrite (recip_ok cubic1 VC). cbn [bind]. eauto. } destruct Q as (q & Q).
  set (s := Setup 3 2 th psi tm ta q (30, 40) (30, 40) (30, 30) (40, 100, 80, 120) (600, 600, 600, 600)).
  destruct (C45_defined t parts45 h (en21 3) _ _ s a E) as (A & r0 & C).
  - unfold described, s. cbn [u_ki u_kf u_tt u_psi u_q u_sample fst snd u_thm u_tha u_mono u_ana u_h u_v]. rewrite EN. repeat (split; [assumption||reflexivity|]).
    exists crystal45, crystal45, coll45. repeat (split; [assumption||reflexivity|]). repeat split.
  - unfold proper_setup, s. cbn. repeat split; auto; lra.
  - rewrite EN. auto.
  - assert (X : exists e, new_ellipsoid (fun _ => ""%string) ints t h (en21 3) (Some [Vec (CInt 1) (CInt 0) (CInt 0); Vec (CInt 0) (CInt 1) (CInt 0); Vec (CInt 0) (CInt 0) (CInt 1); En]) A r0 = Ok e).
    { unfold new_ellipsoid. rewrite B, MA. cbn [bind]. destruct (motor_r_mat _ _ _ _ MA) as (r & RM). rewrite RM, P. cbn [bind s_ub_conf t_sample t tas21]. cbn [ub21 _ub_mat bind].
      assert (HK : is_hkl [Vec (CInt 1) (CInt 0) (CInt 0); Vec (CInt 0) (CInt 1) (CInt 0); Vec (CInt 0) (CInt 0) (CInt 1); En] = true).
      { unfold is_hkl, comp_eqb, comp_val. repeat (destruct (Req_EM_T _ _) as [|N]; [|exfalso; apply N; reflexivity]). reflexivity. }
      rewrite HK. cbn [s_lattice]. destruct (recip_params_ok cubic1 VC) as (l' & RL & _). rewrite RL. cbn [bind]. unfold labels_from_projection. rewrite HK. cbn [bind]. eauto. }
    destruct X as (e & X). exists A, r0, e. auto.
Qed.
