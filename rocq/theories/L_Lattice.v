(** Lemmas about the lattice model. *)
From Coq Require Import Reals Lra Psatz.
From Verif Require Import Base LinAlg S_Geom S_Lattice M_Lattice L_LinAlg.
Open Scope R_scope.

Lemma fdiv_ok : forall a b, b <> 0 -> fdiv a b = Ok (a / b).
Proof. intros; unfold fdiv; destruct (Req_EM_T b 0); tauto. Qed.
Lemma fsqrt_ok : forall a, 0 <= a -> fsqrt a = Ok (sqrt a).
Proof. intros; unfold fsqrt; destruct (Rlt_dec a 0); auto; lra. Qed.
Lemma facos_ok : forall a, -1 <= a <= 1 -> facos a = Ok (acos a).
Proof. intros; unfold facos. destruct (Rlt_dec 1 a); [lra|]. destruct (Rlt_dec a (-1)); auto; lra. Qed.
Lemma facos_inv : forall a x, facos a = Ok x -> -1 <= a <= 1 /\ x = acos a.
Proof.
  intros a x; unfold facos. destruct (Rlt_dec 1 a); [discriminate|]. destruct (Rlt_dec a (-1)); [discriminate|].
  intros H; apply Ok_inj in H. split; [lra|auto].
Qed.

(** The trigonometric data of a possible cell: cosines and sines of the angles and the volume factor. *)
Record trig (ca sa cb sb cg sg v : R) : Prop := Trig {
  tg_a : ca * ca + sa * sa = 1; tg_b : cb * cb + sb * sb = 1; tg_g : cg * cg + sg * sg = 1;
  tg_sa : 0 < sa; tg_sb : 0 < sb; tg_sg : 0 < sg; tg_v : 0 < v;
  tg_v2 : v * v = 1 - ca * ca - cb * cb - cg * cg + 2 * ca * cb * cg }.

Lemma v2_factor : forall b g x,
  (x - cos (b + g)) * (cos (g - b) - x) = 1 - x * x - cos b * cos b - cos g * cos g + 2 * x * cos b * cos g.
Proof.
  intros. rewrite cos_plus, cos_minus. pose proof (cos2_sin2 b) as B. pose proof (cos2_sin2 g) as G.
  revert B G. generalize (cos b), (sin b), (cos g), (sin g). intros cb sb cg sg B G.
  replace ((x - (cb * cg - sb * sg)) * (cg * cb + sg * sb - x)) with
    ((sb * sb) * (sg * sg) - (x - cb * cg) * (x - cb * cg)) by ring.
  replace (sg * sg) with (1 - cg * cg) by lra. replace (sb * sb) with (1 - cb * cb) by lra. ring.
Qed.

Lemma cos_lt_iff : forall x y, 0 <= x <= PI -> 0 <= y <= PI -> (x < y <-> cos y < cos x).
Proof.
  intros x y Hx Hy. split; intros H.
  - apply cos_decreasing_1; lra.
  - destruct (Rlt_dec x y); auto. destruct (Req_dec x y); [subst; lra|].
    assert (y < x) by lra. apply cos_decreasing_1 in H1; lra.
Qed.

Lemma v2_pos_iff : forall a b g, 0 < a < PI -> 0 < b < PI -> 0 < g < PI ->
  ((a < b + g /\ b < a + g /\ g < a + b /\ a + b + g < 2 * PI) <->
   0 < 1 - cos a * cos a - cos b * cos b - cos g * cos g + 2 * cos a * cos b * cos g).
Proof.
  intros a b g Ha Hb Hg. rewrite <- (v2_factor b g (cos a)).
  assert (M : cos (g - b) = cos (Rabs (g - b))).
  { unfold Rabs; destruct (Rcase_abs (g - b)); auto. rewrite cos_neg; auto. }
  assert (P1 : (g < a + b /\ b < a + g) <-> cos a < cos (g - b)).
  { rewrite M, <- cos_lt_iff. - unfold Rabs; destruct (Rcase_abs (g - b)); lra.
    - unfold Rabs; destruct (Rcase_abs (g - b)); lra. - lra. }
  assert (P2 : (a < b + g /\ a + b + g < 2 * PI) <-> cos (b + g) < cos a).
  { destruct (Rle_dec (b + g) PI).
    - rewrite <- cos_lt_iff by lra. lra.
    - replace (cos (b + g)) with (cos (2 * PI - (b + g))).
      + rewrite <- cos_lt_iff by lra. lra.
      + rewrite cos_minus, cos_2PI, sin_2PI. ring. }
  assert (S : cos (b + g) < cos (g - b)).
  { rewrite cos_plus, cos_minus. assert (0 < sin b) by (apply sin_gt_0; lra). assert (0 < sin g) by (apply sin_gt_0; lra). nra. }
  split; intros H.
  - apply Rmult_lt_0_compat; [assert (cos (b + g) < cos a) by tauto | assert (cos a < cos (g - b)) by tauto]; lra.
  - assert (cos (b + g) < cos a /\ cos a < cos (g - b)); [|tauto].
    revert S H. generalize (cos (b + g)), (cos (g - b)), (cos a). intros. split; nra.
Qed.

Lemma deg_range : forall x, 0 < x < 180 <-> 0 < deg2rad x < PI.
Proof.
  intros x. unfold deg2rad. pose proof PI_RGT_0. split; intros [A B]; split.
  - apply Rmult_lt_0_compat; [|lra]. nra.
  - nra.
  - apply (Rmult_lt_reg_r (PI / 180)); lra.
  - apply (Rmult_lt_reg_r (PI / 180)); lra.
Qed.

Lemma deg_le_range : forall x, 0 <= x <= 180 <-> 0 <= deg2rad x <= PI.
Proof.
  intros x. unfold deg2rad. pose proof PI_RGT_0. split; intros [A B]; split.
  - apply Rmult_le_pos; [|lra]. nra.
  - nra.
  - apply (Rmult_le_reg_r (PI / 180)); lra.
  - apply (Rmult_le_reg_r (PI / 180)); lra.
Qed.

Lemma deg_lt : forall x y, x < y <-> deg2rad x < deg2rad y.
Proof. intros x y. unfold deg2rad. pose proof PI_RGT_0. split; intros; [nra|]. apply (Rmult_lt_reg_r (PI / 180)); lra. Qed.
Lemma deg_plus : forall x y, deg2rad (x + y) = deg2rad x + deg2rad y.
Proof. intros; unfold deg2rad; field. Qed.
Lemma deg_360 : deg2rad 360 = 2 * PI.
Proof. unfold deg2rad; field. Qed.
Lemma deg_180 : deg2rad 180 = PI.
Proof. unfold deg2rad; field. Qed.
Lemma deg_0 : deg2rad 0 = 0.
Proof. unfold deg2rad; field. Qed.

Definition vol2 (p : lattice) : R :=
  let ca := cos (deg2rad (lalpha p)) in let cb := cos (deg2rad (lbeta p)) in let cg := cos (deg2rad (lgamma p)) in
  1 - ca * ca - cb * cb - cg * cg + 2 * ca * cb * cg.

Lemma valid_cell_iff : forall p,
  valid_cell p <->
  0 < la p /\ 0 < lb p /\ 0 < lc p /\ 0 < lalpha p < 180 /\ 0 < lbeta p < 180 /\ 0 < lgamma p < 180 /\ 0 < vol2 p.
Proof.
  intros p. unfold valid_cell, vol2. cbv zeta.
  assert (E : 0 < lalpha p < 180 -> 0 < lbeta p < 180 -> 0 < lgamma p < 180 ->
    ((lalpha p < lbeta p + lgamma p /\ lbeta p < lalpha p + lgamma p /\ lgamma p < lalpha p + lbeta p /\
      lalpha p + lbeta p + lgamma p < 360) <->
     0 < 1 - cos (deg2rad (lalpha p)) * cos (deg2rad (lalpha p)) - cos (deg2rad (lbeta p)) * cos (deg2rad (lbeta p))
       - cos (deg2rad (lgamma p)) * cos (deg2rad (lgamma p))
       + 2 * cos (deg2rad (lalpha p)) * cos (deg2rad (lbeta p)) * cos (deg2rad (lgamma p)))).
  { intros A B C. rewrite <- v2_pos_iff by (apply -> deg_range; auto). rewrite (deg_lt (lalpha p)), (deg_lt (lbeta p)), (deg_lt (lgamma p)), (deg_lt (lalpha p + lbeta p + lgamma p)),
      !deg_plus, deg_360. tauto. }
  tauto.
Qed.

Lemma cell_trig : forall p, valid_cell p ->
  trig (cos (deg2rad (lalpha p))) (sin (deg2rad (lalpha p))) (cos (deg2rad (lbeta p))) (sin (deg2rad (lbeta p)))
       (cos (deg2rad (lgamma p))) (sin (deg2rad (lgamma p))) (sqrt (vol2 p)).
Proof.
  intros p H. apply valid_cell_iff in H. destruct H as (A & B & C & D & E & F & G).
  apply deg_range in D. apply deg_range in E. apply deg_range in F.
  constructor; try apply cos2_sin2; try (apply sin_gt_0; lra).
  - apply sqrt_lt_R0; auto.
  - rewrite sqrt_sqrt by lra. reflexivity.
Qed.

Lemma vcalc_ok : forall p, valid_cell p -> v_alpha_beta_gamma_calc (lalpha p) (lbeta p) (lgamma p) = Ok (sqrt (vol2 p)).
Proof.
  intros p H. apply valid_cell_iff in H. unfold v_alpha_beta_gamma_calc. cbv zeta.
  destruct H as (_ & _ & _ & _ & _ & _ & H). apply fsqrt_ok. left. exact H.
Qed.

(** ** Real-space vectors *)
Definition avec (p : lattice) : vec := V (la p) 0 0.
Definition bvec (p : lattice) : vec := V (lb p * cos (deg2rad (lgamma p))) (lb p * sin (deg2rad (lgamma p))) 0.
Definition cvec (p : lattice) : vec :=
  let ca := cos (deg2rad (lalpha p)) in let cb := cos (deg2rad (lbeta p)) in
  let cg := cos (deg2rad (lgamma p)) in let sg := sin (deg2rad (lgamma p)) in
  V (lc p * cb) (lc p * (ca - cg * cb) / sg) (lc p * sqrt (vol2 p) / sg).

Lemma real_space_ok : forall p, valid_cell p -> real_space_vectors p = Ok (avec p, bvec p, cvec p).
Proof.
  intros p H. unfold real_space_vectors. cbv zeta. rewrite (vcalc_ok p H). cbn [bind].
  destruct (cell_trig p H). rewrite !fdiv_ok by lra. reflexivity.
Qed.

Lemma dots : forall p, valid_cell p ->
  let ca := cos (deg2rad (lalpha p)) in let cb := cos (deg2rad (lbeta p)) in let cg := cos (deg2rad (lgamma p)) in
  dot (avec p) (avec p) = la p * la p /\ dot (bvec p) (bvec p) = lb p * lb p /\ dot (cvec p) (cvec p) = lc p * lc p /\
  dot (bvec p) (cvec p) = lb p * lc p * ca /\ dot (cvec p) (avec p) = lc p * la p * cb /\
  dot (avec p) (bvec p) = la p * lb p * cg /\
  dot (avec p) (cross (bvec p) (cvec p)) = la p * lb p * lc p * sqrt (vol2 p).
Proof.
  intros p H. pose proof (cell_trig p H) as T. unfold avec, bvec, cvec. cbv zeta.
  revert T. generalize (cos (deg2rad (lalpha p))), (sin (deg2rad (lalpha p))), (cos (deg2rad (lbeta p))), (sin (deg2rad (lbeta p))),
    (cos (deg2rad (lgamma p))), (sin (deg2rad (lgamma p))), (sqrt (vol2 p)). intros ca sa cb sb cg sg v T. destruct T.
  la_unfold; cbn [vx vy vz]. generalize (la p), (lb p), (lc p); intros a b c. repeat split; try ring.
  - replace (b * cg * (b * cg) + b * sg * (b * sg) + 0 * 0) with (b * b * (cg * cg + sg * sg)) by ring. rewrite tg_g0; ring.
  - replace (c * cb * (c * cb) + c * (ca - cg * cb) / sg * (c * (ca - cg * cb) / sg) + c * v / sg * (c * v / sg))
      with (c * c * (cb * cb + ((ca - cg * cb) * (ca - cg * cb) + v * v) / (sg * sg))) by (field; lra).
    rewrite tg_v3. replace ((ca - cg * cb) * (ca - cg * cb) + (1 - ca * ca - cb * cb - cg * cg + 2 * ca * cb * cg))
      with ((1 - cb * cb) * (1 - cg * cg)) by ring.
    replace (1 - cg * cg) with (sg * sg) by lra. field_simplify_eq; [|lra]. ring.
  - field_simplify_eq; [|lra]. replace (cg ^ 2) with (cg * cg) by ring. ring_simplify. ring.
  - field. lra.
Qed.

Lemma norm_of_sq : forall v k, 0 <= k -> dot v v = k * k -> norm v = k.
Proof. intros. unfold norm. rewrite H0. apply sqrt_square; auto. Qed.

Lemma edges_ok : forall p, valid_cell p -> edges p (avec p) (bvec p) (cvec p).
Proof.
  intros p H. pose proof (dots p H) as D. cbv zeta in D. destruct D as (D1 & D2 & D3 & D4 & D5 & D6 & _).
  destruct H as (A & B & C & Al & Be & Ga & _).
  assert (N1 : norm (avec p) = la p) by (apply norm_of_sq; [lra|auto]).
  assert (N2 : norm (bvec p) = lb p) by (apply norm_of_sq; [lra|auto]).
  assert (N3 : norm (cvec p) = lc p) by (apply norm_of_sq; [lra|auto]).
  unfold edges, angle_is. rewrite N1, N2, N3. unfold deg2rad in *. repeat split; auto; try lra.
Qed.

(** ** Duals *)
Definition starv (k : R) (u v : vec) : vec := vscale k (cross u v).
Lemma recip_ok : forall p, valid_cell p ->
  let k := 2 * PI / (sqrt (vol2 p) * la p * lb p * lc p) in
  reciprocal_space_vectors p = Ok (starv k (bvec p) (cvec p), starv k (cvec p) (avec p), starv k (avec p) (bvec p)).
Proof.
  intros p H. cbv zeta. unfold reciprocal_space_vectors. rewrite (vcalc_ok p H). cbn [bind].
  destruct (cell_trig p H). pose proof H as (A & B & C & _).
  rewrite fdiv_ok. - cbn [bind]. rewrite (real_space_ok p H). reflexivity.
  - repeat apply Rmult_integral_contrapositive_currified; lra.
Qed.

Lemma dual_identities : forall a b c vol k, dot a (cross b c) = vol -> k * vol = 2 * PI ->
  dot a (starv k b c) = 2 * PI /\ dot b (starv k b c) = 0 /\ dot c (starv k b c) = 0 /\
  dot a (starv k c a) = 0 /\ dot b (starv k c a) = 2 * PI /\ dot c (starv k c a) = 0 /\
  dot a (starv k a b) = 0 /\ dot b (starv k a b) = 0 /\ dot c (starv k a b) = 2 * PI.
Proof.
  intros a b c vol k H K. unfold starv. rewrite !dot_vscale_r.
  assert (E1 : dot b (cross c a) = dot a (cross b c)) by (la_unfold; ring).
  assert (E2 : dot c (cross a b) = dot a (cross b c)) by (la_unfold; ring).
  rewrite E1, E2, H, !dot_cross_l, !dot_cross_r, K.
  assert (Z1 : dot a (cross b c) = vol) by auto. repeat split; try ring.
Qed.

(** Cross-product identity (u x v).(w x z). *)
Lemma binet : forall u v w z, dot (cross u v) (cross w z) = dot u w * dot v z - dot u z * dot v w.
Proof. intros; la_unfold; ring. Qed.

(** ** Reciprocal parameters *)
Section recip.
Variables ca sa cb sb cg sg v : R.
Hypothesis T : trig ca sa cb sb cg sg v.
Lemma cos_star_bound : forall x y z sx sy, x * x + sx * sx = 1 -> y * y + sy * sy = 1 -> 0 < sx -> 0 < sy ->
  v * v = 1 - x * x - y * y - z * z + 2 * x * y * z ->
  ((x * y - z) / (sx * sy)) * ((x * y - z) / (sx * sy)) + (v / (sx * sy)) * (v / (sx * sy)) = 1.
Proof.
  intros x y z sx sy X Y Sx Sy E.
  replace ((x * y - z) / (sx * sy) * ((x * y - z) / (sx * sy)) + v / (sx * sy) * (v / (sx * sy)))
    with (((x * y - z) * (x * y - z) + v * v) / ((sx * sx) * (sy * sy))) by (field; lra).
  rewrite E. replace ((x * y - z) * (x * y - z) + (1 - x * x - y * y - z * z + 2 * x * y * z)) with ((1 - x * x) * (1 - y * y)) by ring.
  replace (1 - x * x) with (sx * sx) by lra. replace (1 - y * y) with (sy * sy) by lra. field. lra.
Qed.
End recip.

Lemma sq_le_1 : forall x y, x * x + y * y = 1 -> -1 <= x <= 1.
Proof. intros; nra. Qed.

Lemma sin_acos_eq : forall x y, x * x + y * y = 1 -> 0 <= y -> sin (acos x) = y.
Proof.
  intros x y H Y. rewrite sin_acos by (apply (sq_le_1 x y H)). unfold Rsqr. replace (1 - x * x) with (y * y) by lra.
  apply sqrt_square; auto.
Qed.

Lemma recip_params_ok : forall p, valid_cell p ->
  let ca := cos (deg2rad (lalpha p)) in let sa := sin (deg2rad (lalpha p)) in
  let cb := cos (deg2rad (lbeta p)) in let sb := sin (deg2rad (lbeta p)) in
  let cg := cos (deg2rad (lgamma p)) in let sg := sin (deg2rad (lgamma p)) in
  let v := sqrt (vol2 p) in
  exists r, reciprocal_latt_params p = Ok r /\
    la r = 2 * PI * sa / (la p * v) /\ lb r = 2 * PI * sb / (lb p * v) /\ lc r = 2 * PI * sg / (lc p * v) /\
    cos (deg2rad (lalpha r)) = (cb * cg - ca) / (sb * sg) /\ sin (deg2rad (lalpha r)) = v / (sb * sg) /\
    cos (deg2rad (lbeta r)) = (cg * ca - cb) / (sg * sa) /\ sin (deg2rad (lbeta r)) = v / (sg * sa) /\
    cos (deg2rad (lgamma r)) = (ca * cb - cg) / (sa * sb) /\ sin (deg2rad (lgamma r)) = v / (sa * sb) /\
    0 < lalpha r < 180 /\ 0 < lbeta r < 180 /\ 0 < lgamma r < 180.
Proof.
  intros p H. cbv zeta. unfold reciprocal_latt_params. cbv zeta. rewrite (vcalc_ok p H). cbn [bind].
  pose proof (cell_trig p H) as T. pose proof H as (A & B & C & _).
  revert T. generalize (cos (deg2rad (lalpha p))), (sin (deg2rad (lalpha p))), (cos (deg2rad (lbeta p))), (sin (deg2rad (lbeta p))),
    (cos (deg2rad (lgamma p))), (sin (deg2rad (lgamma p))), (sqrt (vol2 p)). intros ca sa cb sb cg sg v T.
  pose proof T as T0. destruct T0 as [Ta Tb Tg Sa Sb Sg Vp V2].
  rewrite !fdiv_ok by lra. cbn [bind].
  pose proof (cos_star_bound v cb cg ca sb sg Tb Tg Sb Sg ltac:(rewrite V2; ring)) as Ba.
  pose proof (cos_star_bound v cg ca cb sg sa Tg Ta Sg Sa ltac:(rewrite V2; ring)) as Bb.
  pose proof (cos_star_bound v ca cb cg sa sb Ta Tb Sa Sb ltac:(rewrite V2; ring)) as Bg.
  rewrite !fdiv_ok by lra. cbn [bind].
  replace ((cb * cg - ca) / sb / sg) with ((cb * cg - ca) / (sb * sg)) by (field; lra).
  replace ((cg * ca - cb) / sa / sg) with ((cg * ca - cb) / (sg * sa)) by (field; lra).
  replace ((ca * cb - cg) / sb / sa) with ((ca * cb - cg) / (sa * sb)) by (field; lra).
  assert (Pa : 0 < v / (sb * sg)) by (apply Rdiv_lt_0_compat; nra).
  assert (Pb : 0 < v / (sg * sa)) by (apply Rdiv_lt_0_compat; nra).
  assert (Pg : 0 < v / (sa * sb)) by (apply Rdiv_lt_0_compat; nra).
  rewrite !facos_ok by (eapply sq_le_1; eassumption). cbn [bind]. eexists; split; [reflexivity|]. cbn [la lb lc lalpha lbeta lgamma].
  rewrite !deg_range, !deg2rad_rad2deg, !cos_acos by (eapply sq_le_1; eassumption).
  rewrite (sin_acos_eq _ _ Ba), (sin_acos_eq _ _ Bb), (sin_acos_eq _ _ Bg) by lra.
  assert (AB : forall x y, x * x + y * y = 1 -> 0 < y -> 0 < acos x < PI).
  { intros x y E Y. assert (-1 < x < 1) by nra. apply acos_bound_lt; auto. }
  repeat split; try (eapply AB; eassumption); try reflexivity; field; lra.
Qed.

(** ** The B matrix in closed form *)
Definition bclosed (p : lattice) : mat :=
  let ca := cos (deg2rad (lalpha p)) in let sa := sin (deg2rad (lalpha p)) in
  let cb := cos (deg2rad (lbeta p)) in
  let cg := cos (deg2rad (lgamma p)) in
  let v := sqrt (vol2 p) in
  M (sa / (la p * v)) ((ca * cb - cg) / (lb p * v * sa)) ((cg * ca - cb) / (lc p * v * sa))
    0 (/ (lb p * sa)) (- ca / (lc p * sa))
    0 0 (/ lc p).

Lemma b_mat_ok : forall p, valid_cell p -> b_mat_from_lattice p = Ok (bclosed p).
Proof.
  intros p H. unfold b_mat_from_lattice. destruct (recip_params_ok p H) as (r & E & R). cbv zeta in R.
  rewrite E. cbn [bind]. pose proof (cell_trig p H) as T. pose proof H as (A & B & C & _).
  rewrite fdiv_ok by lra. cbn [bind]. f_equal. unfold bclosed. cbv zeta.
  destruct R as (R1 & R2 & R3 & R4 & R5 & R6 & R7 & R8 & R9 & _). rewrite R1, R2, R3, R6, R7, R8, R9.
  revert T. generalize (cos (deg2rad (lalpha p))), (sin (deg2rad (lalpha p))), (cos (deg2rad (lbeta p))), (sin (deg2rad (lbeta p))),
    (cos (deg2rad (lgamma p))), (sin (deg2rad (lgamma p))), (sqrt (vol2 p)). intros ca sa cb sb cg sg v T.
  destruct T as [Ta Tb Tg Sa Sb Sg Vp V2]. pose proof PI_RGT_0.
  unfold mscale. cbn [m00 m01 m02 m10 m11 m12 m20 m21 m22].
  f_equal; field; repeat split; lra.
Qed.

(** Metric of the cell. *)
Definition metric (p : lattice) : mat :=
  let ca := cos (deg2rad (lalpha p)) in let cb := cos (deg2rad (lbeta p)) in let cg := cos (deg2rad (lgamma p)) in
  M (la p * la p) (la p * lb p * cg) (la p * lc p * cb)
    (la p * lb p * cg) (lb p * lb p) (lb p * lc p * ca)
    (la p * lc p * cb) (lb p * lc p * ca) (lc p * lc p).

(** G* = B^T B in closed form. *)
Definition gstar (p : lattice) : mat :=
  let ca := cos (deg2rad (lalpha p)) in let sa := sin (deg2rad (lalpha p)) in
  let cb := cos (deg2rad (lbeta p)) in let sb := sin (deg2rad (lbeta p)) in
  let cg := cos (deg2rad (lgamma p)) in let sg := sin (deg2rad (lgamma p)) in
  let a := la p in let b := lb p in let c := lc p in
  mscale (/ vol2 p)
  (M (sa * sa / (a * a)) ((ca * cb - cg) / (a * b)) ((cg * ca - cb) / (a * c))
     ((ca * cb - cg) / (a * b)) (sb * sb / (b * b)) ((cb * cg - ca) / (b * c))
     ((cg * ca - cb) / (a * c)) ((cb * cg - ca) / (b * c)) (sg * sg / (c * c))).

Lemma btb : forall p, valid_cell p -> mm (tr (bclosed p)) (bclosed p) = gstar p.
Proof.
  intros p H. pose proof (cell_trig p H) as T. pose proof H as (A & B & C & _).
  pose proof (valid_cell_iff p) as VI. apply VI in H. destruct H as (_ & _ & _ & _ & _ & _ & V2P). clear VI.
  unfold bclosed, gstar. cbv zeta.
  assert (E : / vol2 p = / (sqrt (vol2 p) * sqrt (vol2 p))) by (rewrite sqrt_sqrt; [reflexivity|lra]).
  rewrite E. revert T. clear E V2P.
  generalize (cos (deg2rad (lalpha p))), (sin (deg2rad (lalpha p))), (cos (deg2rad (lbeta p))), (sin (deg2rad (lbeta p))),
    (cos (deg2rad (lgamma p))), (sin (deg2rad (lgamma p))), (sqrt (vol2 p)).
  intros ca sa cb sb cg sg v T. destruct T as [Ta Tb Tg Sa Sb Sg Vp V2].
  revert A B C. generalize (la p), (lb p), (lc p). intros a b c A B C.
  apply mat_eq; la_unfold; cbn [m00 m01 m02 m10 m11 m12 m20 m21 m22]; try (field; repeat split; lra).
  all: field_simplify_eq; [|repeat split; lra].
  all: replace (v ^ 2) with (1 - ca * ca - cb * cb - cg * cg + 2 * ca * cb * cg) by (rewrite <- V2; ring).
  all: replace (sa ^ 2) with (1 - ca * ca) by (rewrite <- Ta; ring).
  all: try replace (sb ^ 2) with (1 - cb * cb) by (rewrite <- Tb; ring).
  all: try replace (sg ^ 2) with (1 - cg * cg) by (rewrite <- Tg; ring).
  all: ring.
Qed.

Lemma gstar_metric : forall p, valid_cell p -> mm (gstar p) (metric p) = mid.
Proof.
  intros p H. pose proof (cell_trig p H) as T. pose proof H as (A & B & C & _).
  apply valid_cell_iff in H. destruct H as (_ & _ & _ & _ & _ & _ & V2P).
  unfold metric, gstar. cbv zeta.
  assert (E : / vol2 p = / (sqrt (vol2 p) * sqrt (vol2 p))) by (rewrite sqrt_sqrt; [reflexivity|lra]).
  rewrite E. revert T. clear E V2P.
  generalize (cos (deg2rad (lalpha p))), (sin (deg2rad (lalpha p))), (cos (deg2rad (lbeta p))), (sin (deg2rad (lbeta p))),
    (cos (deg2rad (lgamma p))), (sin (deg2rad (lgamma p))), (sqrt (vol2 p)).
  intros ca sa cb sb cg sg v T. destruct T as [Ta Tb Tg Sa Sb Sg Vp V2].
  revert A B C. generalize (la p), (lb p), (lc p). intros a b c A B C.
  apply mat_eq; la_unfold; cbn [m00 m01 m02 m10 m11 m12 m20 m21 m22].
  all: field_simplify_eq; [|repeat split; lra].
  all: try replace (v ^ 2) with (1 - ca * ca - cb * cb - cg * cg + 2 * ca * cb * cg) by (rewrite <- V2; ring).
  all: try replace (sa ^ 2) with (1 - ca * ca) by (rewrite <- Ta; ring).
  all: try replace (sb ^ 2) with (1 - cb * cb) by (rewrite <- Tb; ring).
  all: try replace (sg ^ 2) with (1 - cg * cg) by (rewrite <- Tg; ring).
  all: ring.
Qed.

Lemma metric_gstar : forall p, valid_cell p -> mm (metric p) (gstar p) = mid.
Proof. intros; apply left_inv_right_inv, gstar_metric; auto. Qed.

(** Reading the parameters off a metric. *)
Definition params_of_metric (g : mat) : result lattice :=
  do a <- fsqrt (m00 g);
  do b <- fsqrt (m11 g);
  do c <- fsqrt (m22 g);
  do xa <- fdiv (m12 g + m21 g) (2 * b * c); do alpha <- facos xa;
  do xb <- fdiv (m02 g + m20 g) (2 * a * c); do beta <- facos xb;
  do xg <- fdiv (m01 g + m10 g) (2 * a * b); do gamma <- facos xg;
  Ok (Lattice a b c (rad2deg alpha) (rad2deg beta) (rad2deg gamma)).

Lemma params_from_inverse : forall gs g, mm gs g = mid -> lattice_params_from_g_star_mat gs = params_of_metric g.
Proof.
  intros gs g H. unfold lattice_params_from_g_star_mat. rewrite (minv_of_left_inv g gs). - reflexivity.
  - apply left_inv_right_inv; auto.
Qed.

Lemma params_of_own_metric : forall p, valid_cell p -> params_of_metric (metric p) = Ok p.
Proof.
  intros p (A & B & C & Al & Be & Ga & _). unfold params_of_metric, metric. cbv zeta.
  cbn [m00 m01 m02 m10 m11 m12 m20 m21 m22].
  rewrite !fsqrt_ok by nra. cbn [bind]. rewrite !sqrt_square by lra.
  rewrite ?fdiv_ok by nra. cbn [bind].
  replace ((lb p * lc p * cos (deg2rad (lalpha p)) + lb p * lc p * cos (deg2rad (lalpha p))) / (2 * lb p * lc p))
    with (cos (deg2rad (lalpha p))) by (field; lra).
  rewrite ?fdiv_ok by nra. cbn [bind]. rewrite facos_ok by apply COS_bound. cbn [bind].
  replace ((la p * lc p * cos (deg2rad (lbeta p)) + la p * lc p * cos (deg2rad (lbeta p))) / (2 * la p * lc p))
    with (cos (deg2rad (lbeta p))) by (field; lra).
  rewrite ?fdiv_ok by nra. cbn [bind]. rewrite facos_ok by apply COS_bound. cbn [bind].
  replace ((la p * lb p * cos (deg2rad (lgamma p)) + la p * lb p * cos (deg2rad (lgamma p))) / (2 * la p * lb p))
    with (cos (deg2rad (lgamma p))) by (field; lra).
  rewrite facos_ok by apply COS_bound. cbn [bind].
  apply deg_range in Al. apply deg_range in Be. apply deg_range in Ga.
  rewrite !acos_cos, !rad2deg_deg2rad by lra. destruct p; reflexivity.
Qed.

Lemma params_of_gstar : forall p, valid_cell p -> lattice_params_from_g_star_mat (gstar p) = Ok p.
Proof. intros p H. rewrite (params_from_inverse _ _ (gstar_metric p H)). apply params_of_own_metric; auto. Qed.

Lemma v2_strict : forall x y z, -1 <= x <= 1 -> 0 < 1 - x * x - y * y - z * z + 2 * x * y * z -> -1 < x < 1.
Proof.
  intros x y z B H.
  assert (x <> 1). { intros ->. pose proof (Rle_0_sqr (y - z)) as S. unfold Rsqr in S. lra. }
  assert (x <> -1). { intros ->. pose proof (Rle_0_sqr (y + z)) as S. unfold Rsqr in S. lra. }
  lra.
Qed.

(** The metric of any three independent vectors is the metric of a possible cell. *)
Lemma params_of_gram : forall a b c, dot a (cross b c) <> 0 ->
  exists p, params_of_metric (gram a b c) = Ok p /\ valid_cell p /\ metric p = gram a b c.
Proof.
  intros a b c D.
  assert (Na : a <> vzero). { intros ->. apply D. la_unfold; cbn; ring. }
  assert (Nb : b <> vzero). { intros ->. apply D. la_unfold; cbn; ring. }
  assert (Nc : c <> vzero). { intros ->. apply D. la_unfold; cbn; ring. }
  apply norm_pos in Na. apply norm_pos in Nb. apply norm_pos in Nc.
  set (x := dot b c / (norm b * norm c)). set (y := dot a c / (norm a * norm c)). set (z := dot a b / (norm a * norm b)).
  assert (Ex : dot b c = norm b * norm c * x) by (unfold x; field; lra).
  assert (Ey : dot a c = norm a * norm c * y) by (unfold y; field; lra).
  assert (Ez : dot a b = norm a * norm b * z) by (unfold z; field; lra).
  assert (CS : forall u v w, 0 < norm u -> 0 < norm v -> dot u v = norm u * norm v * w -> -1 <= w <= 1).
  { intros u v w U W E. pose proof (dot_le_norm u v) as L1. pose proof (dot_le_norm (vscale (-1) u) v) as L2.
    rewrite dot_vscale_l, norm_vscale in L2. rewrite (Rabs_left (-1)) in L2 by lra. rewrite E in L1, L2.
    assert (0 < norm u * norm v) by nra. revert H L1 L2. replace (- -1 * norm u * norm v) with (norm u * norm v) by ring.
    generalize (norm u * norm v). intros n Hn L1 L2. split; nra. }
  pose proof (CS b c x Nb Nc Ex) as Bx. pose proof (CS a c y Na Nc Ey) as By. pose proof (CS a b z Na Nb Ez) as Bz.
  assert (V2 : 0 < 1 - x * x - y * y - z * z + 2 * x * y * z).
  { assert (G : dot a (cross b c) * dot a (cross b c) =
      dot a a * dot b b * dot c c - dot a a * (dot b c * dot b c) - dot b b * (dot a c * dot a c)
      - dot c c * (dot a b * dot a b) + 2 * dot a b * dot b c * dot a c) by (la_unfold; ring).
    rewrite Ex, Ey, Ez, <- !norm_sq in G.
    assert (P : 0 < dot a (cross b c) * dot a (cross b c)) by nra. rewrite G in P.
    revert P. generalize (norm a), (norm b), (norm c), Na, Nb, Nc. intros na nb nc Na' Nb' Nc' P.
    assert (Q : 0 < (na * na * (nb * nb) * (nc * nc)) * (1 - x * x - y * y - z * z + 2 * x * y * z)).
    { eapply Rlt_le_trans; [exact P|]. right. ring. }
    assert (0 < na * na * (nb * nb) * (nc * nc)) by (repeat apply Rmult_lt_0_compat; auto).
    apply (Rmult_lt_reg_l (na * na * (nb * nb) * (nc * nc))); auto. rewrite Rmult_0_r. auto. }
  assert (Bx' : -1 < x < 1) by (apply (v2_strict x y z); auto).
  assert (By' : -1 < y < 1) by (apply (v2_strict y x z); auto; lra).
  assert (Bz' : -1 < z < 1) by (apply (v2_strict z x y); auto; lra).
  exists (Lattice (norm a) (norm b) (norm c) (rad2deg (acos x)) (rad2deg (acos y)) (rad2deg (acos z))).
  assert (M0 : params_of_metric (gram a b c) =
    Ok (Lattice (norm a) (norm b) (norm c) (rad2deg (acos x)) (rad2deg (acos y)) (rad2deg (acos z)))).
  { unfold params_of_metric, gram. cbn [m00 m01 m02 m10 m11 m12 m20 m21 m22].
    rewrite <- !norm_sq. rewrite !fsqrt_ok by nra. cbn [bind]. rewrite !sqrt_square by lra.
    rewrite (dot_comm c b), (dot_comm c a), (dot_comm b a), Ex, Ey, Ez.
    rewrite ?fdiv_ok by nra. cbn [bind].
    replace ((norm b * norm c * x + norm b * norm c * x) / (2 * norm b * norm c)) with x by (field; lra).
    rewrite facos_ok by lra. cbn [bind]. rewrite ?fdiv_ok by nra. cbn [bind].
    replace ((norm a * norm c * y + norm a * norm c * y) / (2 * norm a * norm c)) with y by (field; lra).
    rewrite facos_ok by lra. cbn [bind]. rewrite ?fdiv_ok by nra. cbn [bind].
    replace ((norm a * norm b * z + norm a * norm b * z) / (2 * norm a * norm b)) with z by (field; lra).
    rewrite facos_ok by lra. cbn [bind]. reflexivity. }
  split; auto. split.
  - apply valid_cell_iff. unfold vol2. cbn [la lb lc lalpha lbeta lgamma]. cbv zeta.
    rewrite !deg_range, !deg2rad_rad2deg, !cos_acos by lra.
    repeat split; auto; apply acos_bound_lt; auto.
  - unfold metric, gram. cbn [la lb lc lalpha lbeta lgamma]. cbv zeta. rewrite !deg2rad_rad2deg, !cos_acos by lra.
    rewrite (dot_comm c b), (dot_comm c a), (dot_comm b a), Ex, Ey, Ez, <- !norm_sq. reflexivity.
Qed.

(** ** Orientation matrices *)
Lemma metric_of_matrix : forall m, det m <> 0 ->
  exists i, minv m = Ok i /\ mm (mm (tr m) m) (gram (row0 i) (row1 i) (row2 i)) = mid /\
    dot (row0 i) (cross (row1 i) (row2 i)) <> 0.
Proof.
  intros m D. rewrite (minv_ok m D). eexists; split; [reflexivity|]. set (i := mscale (/ det m) (adj m)).
  assert (I : inverse_of i m). { apply (minv_spec m i). apply minv_ok; auto. }
  destruct I as [I1 I2]. clearbody i. split.
  - assert (G : gram (row0 i) (row1 i) (row2 i) = mm i (tr i)) by (apply mat_eq; unfold gram, row0, row1, row2; la_unfold; cbn; ring).
    rewrite G. rewrite <- (mm_assoc (tr m)), (mm_assoc m i), I2, mm_id_l, <- tr_mm, I1. apply tr_mid.
  - assert (Dd : dot (row0 i) (cross (row1 i) (row2 i)) = det i) by (la_unfold; cbn; ring). rewrite Dd.
    apply (left_inv_det m i). auto.
Qed.

Lemma ub_params : forall m, det m <> 0 ->
  exists p, lattice_params_from_g_star_mat (mm (tr m) m) = Ok p /\ valid_cell p /\ mm (mm (tr m) m) (metric p) = mid.
Proof.
  intros m D. destruct (metric_of_matrix m D) as (i & _ & G & N).
  destruct (params_of_gram _ _ _ N) as (p & P & Vp & Mp). exists p.
  rewrite (params_from_inverse _ _ G). split; auto. split; auto. rewrite Mp; auto.
Qed.

Lemma bclosed_det : forall p, valid_cell p -> 0 < det (bclosed p).
Proof.
  intros p H. destruct (cell_trig p H). pose proof H as (A & B & C & _). unfold bclosed. cbv zeta. la_unfold.
  cbn [m00 m01 m02 m10 m11 m12 m20 m21 m22].
  revert tg_sa0 tg_v0. generalize (sin (deg2rad (lalpha p))), (sqrt (vol2 p)). intros sa v Sa Vp.
  match goal with |- 0 < ?e => replace e with (sa / (la p * v) * (/ (lb p * sa) * / lc p)) by ring end.
  repeat apply Rmult_lt_0_compat; auto; apply Rinv_0_lt_compat; nra.
Qed.

(** B is determined by G*: any matrix with the same G* is U B with U orthogonal. *)
Lemma u_of_ub : forall m p, mm (mm (tr m) m) (metric p) = mid -> valid_cell p ->
  exists u, minv (bclosed p) = Ok (mm (metric p) (tr (bclosed p))) /\
    u = mm m (mm (metric p) (tr (bclosed p))) /\ mm (tr u) u = mid /\ mm u (bclosed p) = m.
Proof.
  intros m p G H. assert (E : mm (tr m) m = gstar p).
  { apply (left_inv_unique _ _ (metric p)); auto. apply metric_gstar; auto. }
  pose proof (btb p H) as BB. pose proof (metric_gstar p H) as MG.
  assert (BI : mm (mm (metric p) (tr (bclosed p))) (bclosed p) = mid) by (rewrite <- mm_assoc, BB; auto).
  exists (mm m (mm (metric p) (tr (bclosed p)))). split; [apply minv_of_left_inv; auto|]. split; auto. split.
  - set (bi := mm (metric p) (tr (bclosed p))) in *. pose proof (left_inv_right_inv _ _ BI) as BI2.
    rewrite tr_mm, <- (mm_assoc (tr bi)), (mm_assoc (tr m)), E, <- BB.
    rewrite <- (mm_assoc (tr (bclosed p))), BI2, mm_id_r, <- tr_mm, BI2. apply tr_mid.
  - rewrite <- mm_assoc, BI, mm_id_r; auto.
Qed.
