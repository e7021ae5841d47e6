(** Properties C09 - C14: the crystal lattice. *)
From Coq Require Import Reals Lra Psatz List String.
From Verif Require Import Base LinAlg S_Geom S_Energy S_Lattice M_Utilities M_Lattice M_Goni M_UB M_Sample M_Tas
  L_LinAlg L_Utilities L_Lattice P_Energy.
Import ListNotations.
Open Scope R_scope.

(** A triclinic example cell. *)
Definition cell1 : lattice := Lattice 3 4 5 80 95 110.
Example cell1_valid : valid_cell cell1.
Proof. unfold valid_cell; cbn; lra. Qed.

(** * C09 *)
Theorem C09_real_space_vectors : forall p, valid_cell p ->
  exists a b c, real_space_vectors p = Ok (a, b, c) /\ edges p a b c.
Proof. intros p H. do 3 eexists. split; [apply real_space_ok; auto|]. apply edges_ok; auto. Qed.
Print Assumptions C09_real_space_vectors.

Theorem C09_volume : forall p, valid_cell p ->
  exists a b c v, real_space_vectors p = Ok (a, b, c) /\ v_alpha_beta_gamma_calc (lalpha p) (lbeta p) (lgamma p) = Ok v /\
    0 < v /\ dot a (cross b c) = la p * lb p * lc p * v.
Proof.
  intros p H. exists (avec p), (bvec p), (cvec p), (sqrt (vol2 p)). split; [apply real_space_ok; auto|].
  split; [apply vcalc_ok; auto|]. destruct (cell_trig p H). split; auto. apply (dots p H).
Qed.
Print Assumptions C09_volume.

Theorem C09_dual : forall p, valid_cell p ->
  exists a b c a' b' c', real_space_vectors p = Ok (a, b, c) /\ reciprocal_space_vectors p = Ok (a', b', c') /\
    dot a a' = 2 * PI /\ dot b a' = 0 /\ dot c a' = 0 /\
    dot a b' = 0 /\ dot b b' = 2 * PI /\ dot c b' = 0 /\
    dot a c' = 0 /\ dot b c' = 0 /\ dot c c' = 2 * PI.
Proof.
  intros p H. do 6 eexists. split; [apply real_space_ok; auto|]. split; [apply recip_ok; auto|].
  destruct (dots p H) as (_ & _ & _ & _ & _ & _ & D). destruct (cell_trig p H). pose proof H as (A & B & C & _).
  eapply dual_identities; [exact D|]. field. repeat split; lra.
Qed.
Print Assumptions C09_dual.

(** Conversely the reciprocal vectors exist only for a possible cell. *)
Theorem C09_impossible_cell : forall p, 0 < la p -> 0 < lb p -> 0 < lc p ->
  0 < lalpha p < 180 -> 0 < lbeta p < 180 -> 0 < lgamma p < 180 -> ~ valid_cell p ->
  reciprocal_space_vectors p = Err NotANumber.
Proof.
  intros p A B C Al Be Ga N.
  assert (V2 : vol2 p <= 0).
  { destruct (Rle_dec (vol2 p) 0); auto. exfalso. apply N. apply valid_cell_iff. repeat split; lra. }
  unfold reciprocal_space_vectors.
  assert (E : v_alpha_beta_gamma_calc (lalpha p) (lbeta p) (lgamma p) = fsqrt (vol2 p)) by reflexivity. rewrite E.
  unfold fsqrt. destruct (Rlt_dec (vol2 p) 0) as [l|l]; cbn [bind]; auto.
  assert (Z : vol2 p = 0) by lra. rewrite Z, sqrt_0. unfold fdiv.
  replace (0 * la p * lb p * lc p) with 0 by ring. destruct (Req_EM_T 0 0); [reflexivity|lra].
Qed.
Print Assumptions C09_impossible_cell.

Example C09_ex_impossible : reciprocal_space_vectors (Lattice 1 1 1 120 50 50) = Err NotANumber.
Proof. apply C09_impossible_cell; cbn; try lra. unfold valid_cell; cbn; lra. Qed.

(** * C10 *)
Lemma star_norm : forall k u v w, 0 <= k -> 0 <= w -> dot (cross u v) (cross u v) = w * w -> norm (starv k u v) = k * w.
Proof.
  intros k u v w K W E. unfold starv. rewrite norm_vscale, Rabs_right by lra. f_equal. apply norm_of_sq; auto.
Qed.

Lemma recip_edges : forall p r, valid_cell p -> reciprocal_latt_params p = Ok r ->
  let k := 2 * PI / (sqrt (vol2 p) * la p * lb p * lc p) in
  edges r (starv k (bvec p) (cvec p)) (starv k (cvec p) (avec p)) (starv k (avec p) (bvec p)).
Proof.
  intros p r H R. destruct (recip_params_ok p H) as (r' & E & Q). cbv zeta in Q. rewrite R in E. apply Ok_inj in E. subst r'.
  destruct Q as (R1 & R2 & R3 & R4 & _ & R6 & _ & R8 & _ & Al & Be & Ga).
  pose proof (dots p H) as D. cbv zeta in D. destruct D as (D1 & D2 & D3 & D4 & D5 & D6 & _).
  pose proof (cell_trig p H) as T. pose proof H as (A & B & C & _). intros k.
  unfold edges, angle_is. unfold deg2rad in R4, R6, R8. rewrite R4, R6, R8. fold (deg2rad (lalpha p)). clear R4 R6 R8.
  revert T D4 D5 D6 R1 R2 R3. unfold k.
  fold (deg2rad (lalpha p)) (deg2rad (lbeta p)) (deg2rad (lgamma p)).
  generalize (cos (deg2rad (lalpha p))), (sin (deg2rad (lalpha p))), (cos (deg2rad (lbeta p))), (sin (deg2rad (lbeta p))),
    (cos (deg2rad (lgamma p))), (sin (deg2rad (lgamma p))), (sqrt (vol2 p)).
  intros ca sa cb sb cg sg v T D4 D5 D6 R1 R2 R3. destruct T as [Ta Tb Tg Sa Sb Sg Vp V2].
  revert D1 D2 D3 D4 D5 D6 R1 R2 R3 A B C. generalize (avec p), (bvec p), (cvec p), (la p), (lb p), (lc p).
  intros av bv cv a b c D1 D2 D3 D4 D5 D6 R1 R2 R3 A B C.
  pose proof PI_RGT_0 as PP. set (K := 2 * PI / (v * a * b * c)).
  assert (KP : 0 < K). { unfold K. apply Rdiv_lt_0_compat; [lra|]. repeat apply Rmult_lt_0_compat; auto. }
  assert (N1 : norm (starv K bv cv) = K * (b * c * sa)).
  { apply star_norm; [lra| left; repeat apply Rmult_lt_0_compat; auto |]. rewrite binet, (dot_comm cv bv), D2, D3, D4. replace (b * c * sa * (b * c * sa)) with (b * b * (c * c) * (sa * sa)) by ring.
    replace (sa * sa) with (1 - ca * ca) by lra. ring. }
  assert (N2 : norm (starv K cv av) = K * (c * a * sb)).
  { apply star_norm; [lra| left; repeat apply Rmult_lt_0_compat; auto |]. rewrite binet, (dot_comm av cv), D1, D3, D5. replace (c * a * sb * (c * a * sb)) with (c * c * (a * a) * (sb * sb)) by ring.
    replace (sb * sb) with (1 - cb * cb) by lra. ring. }
  assert (N3 : norm (starv K av bv) = K * (a * b * sg)).
  { apply star_norm; [lra| left; repeat apply Rmult_lt_0_compat; auto |]. rewrite binet, (dot_comm bv av), D1, D2, D6. replace (a * b * sg * (a * b * sg)) with (a * a * (b * b) * (sg * sg)) by ring.
    replace (sg * sg) with (1 - cg * cg) by lra. ring. }
  rewrite N1, N2, N3, R1, R2, R3.
  unfold starv. rewrite !dot_vscale_l, !dot_vscale_r, !binet.
  rewrite (dot_comm cv bv), (dot_comm av cv), (dot_comm bv av), D1, D2, D3, D4, D5, D6.
  repeat split; try lra.
  all: try (unfold K; field; repeat split; lra).
  all: field; repeat split; lra.
Qed.

Theorem C10_reciprocal_parameters : forall p, valid_cell p ->
  exists r a' b' c', reciprocal_latt_params p = Ok r /\ reciprocal_space_vectors p = Ok (a', b', c') /\ edges r a' b' c'.
Proof.
  intros p H. destruct (recip_params_ok p H) as (r & E & _). do 4 eexists. split; [exact E|].
  split; [apply recip_ok; auto|]. apply recip_edges; auto.
Qed.
Print Assumptions C10_reciprocal_parameters.

Theorem C10_basis : forall p, valid_cell p ->
  exists i j k a' b' c', reciprocal_basis p = Ok (i, j, k) /\ reciprocal_space_vectors p = Ok (a', b', c') /\
    frame i j k /\ parallel i a' /\ dot b' k = 0 /\ 0 < dot b' j.
Proof.
  intros p H. unfold reciprocal_basis. rewrite (recip_ok p H). cbn [bind].
  destruct (recip_params_ok p H) as (r & E & Q). cbv zeta in Q. pose proof (recip_edges p r H E) as Ed. cbv zeta in Ed.
  set (k := 2 * PI / (sqrt (vol2 p) * la p * lb p * lc p)) in *.
  destruct (C09_dual p H) as (a & b & c & a' & b' & c' & RS & RR & D11 & D21 & _ & D12 & D22 & _).
  rewrite (recip_ok p H) in RR. fold k in RR. apply Ok_inj in RR. injection RR as Ea Eb Ec.
  rewrite Ea, Eb, Ec in *. pose proof PI_RGT_0 as PP. clear Ea Eb Ec.
  assert (Na : a' <> vzero). { intros ->. la_unfold. cbn in *. lra. }
  assert (X : cross a' b' <> vzero).
  { intros Z. assert (dot (cross a b) (cross a' b') = 0) by (rewrite Z; la_unfold; cbn; ring).
    rewrite binet, D11, D12, D21, D22 in H0. nra. }
  assert (Nj : cross (cross a' b') a' <> vzero).
  { intros Z. assert (L : dot (cross (cross a' b') a') (cross (cross a' b') a') = dot (cross a' b') (cross a' b') * dot a' a').
    { rewrite lagrange. rewrite (dot_comm (cross a' b') a'), dot_cross_l. ring. }
    rewrite Z in L. apply norm_pos in Na. apply norm_pos in X. rewrite <- !norm_sq, norm_vzero in L.
    assert (0 < norm (cross a' b') * norm (cross a' b') * (norm a' * norm a')) by (repeat apply Rmult_lt_0_compat; auto). lra. }
  destruct (unit_of a') as [i|] eqn:Ui; [|rewrite (unit_of_ok a' Na) in Ui; discriminate].
  rewrite (unit_of_ok _ Nj). cbn [bind]. rewrite (unit_of_ok a' Na) in Ui. apply Ok_inj in Ui. subst i.
  exists (vscale (/ norm a') a'), (vscale (/ norm (cross (cross a' b') a')) (cross (cross a' b') a')).
  eexists. exists a', b', c'. split; [reflexivity|]. split; [reflexivity|].
  apply norm_pos in Na. apply norm_pos in Nj. pose proof (norm_sq a') as Sa. pose proof (norm_sq (cross (cross a' b') a')) as Sj.
  assert (Oij : dot a' (cross (cross a' b') a') = 0) by apply dot_cross_r.
  set (j0 := cross (cross a' b') a') in *. set (na := norm a') in *. set (nj := norm j0) in *.
  assert (U1 : dot (vscale (/ na) a') (vscale (/ na) a') = 1).
  { rewrite dot_vscale_l, dot_vscale_r, <- Sa. field. lra. }
  assert (U2 : dot (vscale (/ nj) j0) (vscale (/ nj) j0) = 1).
  { rewrite dot_vscale_l, dot_vscale_r, <- Sj. field. lra. }
  assert (U12 : dot (vscale (/ na) a') (vscale (/ nj) j0) = 0).
  { rewrite dot_vscale_l, dot_vscale_r, Oij. ring. }
  split; [|split; [|split]].
  - unfold frame. rewrite lagrange, U1, U2, U12, dot_cross_l, dot_cross_r. repeat split; auto; ring.
  - exists (/ na). split; [apply Rinv_0_lt_compat; auto|reflexivity].
  - rewrite cross_vscale_l, cross_vscale_r, !dot_vscale_r.
    assert (dot b' (cross a' j0) = 0). { unfold j0. la_unfold; ring. } rewrite H0. ring.
  - rewrite dot_vscale_r. apply Rmult_lt_0_compat; [apply Rinv_0_lt_compat; auto|].
    assert (L : dot b' j0 = dot (cross a' b') (cross a' b')) by (unfold j0; la_unfold; ring). rewrite L.
    apply norm_pos in X. rewrite <- norm_sq. nra.
Qed.
Print Assumptions C10_basis.

(** The reciprocal of the reciprocal lattice is the original lattice. *)
Theorem C10_involution : forall p, valid_cell p ->
  exists r, reciprocal_latt_params p = Ok r /\ valid_cell r /\ reciprocal_latt_params r = Ok p.
Proof.
  intros p H. destruct (recip_params_ok p H) as (r & E & Q). cbv zeta in Q. exists r. split; auto.
  destruct Q as (R1 & R2 & R3 & Ca & Sa & Cb & Sb & Cg & Sg & Al & Be & Ga).
  pose proof (cell_trig p H) as T. pose proof H as (A & B & C & Al0 & Be0 & Ga0 & _). pose proof PI_RGT_0 as PP.
  assert (V : vol2 r = (sqrt (vol2 p) * sqrt (vol2 p) / (sin (deg2rad (lalpha p)) * sin (deg2rad (lbeta p)) * sin (deg2rad (lgamma p))))
                     * (sqrt (vol2 p) * sqrt (vol2 p) / (sin (deg2rad (lalpha p)) * sin (deg2rad (lbeta p)) * sin (deg2rad (lgamma p)))) /\
              0 < sqrt (vol2 p) * sqrt (vol2 p) / (sin (deg2rad (lalpha p)) * sin (deg2rad (lbeta p)) * sin (deg2rad (lgamma p)))).
  { unfold vol2 at 1. cbv zeta. rewrite Ca, Cb, Cg. revert T.
    generalize (cos (deg2rad (lalpha p))), (sin (deg2rad (lalpha p))), (cos (deg2rad (lbeta p))), (sin (deg2rad (lbeta p))),
      (cos (deg2rad (lgamma p))), (sin (deg2rad (lgamma p))), (sqrt (vol2 p)).
    intros ca sa cb sb cg sg v T. destruct T as [Ta Tb Tg Psa Psb Psg Vp V2].
    split; [|apply Rdiv_lt_0_compat; [nra|repeat apply Rmult_lt_0_compat; auto]].
    assert (EQ : (sb * sb) * (sg * sg) * (sa * sa) - (cb * cg - ca) * (cb * cg - ca) * (sa * sa) - (cg * ca - cb) * (cg * ca - cb) * (sb * sb)
                 - (ca * cb - cg) * (ca * cb - cg) * (sg * sg) + 2 * (cb * cg - ca) * (cg * ca - cb) * (ca * cb - cg) = (v * v) * (v * v)).
    { rewrite V2. replace (sa * sa) with (1 - ca * ca) by lra. replace (sb * sb) with (1 - cb * cb) by lra.
      replace (sg * sg) with (1 - cg * cg) by lra. ring. }
    replace (v * v / (sa * sb * sg) * (v * v / (sa * sb * sg))) with ((v * v) * (v * v) / ((sa * sb * sg) * (sa * sb * sg))) by (field; lra).
    rewrite <- EQ. field. lra. }
  destruct V as [V VP].
  assert (VR : valid_cell r).
  { apply valid_cell_iff. rewrite R1, R2, R3, V. destruct T.
    split; [apply Rdiv_lt_0_compat; nra|]. split; [apply Rdiv_lt_0_compat; nra|]. split; [apply Rdiv_lt_0_compat; nra|].
    repeat split; try tauto. nra. }
  split; auto. destruct (recip_params_ok r VR) as (q & Eq & S). cbv zeta in S. rewrite Eq. f_equal.
  assert (VS : sqrt (vol2 r) = sqrt (vol2 p) * sqrt (vol2 p) / (sin (deg2rad (lalpha p)) * sin (deg2rad (lbeta p)) * sin (deg2rad (lgamma p)))).
  { rewrite V. apply sqrt_square. lra. }
  rewrite VS, Ca, Sa, Cb, Sb, Cg, Sg, R1, R2, R3 in S.
  destruct S as (S1 & S2 & S3 & S4 & _ & S5 & _ & S6 & _ & Al1 & Be1 & Ga1).
  assert (INJ : forall x y, 0 < x < 180 -> 0 < y < 180 -> cos (deg2rad x) = cos (deg2rad y) -> x = y).
  { intros x y X Y C0. apply deg_range in X. apply deg_range in Y.
    rewrite <- (rad2deg_deg2rad x), <- (rad2deg_deg2rad y). f_equal. apply cos_inj; lra || auto. }
  assert (X1 : lalpha q = lalpha p).
  { apply INJ; auto. rewrite S4. revert T. generalize (cos (deg2rad (lalpha p))), (sin (deg2rad (lalpha p))), (cos (deg2rad (lbeta p))), (sin (deg2rad (lbeta p))),
      (cos (deg2rad (lgamma p))), (sin (deg2rad (lgamma p))), (sqrt (vol2 p)). intros ca sa cb sb cg sg v T. destruct T as [Ta Tb Tg Psa Psb Psg Vp V2].
    field_simplify_eq; [|repeat split; lra]. replace (v ^ 2) with (v * v) by ring. rewrite V2.
    replace (sa ^ 2) with (1 - ca * ca) by (rewrite <- Ta; ring). ring. }
  assert (X2 : lbeta q = lbeta p).
  { apply INJ; auto. rewrite S5. revert T. generalize (cos (deg2rad (lalpha p))), (sin (deg2rad (lalpha p))), (cos (deg2rad (lbeta p))), (sin (deg2rad (lbeta p))),
      (cos (deg2rad (lgamma p))), (sin (deg2rad (lgamma p))), (sqrt (vol2 p)). intros ca sa cb sb cg sg v T. destruct T as [Ta Tb Tg Psa Psb Psg Vp V2].
    field_simplify_eq; [|repeat split; lra]. replace (v ^ 2) with (v * v) by ring. rewrite V2.
    replace (sb ^ 2) with (1 - cb * cb) by (rewrite <- Tb; ring). ring. }
  assert (X3 : lgamma q = lgamma p).
  { apply INJ; auto. rewrite S6. revert T. generalize (cos (deg2rad (lalpha p))), (sin (deg2rad (lalpha p))), (cos (deg2rad (lbeta p))), (sin (deg2rad (lbeta p))),
      (cos (deg2rad (lgamma p))), (sin (deg2rad (lgamma p))), (sqrt (vol2 p)). intros ca sa cb sb cg sg v T. destruct T as [Ta Tb Tg Psa Psb Psg Vp V2].
    field_simplify_eq; [|repeat split; lra]. replace (v ^ 2) with (v * v) by ring. rewrite V2.
    replace (sg ^ 2) with (1 - cg * cg) by (rewrite <- Tg; ring). ring. }
  assert (Y : la q = la p /\ lb q = lb p /\ lc q = lc p).
  { rewrite S1, S2, S3. destruct T. repeat split; field; repeat split; lra. }
  destruct Y as (Y1 & Y2 & Y3). destruct p, q; cbn in *; congruence.
Qed.
Print Assumptions C10_involution.

(** * C11 *)
Lemma gram_comb : forall h a b c, dot (comb h a b c) (comb h a b c) = dot h (mv (gram a b c) h).
Proof. intros. unfold comb, gram. la_unfold. ring. Qed.

Theorem C11_metric : forall p, valid_cell p ->
  exists bm a' b' c', b_mat_from_lattice p = Ok bm /\ reciprocal_space_vectors p = Ok (a', b', c') /\
    mscale (2 * PI * (2 * PI)) (mm (tr bm) bm) = gram a' b' c' /\
    m10 bm = 0 /\ m20 bm = 0 /\ m21 bm = 0 /\ 0 < m00 bm /\ 0 < m11 bm /\ 0 < m22 bm.
Proof.
  intros p H. do 4 eexists. split; [apply b_mat_ok; auto|]. split; [apply recip_ok; auto|].
  set (k := 2 * PI / (sqrt (vol2 p) * la p * lb p * lc p)). rewrite (btb p H).
  pose proof (dots p H) as D. cbv zeta in D. destruct D as (D1 & D2 & D3 & D4 & D5 & D6 & _).
  pose proof (cell_trig p H) as T. pose proof H as (A & B & C & _). pose proof PI_RGT_0 as PP. split.
  - unfold gram, starv. rewrite !dot_vscale_l, !dot_vscale_r, !binet.
    rewrite (dot_comm (cvec p) (bvec p)), (dot_comm (avec p) (cvec p)), (dot_comm (bvec p) (avec p)), D1, D2, D3, D4, D5, D6.
    unfold gstar, k. cbv zeta.
    assert (E : vol2 p = sqrt (vol2 p) * sqrt (vol2 p)).
    { rewrite sqrt_sqrt; auto. apply valid_cell_iff in H. lra. }
    replace (/ vol2 p) with (/ (sqrt (vol2 p) * sqrt (vol2 p))) by (rewrite <- E; reflexivity). clear E.
    revert T. generalize (cos (deg2rad (lalpha p))), (sin (deg2rad (lalpha p))), (cos (deg2rad (lbeta p))), (sin (deg2rad (lbeta p))),
      (cos (deg2rad (lgamma p))), (sin (deg2rad (lgamma p))), (sqrt (vol2 p)). intros ca sa cb sb cg sg v T.
    destruct T as [Ta Tb Tg Psa Psb Psg Vp V2].
    replace (sa * sa) with (1 - ca * ca) by lra. replace (sb * sb) with (1 - cb * cb) by lra. replace (sg * sg) with (1 - cg * cg) by lra.
    la_unfold. f_equal; field; repeat split; lra.
  - unfold bclosed. cbv zeta. cbn [m00 m01 m02 m10 m11 m12 m20 m21 m22]. destruct T.
    repeat split; auto; try (apply Rinv_0_lt_compat; nra). apply Rdiv_lt_0_compat; nra.
Qed.
Print Assumptions C11_metric.

(** |Q| computed by the sample and by the B matrix agree and are the length of h a* + k b* + l c*. *)
Theorem C11_q_norm_agree : forall s h, valid_cell (s_lattice s) ->
  exists bm a' b' c', s_b_mat s = Ok bm /\ reciprocal_space_vectors (s_lattice s) = Ok (a', b', c') /\
    get_q_norm s h = Ok (norm (comb h a' b' c')) /\ q_norm_from_hkl h bm = norm (comb h a' b' c').
Proof.
  intros s h H. destruct (C11_metric _ H) as (bm & a' & b' & c' & E & R & G & _).
  exists bm, a', b', c'. split; auto. split; auto. split.
  - unfold get_q_norm. rewrite R. reflexivity.
  - rewrite q_norm_eq. symmetry. apply norm_of_sq.
    + pose proof (norm_nonneg (mv bm h)). pose proof PI_RGT_0. nra.
    + rewrite gram_comb, <- G. rewrite mv_mscale, dot_vscale_r, mv_mm.
      replace (dot h (mv (tr bm) (mv bm h))) with (dot (mv bm h) (mv bm h)).
      * rewrite <- norm_sq. ring.
      * rewrite dot_mv. reflexivity.
Qed.
Print Assumptions C11_q_norm_agree.

(** * C12 *)
Theorem C12_round_trip_b : forall p, valid_cell p ->
  exists b, b_mat_from_lattice p = Ok b /\ lattice_params_from_b_mat b = Ok p.
Proof.
  intros p H. exists (bclosed p). split; [apply b_mat_ok; auto|].
  unfold lattice_params_from_b_mat. rewrite (btb p H). apply params_of_gstar; auto.
Qed.
Print Assumptions C12_round_trip_b.

Theorem C12_round_trip_ub : forall p u b, valid_cell p -> b_mat_from_lattice p = Ok b -> rotation u ->
  ub_matrix_to_lattice_params (mm u b) = Ok p /\ b_mat_from_ub_matrix (mm u b) = Ok b /\ u_mat_from_ub_matrix (mm u b) = Ok u.
Proof.
  intros p u b H E [O D]. rewrite (b_mat_ok p H) in E. apply Ok_inj in E. subst b.
  assert (G : mm (tr (mm u (bclosed p))) (mm u (bclosed p)) = gstar p).
  { rewrite tr_mm, <- mm_assoc, (mm_assoc (tr u)), O, mm_id_l. apply btb; auto. }
  assert (A : ub_matrix_to_lattice_params (mm u (bclosed p)) = Ok p).
  { unfold ub_matrix_to_lattice_params. rewrite G. apply params_of_gstar; auto. }
  assert (B : b_mat_from_ub_matrix (mm u (bclosed p)) = Ok (bclosed p)).
  { unfold b_mat_from_ub_matrix. rewrite G, params_of_gstar by auto. cbn [bind]. apply b_mat_ok; auto. }
  split; auto. split; auto. unfold u_mat_from_ub_matrix. rewrite B. cbn [bind].
  pose proof (metric_gstar p H) as MG. rewrite <- (btb p H), mm_assoc in MG.
  rewrite (minv_of_left_inv _ _ MG). cbn [bind]. f_equal. apply left_inv_right_inv in MG.
  rewrite <- mm_assoc, MG, mm_id_r. reflexivity.
Qed.
Print Assumptions C12_round_trip_ub.

(** Every matrix with positive determinant is the UB matrix of exactly one cell and one rotation, and the three
    functions compute them. *)
Theorem C12_every_ub_factors : forall m, 0 < det m ->
  exists p u b, ub_matrix_to_lattice_params m = Ok p /\ b_mat_from_ub_matrix m = Ok b /\ u_mat_from_ub_matrix m = Ok u /\
    valid_cell p /\ b_mat_from_lattice p = Ok b /\ rotation u /\ m = mm u b.
Proof.
  intros m D. destruct (ub_params m) as (p & P & Vp & G); [lra|].
  destruct (u_of_ub m p G Vp) as (u & I & U & O & M). exists p, u, (bclosed p).
  assert (B : b_mat_from_ub_matrix m = Ok (bclosed p)).
  { unfold b_mat_from_ub_matrix. rewrite P. cbn [bind]. apply b_mat_ok; auto. }
  split; auto. split; auto. split.
  { unfold u_mat_from_ub_matrix. rewrite B. cbn [bind]. rewrite I. cbn [bind]. rewrite <- U. reflexivity. }
  split; auto. split; [apply b_mat_ok; auto|]. split; [|auto]. split; auto.
  pose proof (bclosed_det p Vp) as BD. rewrite <- M, det_mm in D.
  assert (S : det u * det u = 1) by (rewrite <- (det_tr u) at 1; rewrite <- det_mm, O; apply det_mid).
  assert (0 < det u) by nra. nra.
Qed.
Print Assumptions C12_every_ub_factors.

(** Finding: a singular metric is silently read as the unit cube. *)
Theorem C12_singular_is_unit_cube : forall g, det g = 0 -> lattice_params_from_g_star_mat g = Ok (Lattice 1 1 1 90 90 90).
Proof.
  intros g D. unfold lattice_params_from_g_star_mat, minv. destruct (Req_EM_T (det g) 0); [|lra].
  unfold mid. cbn [m00 m01 m02 m10 m11 m12 m20 m21 m22].
  rewrite fsqrt_ok by lra. cbn [bind]. rewrite sqrt_1, fdiv_ok by lra. cbn [bind].
  replace ((0 + 0) / (2 * 1 * 1)) with 0 by field. rewrite facos_ok by lra. cbn [bind]. rewrite acos_0.
  replace (rad2deg (PI / 2)) with 90; [reflexivity|]. unfold rad2deg. field. apply PI_neq0.
Qed.
Print Assumptions C12_singular_is_unit_cube.

Example C12_ex : exists b, b_mat_from_lattice cell1 = Ok b /\ rotation (M 0 0 1 1 0 0 0 1 0).
Proof.
  destruct (C12_round_trip_b cell1 cell1_valid) as (b & E & _). exists b. split; auto.
  split; [apply mat_eq; la_unfold; cbn; ring| la_unfold; cbn; ring].
Qed.

(** * C13 *)
(** What the method promises to accept. *)
Definition accepted (ps : list R) (p : lattice) : Prop :=
  ps = [la p; lb p; lc p; lalpha p; lbeta p; lgamma p] /\ 0 < la p /\ 0 < lb p /\ 0 < lc p /\
  0 <= lalpha p <= 180 /\ 0 <= lbeta p <= 180 /\ 0 <= lgamma p <= 180.

Lemma check_lattice_iff : forall ps p, check_lattice ps = Ok p <-> accepted ps p.
Proof.
  intros ps p. unfold check_lattice, accepted. split.
  - destruct ps as [|a [|b [|c [|al [|be [|ga [|x r]]]]]]]; try discriminate.
    repeat (match goal with |- context [if ?d then _ else _] => destruct d; [discriminate|] end).
    intros H; apply Ok_inj in H; subst p; cbn. repeat split; lra.
  - intros (-> & H). destruct p as [a b c al be ga]. cbn in *.
    repeat (match goal with |- context [if ?d then _ else _] => destruct d; [exfalso; lra|] end). reflexivity.
Qed.

Theorem C13_accepts_exactly : forall s ps,
  (forall p, accepted ps p -> update_lattice_parameters s ps =
     (Sample p (s_ub_conf s) (s_mosaic_h s) (s_mosaic_v s), None)) /\
  ((~ exists p, accepted ps p) -> exists e, update_lattice_parameters s ps = (s, Some e) /\
     (List.length ps = 6%nat -> e = ValueError)).
Proof.
  intros s ps. unfold update_lattice_parameters. split.
  - intros p A. apply check_lattice_iff in A. rewrite A. reflexivity.
  - intros N. destruct (check_lattice ps) as [p|e] eqn:E.
    + exfalso. apply N. exists p. apply check_lattice_iff; auto.
    + exists e. split; auto. revert E. unfold check_lattice.
      destruct ps as [|a [|b [|c [|al [|be [|ga [|x r]]]]]]]; try discriminate.
      repeat (match goal with |- context [if ?d then _ else _] => destruct d; [intros H _; injection H; auto|] end). discriminate.
Qed.
Print Assumptions C13_accepts_exactly.

(** After any history of update calls the stored cell is that of the last accepted one (the first cell if none). *)
Theorem C13_history : forall h s, let s' := fold_left (fun s ps => fst (update_lattice_parameters s ps)) h s in
  ((exists h1 ps h2 p, h = h1 ++ ps :: h2 /\ accepted ps p /\ (forall x, In x h2 -> ~ exists q, accepted x q) /\ s_lattice s' = p)
   \/ ((forall x, In x h -> ~ exists q, accepted x q) /\ s' = s)).
Proof.
  induction h as [|ps h IH] using rev_ind; intros s.
  - right. split; [intros x []|reflexivity].
  - cbv zeta in *. rewrite fold_left_app. cbn [fold_left]. set (s1 := fold_left _ h s) in *.
    destruct (check_lattice ps) as [p|e] eqn:E.
    + apply check_lattice_iff in E. left. exists h, ps, [], p. split; auto. split; auto. split; [intros x []|].
      destruct (C13_accepts_exactly s1 ps) as [A _]. rewrite (A p E). reflexivity.
    + assert (N : ~ exists q, accepted ps q) by (intros [q Q]; apply check_lattice_iff in Q; congruence).
      destruct (C13_accepts_exactly s1 ps) as [_ B]. destruct (B N) as (e' & U & _). rewrite U. cbn [fst].
      destruct (IH s) as [(h1 & ps' & h2 & p & H1 & H2 & H3 & H4)|[H1 H2]]; [fold s1 in H4|fold s1 in H2].
      * left. exists h1, ps', (h2 ++ [ps]), p. split; [subst h; rewrite <- app_assoc; reflexivity|].
        split; auto. split; auto. intros x X. apply in_app_iff in X. destruct X as [X|[<-|[]]]; auto.
      * right. split; auto. intros x X. apply in_app_iff in X. destruct X as [X|[<-|[]]]; auto.
Qed.
Print Assumptions C13_history.

Theorem C13_constructor : forall ps, 
  (forall p, accepted ps p -> new_sample ps = Ok (Sample p None 30 30)) /\ ((~ exists p, accepted ps p) -> exists e, new_sample ps = Err e).
Proof.
  intros ps. unfold new_sample. split.
  - intros p A. apply check_lattice_iff in A. rewrite A. reflexivity.
  - intros N. destruct (check_lattice ps) as [p|e] eqn:E; [|eexists; reflexivity].
    exfalso; apply N; exists p; apply check_lattice_iff; auto.
Qed.
Print Assumptions C13_constructor.

(** Finding: the checks accept cells that do not exist; every geometric quantity is then nan. *)
Theorem C13_accepts_impossible_cell_refuted : exists ps p,
  accepted ps p /\ reciprocal_space_vectors p = Err NotANumber.
Proof.
  exists [1; 1; 1; 120; 50; 50], (Lattice 1 1 1 120 50 50). split; [|apply C09_ex_impossible].
  unfold accepted; cbn; repeat split; lra.
Qed.
Print Assumptions C13_accepts_impossible_cell_refuted.

(** * C14 *)
Theorem C14_q_norm_is_a_norm : forall m, det m <> 0 ->
  (forall h, 0 <= q_norm_from_hkl h m) /\
  (forall h, q_norm_from_hkl h m = 0 <-> h = vzero) /\
  (forall k h, q_norm_from_hkl (vscale k h) m = Rabs k * q_norm_from_hkl h m) /\
  (forall h h', q_norm_from_hkl (vadd h h') m <= q_norm_from_hkl h m + q_norm_from_hkl h' m).
Proof.
  intros m D. pose proof PI_RGT_0 as P. split; [|split; [|split]].
  - intros; apply q_norm_nonneg.
  - intros h. rewrite q_norm_eq. split; intros H.
    + assert (norm (mv m h) = 0) by nra. apply norm_zero in H0. apply (mv_inj m); auto. rewrite H0, mv_vzero. auto.
    + subst. rewrite mv_vzero, norm_vzero. ring.
  - intros k h. rewrite !q_norm_eq, mv_vscale, norm_vscale. ring.
  - intros h h'. rewrite !q_norm_eq, mv_vadd. pose proof (norm_triangle (mv m h) (mv m h')). nra.
Qed.
Print Assumptions C14_q_norm_is_a_norm.

Theorem C14_independent_of_u : forall u b h, rotation u -> q_norm_from_hkl h (mm u b) = q_norm_from_hkl h b.
Proof. intros u b h [O _]. rewrite !q_norm_eq, mv_mm, orth_norm by auto. reflexivity. Qed.
Print Assumptions C14_independent_of_u.

Example C14_ex : exists b, b_mat_from_lattice cell1 = Ok b /\ det b <> 0.
Proof. exists (bclosed cell1). split; [apply b_mat_ok, cell1_valid|]. pose proof (bclosed_det cell1 cell1_valid). lra. Qed.

(** A concrete instrument meets the hypotheses of C07: a cubic crystal (2 pi Angstrom) at fixed Ef. *)
Definition tas1 : tas :=
  TAS "Mantid" None (Some (ksq2eng * (2 * 2))) (Goniometer "Y,-Z,X" (Some "-"%string) default_limits)
    (Sample (Lattice 1 1 1 90 90 90) None 30 30).
Example C07_ex : exists b tt psi, s_b_mat (t_sample tas1) = Ok b /\ get_two_theta tas1 (V (/ PI) 0 0) 0 = Ok tt /\ get_psi tas1 (V (/ PI) 0 0) 0 = Ok psi.
Proof.
  assert (VC : valid_cell (Lattice 1 1 1 90 90 90)) by (unfold valid_cell; cbn; lra).
  set (b := bclosed (Lattice 1 1 1 90 90 90)). assert (B : s_b_mat (t_sample tas1) = Ok b) by (apply b_mat_ok; auto).
  assert (E : t_ei_ef tas1 0 = Ok (0 + ksq2eng * (2 * 2), ksq2eng * (2 * 2))) by reflexivity.
  destruct (C07_raise_exactly_when_open tas1 (V (/ PI) 0 0) 0 _ _ b (-1) E B ltac:(right; auto)) as [_ R].
  destruct (R 2 2) as (T & P & _). { split; [lra|]. unfold ksq2eng. lra. } { split; [lra|]. unfold ksq2eng. lra. }
  assert (Q : 2 * PI * norm (mv b (V (/ PI) 0 0)) = 2).
  { assert (N : norm (mv b (V (/ PI) 0 0)) = / PI).
    { assert (BE : mv b (V (/ PI) 0 0) = V (/ PI) 0 0).
      { unfold b, bclosed, vol2. cbv zeta. cbn [la lb lc lalpha lbeta lgamma].
        replace (deg2rad 90) with (PI / 2) by (unfold deg2rad; field). rewrite cos_PI2, sin_PI2.
        replace (1 - 0 * 0 - 0 * 0 - 0 * 0 + 2 * 0 * 0 * 0) with 1 by ring. rewrite sqrt_1.
        apply vec_eq; la_unfold; cbn; field; apply PI_neq0. }
      rewrite BE. apply norm_of_sq; [left; apply Rinv_0_lt_compat, PI_RGT_0|]. la_unfold; ring. }
    rewrite N. field. apply PI_neq0. }
  rewrite Q in T, P. destruct T as [_ [tt T]]. { unfold side_ok, triangle. lra. }
  destruct P as [_ [psi P]]. { unfold side_ok, triangle. lra. }
  exists b, tt, psi. auto.
Qed.

(** The triclinic cell meets the hypothesis of C10 and C11: its reciprocal cell, basis and B matrix exist. *)
Example C10_ex : exists r i j k, reciprocal_latt_params cell1 = Ok r /\ valid_cell r /\ reciprocal_latt_params r = Ok cell1 /\ reciprocal_basis cell1 = Ok (i, j, k) /\ frame i j k.
Proof.
  destruct (C10_involution _ cell1_valid) as (r & R & V & I). destruct (C10_basis _ cell1_valid) as (i & j & k & a & b & c & B & _ & F & _).
  exists r, i, j, k. auto.
Qed.
Example C11_ex : valid_cell (s_lattice (Sample cell1 None 30 30)) /\ exists q, get_q_norm (Sample cell1 None 30 30) (V 1 2 (-1)) = Ok q /\ 0 < q.
Proof.
  assert (Vc : valid_cell (s_lattice (Sample cell1 None 30 30))) by exact cell1_valid. split; auto.
  destruct (C11_q_norm_agree _ (V 1 2 (-1)) Vc) as (bm & a & b & c & B & R & Q & Q').
  exists (norm (comb (V 1 2 (-1)) a b c)). split; auto. rewrite <- Q'.
  destruct (C11_metric cell1 cell1_valid) as (bm' & a' & b' & c' & B' & _ & _ & Z1 & Z2 & Z3 & P1 & P2 & P3).
  assert (bm' = bm) by (change (b_mat_from_lattice cell1 = Ok bm) in B; congruence). subst bm'.
  pose proof PI_RGT_0. change (0 < norm (mv bm (V 1 2 (-1))) * 2 * PI).
  assert (0 < norm (mv bm (V 1 2 (-1)))); [|apply Rmult_lt_0_compat; lra]. apply norm_pos. intros Z. apply (f_equal vz) in Z. unfold mv, dot, row2 in Z; cbn in Z. rewrite Z2, Z3 in Z. lra.
Qed.
(** A history with accepted and refused lattices. *)
Example C13_ex : let s := Sample cell1 None 30 30 in
  accepted [2; 2; 4; 90; 90; 120] (Lattice 2 2 4 90 90 120) /\ (~ exists p, accepted [2; -2; 4; 90; 90; 120] p) /\
  s_lattice (fold_left (fun s ps => fst (update_lattice_parameters s ps)) [[2; -2; 4; 90; 90; 120]; [2; 2; 4; 90; 90; 120]; [2; 2; 4; 90; 190; 120]] s) = Lattice 2 2 4 90 90 120.
Proof.
  intros s. assert (A : accepted [2; 2; 4; 90; 90; 120] (Lattice 2 2 4 90 90 120)) by (unfold accepted; cbn; repeat split; lra).
  assert (N1 : ~ exists p, accepted [2; -2; 4; 90; 90; 120] p). { intros (p & H). apply check_lattice_iff in H. cbn in H. repeat destruct (Rle_dec _ _); try lra; try discriminate. }
  assert (N2 : ~ exists p, accepted [2; 2; 4; 90; 190; 120] p).
  { intros (p & H). apply check_lattice_iff in H. cbn in H. repeat destruct (Rle_dec _ _); repeat destruct (Rlt_dec _ _); try lra; try discriminate. }
  split; auto. split; auto. cbn [fold_left].
  destruct (proj2 (C13_accepts_exactly s [2; -2; 4; 90; 90; 120]) N1) as (e & -> & _). cbn [fst].
  rewrite (proj1 (C13_accepts_exactly s _) _ A). cbn [fst].
  destruct (proj2 (C13_accepts_exactly (Sample (Lattice 2 2 4 90 90 120) (s_ub_conf s) (s_mosaic_h s) (s_mosaic_v s)) [2; 2; 4; 90; 190; 120]) N2) as (e' & -> & _). reflexivity.
Qed.
