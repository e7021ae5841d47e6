(** Property C87: what an instrument aligned with some peaks reads at the positions of these peaks, and when it is driven to
    other reflections. *)
From Coq Require Import Reals Lra Lia Psatz List String.
From Verif Require Import Base LinAlg S_Geom S_Energy S_Lattice S_Goni S_UB M_Utilities M_Lattice M_Goni M_UB M_Sample M_Tas
  L_LinAlg L_Utilities L_Lattice L_Goni L_UB P_Energy P_Lattice P_UB P_Tilt.
Import ListNotations.
Open Scope R_scope.

(** * Specification *)
(** Two measured vectors are those of two reflections of the lattice of [s]: their lengths are the lengths |Q| which the sample
    gives for the two reflections, and their distance is |Q| of the difference of the two. *)
Definition as_in_lattice (s : sample) (h1 h2 m1 m2 : vec) : Prop :=
  get_q_norm s h1 = Ok (norm m1) /\ get_q_norm s h2 = Ok (norm m2) /\ get_q_norm s (vsub h2 h1) = Ok (norm (vsub m2 m1)).

(** * Lemmas *)
Lemma align_frame : forall t ps plane t' r, calculate_ub_matrix t ps plane = (t', r) ->
  t_fixed_ei t' = t_fixed_ei t /\ t_fixed_ef t' = t_fixed_ef t /\ t_goni t' = t_goni t.
Proof.
  assert (ST : forall t ub ps t' r, store_ub t ub ps = (t', r) ->
    t_fixed_ei t' = t_fixed_ei t /\ t_fixed_ef t' = t_fixed_ef t /\ t_goni t' = t_goni t).
  { intros t ub ps t' r H. unfold store_ub in H. destruct (update_lattice_parametres_from_g_star_mat _ _) as [s [e|]].
    - injection H as <- _. auto.
    - match type of H with match ?x with _ => _ end = _ => destruct x end; injection H as <- _; auto. }
  intros t ps plane t' r H. unfold calculate_ub_matrix in H. destruct (t_ei_ef t 0) as [[ei ef]|]; [|injection H as <- _; auto].
  cbv zeta in H. destruct ps as [|p1 [|p2 [|p3 [|p4 ps]]]].
  - injection H as <- _. auto.
  - match type of H with match ?x with _ => _ end = _ => destruct x end; injection H as <- _; auto.
  - match type of H with match ?x with _ => _ end = _ => destruct x end; injection H as <- _; auto.
  - destruct (Rlt_dec _ _); [injection H as <- _; auto|].
    destruct (find_ub_from_three_peaks _ _ _ _ _ _); [eauto|injection H as <- _; auto].
  - destruct (find_ub_from_multiple_peaks _ _ _ _); [eauto|injection H as <- _; auto].
Qed.

Lemma align_energies : forall t ps plane t' r en, calculate_ub_matrix t ps plane = (t', r) -> t_ei_ef t' en = t_ei_ef t en.
Proof. intros t ps plane t' r en H. apply align_frame in H. destruct H as (A & B & _). unfold t_ei_ef. rewrite A, B. auto. Qed.

Lemma reading : forall t a u ub ei ef m h, s_ub_conf (t_sample t) = Some u -> _ub_mat u = Some ub -> det ub <> 0 ->
  t_ei_ef t 0 = Ok (ei, ef) -> measured (t_goni t) ei ef a m ->
  (calculate_hkl_from_angles t a = Ok (Some h) <-> vscale (2 * PI) (mv ub h) = m).
Proof.
  intros t a u ub ei ef m h U UB D E (ki & kf & r & Wi & Wf & RM & T).
  assert (B : forall x, vscale (2 * PI) (mv ub x) = m -> calculate_hkl_from_angles t a = Ok (Some x)).
  { intros x X. rewrite <- (vscale_1 x). eapply hkl_back; eauto; [|lra]. rewrite X, vscale_1. auto. }
  split; [|apply B]. intros H.
  destruct (minv ub) as [i|] eqn:I. 2:{ rewrite minv_ok in I by auto. discriminate. }
  apply minv_spec in I. destruct I as (_ & _ & I).
  assert (X : vscale (2 * PI) (mv ub (mv i (vscale (/ (2 * PI)) m))) = m).
  { rewrite <- mv_mm, I, mv_id, vscale_vscale. replace (2 * PI * / (2 * PI)) with 1 by (field; apply PI_neq0). apply vscale_1. }
  pose proof (B _ X) as Y. rewrite H in Y. apply Ok_inj in Y. injection Y as ->. auto.
Qed.

Lemma two_pi_pos : 0 < 2 * PI.
Proof. pose proof PI_RGT_0. lra. Qed.

Lemma q_norm_in_lattice : forall s b h q, valid_cell (s_lattice s) -> s_b_mat s = Ok b ->
  (get_q_norm s h = Ok q <-> 2 * PI * norm (mv b h) = q).
Proof.
  intros s b h q V B. destruct (C11_q_norm_agree s h V) as (b' & a1 & a2 & a3 & B' & _ & Q & N). rewrite B in B'. apply Ok_inj in B'. subst b'.
  rewrite q_norm_eq in N. rewrite Q, <- N. split; intros H; [apply Ok_inj in H; exact H|rewrite H; reflexivity].
Qed.

Lemma norm_eq_dot : forall a b, norm a = norm b <-> dot a a = dot b b.
Proof. intros a b. unfold norm. split; intros H; [|rewrite H; auto]. apply sqrt_inj in H; auto using dot_nonneg. Qed.

Lemma in_lattice_length : forall s b u h m, valid_cell (s_lattice s) -> s_b_mat s = Ok b -> rotation u ->
  (get_q_norm s h = Ok (norm m) <-> dot (vscale (2 * PI) (mv (mm u b) h)) (vscale (2 * PI) (mv (mm u b) h)) = dot m m).
Proof.
  intros s b u h m V B [O _]. rewrite (q_norm_in_lattice s b) by auto. rewrite <- norm_eq_dot. rewrite norm_vscale, mv_mm. rewrite (orth_norm u _ O).
  rewrite Rabs_right by (pose proof two_pi_pos; lra). tauto.
Qed.

Lemma b_det : forall s b, valid_cell (s_lattice s) -> s_b_mat s = Ok b -> det b <> 0.
Proof. intros s b V B. unfold s_b_mat in B. rewrite b_mat_ok in B by auto. apply Ok_inj in B. subst b. pose proof (bclosed_det _ V). lra. Qed.

Lemma ub_det : forall u b, rotation u -> det b <> 0 -> det (mm u b) <> 0.
Proof. intros u b [_ D] B. rewrite det_mm, D. lra. Qed.

Lemma vsub_dot : forall a b, dot (vsub a b) (vsub a b) = dot a a + dot b b - 2 * dot a b.
Proof. intros; la_unfold; ring. Qed.

Lemma mv_vsub : forall m a b, mv m (vsub a b) = vsub (mv m a) (mv m b).
Proof. vring. Qed.

Lemma vscale_vsub : forall k a b, vscale k (vsub a b) = vsub (vscale k a) (vscale k b).
Proof. vring. Qed.

(** Two pairs of vectors with the same lengths and products, of which the second pair spans the first with the same orientation,
    are the same. *)
Lemma same_pair : forall w1 w2 m1 m2, cross m1 m2 <> vzero -> parallel w1 m1 -> half_plane m1 m2 w2 ->
  dot w1 w1 = dot m1 m1 -> dot w2 w2 = dot m2 m2 -> dot w1 w2 = dot m1 m2 -> w1 = m1 /\ w2 = m2.
Proof.
  intros w1 w2 m1 m2 C (k & K & ->) (s & c & P & ->) A B D.
  assert (LG := lagrange m1 m2).
  assert (CP : 0 < dot (cross m1 m2) (cross m1 m2)).
  { pose proof (dot_nonneg (cross m1 m2)). destruct (Req_dec (dot (cross m1 m2) (cross m1 m2)) 0) as [Z|Z]; [|lra].
    exfalso. apply C. apply dot_zero. auto. }
  assert (M1 : 0 < dot m1 m1).
  { pose proof (dot_nonneg m1). destruct (Req_dec (dot m1 m1) 0) as [Z|Z]; [|lra]. exfalso. apply dot_zero in Z. rewrite Z in C. apply C. vring. }
  rewrite dot_vscale_l, dot_vscale_r in A.
  assert (K1 : k = 1). { assert ((k * k - 1) * dot m1 m1 = 0) by lra. assert (k * k - 1 = 0) by nra. nra. }
  subst k. rewrite dot_vadd_l, !dot_vadd_r, !dot_vscale_l, !dot_vscale_r in B. rewrite dot_vscale_l, dot_vadd_r, !dot_vscale_r in D.
  rewrite (dot_comm m2 m1) in B. revert A B D CP M1 LG. generalize (dot m1 m1), (dot m1 m2), (dot m2 m2), (dot (cross m1 m2) (cross m1 m2)).
  intros a b d x A B D CP M1 LG.
  assert (X : c * c * x = x).
  { rewrite LG. replace (a * d - b * b) with (a * (s * (s * a) + s * (c * b) + (c * (s * b) + c * (c * d))) - (1 * (s * a + c * b)) * (1 * (s * a + c * b))) at 2.
    - ring.
    - rewrite D. replace (s * (s * a) + s * (c * b) + (c * (s * b) + c * (c * d))) with d by lra. ring. }
  assert (C1 : c = 1). { assert ((c * c - 1) * x = 0) by lra. assert (c * c - 1 = 0) by nra. nra. }
  subst c. assert (S0 : s = 0). { assert (s * a = 0) by lra. nra. }
  subst s. split; [vring|vring].
Qed.

Lemma half_plane_scale : forall a b x k, 0 < k -> half_plane a b x -> half_plane a b (vscale k x).
Proof. intros a b x k K (s & c & C & ->). exists (k * s), (k * c). split; [nra|]. vring. Qed.
Lemma parallel_scale : forall a b k, 0 < k -> parallel a b -> parallel (vscale k a) b.
Proof. intros a b k K (c & C & ->). exists (k * c). split; [nra|]. vring. Qed.
Lemma parallel_sym : forall a b, parallel a b -> parallel b a.
Proof.
  intros a b (k & K & ->). exists (/ k). split; [apply Rinv_0_lt_compat; auto|].
  rewrite vscale_vscale, Rinv_l by lra. rewrite vscale_1. auto.
Qed.

(** * C87 *)
(** After an alignment with two peaks the reading at the first peak is a positive multiple of its Miller indices, and the reading
    at the second lies in their plane, on the side of the second. *)
Theorem C87_two_peaks : forall t p1 p2 plane t' uc, valid_cell (s_lattice (t_sample t)) ->
  calculate_ub_matrix t [p1; p2] plane = (t', Ok (Some uc)) ->
  exists h1 h2, calculate_hkl_from_angles t' (angles p1) = Ok (Some h1) /\ calculate_hkl_from_angles t' (angles p2) = Ok (Some h2) /\
    parallel h1 (hkl p1) /\ half_plane (hkl p1) (hkl p2) h2.
Proof.
  intros t p1 p2 plane t' uc V H.
  destruct (C15_calculate_ub_matrix _ _ _ _ _ _ H) as (ei & ef & b & u & n & m1 & m2 & E & B & M1 & M2 & RO & P1 & P2 & UB & _ & _ & _ & _ & _ & _ & _ & SU & _ & G).
  pose proof (align_energies _ _ _ _ _ 0 H) as E'. rewrite E in E'. rewrite <- G in M1, M2.
  pose proof (ub_det u b RO (b_det _ _ V B)) as D. rewrite <- mv_mm in P1, P2.
  destruct (parallel_sym _ _ P1) as (k1 & K1 & Q1). destruct P2 as (s & c & C & Q2). pose proof two_pi_pos as TP.
  exists (vscale (/ (2 * PI) * k1) (hkl p1)), (vscale (/ (2 * PI)) (vadd (vscale (- s * / c * k1) (hkl p1)) (vscale (/ c) (hkl p2)))).
  assert (R1 : calculate_hkl_from_angles t' (angles p1) = Ok (Some (vscale (/ (2 * PI) * k1) (hkl p1)))).
  { eapply reading; eauto. rewrite mv_vscale, vscale_vscale. replace (2 * PI * (/ (2 * PI) * k1)) with k1 by (field; lra). auto. }
  assert (R2 : calculate_hkl_from_angles t' (angles p2) =
    Ok (Some (vscale (/ (2 * PI)) (vadd (vscale (- s * / c * k1) (hkl p1)) (vscale (/ c) (hkl p2)))))).
  { eapply reading; eauto. rewrite mv_vscale, vscale_vscale, Rinv_r, vscale_1 by lra. rewrite mv_vadd, !mv_vscale, Q2.
    set (w := mv (mm u b) (hkl p1)) in *. rewrite Q1. clearbody w. clear - C. destruct w, m2. la_unfold. f_equal; field; lra. }
  assert (0 < / (2 * PI)) by (apply Rinv_0_lt_compat; auto). assert (0 < / c) by (apply Rinv_0_lt_compat; auto).
  split; auto. split; auto. split.
  - exists (/ (2 * PI) * k1). split; [nra|auto].
  - apply half_plane_scale; auto. exists (- s * / c * k1), (/ c). auto.
Qed.
Print Assumptions C87_two_peaks.

(** ... and both are read back exactly when, and only when, the measured vectors are as in the lattice of the sample. *)
Theorem C87_two_peaks_exact : forall t p1 p2 plane t' uc ei ef m1 m2, valid_cell (s_lattice (t_sample t)) ->
  calculate_ub_matrix t [p1; p2] plane = (t', Ok (Some uc)) -> t_ei_ef t 0 = Ok (ei, ef) ->
  measured (t_goni t) ei ef (angles p1) m1 -> measured (t_goni t) ei ef (angles p2) m2 ->
  (calculate_hkl_from_angles t' (angles p1) = Ok (Some (hkl p1)) /\ calculate_hkl_from_angles t' (angles p2) = Ok (Some (hkl p2)) <->
   as_in_lattice (t_sample t) (hkl p1) (hkl p2) m1 m2).
Proof.
  intros t p1 p2 plane t' uc ei ef m1 m2 V H E M1 M2.
  destruct (C15_calculate_ub_matrix _ _ _ _ _ _ H) as (ei' & ef' & b & u & n & m1' & m2' & E0 & B & M1' & M2' & RO & P1 & P2 & UB & _ & _ & _ & _ & _ & _ & _ & SU & _ & G).
  rewrite E in E0. apply Ok_inj in E0. injection E0 as <- <-.
  rewrite <- (measured_fun _ _ _ _ _ _ M1 M1') in *. rewrite <- (measured_fun _ _ _ _ _ _ M2 M2') in *. clear m1' m2' M1' M2'.
  assert (NC : cross m1 m2 <> vzero).
  { unfold calculate_ub_matrix in H. rewrite E in H. cbv zeta in H. rewrite B in H. cbn [bind] in H.
    destruct (find_u_from_two_peaks p1 p2 b (r_mat_inv (t_goni t)) ei ef) as [u0|] eqn:F; [|cbn in H; discriminate].
    apply (C15_defined_exactly_when_not_collinear _ _ _ b _ _ _ _ M1 M2). eauto. }
  pose proof (align_energies _ _ _ _ _ 0 H) as E'. rewrite E in E'. rewrite <- G in M1, M2.
  pose proof (ub_det u b RO (b_det _ _ V B)) as D. rewrite <- mv_mm in P1, P2. pose proof two_pi_pos as TP.
  rewrite (reading _ _ _ _ _ _ _ (hkl p1) SU UB D E' M1), (reading _ _ _ _ _ _ _ (hkl p2) SU UB D E' M2).
  unfold as_in_lattice. rewrite !(in_lattice_length (t_sample t) b u) by auto. rewrite mv_vsub, vscale_vsub, !vsub_dot.
  apply (parallel_scale _ _ (2 * PI)) in P1; auto. apply (half_plane_scale _ _ _ (2 * PI)) in P2; auto.
  revert P1 P2. generalize (vscale (2 * PI) (mv (mm u b) (hkl p1))), (vscale (2 * PI) (mv (mm u b) (hkl p2))). intros w1 w2 P1 P2. split.
  - intros [-> ->]. auto.
  - intros (A & C & F). apply same_pair; auto. rewrite A, C, (dot_comm w2 w1), (dot_comm m2 m1) in F. lra.
Qed.
Print Assumptions C87_two_peaks_exact.

(** One peak of the plane and the plane: the reading at the peak is a positive multiple of its Miller indices, and these exactly
    when the measured length is |Q| of the reflection. *)
Theorem C87_one_peak : forall t p v1 v2 a c t' uc ei ef m, valid_cell (s_lattice (t_sample t)) ->
  calculate_ub_matrix t [p] (Some (v1, v2)) = (t', Ok (Some uc)) -> hkl p = vadd (vscale a v1) (vscale c v2) ->
  t_ei_ef t 0 = Ok (ei, ef) -> measured (t_goni t) ei ef (angles p) m ->
  (exists h, calculate_hkl_from_angles t' (angles p) = Ok (Some h) /\ parallel h (hkl p)) /\
  (calculate_hkl_from_angles t' (angles p) = Ok (Some (hkl p)) <-> get_q_norm (t_sample t) (hkl p) = Ok (norm m)).
Proof.
  intros t p v1 v2 a c t' uc ei ef m V H IP E M.
  destruct (C16_calculate_ub_matrix _ _ _ _ _ _ _ _ H IP) as (ei' & ef' & b & u & m' & up & E0 & B & M' & _ & RO & P & UB & _ & _ & _ & SU & _ & G).
  rewrite E in E0. apply Ok_inj in E0. injection E0 as <- <-. rewrite <- (measured_fun _ _ _ _ _ _ M M') in *. clear m' M'.
  pose proof (align_energies _ _ _ _ _ 0 H) as E'. rewrite E in E'. rewrite <- G in M.
  pose proof (ub_det u b RO (b_det _ _ V B)) as D. rewrite <- mv_mm in P. pose proof two_pi_pos as TP. split.
  - destruct (parallel_sym _ _ P) as (k & K & Q). exists (vscale (/ (2 * PI) * k) (hkl p)). split.
    + eapply reading; eauto. rewrite mv_vscale, vscale_vscale. replace (2 * PI * (/ (2 * PI) * k)) with k by (field; lra). auto.
    + exists (/ (2 * PI) * k). split; auto. assert (0 < / (2 * PI)) by (apply Rinv_0_lt_compat; auto). nra.
  - rewrite (reading _ _ _ _ _ _ _ (hkl p) SU UB D E' M), (in_lattice_length (t_sample t) b u) by auto.
    apply (parallel_scale _ _ (2 * PI)) in P; auto. revert P. generalize (vscale (2 * PI) (mv (mm u b) (hkl p))). intros w (k & K & ->).
    split; [intros ->; auto|]. intros Q. rewrite dot_vscale_l, dot_vscale_r in Q.
    destruct (Req_dec (dot m m) 0) as [Z|Z]; [apply dot_zero in Z; subst m; vring|].
    assert (k = 1). { pose proof (dot_nonneg m). assert ((k * k - 1) * dot m m = 0) by lra. assert (k * k - 1 = 0) by nra. nra. }
    subst k. apply vscale_1.
Qed.
Print Assumptions C87_one_peak.

Lemma stored_det : forall t t' uc ub ps, stored_ub t t' uc ub ps -> det ub <> 0.
Proof.
  intros t t' uc ub ps (_ & _ & _ & _ & _ & _ & _ & b & u & _ & B & V & O & ->). rewrite b_mat_ok in B by auto. apply Ok_inj in B. subst b.
  pose proof (bclosed_det _ V). apply (f_equal det) in O. rewrite det_mm, det_tr, det_mid in O. rewrite det_mm. nra.
Qed.

(** Three peaks: all three are read back exactly, whatever lattice the sample had before. *)
Theorem C87_three_peaks : forall t p1 p2 p3 plane t' uc ei ef m1 m2 m3, t_ei_ef t 0 = Ok (ei, ef) ->
  measured (t_goni t) ei ef (angles p1) m1 -> measured (t_goni t) ei ef (angles p2) m2 -> measured (t_goni t) ei ef (angles p3) m3 ->
  dot m1 (cross m2 m3) <> 0 -> calculate_ub_matrix t [p1; p2; p3] plane = (t', Ok (Some uc)) ->
  forall p, In p [p1; p2; p3] -> calculate_hkl_from_angles t' (angles p) = Ok (Some (hkl p)).
Proof.
  intros t p1 p2 p3 plane t' uc ei ef m1 m2 m3 E M1 M2 M3 NC H.
  assert (L : 1 / 1000000 <= dot (hkl p1) (cross (hkl p2) (hkl p3))).
  { destruct (Rlt_dec (dot (hkl p1) (cross (hkl p2) (hkl p3))) (1 / 1000000)) as [L|L]; [|lra].
    rewrite (C17_refused _ _ _ _ plane _ _ E L) in H. discriminate. }
  destruct (C17_calculate_ub_matrix t p1 p2 p3 plane _ _ _ _ _ E M1 M2 M3 NC L) as (ub & t2 & uc2 & H2 & S & Q1 & Q2 & Q3).
  rewrite H in H2. injection H2 as <- <-. pose proof (stored_det _ _ _ _ _ S) as D.
  destruct S as (UB & _ & _ & _ & _ & SU & G & _). pose proof (align_energies _ _ _ _ _ 0 H) as E'. rewrite E in E'. rewrite <- G in *.
  intros p [<-|[<-|[<-|[]]]]; eapply reading; eauto.
Qed.
Print Assumptions C87_three_peaks.

(** Four peaks or more that fit together (there is a UB matrix for which all are where they were measured): all are read back. *)
Theorem C87_many_peaks : forall t ps plane ei ef ub0, t_ei_ef t 0 = Ok (ei, ef) -> (4 <= List.length ps)%nat ->
  spanning (map hkl ps) -> det ub0 <> 0 ->
  (forall p, In p ps -> measured (t_goni t) ei ef (angles p) (vscale (2 * PI) (mv ub0 (hkl p)))) ->
  exists t' uc, calculate_ub_matrix t ps plane = (t', Ok (Some uc)) /\
    forall p, In p ps -> calculate_hkl_from_angles t' (angles p) = Ok (Some (hkl p)).
Proof.
  intros t ps plane ei ef ub0 E L S D M. destruct (C18_calculate_ub_matrix t ps plane ei ef ub0 E L S D M) as (t' & uc & H & ST).
  exists t', uc. split; auto. destruct ST as (UB & _ & _ & _ & _ & SU & G & _). pose proof (align_energies _ _ _ _ _ 0 H) as E'. rewrite E in E'.
  intros p I. eapply reading; eauto. rewrite G. auto.
Qed.
Print Assumptions C87_many_peaks.

(** Driven to any reflection in the plane of the two peaks, an instrument aligned with them reads that reflection. *)
Theorem C87_drive : forall t p1 p2 plane t' uc c1 c2 en a n0 n1 n2 l, valid_cell (s_lattice (t_sample t)) ->
  calculate_ub_matrix t [p1; p2] plane = (t', Ok (Some uc)) -> g_type (t_goni t) = huber_type n0 n1 n2 ->
  en = 0 \/ (exists ei ef, t_fixed_ei t = Some ei /\ t_fixed_ef t = Some ef) ->
  let h := vadd (vscale c1 (hkl p1)) (vscale c2 (hkl p2)) in
  calculate_motor_angles t' h en = Ok a -> sgl a = Some l -> -90 < l < 90 ->
  calculate_hkl_from_angles t' a = Ok (Some h).
Proof.
  intros t p1 p2 plane t' uc c1 c2 en a n0 n1 n2 l V H GT EN h A SL L.
  destruct (C15_calculate_ub_matrix _ _ _ _ _ _ H) as (ei & ef & b & u & n & m1 & m2 & E & B & M1 & M2 & RO & P1 & P2 & UB & _ & _ & PN & N1 & D1 & D2 & _ & SU & SL' & G).
  destruct (align_frame _ _ _ _ _ H) as (F1 & F2 & _). rewrite <- G in GT. rewrite <- F1, <- F2 in EN.
  assert (B' : s_b_mat (t_sample t') = Ok b) by (unfold s_b_mat in *; rewrite SL'; auto).
  eapply (C21_huber t' h en a n0 n1 n2 uc (mm u b) b u l); eauto using b_det.
  exists n. split; auto. left. unfold h. rewrite mv_vadd, !mv_vscale, dot_vadd_r, !dot_vscale_r, !mv_mm, D1, D2. ring.
Qed.
Print Assumptions C87_drive.

(** The same on a four-circle table with negative sense, for every reflection that can be reached. *)
Theorem C87_drive_four_circle : forall t p1 p2 plane t' uc h en a n0 n1 n2, valid_cell (s_lattice (t_sample t)) ->
  calculate_ub_matrix t [p1; p2] plane = (t', Ok (Some uc)) ->
  g_type (t_goni t) = four_circle_type n0 n1 n2 -> g_sense (t_goni t) = Some "-"%string ->
  en = 0 \/ (exists ei ef, t_fixed_ei t = Some ei /\ t_fixed_ef t = Some ef) ->
  calculate_motor_angles t' h en = Ok a -> calculate_hkl_from_angles t' a = Ok (Some h).
Proof.
  intros t p1 p2 plane t' uc h en a n0 n1 n2 V H GT GS EN A.
  destruct (C15_calculate_ub_matrix _ _ _ _ _ _ H) as (ei & ef & b & u & n & m1 & m2 & E & B & M1 & M2 & RO & P1 & P2 & UB & _ & _ & _ & _ & _ & _ & _ & SU & SL' & G).
  destruct (align_frame _ _ _ _ _ H) as (F1 & F2 & _). rewrite <- G in GT, GS. rewrite <- F1, <- F2 in EN.
  assert (B' : s_b_mat (t_sample t') = Ok b) by (unfold s_b_mat in *; rewrite SL'; auto).
  eapply (C21_bisect_minus t' h en a n0 n1 n2 uc (mm u b) b u); eauto using b_det.
Qed.
Print Assumptions C87_drive_four_circle.

Lemma read_measured : forall t a uc ub h, s_ub_conf (t_sample t) = Some uc -> _ub_mat uc = Some ub -> det ub <> 0 ->
  calculate_hkl_from_angles t a = Ok (Some h) -> exists ei ef, t_ei_ef t 0 = Ok (ei, ef) /\ measured (t_goni t) ei ef a (vscale (2 * PI) (mv ub h)).
Proof.
  intros t a uc ub h U UB D H. pose proof H as H0. unfold calculate_hkl_from_angles in H0. destruct (t_ei_ef t 0) as [[ei ef]|] eqn:E; [|discriminate]. cbn [bind] in H0.
  destruct (q_lab ei ef (two_theta a)) as [l|] eqn:L; [|discriminate]. cbn [bind] in H0.
  destruct (r_mat (t_goni t) a) as [r|] eqn:RM; [|discriminate]. exists ei, ef. split; auto.
  assert (M : measured (t_goni t) ei ef a (mv (tr r) l)). { apply measured_lab. exists l, (tr r). split; auto. split; auto. unfold r_mat_inv. rewrite RM. reflexivity. }
  rewrite (proj1 (reading t a uc ub ei ef _ h U UB D E M) H). auto.
Qed.

Lemma store_same_lattice : forall t p b u ps t' uc, valid_cell p -> b_mat_from_lattice p = Ok b -> rotation u ->
  store_ub t (mm u b) ps = (t', Ok (Some uc)) -> s_lattice (t_sample t') = p /\ _ub_mat uc = Some (mm u b).
Proof.
  intros t p b u ps t' uc V B RO H. destruct (C12_round_trip_ub p u b V B RO) as (L & _). unfold ub_matrix_to_lattice_params in L.
  unfold store_ub, update_lattice_parametres_from_g_star_mat in H. rewrite L in H. unfold update_lattice_parameters in H. pose proof V as (A & A1 & C & Al & Be & Ga & _).
  assert (CL : check_lattice (lattice_list p) = Ok p).
  { unfold check_lattice, lattice_list. destruct (Rle_dec (la p) 0); [lra|]. destruct (Rle_dec (lb p) 0); [lra|]. destruct (Rle_dec (lc p) 0); [lra|].
    destruct (Rlt_dec (lalpha p) 0); [lra|]. destruct (Rlt_dec 180 (lalpha p)); [lra|].
    destruct (Rlt_dec (lbeta p) 0); [lra|]. destruct (Rlt_dec 180 (lbeta p)); [lra|].
    destruct (Rlt_dec (lgamma p) 0); [lra|]. destruct (Rlt_dec 180 (lgamma p)); [lra|]. destruct p; reflexivity. }
  rewrite CL in H. unfold s_b_mat in H. cbn [s_lattice] in H. rewrite B in H. cbn [bind] in H. unfold new_ubconf in H. cbn [ub_setattrs ub_setattr bind] in H.
  injection H as <- <-. auto.
Qed.

(** Three peaks or more that an instrument already reads exactly change neither its UB matrix nor the lattice of the sample. *)
Theorem C87_realign : forall t uc u b ps plane t' uc', valid_cell (s_lattice (t_sample t)) -> s_ub_conf (t_sample t) = Some uc ->
  s_b_mat (t_sample t) = Ok b -> rotation u -> _ub_mat uc = Some (mm u b) -> (3 <= List.length ps)%nat ->
  (forall p, In p ps -> calculate_hkl_from_angles t (angles p) = Ok (Some (hkl p))) ->
  calculate_ub_matrix t ps plane = (t', Ok (Some uc')) ->
  _ub_mat uc' = Some (mm u b) /\ s_lattice (t_sample t') = s_lattice (t_sample t).
Proof.
  intros t uc u b ps plane t' uc' V SU B RO UB L RD H. pose proof (ub_det u b RO (b_det _ _ V B)) as D.
  assert (HH := H). unfold calculate_ub_matrix in H. destruct (t_ei_ef t 0) as [[ei ef]|] eqn:E; [|discriminate]. cbv zeta in H.
  assert (MS : forall p, In p ps -> measured (t_goni t) ei ef (angles p) (vscale (2 * PI) (mv (mm u b) (hkl p)))).
  { intros p I. destruct (read_measured _ _ _ _ _ SU UB D (RD p I)) as (ei' & ef' & E' & M). rewrite E in E'. apply Ok_inj in E'. injection E' as <- <-. auto. }
  assert (ST : store_ub t (mm u b) ps = (t', Ok (Some uc'))).
  { destruct ps as [|p1 [|p2 [|p3 [|p4 ps]]]]; try (cbn in L; lia).
    - destruct (Rlt_dec _ _); [discriminate|]. destruct (find_ub_from_three_peaks p1 p2 p3 (r_mat_inv (t_goni t)) ei ef) as [ub|] eqn:F; [|discriminate].
      destruct (C17_three_peaks _ _ _ _ _ _ _ F) as (m1 & m2 & m3 & M1 & M2 & M3 & _ & _ & _ & UQ).
      rewrite (UQ (mm u b)); auto; eapply measured_fun; eauto; apply MS; cbn; auto.
    - destruct (find_ub_from_multiple_peaks (p1 :: p2 :: p3 :: p4 :: ps) (r_mat_inv (t_goni t)) ei ef) as [ub|] eqn:F; [|discriminate].
      assert (SP : spanning (map hkl (p1 :: p2 :: p3 :: p4 :: ps))).
      { apply (C18_defined (t_goni t) ei ef _ (map (fun p => (hkl p, mv (mm u b) (hkl p))) (p1 :: p2 :: p3 :: p4 :: ps))); [|eauto].
        revert MS. generalize (p1 :: p2 :: p3 :: p4 :: ps). intros l MS. induction l as [|q l IH]; cbn [map]; constructor.
        - cbn [fst snd]. split; auto. apply MS. left. auto.
        - apply IH. intros; apply MS; right; auto. }
      rewrite (C18_recovers _ _ _ _ (mm u b) SP MS) in F. apply Ok_inj in F. rewrite <- F in H. auto. }
  destruct (store_same_lattice _ _ _ _ _ _ _ V B RO ST) as [L1 L2]. auto.
Qed.
Print Assumptions C87_realign.

(** In particular after an alignment with two peaks. *)
Theorem C87_more_peaks : forall t p1 p2 plane t1 uc1 ps plane' t2 uc2, valid_cell (s_lattice (t_sample t)) ->
  calculate_ub_matrix t [p1; p2] plane = (t1, Ok (Some uc1)) -> (3 <= List.length ps)%nat ->
  (forall p, In p ps -> calculate_hkl_from_angles t1 (angles p) = Ok (Some (hkl p))) ->
  calculate_ub_matrix t1 ps plane' = (t2, Ok (Some uc2)) ->
  _ub_mat uc2 = _ub_mat uc1 /\ s_lattice (t_sample t2) = s_lattice (t_sample t) /\
  (forall a, calculate_hkl_from_angles t2 a = calculate_hkl_from_angles t1 a).
Proof.
  intros t p1 p2 plane t1 uc1 ps plane' t2 uc2 V H L RD H2.
  destruct (C15_calculate_ub_matrix _ _ _ _ _ _ H) as (ei & ef & b & u & n & m1 & m2 & E & B & M1 & M2 & RO & P1 & P2 & UB & _ & _ & _ & _ & _ & _ & _ & SU & SL' & G).
  assert (B' : s_b_mat (t_sample t1) = Ok b) by (unfold s_b_mat in *; rewrite SL'; auto). rewrite <- SL' in V.
  destruct (C87_realign t1 uc1 u b ps plane' t2 uc2 V SU B' RO UB L RD H2) as [X Y]. split; [congruence|]. split; [congruence|].
  intros a. unfold calculate_hkl_from_angles. rewrite (align_energies _ _ _ _ _ 0 H2). destruct (align_frame _ _ _ _ _ H2) as (_ & _ & ->).
  assert (SU2 : s_ub_conf (t_sample t2) = Some uc2).
  { unfold calculate_ub_matrix in H2. destruct (t_ei_ef t1 0) as [[ei' ef']|]; [|discriminate]. cbv zeta in H2.
    assert (ST : forall ub, store_ub t1 ub ps = (t2, Ok (Some uc2)) -> s_ub_conf (t_sample t2) = Some uc2).
    { intros ub ST. unfold store_ub in ST. destruct (update_lattice_parametres_from_g_star_mat _ _) as [s [e|]]; [discriminate|].
      match type of ST with match ?x with _ => _ end = _ => destruct x end; [|discriminate]. injection ST as <- <-. reflexivity. }
    destruct ps as [|q1 [|q2 [|q3 [|q4 ps]]]]; try (cbn in L; lia).
    - destruct (Rlt_dec _ _); [discriminate|]. destruct (find_ub_from_three_peaks _ _ _ _ _ _); [eauto|discriminate].
    - destruct (find_ub_from_multiple_peaks _ _ _ _); [eauto|discriminate]. }
  rewrite SU, SU2, X, UB. reflexivity.
Qed.
Print Assumptions C87_more_peaks.

(** The alignment with two peaks succeeds exactly when neither their Miller indices nor the measured vectors are collinear. *)
Theorem C87_two_peaks_defined : forall t p1 p2 plane ei ef m1 m2, valid_cell (s_lattice (t_sample t)) -> t_ei_ef t 0 = Ok (ei, ef) ->
  measured (t_goni t) ei ef (angles p1) m1 -> measured (t_goni t) ei ef (angles p2) m2 ->
  ((exists t' uc, calculate_ub_matrix t [p1; p2] plane = (t', Ok (Some uc))) <->
   cross (hkl p1) (hkl p2) <> vzero /\ cross m1 m2 <> vzero).
Proof.
  intros t p1 p2 plane ei ef m1 m2 V E M1 M2.
  assert (B : exists b, s_b_mat (t_sample t) = Ok b) by (eexists; apply b_mat_ok; auto). destruct B as (b & B). pose proof (b_det _ _ V B) as D.
  pose proof (C15_defined_exactly_when_not_collinear _ p1 p2 b _ _ _ _ M1 M2) as I. split.
  - intros (t' & uc & H). unfold calculate_ub_matrix in H. rewrite E in H. cbv zeta in H. rewrite B in H. cbn [bind] in H.
    destruct (find_u_from_two_peaks p1 p2 b (r_mat_inv (t_goni t)) ei ef) as [u0|] eqn:F; [|cbn in H; discriminate].
    destruct (proj1 I) as [C1 C2]; [eauto|]. split; auto. intros Z. apply C1.
    destruct (hkl p1) as [x y z], (hkl p2) as [x' y' z']. unfold cross in Z. cbn in Z. injection Z as Z1 Z2 Z3. destruct b. unfold cross, mv, dot. cbn.
    unfold vzero. f_equal.
    + replace _ with ((m10 * m21 - m11 * m20) * (x * y' - y * x') + (m10 * m22 - m12 * m20) * (x * z' - z * x') + (m11 * m22 - m12 * m21) * (y * z' - z * y')) by ring.
      replace (x * z' - z * x') with (- (z * x' - x * z')) by ring. rewrite Z1, Z2, Z3. ring.
    + replace _ with (- ((m00 * m21 - m01 * m20) * (x * y' - y * x') + (m00 * m22 - m02 * m20) * (x * z' - z * x') + (m01 * m22 - m02 * m21) * (y * z' - z * y'))) by ring.
      replace (x * z' - z * x') with (- (z * x' - x * z')) by ring. rewrite Z1, Z2, Z3. ring.
    + replace _ with ((m00 * m11 - m01 * m10) * (x * y' - y * x') + (m00 * m12 - m02 * m10) * (x * z' - z * x') + (m01 * m12 - m02 * m11) * (y * z' - z * y')) by ring.
      replace (x * z' - z * x') with (- (z * x' - x * z')) by ring. rewrite Z1, Z2, Z3. ring.
  - intros [C1 C2]. pose proof (cross_mv_nonzero b _ _ D C1) as C3. destruct (proj2 I (conj C3 C2)) as (u & F).
    destruct (triad_ok _ _ C3) as (u1 & u2 & u3 & U1 & _ & U3).
    unfold calculate_ub_matrix. rewrite E. cbv zeta. rewrite B. cbn [bind]. rewrite F. cbn [bind]. unfold plane_normal_from_two_peaks. cbv zeta.
    rewrite U3. cbn [bind]. rewrite U1. cbn [bind]. do 2 eexists. reflexivity.
Qed.
Print Assumptions C87_two_peaks_defined.

(** Finding: three peaks whose measured vectors lie in one plane while their Miller indices do not are accepted: the sample is given
    the lattice 1, 1, 1, 90, 90, 90, and no position can be read after that. *)
Theorem C87_coplanar_refuted : forall t p1 p2 p3 plane ei ef m1 m2 m3, t_ei_ef t 0 = Ok (ei, ef) ->
  measured (t_goni t) ei ef (angles p1) m1 -> measured (t_goni t) ei ef (angles p2) m2 -> measured (t_goni t) ei ef (angles p3) m3 ->
  dot m1 (cross m2 m3) = 0 -> 1 / 1000000 <= dot (hkl p1) (cross (hkl p2) (hkl p3)) ->
  exists t' uc, calculate_ub_matrix t [p1; p2; p3] plane = (t', Ok (Some uc)) /\
    s_lattice (t_sample t') = Lattice 1 1 1 90 90 90 /\ s_ub_conf (t_sample t') = Some uc /\
    forall a, exists e, calculate_hkl_from_angles t' a = Err e.
Proof.
  intros t p1 p2 p3 plane ei ef m1 m2 m3 E M1 M2 M3 NC L.
  destruct (ub_three_peaks_ok _ _ _ _ _ _ _ _ _ M1 M2 M3 ltac:(lra)) as (ub & U).
  destruct (C17_three_peaks _ _ _ _ _ _ _ U) as (m1' & m2' & m3' & M1' & M2' & M3' & A & B & C & _).
  rewrite <- (measured_fun _ _ _ _ _ _ M1 M1') in A. rewrite <- (measured_fun _ _ _ _ _ _ M2 M2') in B.
  rewrite <- (measured_fun _ _ _ _ _ _ M3 M3') in C.
  assert (D : det ub = 0).
  { rewrite <- A, <- B, <- C in NC.
    assert (X : dot (vscale (2 * PI) (mv ub (hkl p1))) (cross (vscale (2 * PI) (mv ub (hkl p2))) (vscale (2 * PI) (mv ub (hkl p3)))) =
      2 * PI * (2 * PI) * (2 * PI) * dot (cross (mv ub (hkl p2)) (mv ub (hkl p3))) (mv ub (hkl p1))).
    { generalize (mv ub (hkl p1)), (mv ub (hkl p2)), (mv ub (hkl p3)). intros. la_unfold. ring. }
    rewrite X, det_cross in NC. rewrite (dot_comm (cross (hkl p2) (hkl p3))) in NC. pose proof two_pi_pos as TP.
    assert (0 < 2 * PI * (2 * PI) * (2 * PI)) by (apply Rmult_lt_0_compat; [apply Rmult_lt_0_compat|]; lra).
    apply Rmult_integral in NC. destruct NC as [NC|NC]; [lra|]. apply Rmult_integral in NC. destruct NC as [NC|NC]; [auto|lra]. }
  assert (G : minv (mm (tr ub) ub) = Err LinAlgError).
  { unfold minv. destruct (Req_EM_T (det (mm (tr ub) ub)) 0) as [_|N]; auto. exfalso. apply N. rewrite det_mm, D. ring. }
  assert (P : lattice_params_from_g_star_mat (mm (tr ub) ub) = Ok (Lattice 1 1 1 90 90 90)).
  { unfold lattice_params_from_g_star_mat. rewrite G. cbn [mid m00 m11 m22 m12 m21 m02 m20 m01 m10]. unfold fsqrt, fdiv, facos.
    destruct (Rlt_dec 1 0); [lra|]. cbn [bind]. rewrite sqrt_1.
    destruct (Req_EM_T (2 * 1 * 1) 0); [lra|]. cbn [bind]. replace ((0 + 0) / (2 * 1 * 1)) with 0 by field.
    destruct (Rlt_dec 1 0); [lra|]. destruct (Rlt_dec 0 (-1)); [lra|]. cbn [bind].
    rewrite acos_0. replace (rad2deg (PI / 2)) with 90 by (unfold rad2deg; field; apply PI_neq0). auto. }
  unfold calculate_ub_matrix. rewrite E. cbv zeta. unfold coplanar_zero. destruct (Rlt_dec _ _) as [N|_]; [lra|]. rewrite U.
  assert (VC : valid_cell (Lattice 1 1 1 90 90 90)) by (unfold valid_cell; cbn; lra).
  unfold store_ub, update_lattice_parametres_from_g_star_mat. rewrite P. unfold update_lattice_parameters.
  assert (CL : check_lattice (lattice_list (Lattice 1 1 1 90 90 90)) = Ok (Lattice 1 1 1 90 90 90)).
  { unfold check_lattice, lattice_list. cbn [la lb lc lalpha lbeta lgamma].
    repeat match goal with |- context [Rle_dec ?x ?y] => destruct (Rle_dec x y); [lra|] | |- context [Rlt_dec ?x ?y] => destruct (Rlt_dec x y); [lra|] end. auto. }
  rewrite CL. unfold s_b_mat. cbn [s_lattice]. rewrite (b_mat_ok _ VC). cbn [bind]. unfold new_ubconf. cbn [ub_setattrs ub_setattr bind].
  do 2 eexists. split; [reflexivity|]. split; [reflexivity|]. split; [reflexivity|]. intros a. unfold calculate_hkl_from_angles.
  match goal with |- context [t_ei_ef ?x 0] => change (t_ei_ef x 0) with (t_ei_ef t 0) end. rewrite E. cbn [bind].
  destruct (q_lab ei ef (two_theta a)); cbn [bind]; [|eauto]. cbn [set_sample t_goni t_sample s_ub_conf set_ub_conf _ub_mat].
  destruct (r_mat (t_goni t) a) as [r|]; cbn [bind]; [|eauto]. unfold minv. rewrite det_mm, D, Rmult_0_r.
  destruct (Req_EM_T 0 0) as [_|N]; [|lra]. cbn [bind]. eauto.
Qed.
Print Assumptions C87_coplanar_refuted.

(** * Examples *)
(** A cubic crystal of 3.14 Angstrom on a Huber table, at the two positions of C15_ex. *)
Definition cubic_pi : lattice := Lattice PI PI PI 90 90 90.
Definition tas87 : tas := TAS "Mantid" None (Some e4) huber0 (Sample cubic_pi None 30 30).
Lemma cubic_pi_valid : valid_cell cubic_pi.
Proof. pose proof PI_RGT_0. unfold valid_cell, cubic_pi; cbn. lra. Qed.
Lemma cubic_pi_b : forall h, mv (bclosed cubic_pi) h = vscale (/ PI) h.
Proof.
  intros h. pose proof PI_RGT_0. unfold bclosed, vol2, cubic_pi. cbv zeta. cbn [la lb lc lalpha lbeta lgamma].
  replace (deg2rad 90) with (PI / 2) by (unfold deg2rad; field). rewrite cos_PI2, sin_PI2.
  replace (1 - 0 * 0 - 0 * 0 - 0 * 0 + 2 * 0 * 0 * 0) with 1 by ring. rewrite sqrt_1.
  apply vec_eq; la_unfold; cbn; field; lra.
Qed.
Lemma tas87_energies : t_ei_ef tas87 0 = Ok (e4, e4).
Proof. unfold t_ei_ef. cbn. rewrite Rplus_0_l. reflexivity. Qed.
Lemma tas87_q : forall h m, 4 * dot h h = dot m m -> get_q_norm (t_sample tas87) h = Ok (norm m).
Proof.
  intros h m E. pose proof PI_RGT_0. apply (q_norm_in_lattice _ (bclosed cubic_pi)); [exact cubic_pi_valid|apply b_mat_ok, cubic_pi_valid|].
  rewrite cubic_pi_b, norm_vscale, Rabs_right by (apply Rle_ge; left; apply Rinv_0_lt_compat; auto).
  replace (2 * PI * (/ PI * norm h)) with (2 * norm h) by (field; lra). symmetry. apply norm_of_sq; [pose proof (norm_nonneg h); lra|].
  rewrite <- E, <- norm_sq. ring.
Qed.

(** (1 1 0) and (1 -1 0), a quarter turn apart, are read back, and the lattice fits; taken for (2 2 0) and (2 -2 0) they are not. *)
Example C87_ex : let p1 := Peak (V 1 1 0) (pos 90 0 0) in let p2 := Peak (V 1 (-1) 0) (pos 90 90 0) in
  exists t' uc, calculate_ub_matrix tas87 [p1; p2] None = (t', Ok (Some uc)) /\
    calculate_hkl_from_angles t' (pos 90 0 0) = Ok (Some (V 1 1 0)) /\ calculate_hkl_from_angles t' (pos 90 90 0) = Ok (Some (V 1 (-1) 0)).
Proof.
  intros p1 p2. destruct two_peaks_at as (m1 & m2 & M1 & M2 & E1 & E2). pose proof tas87_energies as E.
  destruct (proj2 (C87_two_peaks_defined tas87 p1 p2 None e4 e4 m1 m2 cubic_pi_valid E M1 M2)) as (t' & uc & H).
  { split.
    - intros Z. apply (f_equal vz) in Z. unfold cross in Z. cbn in Z. lra.
    - subst. intros Z. apply (f_equal vy) in Z. unfold cross in Z. cbn in Z. lra. }
  exists t', uc. split; auto. apply (C87_two_peaks_exact tas87 p1 p2 None t' uc e4 e4 m1 m2 cubic_pi_valid H E M1 M2).
  subst. unfold as_in_lattice, p1, p2. cbn [hkl]. repeat split; apply tas87_q; la_unfold; ring.
Qed.

Example C87_ex_three : exists m1 m2 m3 t' uc, measured (t_goni tas87) e4 e4 (pos 90 0 0) m1 /\
  measured (t_goni tas87) e4 e4 (pos 90 0 90) m2 /\ measured (t_goni tas87) e4 e4 (pos 90 90 0) m3 /\ dot m1 (cross m2 m3) <> 0 /\
  calculate_ub_matrix tas87 [Peak (V (-2) 0 2) (pos 90 0 0); Peak (V 0 2 2) (pos 90 0 90); Peak (V (-2) 0 (-2)) (pos 90 90 0)] None = (t', Ok (Some uc)).
Proof.
  destruct two_peaks_at as (m1 & m3 & M1 & M3 & E1 & E3). destruct third_peak_at as (m2 & M2 & E2).
  assert (NC : dot m1 (cross m2 m3) <> 0) by (subst; unfold dot, cross; cbn; lra).
  destruct (C17_calculate_ub_matrix tas87 (Peak (V (-2) 0 2) (pos 90 0 0)) (Peak (V 0 2 2) (pos 90 0 90)) (Peak (V (-2) 0 (-2)) (pos 90 90 0)) None
    e4 e4 m1 m2 m3 tas87_energies M1 M2 M3 NC) as (ub & t' & uc & H & _).
  { unfold dot, cross. cbn. lra. }
  exists m1, m2, m3, t', uc. auto.
Qed.

(** The third position of [C87_coplanar_refuted]: the first two and the first again, taken for three reflections not in a plane. *)
Example C87_ex_coplanar : exists m1 m2, measured (t_goni tas87) e4 e4 (pos 90 0 0) m1 /\ measured (t_goni tas87) e4 e4 (pos 90 90 0) m2 /\
  dot m1 (cross m2 m1) = 0 /\ 1 / 1000000 <= dot (V 1 0 0) (cross (V 0 1 0) (V 0 0 1)).
Proof.
  destruct two_peaks_at as (m1 & m2 & M1 & M2 & E1 & E2). exists m1, m2. repeat (split; [now auto|]). subst. unfold dot, cross. cbn. split; lra.
Qed.

(** Three peaks that an instrument reads already, for [C87_realign]. *)
Example C87_ex_realign : let t := TAS "Mantid" None (Some e4) huber0
    (Sample cubic_pi (Some (UBConf "Mantid" (Some (mm u_quarter (bclosed cubic_pi))) None None None None None)) 30 30) in
  let ps := [Peak (V (-1) 0 (-1)) (pos 90 0 0); Peak (V (-1) 1 0) (pos 90 0 90); Peak (V 1 0 (-1)) (pos 90 90 0)] in
  rotation u_quarter /\ s_b_mat (t_sample t) = Ok (bclosed cubic_pi) /\
  (forall p, In p ps -> calculate_hkl_from_angles t (angles p) = Ok (Some (hkl p))) /\
  exists t' uc, calculate_ub_matrix t ps None = (t', Ok (Some uc)) /\ s_lattice (t_sample t') = cubic_pi.
Proof.
  intros t ps. pose proof PI_RGT_0 as P. split; [apply u_quarter_rotation|]. assert (B : s_b_mat (t_sample t) = Ok (bclosed cubic_pi)) by (apply b_mat_ok, cubic_pi_valid). split; auto.
  destruct two_peaks_at as (m1 & m3 & M1 & M3 & E1 & E3). destruct third_peak_at as (m2 & M2 & E2).
  assert (E : t_ei_ef t 0 = Ok (e4, e4)) by apply tas87_energies.
  assert (D : det (mm u_quarter (bclosed cubic_pi)) <> 0) by (apply ub_det; [apply u_quarter_rotation|apply (b_det (t_sample t)); auto; apply cubic_pi_valid]).
  assert (RD : forall p, In p ps -> calculate_hkl_from_angles t (angles p) = Ok (Some (hkl p))).
  { assert (X : forall h m, vscale 2 (mv u_quarter h) = m -> vscale (2 * PI) (mv (mm u_quarter (bclosed cubic_pi)) h) = m).
    { intros h m <-. rewrite mv_mm, cubic_pi_b. unfold u_quarter. apply vec_eq; la_unfold; cbn; field; lra. }
    intros p [<-|[<-|[<-|[]]]]; cbn [angles hkl].
    - apply (reading t _ _ _ e4 e4 m1 _ eq_refl eq_refl D E M1). apply X. subst. unfold u_quarter. vring.
    - apply (reading t _ _ _ e4 e4 m2 _ eq_refl eq_refl D E M2). apply X. subst. unfold u_quarter. vring.
    - apply (reading t _ _ _ e4 e4 m3 _ eq_refl eq_refl D E M3). apply X. subst. unfold u_quarter. vring. }
  split; auto.
  destruct (C17_calculate_ub_matrix t (Peak (V (-1) 0 (-1)) (pos 90 0 0)) (Peak (V (-1) 1 0) (pos 90 0 90)) (Peak (V 1 0 (-1)) (pos 90 90 0)) None
    e4 e4 m1 m2 m3 E M1 M2 M3) as (ub & t' & uc & H & _).
  { subst; unfold dot, cross; cbn; lra. }
  { unfold dot, cross. cbn. lra. }
  exists t', uc. split; auto. refine (proj2 (C87_realign t _ _ _ ps None t' uc cubic_pi_valid eq_refl B u_quarter_rotation eq_refl _ RD H)). cbn. lia.
Qed.
