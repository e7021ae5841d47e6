(** Property C84: the curve of a resolution in one dimension. *)
From Coq Require Import List String Reals Lra Lia.
From Verif Require Import Base M_Utilities L_Utilities M_ScanData M_Curve.
Import ListNotations.
Open Scope R_scope.

(** ** Specification *)
(** the density of the normal distribution with mean m and standard deviation s *)
Definition density (m s x : R) : R := / (s * sqrt (2 * PI)) * exp (- / 2 * ((x - m) / s) ^ 2).
(** the ratio of the full width at half maximum of a normal distribution and its standard deviation *)
Definition ratio : R := 2 * sqrt (2 * ln 2).
(** n points from a to b with equal steps *)
Definition evenly (a b : R) (n : nat) (pts : list R) : Prop :=
  List.length pts = n /\ nth 0 pts 0 = a /\ nth (n - 1) pts 0 = b /\ forall k, (S k < n)%nat -> nth (S k) pts 0 - nth k pts 0 = (b - a) / INR (n - 1).
(** what the user sets *)
Definition curve_of (m w r : R) (c : curve) : Prop := cv_cen c = Some m /\ cv_fwhm c = Some w /\ cv_r0 c = Some r.

Lemma ratio_pos : 0 < ratio.
Proof. unfold ratio. apply Rmult_lt_0_compat; [lra|]. apply sqrt_lt_R0. apply Rmult_lt_0_compat; [lra|]. rewrite <- ln_1. apply ln_increasing; lra. Qed.
Lemma linspace_nth : forall a b n k, (k < n)%nat -> (2 <= n)%nat -> nth k (linspace a b n) 0 = a + INR k * ((b - a) / INR (n - 1)).
Proof.
  intros a b n k K N. unfold linspace. set (f := fun k0 : nat => _). rewrite (nth_indep _ 0 (f 0%nat)) by (rewrite map_length, seq_length; auto).
  rewrite map_nth, seq_nth by auto. unfold f. cbn [plus]. destruct (Nat.eqb_spec n 1); [lia|]. reflexivity.
Qed.
Lemma linspace_evenly : forall a b n, (2 <= n)%nat -> evenly a b n (linspace a b n).
Proof.
  intros a b n N. assert (NZ : INR (n - 1) <> 0) by (apply not_0_INR; lia). split; [unfold linspace; rewrite map_length, seq_length; auto|]. split; [|split].
  - rewrite linspace_nth by lia. cbn [INR]. lra.
  - rewrite linspace_nth by lia. field. auto.
  - intros k K. rewrite !linspace_nth by lia. rewrite S_INR. lra.
Qed.
Lemma gauss_density : forall m w r x, w <> 0 -> gauss (r / sqrt (2 * PI) / (w / sig2fwhm)) m (w / sig2fwhm) x = Some (r * density m (w / ratio) x).
Proof.
  intros m w r x W. pose proof ratio_pos as RP. change sig2fwhm with ratio. unfold gauss.
  assert (WN : w / ratio <> 0) by (apply Rmult_integral_contrapositive_currified; [auto|apply Rinv_neq_0_compat; lra]).
  assert (SP : sqrt (2 * PI) <> 0) by (apply Rgt_not_eq, sqrt_lt_R0; pose proof PI_RGT_0; lra).
  destruct (Req_EM_T (w / ratio) 0); [contradiction|]. f_equal. unfold density. set (s := w / ratio) in *.
  replace (- (x - m) ^ 2 / s ^ 2 / 2) with (- / 2 * ((x - m) / s) ^ 2) by (field; auto). field. auto.
Qed.

(** ** C84 *)
(** generate_curve with n >= 2 points over k standard deviations: the points are evenly spaced from k standard deviations below the
    centre to k above; the heights are r0 times the density of the normal distribution with that centre and full width at half
    maximum; nothing else changes. *)
Theorem C84_curve : forall c m w r k n, curve_of m w r c -> w <> 0 -> (2 <= n)%nat ->
  exists xs, generate_curve c k n = (with_y (map (fun x => Some (r * density m (w / ratio) x)) xs) (with_x xs c), Ok tt) /\
    evenly (m - k * (w / ratio)) (m + k * (w / ratio)) n xs.
Proof.
  intros c m w r k n (M & F & Q) W N. exists (linspace (- k * (w / sig2fwhm) + m) (k * (w / sig2fwhm) + m) n). split.
  - unfold generate_curve. rewrite F, M, Q. f_equal. f_equal. apply map_ext. intros x. apply gauss_density. auto.
  - replace (m - k * (w / ratio)) with (- k * (w / sig2fwhm) + m) by (change sig2fwhm with ratio; lra).
    replace (m + k * (w / ratio)) with (k * (w / sig2fwhm) + m) by (change sig2fwhm with ratio; lra). apply linspace_evenly. auto.
Qed.
Print Assumptions C84_curve.

(** So the width is what its name says: with r0 > 0 the curve falls with the distance from the centre, and half a width away it is
    half as high as in the centre. *)
Theorem C84_width : forall m w r x y, 0 < w -> 0 < r ->
  (Rabs (x - m) < Rabs (y - m) -> r * density m (w / ratio) y < r * density m (w / ratio) x) /\
  (Rabs (x - m) = Rabs (y - m) -> r * density m (w / ratio) y = r * density m (w / ratio) x) /\
  (Rabs (x - m) = w / 2 -> r * density m (w / ratio) x = r * density m (w / ratio) m / 2).
Proof.
  intros m w r x y W Rp. pose proof ratio_pos as RP. set (s := w / ratio). assert (S : 0 < s) by (apply Rdiv_lt_0_compat; auto).
  assert (SP : 0 < sqrt (2 * PI)) by (apply sqrt_lt_R0; pose proof PI_RGT_0; lra).
  assert (CP : 0 < r * / (s * sqrt (2 * PI))) by (apply Rmult_lt_0_compat; auto; apply Rinv_0_lt_compat, Rmult_lt_0_compat; auto).
  assert (SQ : forall z, ((z - m) / s) ^ 2 = Rabs (z - m) ^ 2 / s ^ 2) by (intros z; rewrite pow2_abs; field; lra).
  unfold density. rewrite !SQ. split; [|split].
  - intros H. rewrite <- !Rmult_assoc. apply Rmult_lt_compat_l; auto. apply exp_increasing.
    assert (L : Rabs (x - m) ^ 2 < Rabs (y - m) ^ 2) by (pose proof (Rabs_pos (x - m)); nra).
    assert (I : 0 < / s ^ 2) by (apply Rinv_0_lt_compat; nra). unfold Rdiv. nra.
  - intros ->. reflexivity.
  - intros ->. replace (m - m) with 0 by lra. rewrite Rabs_R0.
    assert (E : exp (- / 2 * ((w / 2) ^ 2 / s ^ 2)) = / 2).
    { replace (- / 2 * ((w / 2) ^ 2 / s ^ 2)) with (- ln 2). { rewrite exp_Ropp, exp_ln by lra. auto. }
      unfold s, ratio. assert (L2 : 0 < ln 2) by (rewrite <- ln_1; apply ln_increasing; lra).
      assert (QQ : sqrt (2 * ln 2) ^ 2 = 2 * ln 2) by (rewrite <- Rsqr_pow2; apply Rsqr_sqrt; lra).
      assert (QN : sqrt (2 * ln 2) <> 0) by (intros K; rewrite K in QQ; lra).
      replace ((w / 2) ^ 2 / (w / (2 * sqrt (2 * ln 2))) ^ 2) with (sqrt (2 * ln 2) ^ 2) by (field; split; [auto|lra]). rewrite QQ. lra. }
    rewrite E. replace (- / 2 * (0 ^ 2 / s ^ 2)) with 0 by (unfold Rdiv; ring). rewrite exp_0. lra.
Qed.
Print Assumptions C84_width.

(** The heights read the same from both ends. *)
Theorem C84_symmetric : forall c m w r k n, curve_of m w r c -> w <> 0 -> (2 <= n)%nat ->
  exists ys, cv_y (fst (generate_curve c k n)) = Some ys /\ rev ys = ys.
Proof.
  intros c m w r k n C W N. destruct (C84_curve c m w r k n C W N) as (xs & -> & EV). cbn [fst with_y cv_y]. eexists. split; [reflexivity|].
  destruct EV as (L & A & B & D). assert (NZ : INR (n - 1) <> 0) by (apply not_0_INR; lia).
  assert (AT : forall j, (j < n)%nat -> nth j xs 0 = (m - k * (w / ratio)) + INR j * ((m + k * (w / ratio) - (m - k * (w / ratio))) / INR (n - 1))).
  { induction j; intros J; [rewrite A; cbn [INR]; lra|]. pose proof (D j J) as E. rewrite S_INR. rewrite IHj in E by lia. lra. }
  apply nth_ext with (d := Some 0) (d' := Some 0); rewrite rev_length; auto. intros j J. rewrite map_length, L in J. rewrite rev_nth by (rewrite map_length, L; auto). rewrite map_length, L.
  set (f := fun x => Some (r * density m (w / ratio) x)).
  rewrite (nth_indep _ (Some 0) (f 0)) by (rewrite map_length, L; lia). rewrite (nth_indep (map f xs) (Some 0) (f 0)) by (rewrite map_length, L; lia). rewrite !map_nth. unfold f. f_equal. f_equal.
  rewrite !AT by lia. unfold density. f_equal. f_equal. f_equal. rewrite minus_INR by lia. rewrite S_INR.
  assert (E1 : INR n = INR (n - 1) + 1) by (rewrite <- S_INR; f_equal; lia). rewrite E1. pose proof ratio_pos.
  match goal with |- ?u ^ 2 = ?v ^ 2 => replace u with (- v); [ring|] end. field. repeat split; auto; lra.
Qed.
Print Assumptions C84_symmetric.

(** What is missing raises: no width, no centre or no intensity. *)
Theorem C84_missing : forall c k n,
  (cv_fwhm c = None -> generate_curve c k n = (c, Err TypeError)) /\
  (cv_fwhm c <> None -> cv_cen c = None -> generate_curve c k n = (c, Err AttributeError)) /\
  (cv_fwhm c <> None -> cv_cen c <> None -> cv_r0 c = None -> snd (generate_curve c k n) = Err TypeError).
Proof.
  intros c k n. unfold generate_curve. split; [intros ->; reflexivity|]. destruct (cv_fwhm c); [|split; congruence]. split; [intros _ ->; reflexivity|].
  intros _. destruct (cv_cen c); [|congruence]. intros _ ->. reflexivity.
Qed.
Print Assumptions C84_missing.

(** One expects the centre to be the attribute of that name, which the constructor sets. It is not looked at: a new curve with a
    width and an intensity raises AttributeError, whatever its [center]. *)
Theorem C84_center_refuted : forall x w r k n,
  generate_curve (Curve x None (Some w) (Some r) None None None None None None) k n = (Curve x None (Some w) (Some r) None None None None None None, Err AttributeError).
Proof. reflexivity. Qed.
Print Assumptions C84_center_refuted.
(** One expects a curve that could not be generated to be left as it was. Without an intensity the points are new, the heights old. *)
Theorem C84_half_done_refuted : exists c xs, generate_curve c 3 100 = (with_x xs c, Err TypeError) /\ cv_x c <> Some xs /\ List.length xs = 100%nat /\ cv_y c = Some [Some 1].
Proof.
  exists (Curve 0 (Some 0) (Some 1) None (Some [0]) (Some [Some 1]) None None None None). eexists. split; [reflexivity|].
  assert (L : forall a b, List.length (linspace a b 100) = 100%nat) by (intros; unfold linspace; rewrite map_length; apply seq_length).
  split; [|split; [apply L|reflexivity]]. cbn [cv_x]. intros E. apply (f_equal (fun o => match o with Some l => @List.length R l | None => 0%nat end)) in E. rewrite L in E. discriminate.
Qed.
Print Assumptions C84_half_done_refuted.

(** What is drawn: the curve over three standard deviations in 100 points, under the legend, labels and title that were set. *)
Theorem C84_plot : forall c m w r, curve_of m w r c -> w <> 0 ->
  exists xs, snd (generate_plot c) = Ok (xs, map (fun x => Some (r * density m (w / ratio) x)) xs, cv_legend c, (cv_xlabel c, cv_ylabel c, cv_title c)) /\
    evenly (m - 3 * (w / ratio)) (m + 3 * (w / ratio)) 100 xs.
Proof.
  intros c m w r C W. destruct (C84_curve c m w r 3 100 C W ltac:(lia)) as (xs & E & EV). exists xs. split; auto. unfold generate_plot. rewrite E. reflexivity.
Qed.
Print Assumptions C84_plot.

Example C84_example : curve_of 1 ratio 2 (Curve 0 (Some 1) (Some ratio) (Some 2) None None None None None None) /\ ratio <> 0 /\
  cv_x (fst (generate_curve (Curve 0 (Some 1) (Some ratio) (Some 2) None None None None None None) 3 3)) = Some [-2; 1; 4].
Proof.
  pose proof ratio_pos. split; [repeat split|]. split; [lra|]. unfold generate_curve. cbn [cv_fwhm cv_cen cv_r0 fst with_y with_x cv_x]. change sig2fwhm with ratio.
  replace (ratio / ratio) with 1 by (field; lra). unfold linspace. cbn. repeat f_equal; lra.
Qed.
