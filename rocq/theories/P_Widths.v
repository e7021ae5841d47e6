(** C44: widths of a resolution ellipsoid; C68: its two-dimensional ellipses. *)
From Coq Require Import Reals List Arith Bool Lra Lia String.
From Verif Require Import Base LinAlg M_Utilities M_Mat M_Labels M_Ellipsoid S_Mat L_Mat P_Quadric.
Import ListNotations.
Open Scope R_scope.

(** ** Shadows: the least value of A when only the coordinates [s 0], ..., [s (m - 1)] are held *)
Definition shadow (n : nat) (A : fmat) (m : nat) (s : nat -> nat) (B : fmat) : Prop :=
  (forall x, form m B (fun k => x (s k)) <= form n A x) /\
  (forall y, exists x, (forall k, (k < m)%nat -> x (s k) = y k) /\ form n A x = form m B y).
Lemma shadow_id : forall n A, shadow n A n (fun k => k) A.
Proof. intros n A. split; [intros x; right; reflexivity|]. intros y. exists y. auto. Qed.
Lemma shadow_step : forall n A m s B i C, (i < S m)%nat -> shadow n A (S m) s B -> minimises m B i C -> shadow n A m (fun k => s (other i k)) C.
Proof.
  intros n A m s B i C I [H1 H2] [M1 M2]. split.
  - intros x. eapply Rle_trans; [|apply H1]. eapply Rle_trans; [|apply (M1 (fun k => x (s k)))]. right. reflexivity.
  - intros y. destruct (M2 y) as (z & Z1 & Z2). destruct (H2 z) as (x & X1 & X2). exists x. split.
    + intros k K. rewrite X1 by (apply (skip_lt m i k); auto). apply Z1. auto.
    + congruence.
Qed.
Lemma shadow_ext : forall n A m s s' B, (forall k, (k < m)%nat -> s k = s' k) -> shadow n A m s B -> shadow n A m s' B.
Proof.
  intros n A m s s' B E [H1 H2]. split.
  - intros x. replace (form m B (fun k => x (s' k))) with (form m B (fun k => x (s k))); auto. apply form_ext; auto.
  - intros y. destruct (H2 y) as (x & X1 & X2). exists x. split; auto. intros k K. rewrite <- E; auto.
Qed.

(** One step of the loop on a stiff matrix *)
Lemma project_step : forall m B i, (i < S m)%nat -> stiff (S m) B -> symmetric (S m) B ->
  exists C, quadric_proj (S m) B i = Ok C /\ minimises m B i C /\ stiff m C /\ symmetric m C.
Proof.
  intros m B i I S Y. destruct (C43_minimum m B i I (stiff_diag _ _ _ I S)) as (C & E & M). exists C. split; auto. split; auto. split.
  - apply (minimises_stiff m B i); auto.
  - destruct (C43_definite m B i I (stiff_posdef _ _ S)) as (C' & E' & _ & Y'). assert (C' = C) by (apply Ok_inj; congruence). subst. auto.
Qed.

(** The whole loop: it keeps the kept coordinates and projects out the others. *)
Lemma project_three : forall A idx, (idx < 4)%nat -> symmetric 4 A -> stiff 4 A ->
  exists B, project_all [3; 2; 1; 0]%nat (Nat.eqb idx) 4 A = Ok (1%nat, B) /\ shadow 4 A 1 (fun _ => idx) B.
Proof.
  intros A idx I Y S.
  assert (T : forall i j k, (i < 4)%nat -> (j < 3)%nat -> (k < 2)%nat -> exists B C D, quadric_proj 4 A i = Ok B /\ quadric_proj 3 B j = Ok C /\ quadric_proj 2 C k = Ok D /\
     shadow 4 A 1 (fun l => other i (other j (other k l))) D).
  { intros i j k Hi Hj Hk. destruct (project_step 3 A i Hi S Y) as (B & E1 & M1 & S1 & Y1). destruct (project_step 2 B j Hj S1 Y1) as (C & E2 & M2 & S2 & Y2). destruct (project_step 1 C k Hk S2 Y2) as (D & E3 & M3 & S3 & Y3).
    exists B, C, D. repeat (split; [assumption|]). exact (shadow_step _ _ _ _ _ _ _ Hk (shadow_step _ _ _ _ _ _ _ Hj (shadow_step _ _ _ _ _ _ _ Hi (shadow_id _ _) M1) M2) M3). }
  destruct idx as [|[|[|[|]]]]; [| | | |lia].
  - destruct (T 3 2 1)%nat as (B & C & D & E1 & E2 & E3 & H); try lia. exists D. split; [cbn -[quadric_proj]; rewrite E1; cbn -[quadric_proj]; rewrite E2; cbn -[quadric_proj]; rewrite E3; auto|].
    eapply shadow_ext; [|exact H]. intros k K. assert (k = 0)%nat by lia. subst. reflexivity.
  - destruct (T 3 2 0)%nat as (B & C & D & E1 & E2 & E3 & H); try lia. exists D. split; [cbn -[quadric_proj]; rewrite E1; cbn -[quadric_proj]; rewrite E2; cbn -[quadric_proj]; rewrite E3; auto|].
    eapply shadow_ext; [|exact H]. intros k K. assert (k = 0)%nat by lia. subst. reflexivity.
  - destruct (T 3 1 0)%nat as (B & C & D & E1 & E2 & E3 & H); try lia. exists D. split; [cbn -[quadric_proj]; rewrite E1; cbn -[quadric_proj]; rewrite E2; cbn -[quadric_proj]; rewrite E3; auto|].
    eapply shadow_ext; [|exact H]. intros k K. assert (k = 0)%nat by lia. subst. reflexivity.
  - destruct (T 2 1 0)%nat as (B & C & D & E1 & E2 & E3 & H); try lia. exists D. split; [cbn -[quadric_proj]; rewrite E1; cbn -[quadric_proj]; rewrite E2; cbn -[quadric_proj]; rewrite E3; auto|].
    eapply shadow_ext; [|exact H]. intros k K. assert (k = 0)%nat by lia. subst. reflexivity.
Qed.

Lemma form1 : forall B y, form 1 B y = y 0%nat * B 0%nat 0%nat * y 0%nat.
Proof. intros. unfold form. cbn. lra. Qed.
Lemma sig2fwhm_pos : 0 < sig2fwhm.
Proof. unfold sig2fwhm. assert (0 < sqrt (2 * ln 2)). { apply sqrt_lt_R0. pose proof (ln_lt_2). lra. } lra. Qed.

(** ** C44 *)
Lemma proj_diag : forall n A i B, (i < S n)%nat -> posdef (S n) A -> quadric_proj (S n) A i = Ok B -> posdef n B /\ forall k, (k < n)%nat -> B k k <= A (other i k) (other i k).
Proof.
  intros n A i B I P E. destruct (C43_definite n A i I P) as (B' & E' & PB & _). assert (B' = B) by (apply Ok_inj; congruence). subst B'. split; auto.
  intros k K. pose proof (posdef_diag _ _ i P I) as Q. unfold quadric_proj in E. destruct (Nat.leb_spec (S n) i); [lia|]. destruct (Rlt_dec (Rabs (A i i)) quadric_zero).
  - apply Ok_inj in E. subst B. unfold delete. change skip with other. lra.
  - destruct (Rlt_dec (A i i) 0); [lra|]. apply Ok_inj in E. subst B. unfold delete. change skip with other.
    match goal with |- _ - ?a * ?a <= _ => pose proof (Rle_0_sqr a); unfold Rsqr in *; lra end.
Qed.
Lemma widths_loop : forall A idx, (idx < 4)%nat -> posdef 4 A ->
  exists B, project_all [3; 2; 1; 0]%nat (Nat.eqb idx) 4 A = Ok (1%nat, B) /\ 0 < B 0%nat 0%nat <= A idx idx.
Proof.
  intros A idx I P.
  assert (T : forall i j k, (i < 4)%nat -> (j < 3)%nat -> (k < 2)%nat -> exists B C D, quadric_proj 4 A i = Ok B /\ quadric_proj 3 B j = Ok C /\ quadric_proj 2 C k = Ok D /\
     0 < D 0%nat 0%nat <= A (other i (other j (other k 0))) (other i (other j (other k 0)))).
  { intros i j k Hi Hj Hk.
    destruct (C43_definite 3 A i Hi P) as (B & E1 & P1 & _). destruct (C43_definite 2 B j Hj P1) as (C & E2 & P2 & _). destruct (C43_definite 1 C k Hk P2) as (D & E3 & P3 & _).
    exists B, C, D. repeat (split; [assumption|]). split. { apply (posdef_diag 1 D 0); auto. }
    destruct (proj_diag 3 A i B Hi P E1) as [_ D1]. destruct (proj_diag 2 B j C Hj P1 E2) as [_ D2]. destruct (proj_diag 1 C k D Hk P2 E3) as [_ D3].
    assert (K3 : (other k 0 < 2)%nat) by (apply (skip_lt 1 k 0); auto). assert (K2 : (other j (other k 0) < 3)%nat) by (apply (skip_lt 2 j); auto).
    eapply Rle_trans; [apply D3; auto|]. eapply Rle_trans; [apply D2; auto|]. apply D1. auto. }
  destruct idx as [|[|[|[|]]]]; [| | | |lia].
  - destruct (T 3 2 1)%nat as (B & C & D & E1 & E2 & E3 & H); try lia. exists D. split; [cbn -[quadric_proj]; rewrite E1; cbn -[quadric_proj]; rewrite E2; cbn -[quadric_proj]; rewrite E3; auto|exact H].
  - destruct (T 3 2 0)%nat as (B & C & D & E1 & E2 & E3 & H); try lia. exists D. split; [cbn -[quadric_proj]; rewrite E1; cbn -[quadric_proj]; rewrite E2; cbn -[quadric_proj]; rewrite E3; auto|exact H].
  - destruct (T 3 1 0)%nat as (B & C & D & E1 & E2 & E3 & H); try lia. exists D. split; [cbn -[quadric_proj]; rewrite E1; cbn -[quadric_proj]; rewrite E2; cbn -[quadric_proj]; rewrite E3; auto|exact H].
  - destruct (T 2 1 0)%nat as (B & C & D & E1 & E2 & E3 & H); try lia. exists D. split; [cbn -[quadric_proj]; rewrite E1; cbn -[quadric_proj]; rewrite E2; cbn -[quadric_proj]; rewrite E3; auto|exact H].
Qed.
Lemma incoh_value : forall A idx B, project_all [3; 2; 1; 0]%nat (Nat.eqb idx) 4 A = Ok (1%nat, B) -> 0 < B 0%nat 0%nat -> incoh_fwhms A idx = Ok (sig2fwhm / sqrt (B 0%nat 0%nat)).
Proof.
  intros A idx B E P. unfold incoh_fwhms. rewrite E. cbn. destruct (Req_EM_T (B 0%nat 0%nat) 0); [lra|]. rewrite Rabs_right by lra. auto.
Qed.
Lemma coh_value : forall A idx, (idx < 4)%nat -> 0 < A idx idx -> coh_fwhms A idx = Ok (sig2fwhm / sqrt (A idx idx)).
Proof. intros A idx I P. unfold coh_fwhms. destruct (Nat.leb_spec 4 idx); [lia|]. destruct (Rle_dec (A idx idx) 0); [lra|auto]. Qed.

(** Both widths exist and are positive, and the coherent one is at most the incoherent one. *)
Theorem C44_widths : forall A idx, (idx < 4)%nat -> posdef 4 A ->
  exists c w, coh_fwhms A idx = Ok c /\ incoh_fwhms A idx = Ok w /\ 0 < c <= w.
Proof.
  intros A idx I P. destruct (widths_loop A idx I P) as (B & E & B0 & BL). pose proof (posdef_diag _ _ idx P I) as Q.
  exists (sig2fwhm / sqrt (A idx idx)), (sig2fwhm / sqrt (B 0%nat 0%nat)). split; [apply coh_value; auto|]. split; [apply incoh_value; auto|].
  pose proof sig2fwhm_pos. pose proof (sqrt_lt_R0 _ B0). pose proof (sqrt_lt_R0 _ Q). pose proof (sqrt_le_1_alt _ _ BL). split.
  - apply Rdiv_lt_0_compat; auto.
  - unfold Rdiv. apply Rmult_le_compat_l; [lra|]. apply Rinv_le_contravar; auto.
Qed.
Print Assumptions C44_widths.

(** The ellipsoid x^T A x <= 1 scaled to the full width at half maximum reaches exactly as far along the axis as the incoherent width,
    and the coherent width is where the axis itself leaves it. *)
Theorem C44_extent : forall A idx, (idx < 4)%nat -> symmetric 4 A -> stiff 4 A ->
  exists c w, coh_fwhms A idx = Ok c /\ incoh_fwhms A idx = Ok w /\
    (forall x, form 4 A x <= sig2fwhm * sig2fwhm -> - w <= x idx <= w) /\
    (exists x, form 4 A x = sig2fwhm * sig2fwhm /\ x idx = w) /\
    form 4 A (fun k => if Nat.eqb k idx then c else 0) = sig2fwhm * sig2fwhm.
Proof.
  intros A idx I Y S. pose proof (stiff_posdef _ _ S) as P. destruct (project_three A idx I Y S) as (B & E & H1 & H2).
  destruct (widths_loop A idx I P) as (B' & E' & B0 & BL). assert (B' = B) by (apply Ok_inj in E; rewrite E in E'; apply Ok_inj in E'; congruence) || (rewrite E in E'; apply Ok_inj in E'; congruence). subst B'.
  pose proof (posdef_diag _ _ idx P I) as Q. pose proof sig2fwhm_pos as F. pose proof (sqrt_lt_R0 _ B0) as SB. pose proof (sqrt_lt_R0 _ Q) as SA.
  exists (sig2fwhm / sqrt (A idx idx)), (sig2fwhm / sqrt (B 0%nat 0%nat)). split; [apply coh_value; auto|]. split; [apply incoh_value; auto|]. split; [|split].
  - intros x X. specialize (H1 x). rewrite form1 in H1. set (t := x idx) in *. set (w := sig2fwhm / sqrt (B 0%nat 0%nat)).
    assert (W : 0 < w) by (apply Rdiv_lt_0_compat; auto). assert (WW : w * w * B 0%nat 0%nat = sig2fwhm * sig2fwhm). { unfold w. rewrite <- (sqrt_sqrt (B 0%nat 0%nat)) at 3 by lra. field. lra. }
    assert (T2 : t * t <= w * w). { apply Rmult_le_reg_r with (B 0%nat 0%nat); auto. lra. }
    apply Rsqr_le_abs_0 in T2. rewrite (Rabs_right w) in T2 by lra. split; [|]; pose proof (Rle_abs t); pose proof (Rle_abs (- t)); rewrite Rabs_Ropp in *; lra.
  - destruct (H2 (fun _ => sig2fwhm / sqrt (B 0%nat 0%nat))) as (x & X1 & X2). exists x. split; [|apply (X1 0%nat); lia]. rewrite X2, form1.
    rewrite <- (sqrt_sqrt (B 0%nat 0%nat)) at 2 by lra. field. lra.
  - rewrite (form_ext 4 A A _ (fun k => sig2fwhm / sqrt (A idx idx) * eye k idx)). 2:{ auto. } 2:{ intros i Hi. unfold eye. destruct (Nat.eqb i idx); lra. }
    rewrite form_axis by auto. rewrite <- (sqrt_sqrt (A idx idx)) at 3 by lra. field. lra.
Qed.
Print Assumptions C44_extent.

Definition bilinear (n : nat) (A : fmat) (x y : nat -> R) : R := sum n (fun i => sum n (fun j => x i * A i j * y j)).
Lemma form_add : forall n A x y, form n A (fun k => x k + y k) = form n A x + form n A y + bilinear n A x y + bilinear n A y x.
Proof.
  intros. unfold form, bilinear. rewrite <- !sum_plus. apply sum_ext. intros. rewrite <- !sum_plus. apply sum_ext. intros. ring.
Qed.
Lemma bilinear_axes : forall n A a b s t, (a < n)%nat -> (b < n)%nat -> bilinear n A (fun k => s * eye k a) (fun k => t * eye k b) = s * t * A a b.
Proof.
  intros n A a b s t Ha Hb. unfold bilinear. rewrite (sum_ext n _ (fun i => (s * t * A i b) * eye i a)).
  - rewrite sum_eye_r by auto. auto.
  - intros i I. rewrite (sum_ext n _ (fun j => (s * eye i a * A i j * t) * eye j b)) by (intros; ring). rewrite sum_eye_r by auto. ring.
Qed.
Lemma bilinear_sym : forall n A x y, symmetric n A -> bilinear n A x y = bilinear n A y x.
Proof. intros n A x y Y. unfold bilinear. rewrite sum_swap. apply sum_ext. intros i I. apply sum_ext. intros j J. rewrite (Y i j) by auto. ring. Qed.

Lemma div_eq : forall a b, 0 < a -> 0 < b -> (sig2fwhm / sqrt a = sig2fwhm / sqrt b <-> a = b).
Proof.
  intros a b A B. pose proof sig2fwhm_pos. pose proof (sqrt_lt_R0 _ A). pose proof (sqrt_lt_R0 _ B). split; [|intros ->; auto]. intros E.
  assert (sqrt a = sqrt b). { apply (f_equal Rinv) in E. unfold Rdiv in E. rewrite !Rinv_mult, !Rinv_inv in E. apply Rmult_eq_reg_l with (/ sig2fwhm); auto. apply Rinv_neq_0_compat. lra. }
  rewrite <- (sqrt_sqrt a), <- (sqrt_sqrt b) by lra. rewrite H2. auto.
Qed.

(** The two widths agree exactly when the axis is uncorrelated with every other one. *)
Theorem C44_equal : forall A idx, (idx < 4)%nat -> symmetric 4 A -> stiff 4 A ->
  exists c w, coh_fwhms A idx = Ok c /\ incoh_fwhms A idx = Ok w /\
    (c = w <-> forall k, (k < 4)%nat -> k <> idx -> A idx k = 0).
Proof.
  intros A idx I Y S. pose proof (stiff_posdef _ _ S) as P. destruct (project_three A idx I Y S) as (B & E & H1 & H2).
  destruct (widths_loop A idx I P) as (B' & E' & B0 & BL). assert (B' = B) by (rewrite E in E'; apply Ok_inj in E'; congruence). subst B'.
  pose proof (posdef_diag _ _ idx P I) as Q.
  exists (sig2fwhm / sqrt (A idx idx)), (sig2fwhm / sqrt (B 0%nat 0%nat)). split; [apply coh_value; auto|]. split; [apply incoh_value; auto|].
  rewrite div_eq by auto. split.
  - intros EQ k K NK. destruct (Req_dec (A idx k) 0) as [|NZ]; auto. exfalso. pose proof (posdef_diag _ _ k P K) as QK.
    specialize (H1 (fun l => 1 * eye l idx + (- A idx k / A k k) * eye l k)). rewrite form1 in H1. rewrite (form_add 4 A (fun l => 1 * eye l idx) (fun l => (- A idx k / A k k) * eye l k)), !form_axis, !bilinear_axes in H1 by auto.
    rewrite eye_same, (eye_ne idx k) in H1 by auto. rewrite (Y k idx) in H1 by auto. rewrite <- EQ in H1.
    replace ((1 * 1 + - A idx k / A k k * 0) * A idx idx * (1 * 1 + - A idx k / A k k * 0)) with (A idx idx) in H1 by ring.
    replace (1 * 1 * A idx idx + - A idx k / A k k * (- A idx k / A k k) * A k k + 1 * (- A idx k / A k k) * A idx k + - A idx k / A k k * 1 * A idx k) with (A idx idx - A idx k * A idx k / A k k) in H1 by (field; lra).
    assert (0 < A idx k * A idx k / A k k). { apply Rdiv_lt_0_compat; auto. pose proof (Rsqr_pos_lt _ NZ). auto. } lra.
  - intros Z. apply Rle_antisym; auto. destruct (H2 (fun _ => 1)) as (x & X1 & X2). rewrite form1 in X2.
    rewrite (form_split 3 A idx I) in X2. rewrite (X1 0%nat) in X2 by lia.
    rewrite (sum_zero 3) in X2. 2:{ intros k K. assert (SK : (skip idx k < 4)%nat) by (apply skip_lt; auto). rewrite (Y (skip idx k) idx) by auto. rewrite Z by (auto; apply skip_ne). ring. }
    assert (0 <= form 3 (delete A idx) (without idx x)). 2:{ lra. }
    destruct (Req_dec (sum 3 (fun k => without idx x k * without idx x k)) 0) as [ZZ|ZZ].
    + right. symmetry. unfold form. apply sum_zero. intros i Hi. apply sum_zero. intros j Hj.
      pose proof (sum_nonneg_zero 3 (fun k => without idx x k * without idx x k) ltac:(intros; cbn beta; nra) ZZ i Hi) as W. cbn beta in W. assert (without idx x i = 0) by nra. rewrite H. ring.
    + left. apply (delete_posdef 3 A idx I P). revert ZZ. generalize (without idx x). intros y ZZ. cbn in ZZ.
      destruct (Req_dec (y 0%nat) 0) as [Y0|]; [|exists 0%nat; auto]. destruct (Req_dec (y 1%nat) 0) as [Y1|]; [|exists 1%nat; auto]. exists 2%nat. split; auto. intros Y2. apply ZZ. rewrite Y0, Y1, Y2. ring.
Qed.
Print Assumptions C44_equal.

(** The incoherent width is the square root of the diagonal element of the covariance (the inverse of the resolution matrix). *)
Theorem C44_variance : forall A N idx, (idx < 4)%nat -> symmetric 4 A -> stiff 4 A -> inverse_of 4 A N ->
  incoh_fwhms A idx = Ok (sig2fwhm * sqrt (N idx idx)).
Proof.
  intros A N idx I Y S H. pose proof (stiff_posdef _ _ S) as P. destruct (project_three A idx I Y S) as (B & E & H1 & H2).
  destruct (widths_loop A idx I P) as (B' & E' & B0 & BL). assert (B' = B) by (rewrite E in E'; apply Ok_inj in E'; congruence). subst B'.
  rewrite (incoh_value A idx B E B0). f_equal. pose proof (posdef_inverse 4 A N Y P H) as PN. pose proof (posdef_diag _ _ idx PN I) as N0. pose proof (symmetric_inverse 4 A N Y H) as YN.
  set (r := B 0%nat 0%nat) in *. set (z := fun k => N k idx / N idx idx).
  assert (AZ : forall i, (i < 4)%nat -> mulv 4 A z i = eye i idx / N idx idx).
  { intros i Hi. destruct (H i idx Hi I) as [Q _]. unfold mulv, z, mul in *. rewrite <- Q. unfold Rdiv. rewrite <- sum_scal_r. apply sum_ext. intros. ring. }
  assert (BZ : forall x, bilinear 4 A x z = x idx / N idx idx).
  { intros x. unfold bilinear. rewrite (sum_ext 4 _ (fun i => x i / N idx idx * eye i idx)). { rewrite (sum_eye_r 4 idx (fun i => x i / N idx idx)); auto. }
    intros i Hi. transitivity (x i * mulv 4 A z i). { unfold mulv. rewrite <- sum_scal. apply sum_ext. intros. ring. } rewrite AZ by auto. field. lra. }
  assert (FZ : form 4 A z = / N idx idx). { change (form 4 A z) with (bilinear 4 A z z). rewrite BZ. unfold z. field. lra. }
  assert (R1 : r <= / N idx idx). { specialize (H1 z). rewrite form1 in H1. fold r in H1. rewrite FZ in H1. unfold z in H1. replace (N idx idx / N idx idx) with 1 in H1 by (field; lra). lra. }
  assert (R2 : / N idx idx <= r).
  { destruct (H2 (fun _ => 1)) as (x & X1 & X2). rewrite form1 in X2. fold r in X2. set (d := fun k => x k - z k).
    assert (FX : form 4 A x = form 4 A (fun k => d k + z k)) by (apply form_ext; auto; intros; unfold d; ring).
    rewrite FX, form_add, FZ, (bilinear_sym 4 A z d Y), !BZ in X2. assert (D0 : d idx = 0). { unfold d, z. rewrite (X1 0%nat) by lia. field. lra. } rewrite D0 in X2.
    assert (0 <= form 4 A d). { specialize (S d 0%nat ltac:(lia)). pose proof (Rle_0_sqr (d 0%nat)). unfold Rsqr in *. lra. }
    unfold Rdiv in X2. rewrite Rmult_0_l in X2. lra. }
  assert (RE : r = / N idx idx) by lra. rewrite RE. rewrite sqrt_inv. unfold Rdiv. rewrite Rinv_inv. auto.
Qed.
Print Assumptions C44_variance.

(** A concrete case: correlated first two axes. *)
Definition corr : fmat := fun i j => match i, j with 0%nat, 0%nat => 2 | 1%nat, 1%nat => 2 | 0%nat, 1%nat => 1 | 1%nat, 0%nat => 1 | 2%nat, 2%nat => 1 | 3%nat, 3%nat => 1 | _, _ => 0 end.
Example C44_example : symmetric 4 corr /\ stiff 4 corr /\ corr 0%nat 1%nat <> 0.
Proof.
  repeat split.
  - intros i j I J. destruct i as [|[|[|[|]]]], j as [|[|[|[|]]]]; auto; lia.
  - intros x k K. unfold form. cbn. pose proof (Rle_0_sqr (x 0%nat + x 1%nat)). pose proof (Rle_0_sqr (x 0%nat)). pose proof (Rle_0_sqr (x 1%nat)). pose proof (Rle_0_sqr (x 2%nat)). pose proof (Rle_0_sqr (x 3%nat)). unfold Rsqr in *.
    destruct k as [|[|[|[|]]]]; [lra|lra|lra|lra|lia].
  - cbn. lra.
Qed.

(** ** C68 *)
(** the coordinates of a pair, x first *)
Definition pair_of (a b : R) : nat -> R := fun k => match k with O => a | _ => b end.
(** a point of the plane of the axes x and y, the other two coordinates zero *)
Definition in_plane (x y : nat) (a b : R) : nat -> R := fun k => if Nat.eqb k x then a else if Nat.eqb k y then b else 0.

Lemma project_two : forall A x y, (x < y)%nat -> (y < 4)%nat -> symmetric 4 A -> stiff 4 A ->
  exists B, project_all [3; 2; 1; 0]%nat (fun i => Nat.eqb i x || Nat.eqb i y) 4 A = Ok (2%nat, B) /\ shadow 4 A 2 (fun k => match k with O => x | _ => y end) B /\ symmetric 2 B /\ stiff 2 B.
Proof.
  intros A x y L I Y S.
  assert (T : forall i j, (i < 4)%nat -> (j < 3)%nat -> exists B C, quadric_proj 4 A i = Ok B /\ quadric_proj 3 B j = Ok C /\ shadow 4 A 2 (fun l => other i (other j l)) C /\ symmetric 2 C /\ stiff 2 C).
  { intros i j Hi Hj. destruct (project_step 3 A i Hi S Y) as (B & E1 & M1 & S1 & Y1). destruct (project_step 2 B j Hj S1 Y1) as (C & E2 & M2 & S2 & Y2).
    exists B, C. repeat (split; [assumption|]). split; auto. exact (shadow_step _ _ _ _ _ _ _ Hj (shadow_step _ _ _ _ _ _ _ Hi (shadow_id _ _) M1) M2). }
  assert (W : forall i j, (i < 4)%nat -> (j < 3)%nat -> other i (other j 0) = x -> other i (other j 1) = y ->
    (forall B C, quadric_proj 4 A i = Ok B -> quadric_proj 3 B j = Ok C -> project_all [3; 2; 1; 0]%nat (fun i => Nat.eqb i x || Nat.eqb i y) 4 A = Ok (2%nat, C)) ->
    exists B, project_all [3; 2; 1; 0]%nat (fun i => Nat.eqb i x || Nat.eqb i y) 4 A = Ok (2%nat, B) /\ shadow 4 A 2 (fun k => match k with O => x | _ => y end) B /\ symmetric 2 B /\ stiff 2 B).
  { intros i j Hi Hj EX EY HP. destruct (T i j Hi Hj) as (B & C & E1 & E2 & SH & Y2 & S2). exists C. split; [eapply HP; eauto|]. split; auto. eapply shadow_ext; [|exact SH]. intros k K. destruct k as [|[|]]; [auto|auto|lia]. }
  destruct y as [|[|[|[|]]]]; [lia| | | |lia].
  - assert (x = 0)%nat by lia. subst x. apply (W 3 2)%nat; try lia; auto. intros B C E1 E2. cbn -[quadric_proj]. rewrite E1. cbn -[quadric_proj]. rewrite E2. auto.
  - destruct x as [|[|]]; [| |lia].
    + apply (W 3 1)%nat; try lia; auto. intros B C E1 E2. cbn -[quadric_proj]. rewrite E1. cbn -[quadric_proj]. rewrite E2. auto.
    + apply (W 3 0)%nat; try lia; auto. intros B C E1 E2. cbn -[quadric_proj]. rewrite E1. cbn -[quadric_proj]. rewrite E2. auto.
  - destruct x as [|[|[|]]]; [| | |lia].
    + apply (W 2 1)%nat; try lia; auto. intros B C E1 E2. cbn -[quadric_proj]. rewrite E1. cbn -[quadric_proj]. rewrite E2. auto.
    + apply (W 2 0)%nat; try lia; auto. intros B C E1 E2. cbn -[quadric_proj]. rewrite E1. cbn -[quadric_proj]. rewrite E2. auto.
    + apply (W 1 0)%nat; try lia; auto. intros B C E1 E2. cbn -[quadric_proj]. rewrite E1. cbn -[quadric_proj]. rewrite E2. auto.
Qed.

(** The energy is one of four axes, there are four labels, and h, k, l were not all given as integers unless the energy is a whole
    number too. *)
Definition proper (e : ellipsoid) : Prop :=
  (el_ints e = true -> exists n, el_en e = IZR n) /\
  List.length (el_labels e) = 4%nat /\
  match el_axes e with None => True | Some axes => List.length axes = 4%nat /\ exists i, nth_error axes i = Some En end.
(** the four coordinates of the centre, the energy at its place among the axes *)
Definition centre (e : ellipsoid) : list R :=
  let v := el_q_vec e in
  match el_axes e with
  | Some (En :: _) => [el_en e; vx v; vy v; vz v]
  | Some (_ :: En :: _) => [vx v; el_en e; vy v; vz v]
  | Some (_ :: _ :: En :: _) => [vx v; vy v; el_en e; vz v]
  | _ => [vx v; vy v; vz v; el_en e]
  end.

Lemma to_int_whole : forall n, to_int (IZR n) = IZR n.
Proof.
  assert (T : forall k, Int_part (IZR k) = k) by (intros k; unfold Int_part; rewrite <- (up_tech (IZR k) k); [lia|lra|rewrite plus_IZR; lra]).
  intros n. unfold to_int. destruct (Rle_dec 0 (IZR n)); [now rewrite T|]. replace (- IZR n) with (IZR (- n)) by (rewrite opp_IZR; ring). rewrite T, opp_IZR. ring.
Qed.
Lemma centre_eq : forall e, proper e -> exists i, (match el_axes e with Some axes => en_index axes | None => Ok 3%nat end) = Ok i /\ insert4 (el_ints e) (el_q_vec e) i (el_en e) = centre e.
Proof.
  intros e (W & _ & H).
  assert (T : (if el_ints e then to_int (el_en e) else el_en e) = el_en e).
  { destruct (el_ints e); auto. destruct (W eq_refl) as (n & ->). apply to_int_whole. }
  unfold insert4. rewrite T. unfold centre. destruct (el_axes e) as [axes|]; [|exists 3%nat; auto]. destruct H as [L (i & N)].
  destruct axes as [|[|a b c] axes]; [discriminate| |]. { exists 0%nat. auto. }
  destruct axes as [|[|a' b' c'] axes]; [discriminate| |]. { exists 1%nat. auto. }
  destruct axes as [|[|a'' b'' c''] axes]; [discriminate| |]. { exists 2%nat. auto. }
  destruct axes as [|[|a3 b3 c3] axes]; [discriminate| |]. { exists 3%nat. auto. }
  exfalso. destruct axes; [|discriminate]. destruct i as [|[|[|[|i]]]]; cbn in N; try discriminate. destruct i; discriminate.
Qed.
Lemma at_index_ok : forall {T} (l : list T) i n, List.length l = n -> (i < n)%nat -> exists x, at_index l i = Ok x /\ nth_error l i = Some x.
Proof. intros T l i n L I. unfold at_index. destruct (nth_error l i) as [x|] eqn:E; [eauto|]. apply nth_error_None in E. lia. Qed.
Lemma centre_length : forall e, List.length (centre e) = 4%nat.
Proof. intros e. unfold centre. destruct (el_axes e) as [[|[] [|[] [|[] ]]]|]; auto. Qed.

Section C68.
  Context (round2 : R -> R).

  (** For two different axes in increasing order: the centre and the labels are those of the two axes, in this order. *)
  Theorem C68_centre : forall e x y projection E, proper e -> (x < y)%nat -> (y < 4)%nat ->
    get_ellipse round2 e x y projection true = Ok E ->
    nth_error (centre e) x = Some (fst (ee_centers E)) /\ nth_error (centre e) y = Some (snd (ee_centers E)) /\
    nth_error (el_labels e) x = Some (fst (ee_labels E)) /\ nth_error (el_labels e) y = Some (snd (ee_labels E)).
  Proof.
    intros e x y projection E P L I H. unfold get_ellipse in H. destruct (centre_eq e P) as (i & EI & EC). rewrite EI in H. cbn [bind] in H. rewrite EC in H.
    destruct P as (_ & PL & _). destruct (at_index_ok _ x 4 PL) as (lx & X1 & X2); [lia|]. destruct (at_index_ok _ y 4 PL) as (ly & Y1 & Y2); [lia|].
    destruct (at_index_ok (centre e) x 4 (centre_length e)) as (cx & X3 & X4); [lia|]. destruct (at_index_ok (centre e) y 4 (centre_length e)) as (cy & Y3 & Y4); [lia|].
    rewrite X1, Y1, X3, Y3 in H. cbn [bind] in H. match type of H with context [bind ?r _] => destruct r as [[n m]|]; cbn [bind] in H; [|discriminate] end.
    apply Ok_inj in H. subst E. cbn [ee_centers ee_labels fst snd]. auto.
  Qed.

  (** The cut: the matrix is that of the plane of the two axes. *)
  Theorem C68_cut : forall e x y origin E, proper e -> (x < y)%nat -> (y < 4)%nat ->
    get_ellipse round2 e x y false origin = Ok E ->
    forall a b, form 2 (ee_mat E) (pair_of a b) = form 4 (el_mat e) (in_plane x y a b).
  Proof.
    intros e x y origin E P L I H a b. unfold get_ellipse in H. destruct (centre_eq e P) as (i & EI & EC). rewrite EI in H. cbn [bind] in H.
    destruct P as (_ & PL & _). destruct (at_index_ok _ x 4 PL) as (lx & X1 & X2); [lia|]. destruct (at_index_ok _ y 4 PL) as (ly & Y1 & Y2); [lia|].
    rewrite X1, Y1 in H. cbn [bind] in H. match type of H with context [bind ?r _] => destruct r as [[cx cy]|]; cbn [bind] in H; [|discriminate] end.
    destruct y as [|[|[|[|]]]]; [lia| | | |lia]; destruct x as [|[|[|]]]; try lia; cbn [delete_all Nat.eqb orb pred bind] in H; apply Ok_inj in H; subst E; cbn [ee_mat]; unfold form, delete, skip, in_plane, pair_of; cbn; ring.
  Qed.

  (** The projection: the matrix gives the least value when the other two coordinates are free. *)
  Theorem C68_projection : forall e x y origin, proper e -> (x < y)%nat -> (y < 4)%nat -> symmetric 4 (el_mat e) -> stiff 4 (el_mat e) ->
    exists E, get_ellipse round2 e x y true origin = Ok E /\
      (forall v, form 2 (ee_mat E) (pair_of (v x) (v y)) <= form 4 (el_mat e) v) /\
      (forall a b, exists v, v x = a /\ v y = b /\ form 4 (el_mat e) v = form 2 (ee_mat E) (pair_of a b)).
  Proof.
    intros e x y origin P L I Y S. unfold get_ellipse. destruct (centre_eq e P) as (i & EI & EC). rewrite EI. cbn [bind]. rewrite EC.
    destruct P as (_ & PL & _). destruct (at_index_ok _ x 4 PL) as (lx & X1 & X2); [lia|]. destruct (at_index_ok _ y 4 PL) as (ly & Y1 & Y2); [lia|].
    destruct (at_index_ok (centre e) x 4 (centre_length e)) as (cx & X3 & X4); [lia|]. destruct (at_index_ok (centre e) y 4 (centre_length e)) as (cy & Y3 & Y4); [lia|].
    rewrite X1, Y1, X3, Y3. cbn [bind]. destruct (project_two (el_mat e) x y L I Y S) as (B & EB & (H1 & H2) & _). rewrite EB.
    assert (F : forall v, form 2 B (fun k => v (match k with O => x | _ => y end)) = form 2 B (pair_of (v x) (v y))) by (intros; apply form_ext; auto; intros [|]; auto).
    destruct origin; cbn [bind]; (eexists; split; [reflexivity|]; cbn [ee_mat]; split;
      [intros v; rewrite <- F; apply H1|intros a b; destruct (H2 (pair_of a b)) as (v & V1 & V2); exists v; rewrite (V1 0%nat), (V1 1%nat) by lia; auto]).
  Qed.

  Lemma projection_mat : forall e x y origin E, proper e -> (x < y)%nat -> (y < 4)%nat -> symmetric 4 (el_mat e) -> stiff 4 (el_mat e) ->
    get_ellipse round2 e x y true origin = Ok E -> symmetric 2 (ee_mat E) /\ stiff 2 (ee_mat E).
  Proof.
    intros e x y origin E P L I Y S H. unfold get_ellipse in H. destruct (project_two (el_mat e) x y L I Y S) as (B & EB & _ & YB & SB). rewrite EB in H.
    repeat match type of H with context [bind ?r _] => first [destruct r as [[? ?]|] eqn:? | destruct r eqn:?]; cbn [bind] in H; [|discriminate] end. apply Ok_inj in H. subst E. cbn [ee_mat]. congruence || auto.
  Qed.
  Lemma cut_mat : forall e x y origin E, (x < y)%nat -> (y < 4)%nat -> symmetric 4 (el_mat e) -> get_ellipse round2 e x y false origin = Ok E -> symmetric 2 (ee_mat E).
  Proof.
    intros e x y origin E L I Y H. unfold get_ellipse in H. repeat match type of H with context [bind ?r _] => lazymatch r with Ok _ => fail | _ => first [destruct r as [[? ?]|] eqn:? | destruct r eqn:?]; cbn [bind] in H; [|discriminate] end end.
    destruct y as [|[|[|[|]]]]; [lia| | | |lia]; destruct x as [|[|[|]]]; try lia; cbn [delete_all Nat.eqb orb pred bind] in H; apply Ok_inj in H; subst E; cbn [ee_mat];
      intros i j Hi Hj; destruct i as [|[|]], j as [|[|]]; try lia; unfold delete, skip; cbn; auto; apply Y; lia.
  Qed.

  (** The two axes in decreasing order: centre and labels are exchanged, the matrix is not. *)
  Theorem C68_order_refuted : ~ (forall e x y origin E, proper e -> x <> y -> (x < 4)%nat -> (y < 4)%nat -> get_ellipse round2 e x y false origin = Ok E ->
    forall a b, form 2 (ee_mat E) (pair_of a b) = form 4 (el_mat e) (in_plane x y a b)).
  Proof.
    intros H. set (A := fun i j : nat => if Nat.eqb i j then INR (S i) else 0).
    set (e := Ellipsoid vzero 0 None A 1 vzero false (0, 0, 0) ["a"; "b"; "c"; "d"]%string).
    assert (P : proper e) by (split; [discriminate|split; cbn; auto]). assert (G : exists E, get_ellipse round2 e 1 0 false false = Ok E /\ ee_mat E = delete (delete A 3) 2) by (eexists; split; reflexivity).
    destruct G as (E & G & EM). specialize (H e 1%nat 0%nat false E P ltac:(lia) ltac:(lia) ltac:(lia) G 1 0). rewrite EM in H. unfold form, delete, skip, in_plane, pair_of, A in H. cbn in H. lra.
  Qed.

  (** With the energy last, the plot's axes are at right angles if one of them is the energy, else at the stored angle of the two. *)
  Theorem C68_angle : forall e x y projection origin E, (x < y)%nat -> (y < 4)%nat -> get_ellipse round2 e x y projection origin = Ok E ->
    ee_angle E = (if Nat.eqb y 3 then 90 else
      round2 (let '(a01, a12, a02) := el_angles e in if Nat.eqb x 1 then a12 else if Nat.eqb y 1 then a01 else a02)).
  Proof.
    intros e x y projection origin E L I H. unfold get_ellipse in H. repeat match type of H with context [bind ?r _] => first [destruct r as [[? ?]|] | destruct r]; cbn [bind] in H; [|discriminate] end.
    apply Ok_inj in H. subst E. cbn [ee_angle]. destruct (el_angles e) as [[a01 a12] a02]. destruct y as [|[|[|[|]]]]; [lia| | | |lia]; destruct x as [|[|[|]]]; try lia; auto.
  Qed.

  (** With the energy elsewhere the angle is that of the wrong pair. *)
  Theorem C68_angle_refuted : round2 60 = 60 -> ~ (forall e x y projection E, proper e -> (x < y)%nat -> (y < 4)%nat -> get_ellipse round2 e x y projection true = Ok E ->
    match el_axes e with Some axes => nth_error axes x = Some En \/ nth_error axes y = Some En | None => y = 3%nat end -> ee_angle E = 90).
  Proof.
    intros N H.
    set (e := Ellipsoid vzero 0 (Some [En; Vec (CInt 1) (CInt 0) (CInt 0); Vec (CInt 0) (CInt 1) (CInt 0); Vec (CInt 0) (CInt 0) (CInt 1)]) (fun _ _ => 1) 1 vzero false (60, 90, 90) ["a"; "b"; "c"; "d"]%string).
    assert (P : proper e). { split; [discriminate|]. split; [auto|]. split; auto. exists 0%nat. auto. }
    assert (G : exists E, get_ellipse round2 e 0 1 false true = Ok E /\ ee_angle E = round2 60) by (eexists; split; reflexivity).
    destruct G as (E & G & EA). specialize (H e 0%nat 1%nat false E P ltac:(lia) ltac:(lia) G). rewrite EA, N in H. assert (60 = 90) by (apply H; left; auto). lra.
  Qed.
End C68.
Print Assumptions C68_centre.
Print Assumptions C68_cut.
Print Assumptions C68_projection.
Print Assumptions C68_order_refuted.
Print Assumptions C68_angle.
Print Assumptions C68_angle_refuted.
