(** Lemmas for C45 and C46. *)
From Coq Require Import Reals List Arith Bool Lra Lia.
From Verif Require Import Base M_Mat S_Mat L_Mat P_Quadric.
Import ListNotations.
Open Scope R_scope.

Lemma classic_zero : forall n (x : nat -> R), (forall k, (k < n)%nat -> x k = 0) \/ (exists k, (k < n)%nat /\ x k <> 0).
Proof.
  induction n; intros x. { left. intros. lia. } destruct (IHn x) as [Z|(k & K & Z)]; [|right; exists k; split; auto; lia].
  destruct (Req_dec (x n) 0) as [E|E]; [left|right; exists n; auto]. intros k K. destruct (Nat.eq_dec k n) as [->|]; auto. apply Z. lia.
Qed.

(** ** Marginal of a quadratic form *)
Section Marginal.
  Context (m n : nat) (H Hi L C N : fmat) (d : nat -> R).
  Hypothesis SH : symmetric m H.
  Hypothesis PH : posdef m H.
  Hypothesis IH : inverse_of m H Hi.
  Hypothesis EC : forall i j, (i < n)%nat -> (j < n)%nat -> C i j = mul m (mul m L Hi) (transpose L) i j + (if Nat.eqb i j then d i * d i else 0).
  Hypothesis IC : inverse_of n C N.

  Let best (v : nat -> R) : nat -> R := mulv m Hi (mulv n (transpose L) (mulv n N v)).

  Lemma cov_best : forall v i, (i < n)%nat -> mulv m L (best v) i + d i * d i * mulv n N v i = v i.
  Proof using IC EC.
    intros v i I. set (y := mulv n N v).
    assert (E : mulv n C y i = v i).
    { unfold y. rewrite <- mulv_mul. transitivity (mulv n eye v i); [|apply mulv_eye; auto]. unfold mulv. apply sum_ext. intros k K. destruct (IC i k I K) as [-> _]. auto. }
    rewrite <- E. change (mulv n C y i) with (sum n (fun k => C i k * y k)). rewrite (sum_ext n _ (fun k => mul m (mul m L Hi) (transpose L) i k * y k + d i * d i * (eye i k * y k))).
    - rewrite sum_plus, sum_scal, sum_eye_l by auto. f_equal. unfold best. fold y.
      rewrite <- mulv_mul. rewrite <- mulv_mul. reflexivity.
    - intros k K. rewrite EC by auto. unfold eye. destruct (Nat.eqb i k); lra.
  Qed.

  Lemma H_best : forall v k, (k < m)%nat -> mulv m H (best v) k = mulv n (transpose L) (mulv n N v) k.
  Proof using IH.
    intros v k K. unfold best. rewrite <- mulv_mul. transitivity (mulv m eye (mulv n (transpose L) (mulv n N v)) k); [|apply mulv_eye; auto]. set (w := mulv n (transpose L) (mulv n N v)). unfold mulv. apply sum_ext. intros l Hl.
    destruct (IH k l K Hl) as [-> _]. auto.
  Qed.

  Lemma dual : forall u y, sum m (fun k => u k * mulv n (transpose L) y k) = sum n (fun i => y i * mulv m L u i).
  Proof using.
    clear. intros u y. unfold mulv, transpose.
    rewrite (sum_ext m _ (fun k => sum n (fun i => u k * (L i k * y i)))) by (intros; rewrite <- sum_scal; auto).
    rewrite sum_swap. apply sum_ext. intros i I. rewrite <- sum_scal. apply sum_ext. intros. ring.
  Qed.

  Lemma form_diff : forall u w, form m H (fun k => u k - w k) = form m H u - 2 * sum m (fun k => u k * mulv m H w k) + sum m (fun k => w k * mulv m H w k).
  Proof using SH.
    intros u w. rewrite <- form_mulv. unfold form, mulv.
    rewrite (sum_ext m _ (fun i => sum m (fun j => u i * H i j * u j) - sum m (fun j => u i * H i j * w j) - sum m (fun j => w i * H i j * u j) + sum m (fun j => w i * H i j * w j))).
    2:{ intros i I. rewrite <- !sum_minus, <- sum_plus. apply sum_ext. intros. ring. }
    rewrite sum_plus, !sum_minus.
    replace (sum m (fun i => sum m (fun j => w i * H i j * u j))) with (sum m (fun i => sum m (fun j => u i * H i j * w j))).
    2:{ rewrite sum_swap. apply sum_ext. intros i I. apply sum_ext. intros j J. rewrite (SH i j) by auto. ring. }
    replace (sum m (fun k => u k * sum m (fun j => H k j * w j))) with (sum m (fun i => sum m (fun j => u i * H i j * w j))).
    2:{ apply sum_ext. intros. rewrite <- sum_scal. apply sum_ext. intros. ring. }
    lra.
  Qed.

  Lemma form_nonneg : forall x, 0 <= form m H x.
  Proof using PH.
    intros x. destruct (classic_zero m x) as [Z|Z].
    - rewrite (form_ext m H H x (fun _ => 0)) by auto. unfold form. rewrite sum_zero; [lra|]. intros. apply sum_zero. intros. ring.
    - left. apply PH. auto.
  Qed.

  (** x^T N x is the least cost of producing x *)
  Theorem marginal_le : forall u z v, (forall i, (i < n)%nat -> mulv m L u i + d i * z i = v i) ->
    form n N v <= form m H u + sum n (fun i => z i * z i).
  Proof using SH PH IH EC IC.
    intros u z v E. set (y := mulv n N v).
    assert (A : 0 <= form m H (fun k => u k - best v k) + sum n (fun i => (z i - d i * y i) * (z i - d i * y i))).
    { pose proof (form_nonneg (fun k => u k - best v k)). assert (0 <= sum n (fun i => (z i - d i * y i) * (z i - d i * y i))).
      { apply sum_nonneg. intros. apply (Rle_0_sqr (z k - d k * y k)). } lra. }
    rewrite form_diff in A.
    rewrite (sum_ext m (fun k => u k * mulv m H (best v) k) (fun k => u k * mulv n (transpose L) y k)) in A by (intros; rewrite H_best; auto).
    rewrite (sum_ext m (fun k => best v k * mulv m H (best v) k) (fun k => best v k * mulv n (transpose L) y k)) in A by (intros; rewrite H_best; auto).
    rewrite !dual in A.
    rewrite (sum_ext n (fun i => (z i - d i * y i) * (z i - d i * y i)) (fun i => z i * z i - 2 * (y i * (d i * z i)) + y i * (d i * d i * y i))) in A by (intros; ring).
    rewrite sum_plus, sum_minus, sum_scal in A.
    assert (V1 : sum n (fun i => y i * mulv m L u i) + sum n (fun i => y i * (d i * z i)) = form n N v).
    { rewrite <- sum_plus, form_mulv. apply sum_ext. intros i I. fold y. rewrite <- (E i I). ring. }
    assert (V2 : sum n (fun i => y i * mulv m L (best v) i) + sum n (fun i => y i * (d i * d i * y i)) = form n N v).
    { rewrite <- sum_plus, form_mulv. apply sum_ext. intros i I. fold y. rewrite <- (cov_best v i I). fold y. ring. }
    lra.
  Qed.

  Theorem marginal_eq : forall v, exists u z, (forall i, (i < n)%nat -> mulv m L u i + d i * z i = v i) /\
    (forall i, d i = 0 -> z i = 0) /\ form m H u + sum n (fun i => z i * z i) = form n N v.
  Proof using SH IH EC IC.
    intros v. set (y := mulv n N v). exists (best v), (fun i => d i * y i). split; [|split].
    - intros i I. rewrite <- (cov_best v i I). fold y. ring.
    - intros i Z. rewrite Z. ring.
    - rewrite form_mulv.
      rewrite (sum_ext m _ (fun k => best v k * mulv n (transpose L) y k)) by (intros; rewrite H_best; auto). rewrite dual.
      rewrite <- sum_plus, form_mulv. apply sum_ext. intros i I. fold y. rewrite <- (cov_best v i I). fold y. ring.
  Qed.
End Marginal.

(** ** Determinants *)
Lemma determinant_pos : forall n A, symmetric n A -> posdef n A -> 0 < determinant n A.
Proof.
  induction n as [|m IHm]; intros A Y P. { cbn. lra. }
  pose proof (posdef_diag _ _ 0%nat P ltac:(lia)) as Q.
  assert (PV : pivot (S m) A = Some 0%nat). { unfold pivot. cbn [seq find]. unfold nonzero. destruct (Req_EM_T (A 0%nat 0%nat) 0); [lra|auto]. }
  cbn [determinant]. rewrite PV. cbn [Nat.eqb exchange].
  set (P0 := fun i j => A (exchange 0 i) j).
  assert (EP : forall i j, P0 i j = A i j) by (intros [|i] j; reflexivity).
  assert (E : forall i j, (i < m)%nat -> (j < m)%nat -> eliminate P0 i j = schur A 0 i j).
  { intros i j I J. unfold eliminate. rewrite !EP. unfold schur, skip. cbn [Nat.ltb Nat.leb]. rewrite (Y (S i) 0%nat), (Y (S j) 0%nat) by lia. field. lra. }
  assert (SP : posdef m (schur A 0)). { apply (minimises_posdef m A 0); auto; [lia|]. apply schur_minimises; auto. lia. }
  assert (0 < determinant m (eliminate P0)).
  { apply IHm.
    - intros i j I J. rewrite !E by auto. unfold schur. rewrite (Y (skip 0 i) (skip 0 j)) by (apply skip_lt; lia). field. lra.
    - apply posdef_ext with (schur A 0); auto. intros. symmetry. auto. }
  change (A (exchange 0 0) 0%nat) with (A 0%nat 0%nat). apply Rmult_lt_0_compat; auto. lra.
Qed.

Lemma posdef_congruence : forall n m A C, posdef m A -> (forall x, (forall i, (i < m)%nat -> mulv n C x i = 0) -> forall k, (k < n)%nat -> x k = 0) ->
  posdef n (mul m (mul m (transpose C) A) C).
Proof.
  intros n m A C P J x (k & K & X). rewrite form_congruence. apply P.
  destruct (classic_zero m (mulv n C x)) as [Z|Z]; auto. exfalso. apply X. apply J; auto.
Qed.
Lemma symmetric_congruence : forall n m A C, symmetric m A -> symmetric n (mul m (mul m (transpose C) A) C).
Proof.
  intros n m A C Y i j I J. unfold mul, transpose.
  transitivity (sum m (fun k => sum m (fun l => C l i * A l k * C k j))). { apply sum_ext. intros. rewrite <- sum_scal_r. auto. }
  rewrite sum_swap. apply sum_ext. intros k K. rewrite <- sum_scal_r. apply sum_ext. intros l Hl. rewrite (Y k l) by auto. ring.
Qed.
