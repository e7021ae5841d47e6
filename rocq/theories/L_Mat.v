(** Finite sums, matrix products, quadratic forms, inverses. *)
From Coq Require Import Reals List Arith Bool Lra Lia FunctionalExtensionality.
From Verif Require Import Base M_Mat S_Mat.
Import ListNotations.
Open Scope R_scope.

(** ** Sums *)
Lemma sum_ext : forall n f g, (forall k, (k < n)%nat -> f k = g k) -> sum n f = sum n g.
Proof. induction n; intros f g H; cbn; auto. rewrite (IHn f g) by (intros; apply H; lia). rewrite H by lia. auto. Qed.
Lemma sum_zero : forall n f, (forall k, (k < n)%nat -> f k = 0) -> sum n f = 0.
Proof. induction n; intros f H; cbn; auto. rewrite IHn by (intros; apply H; lia). rewrite H by lia. lra. Qed.
Lemma sum_plus : forall n f g, sum n (fun k => f k + g k) = sum n f + sum n g.
Proof. induction n; intros; cbn; [lra|rewrite IHn; lra]. Qed.
Lemma sum_minus : forall n f g, sum n (fun k => f k - g k) = sum n f - sum n g.
Proof. induction n; intros; cbn; [lra|rewrite IHn; lra]. Qed.
Lemma sum_opp : forall n f, sum n (fun k => - f k) = - sum n f.
Proof. induction n; intros; cbn; [lra|rewrite IHn; lra]. Qed.
Lemma sum_scal : forall n c f, sum n (fun k => c * f k) = c * sum n f.
Proof. induction n; intros; cbn; [lra|rewrite IHn; lra]. Qed.
Lemma sum_scal_r : forall n c f, sum n (fun k => f k * c) = sum n f * c.
Proof. induction n; intros; cbn; [lra|rewrite IHn; lra]. Qed.
Lemma sum_swap : forall n m f, sum n (fun i => sum m (fun j => f i j)) = sum m (fun j => sum n (fun i => f i j)).
Proof.
  induction n; intros m f; cbn. { symmetry. apply sum_zero. auto. } rewrite IHn. rewrite <- sum_plus. auto.
Qed.
Lemma sum_S : forall n f, sum (S n) f = f 0%nat + sum n (fun k => f (S k)).
Proof. induction n; intros f; cbn in *; [lra|]. rewrite IHn. lra. Qed.
Lemma skip_lt : forall n i k, (i < S n)%nat -> (k < n)%nat -> (skip i k < S n)%nat.
Proof. intros. unfold skip. destruct (Nat.ltb_spec k i); lia. Qed.
Lemma skip_ne : forall i k, skip i k <> i.
Proof. intros. unfold skip. destruct (Nat.ltb_spec k i); lia. Qed.
Lemma skip_inj : forall i k l, skip i k = skip i l -> k = l.
Proof. intros i k l. unfold skip. destruct (Nat.ltb_spec k i), (Nat.ltb_spec l i); lia. Qed.
Lemma skip_onto : forall n i k, (i < S n)%nat -> (k < S n)%nat -> k <> i -> exists k', (k' < n)%nat /\ skip i k' = k.
Proof.
  intros n i k I K N. destruct (Nat.ltb_spec k i).
  - exists k. unfold skip. destruct (Nat.ltb_spec k i); split; lia.
  - exists (pred k). unfold skip. destruct (Nat.ltb_spec (pred k) i); split; lia.
Qed.
Lemma sum_skip : forall n i f, (i < S n)%nat -> sum (S n) f = f i + sum n (fun k => f (skip i k)).
Proof.
  induction n; intros i f I.
  - replace i with 0%nat by lia. cbn. lra.
  - destruct (Nat.eq_dec i (S n)) as [->|N].
    + cbn [sum]. unfold skip at 2. destruct (Nat.ltb_spec n (S n)); [|lia]. rewrite (sum_ext n (fun k => f (skip (S n) k)) f). { lra. }
      intros k K. unfold skip. destruct (Nat.ltb_spec k (S n)); [auto|lia].
    + change (sum (S (S n)) f) with (sum (S n) f + f (S n)). rewrite (IHn i f) by lia. cbn [sum]. unfold skip at 3. destruct (Nat.ltb_spec n i); [lia|]. lra.
Qed.
Lemma sum_nonneg : forall n f, (forall k, (k < n)%nat -> 0 <= f k) -> 0 <= sum n f.
Proof. induction n; intros f H; cbn; [lra|]. specialize (IHn f). assert (0 <= sum n f) by (apply IHn; intros; apply H; lia). pose proof (H n). assert (0 <= f n) by (apply H; lia). lra. Qed.
Lemma sum_nonneg_zero : forall n f, (forall k, (k < n)%nat -> 0 <= f k) -> sum n f = 0 -> forall k, (k < n)%nat -> f k = 0.
Proof.
  induction n; intros f H E k K; [lia|]. cbn in E. assert (0 <= sum n f) by (apply sum_nonneg; intros; apply H; lia). assert (0 <= f n) by (apply H; lia).
  destruct (Nat.eq_dec k n) as [->|N]; [lra|]. apply IHn; [intros; apply H; lia|lra|lia].
Qed.
Lemma eye_same : forall i, eye i i = 1.
Proof. intros. unfold eye. rewrite Nat.eqb_refl. auto. Qed.
Lemma eye_ne : forall i j, i <> j -> eye i j = 0.
Proof. intros i j N. unfold eye. destruct (Nat.eqb_spec i j); [congruence|auto]. Qed.
Lemma eye_sym : forall i j, eye i j = eye j i.
Proof. intros. unfold eye. rewrite Nat.eqb_sym. auto. Qed.
Lemma sum_eye_l : forall n i f, (i < n)%nat -> sum n (fun k => eye i k * f k) = f i.
Proof.
  intros [|n] i f I; [lia|]. rewrite (sum_skip n i) by auto. rewrite eye_same. rewrite sum_zero; [lra|]. intros k K. rewrite eye_ne; [lra|]. apply not_eq_sym, skip_ne.
Qed.
Lemma sum_eye_r : forall n i f, (i < n)%nat -> sum n (fun k => f k * eye k i) = f i.
Proof. intros n i f I. rewrite (sum_ext n _ (fun k => eye i k * f k)). { apply sum_eye_l. auto. } intros. rewrite eye_sym. lra. Qed.

(** ** Products *)
Lemma mul_ext : forall n A A' B B' i j, (forall k, (k < n)%nat -> A i k = A' i k) -> (forall k, (k < n)%nat -> B k j = B' k j) -> mul n A B i j = mul n A' B' i j.
Proof. intros. unfold mul. apply sum_ext. intros. rewrite H, H0; auto. Qed.
Lemma mul_assoc : forall n m A B C i j, mul m (mul n A B) C i j = mul n A (mul m B C) i j.
Proof.
  intros. unfold mul. rewrite (sum_ext m _ (fun k => sum n (fun l => A i l * B l k * C k j))).
  2:{ intros. rewrite <- sum_scal_r. auto. }
  rewrite sum_swap. apply sum_ext. intros. rewrite <- sum_scal. apply sum_ext. intros. lra.
Qed.

(** matrix times vector *)
Definition mulv (n : nat) (A : fmat) (x : nat -> R) : nat -> R := fun i => sum n (fun j => A i j * x j).
Lemma mulv_ext : forall n A x y i, (forall k, (k < n)%nat -> x k = y k) -> mulv n A x i = mulv n A y i.
Proof. intros. unfold mulv. apply sum_ext. intros. rewrite H; auto. Qed.
Lemma mulv_mul : forall n m A B x i, mulv m (mul n A B) x i = mulv n A (mulv m B x) i.
Proof.
  intros. unfold mulv, mul. rewrite (sum_ext m _ (fun k => sum n (fun l => A i l * B l k * x k))).
  2:{ intros. rewrite <- sum_scal_r. auto. }
  rewrite sum_swap. apply sum_ext. intros. rewrite <- sum_scal. apply sum_ext. intros. lra.
Qed.
Lemma mulv_eye : forall n x i, (i < n)%nat -> mulv n eye x i = x i.
Proof. intros. unfold mulv. apply sum_eye_l. auto. Qed.

(** ** Inverses *)
(** no vector but zero is sent to zero *)
Definition injective (n : nat) (A : fmat) : Prop := forall x, (forall i, (i < n)%nat -> mulv n A x i = 0) -> forall j, (j < n)%nat -> x j = 0.

Lemma exchange_lt : forall n r i, (r < n)%nat -> (i < n)%nat -> (exchange r i < n)%nat.
Proof. intros. unfold exchange. destruct (Nat.eqb_spec i 0), (Nat.eqb_spec i r); lia. Qed.
Lemma exchange_inv : forall r i, exchange r (exchange r i) = i.
Proof. intros. unfold exchange. destruct (Nat.eqb_spec i 0), (Nat.eqb_spec i r); subst; repeat match goal with |- context [Nat.eqb ?a ?b] => destruct (Nat.eqb_spec a b) end; lia. Qed.
Lemma exchange_sum : forall n r f, (r < n)%nat -> sum n (fun k => f (exchange r k)) = sum n f.
Proof.
  intros [|m] r f L; [lia|]. destruct r as [|r].
  - apply sum_ext. intros k K. f_equal. unfold exchange. destruct (Nat.eqb_spec k 0); auto.
  - rewrite !sum_S. destruct m as [|m]; [lia|]. rewrite (sum_skip m r (fun k => f (exchange (S r) (S k)))), (sum_skip m r (fun k => f (S k))) by lia.
    replace (exchange (S r) 0) with (S r) by reflexivity. replace (exchange (S r) (S r)) with 0%nat by (unfold exchange; cbn; rewrite Nat.eqb_refl; auto).
    rewrite (sum_ext m (fun k => f (exchange (S r) (S (skip r k)))) (fun k => f (S (skip r k)))). { lra. }
    intros k K. f_equal. pose proof (skip_ne r k). unfold exchange. cbn [Nat.eqb]. destruct (Nat.eqb_spec (skip r k) r); [congruence|auto].
Qed.
Lemma eye_exchange : forall r i j, eye (exchange r i) (exchange r j) = eye i j.
Proof.
  intros. unfold eye. destruct (Nat.eqb_spec i j) as [->|N]. { rewrite Nat.eqb_refl. auto. }
  destruct (Nat.eqb_spec (exchange r i) (exchange r j)) as [E|]; auto. exfalso. apply N. rewrite <- (exchange_inv r i), <- (exchange_inv r j), E. auto.
Qed.
Lemma pivot_some : forall n A r, pivot n A = Some r -> (r < n)%nat /\ A r 0%nat <> 0.
Proof.
  intros n A r H. apply find_some in H. destruct H as [I H]. apply in_seq in I. split; [lia|]. unfold nonzero in H. destruct (Req_EM_T (A r 0%nat) 0); [discriminate|auto].
Qed.
Lemma pivot_none : forall n A, pivot n A = None -> forall r, (r < n)%nat -> A r 0%nat = 0.
Proof.
  intros n A H r L. pose proof (find_none _ _ H r) as F. assert (I : In r (seq 0 n)) by (apply in_seq; lia). specialize (F I). unfold nonzero in F. cbn in F. destruct (Req_EM_T (A r 0%nat) 0); [auto|discriminate].
Qed.

(** the block inverse *)
Section Block.
  Context (m : nat) (P T : fmat).
  Notation p := (P 0%nat 0%nat).
  Hypothesis P0 : p <> 0.
  Hypothesis HT : inverse_of m (eliminate P) T.
  Let c : nat -> R := fun i => - sum m (fun k => T i k * P (S k) 0%nat) / p.
  Let b : nat -> R := fun j => - sum m (fun k => P 0%nat (S k) * T k j) / p.
  Let a : R := / p - sum m (fun k => P 0%nat (S k) * c k) / p.
  Definition block : fmat := fun i j => match i, j with O, O => a | O, S j' => b j' | S i', O => c i' | S i', S j' => T i' j' end.

  Lemma elim_right : forall i j, (i < m)%nat -> (j < m)%nat -> sum m (fun k => P (S i) (S k) * T k j) = eye i j + P (S i) 0%nat / p * sum m (fun k => P 0%nat (S k) * T k j).
  Proof.
    intros i j I J. destruct (HT i j I J) as [R _]. unfold mul, eliminate in R. rewrite (sum_ext m _ (fun k => P (S i) (S k) * T k j - (P (S i) 0%nat / p) * (P 0%nat (S k) * T k j))) in R.
    2:{ intros. field. auto. }
    rewrite sum_minus, sum_scal in R. lra.
  Qed.
  Lemma elim_left : forall i j, (i < m)%nat -> (j < m)%nat -> sum m (fun k => T i k * P (S k) (S j)) = eye i j + P 0%nat (S j) / p * sum m (fun k => T i k * P (S k) 0%nat).
  Proof.
    intros i j I J. destruct (HT i j I J) as [_ R]. unfold mul, eliminate in R. rewrite (sum_ext m _ (fun k => T i k * P (S k) (S j) - (P 0%nat (S j) / p) * (T i k * P (S k) 0%nat))) in R.
    2:{ intros. field. auto. }
    rewrite sum_minus, sum_scal in R. lra.
  Qed.
  Lemma pc : forall i, (i < m)%nat -> sum m (fun k => P (S i) (S k) * c k) = - P (S i) 0%nat / p + P (S i) 0%nat / p * sum m (fun k => P 0%nat (S k) * c k).
  Proof.
    intros i I. unfold c.
    rewrite (sum_ext m _ (fun k => - / p * sum m (fun l => P (S i) (S k) * T k l * P (S l) 0%nat))).
    2:{ intros k K. rewrite (sum_ext m (fun l => P (S i) (S k) * T k l * P (S l) 0%nat) (fun l => P (S i) (S k) * (T k l * P (S l) 0%nat))) by (intros; lra). rewrite sum_scal. field. auto. }
    rewrite sum_scal, sum_swap.
    rewrite (sum_ext m (fun j => sum m (fun k => P (S i) (S k) * T k j * P (S j) 0%nat)) (fun j => eye i j * P (S j) 0%nat + P (S i) 0%nat / p * (sum m (fun k => P 0%nat (S k) * T k j) * P (S j) 0%nat))).
    2:{ intros j J. rewrite sum_scal_r, elim_right by auto. lra. }
    rewrite sum_plus, sum_scal, sum_eye_l by auto.
    rewrite (sum_ext m (fun k => P 0%nat (S k) * (- sum m (fun l => T k l * P (S l) 0%nat) / p)) (fun k => - / p * sum m (fun l => P 0%nat (S k) * T k l * P (S l) 0%nat))).
    2:{ intros k K. rewrite (sum_ext m (fun l => P 0%nat (S k) * T k l * P (S l) 0%nat) (fun l => P 0%nat (S k) * (T k l * P (S l) 0%nat))) by (intros; lra). rewrite sum_scal. field. auto. }
    rewrite sum_scal, (sum_swap m m (fun k l => P 0%nat (S k) * T k l * P (S l) 0%nat)).
    rewrite (sum_ext m (fun j => sum m (fun k => P 0%nat (S k) * T k j * P (S j) 0%nat)) (fun j => sum m (fun k => P 0%nat (S k) * T k j) * P (S j) 0%nat)) by (intros; apply sum_scal_r).
    field. auto.
  Qed.
  Lemma bp : forall j, (j < m)%nat -> sum m (fun k => b k * P (S k) (S j)) = - P 0%nat (S j) / p + P 0%nat (S j) / p * sum m (fun k => b k * P (S k) 0%nat).
  Proof.
    intros j J. unfold b.
    rewrite (sum_ext m _ (fun k => - / p * sum m (fun l => P 0%nat (S l) * T l k * P (S k) (S j)))). 2:{ intros k K. rewrite sum_scal_r. field. auto. }
    rewrite sum_scal, sum_swap.
    rewrite (sum_ext m (fun l => sum m (fun k => P 0%nat (S l) * T l k * P (S k) (S j))) (fun l => P 0%nat (S l) * eye l j + P 0%nat (S j) / p * (P 0%nat (S l) * sum m (fun k => T l k * P (S k) 0%nat)))).
    2:{ intros l L. rewrite (sum_ext m _ (fun k => P 0%nat (S l) * (T l k * P (S k) (S j)))) by (intros; lra). rewrite sum_scal, elim_left by auto. lra. }
    rewrite sum_plus, sum_scal, sum_eye_r by auto.
    rewrite (sum_ext m (fun k => - sum m (fun k0 => P 0%nat (S k0) * T k0 k) / p * P (S k) 0%nat) (fun k => - / p * sum m (fun l => P 0%nat (S l) * T l k * P (S k) 0%nat))). 2:{ intros k K. rewrite sum_scal_r. field. auto. }
    rewrite sum_scal, (sum_swap m m (fun k l => P 0%nat (S l) * T l k * P (S k) 0%nat)).
    rewrite (sum_ext m (fun l => sum m (fun k => P 0%nat (S l) * T l k * P (S k) 0%nat)) (fun l => P 0%nat (S l) * sum m (fun k => T l k * P (S k) 0%nat))). { field. auto. }
    intros l L. rewrite <- sum_scal. apply sum_ext. intros. lra.
  Qed.
  Lemma a_alt : a = / p - sum m (fun k => b k * P (S k) 0%nat) / p.
  Proof.
    unfold a, b, c.
    rewrite (sum_ext m (fun k => P 0%nat (S k) * (- sum m (fun l => T k l * P (S l) 0%nat) / p)) (fun k => - / p * sum m (fun l => P 0%nat (S k) * T k l * P (S l) 0%nat))).
    2:{ intros k K. rewrite (sum_ext m (fun l => P 0%nat (S k) * T k l * P (S l) 0%nat) (fun l => P 0%nat (S k) * (T k l * P (S l) 0%nat))) by (intros; lra). rewrite sum_scal. field. auto. }
    rewrite (sum_ext m (fun k => - sum m (fun k0 => P 0%nat (S k0) * T k0 k) / p * P (S k) 0%nat) (fun k => - / p * sum m (fun l => P 0%nat (S l) * T l k * P (S k) 0%nat))). 2:{ intros k K. rewrite sum_scal_r. field. auto. }
    rewrite !sum_scal. rewrite (sum_swap m m (fun k l => P 0%nat (S k) * T k l * P (S l) 0%nat)). auto.
  Qed.
  Lemma block_inverse : inverse_of (S m) P block.
  Proof.
    intros i j I J. unfold mul. rewrite !sum_S. split.
    - destruct i as [|i], j as [|j]; cbn [block].
      + unfold a. rewrite eye_same. field. auto.
      + rewrite eye_ne by auto. unfold b. field. auto.
      + rewrite eye_ne by auto. unfold a. rewrite pc by lia. field. auto.
      + rewrite elim_right by lia. unfold b. change (eye (S i) (S j)) with (eye i j). field. auto.
    - destruct i as [|i], j as [|j]; cbn [block].
      + rewrite a_alt, eye_same. field. auto.
      + rewrite a_alt, bp by lia. rewrite eye_ne by auto. field. auto.
      + rewrite eye_ne by auto. unfold c. field. auto.
      + rewrite elim_left by lia. unfold c. change (eye (S i) (S j)) with (eye i j). field. auto.
  Qed.
End Block.

Lemma inv_correct : forall n A N, inv n A = Ok N -> inverse_of n A N.
Proof.
  induction n as [|m]; intros A N H. { intros i j I. lia. }
  cbn [inv] in H. destruct (pivot (S m) A) as [r|] eqn:PV; [|discriminate]. apply pivot_some in PV. destruct PV as [RL R0].
  destruct (inv m (eliminate (fun i j => A (exchange r i) j))) as [T|] eqn:E; cbn [bind] in H; [|discriminate].
  apply IHm in E. apply Ok_inj in H. set (P := fun i j => A (exchange r i) j) in *. assert (P0 : P 0%nat 0%nat <> 0) by exact R0.
  pose proof (block_inverse m P T P0 E) as B.
  assert (EN : forall i j, N i j = block m P T i (exchange r j)).
  { intros i j. rewrite <- H. unfold block. destruct i, (exchange r j); auto. }
  intros i j I J. split.
  - destruct (B (exchange r i) (exchange r j)) as [B1 _]; try (apply exchange_lt; auto). rewrite eye_exchange in B1. rewrite <- B1. unfold mul. apply sum_ext. intros k K. rewrite EN. unfold P. rewrite exchange_inv. auto.
  - destruct (B i j I J) as [_ B2]. rewrite <- B2. unfold mul. rewrite <- (exchange_sum (S m) r (fun k => block m P T i k * P k j)) by auto. apply sum_ext. intros k K. rewrite EN. unfold P. rewrite exchange_inv. auto.
Qed.
Lemma inv_exists : forall n A, injective n A -> exists N, inv n A = Ok N.
Proof.
  induction n as [|m]; intros A H. { exists A. auto. }
  cbn [inv]. destruct (pivot (S m) A) as [r|] eqn:PV.
  - apply pivot_some in PV. destruct PV as [RL R0]. set (P := fun i j => A (exchange r i) j). assert (P0 : P 0%nat 0%nat <> 0) by exact R0.
    destruct (IHm (eliminate P)) as (T & E).
    + intros x X j J. set (y := fun k => match k with O => - sum m (fun l => P 0%nat (S l) * x l) / P 0%nat 0%nat | S k' => x k' end).
      assert (Y : forall i, (i < S m)%nat -> mulv (S m) P y i = 0).
      { intros i I. unfold mulv. rewrite sum_S. cbn [y]. destruct i as [|i].
        - field. auto.
        - specialize (X i). unfold mulv, eliminate in X. rewrite (sum_ext m _ (fun k => P (S i) (S k) * x k - P (S i) 0%nat / P 0%nat 0%nat * (P 0%nat (S k) * x k))) in X by (intros; field; auto).
          rewrite sum_minus, sum_scal in X. assert (L : (i < m)%nat) by lia. specialize (X L). lra. }
      change (x j) with (y (S j)). apply H; [|lia]. intros i I. specialize (Y (exchange r i)). unfold P, mulv in Y. rewrite exchange_inv in Y. apply Y. apply exchange_lt; auto.
    + rewrite E. cbn [bind]. eauto.
  - exfalso. pose proof (pivot_none _ _ PV) as Z. specialize (H (fun k => eye k 0%nat)). assert (E : eye 0%nat 0%nat = 0). { apply H; [|lia]. intros i I. unfold mulv. rewrite sum_eye_r by lia. auto. }
    rewrite eye_same in E. lra.
Qed.
Lemma inverse_injective : forall n A N, inverse_of n A N -> injective n A.
Proof.
  intros n A N H x X j J. rewrite <- (mulv_eye n x j J).
  assert (E : mulv n eye x j = mulv n (mul n N A) x j). { unfold mulv. apply sum_ext. intros k K. destruct (H j k J K) as [_ ->]. auto. }
  rewrite E, mulv_mul. rewrite (mulv_ext n N _ (fun _ => 0)). { unfold mulv. apply sum_zero. intros. lra. } auto.
Qed.
Lemma inverse_unique : forall n A N N', inverse_of n A N -> inverse_of n A N' -> forall i j, (i < n)%nat -> (j < n)%nat -> N i j = N' i j.
Proof.
  intros n A N N' H H' i j I J.
  transitivity (mul n N (mul n A N') i j).
  - transitivity (mul n N eye i j). { symmetry. apply (sum_eye_r n j (fun k => N i k)). auto. } apply mul_ext; auto. intros k K. destruct (H' k j K J) as [-> _]. auto.
  - rewrite <- mul_assoc. transitivity (mul n eye N' i j). { apply mul_ext; auto. intros k K. destruct (H i k I K) as [_ ->]. auto. } apply (sum_eye_l n i (fun k => N' k j)). auto.
Qed.

(** ** Quadratic forms *)
Lemma form_ext : forall n A B x y, (forall i j, (i < n)%nat -> (j < n)%nat -> A i j = B i j) -> (forall i, (i < n)%nat -> x i = y i) -> form n A x = form n B y.
Proof. intros. unfold form. apply sum_ext. intros i I. apply sum_ext. intros j J. rewrite H, !H0; auto. Qed.
Lemma form_mulv : forall n A x, form n A x = sum n (fun i => x i * mulv n A x i).
Proof. intros. unfold form, mulv. apply sum_ext. intros. rewrite <- sum_scal. apply sum_ext. intros. lra. Qed.
Lemma form_plus : forall n A B x, form n (fadd A B) x = form n A x + form n B x.
Proof. intros. unfold form, fadd. rewrite <- sum_plus. apply sum_ext. intros. rewrite <- sum_plus. apply sum_ext. intros. lra. Qed.
Lemma form_scale : forall n c A x, form n (fscale c A) x = c * form n A x.
Proof. intros. unfold form, fscale. rewrite <- sum_scal. apply sum_ext. intros. rewrite <- sum_scal. apply sum_ext. intros. lra. Qed.
Lemma form_axis : forall n A i t, (i < n)%nat -> form n A (fun k => t * eye k i) = t * t * A i i.
Proof.
  intros n A i t I. unfold form.
  rewrite (sum_ext n _ (fun a => (t * (t * A a i)) * eye a i)).
  - rewrite sum_eye_r by auto. lra.
  - intros a Ha. rewrite (sum_ext n _ (fun b => (t * eye a i * A a b * t) * eye b i)) by (intros; lra). rewrite sum_eye_r by auto. lra.
Qed.
(** transport: the form of C^T A C at x is the form of A at C x *)
Lemma form_congruence : forall n m A C x, form n (mul m (mul m (transpose C) A) C) x = form m A (mulv n C x).
Proof.
  intros n m A C x. rewrite form_mulv.
  rewrite (sum_ext n _ (fun i => sum m (fun k => x i * C k i * mulv m A (mulv n C x) k))).
  2:{ intros i I. assert (E : mulv n (mul m (mul m (transpose C) A) C) x i = sum m (fun k => C k i * mulv m A (mulv n C x) k)).
      { rewrite mulv_mul, mulv_mul. auto. } rewrite E, <- sum_scal. apply sum_ext. intros. lra. }
  rewrite sum_swap, form_mulv. apply sum_ext. intros k K. rewrite sum_scal_r. f_equal. unfold mulv. apply sum_ext. intros. lra.
Qed.
Lemma posdef_injective : forall n A, posdef n A -> injective n A.
Proof.
  intros n A P x X j J. destruct (Req_dec (x j) 0) as [|N]; auto. exfalso. assert (F : 0 < form n A x) by (apply P; eauto).
  rewrite form_mulv, sum_zero in F; [lra|]. intros k K. rewrite X by auto. lra.
Qed.
Lemma posdef_diag : forall n A i, posdef n A -> (i < n)%nat -> 0 < A i i.
Proof. intros n A i P I. pose proof (form_axis n A i 1 I) as E. replace (A i i) with (1 * 1 * A i i) by lra. rewrite <- E. apply P. exists i. rewrite eye_same. split; auto; lra. Qed.
Lemma posdef_ext : forall n A B, (forall i j, (i < n)%nat -> (j < n)%nat -> A i j = B i j) -> posdef n A -> posdef n B.
Proof. intros n A B E P x X. rewrite <- (form_ext n A B x x); auto. Qed.
Lemma symmetric_inverse : forall n A N, symmetric n A -> inverse_of n A N -> symmetric n N.
Proof.
  intros n A N S H i j I J. apply (inverse_unique n A N (transpose N) H); auto. clear i j I J. intros i j I J. split.
  - destruct (H j i J I) as [_ E]. rewrite eye_sym, <- E. unfold mul, transpose. apply sum_ext. intros k K. rewrite (S i k) by auto. lra.
  - destruct (H j i J I) as [E _]. rewrite eye_sym, <- E. unfold mul, transpose. apply sum_ext. intros k K. rewrite (S k j) by auto. lra.
Qed.
Lemma posdef_inverse : forall n A N, symmetric n A -> posdef n A -> inverse_of n A N -> posdef n N.
Proof.
  intros n A N S P H x (k & K & X).
  assert (E : forall i, (i < n)%nat -> mulv n A (mulv n N x) i = x i).
  { intros i I. rewrite <- mulv_mul. rewrite <- (mulv_eye n x i I). unfold mulv. apply sum_ext. intros l L. destruct (H i l I L) as [-> _]. auto. }
  assert (F : form n N x = form n A (mulv n N x)).
  { rewrite !form_mulv. apply sum_ext. intros i I. rewrite (E i I). lra. }
  rewrite F. apply P. destruct (Req_dec (sum n (fun i => mulv n N x i * mulv n N x i)) 0) as [Z|Z].
  - exfalso. apply X. rewrite <- (E k K). unfold mulv at 1. apply sum_zero. intros j J.
    pose proof (sum_nonneg_zero n (fun i => mulv n N x i * mulv n N x i) ltac:(intros; cbn beta; nra) Z j J) as Q. cbn beta in Q. assert (mulv n N x j = 0) by nra. rewrite H0. lra.
  - clear - Z. revert Z. generalize (mulv n N x). intros y Z. induction n; cbn in Z; [lra|]. destruct (Req_dec (y n) 0) as [E|E].
    + rewrite E in Z. destruct IHn as (j & J & Y); [lra|]. exists j. split; [lia|auto].
    + exists n. split; [lia|auto].
Qed.
