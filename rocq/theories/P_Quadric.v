(** C43: projecting a quadric. *)
From Coq Require Import Reals List Arith Bool Lra Lia.
From Verif Require Import Base M_Mat S_Mat L_Mat.
Import ListNotations.
Open Scope R_scope.

Lemma skip_other : forall i k, skip i k = other i k.
Proof. reflexivity. Qed.

(** ** Completing the square *)
Section Square.
  Context (n : nat) (A : fmat) (i : nat).
  Hypothesis I : (i < S n)%nat.
  Notation q := (A i i).
  Let w (k : nat) : R := 1 / 2 * (A i k + A k i).
  Definition schur : fmat := fun k l => A (skip i k) (skip i l) - w (skip i k) * w (skip i l) / q.

  Lemma form_split : forall x, form (S n) A x = q * (x i * x i) + 2 * x i * sum n (fun k => w (skip i k) * x (skip i k)) + form n (delete A i) (without i x).
  Proof.
    intros x. unfold form. rewrite (sum_skip n i) by auto. rewrite (sum_skip n i) by auto.
    rewrite (sum_ext n (fun k => sum (S n) (fun j => x (skip i k) * A (skip i k) j * x j)) (fun k => x (skip i k) * A (skip i k) i * x i + sum n (fun l => x (skip i k) * A (skip i k) (skip i l) * x (skip i l)))) by (intros k K; rewrite (sum_skip n i) by auto; auto).
    rewrite sum_plus. unfold w.
    rewrite (sum_ext n (fun k => 1 / 2 * (A i (skip i k) + A (skip i k) i) * x (skip i k)) (fun k => 1 / 2 * (A i (skip i k) * x (skip i k)) + 1 / 2 * (A (skip i k) i * x (skip i k)))) by (intros; lra).
    rewrite sum_plus, !sum_scal.
    rewrite (sum_ext n (fun k => x i * A i (skip i k) * x (skip i k)) (fun k => x i * (A i (skip i k) * x (skip i k)))) by (intros; lra).
    rewrite (sum_ext n (fun k => x (skip i k) * A (skip i k) i * x i) (fun k => x i * (A (skip i k) i * x (skip i k)))) by (intros; lra).
    rewrite !sum_scal. unfold delete, without, other, skip. lra.
  Qed.
  Lemma form_schur : q <> 0 -> forall y, form n schur y = form n (delete A i) y - sum n (fun k => w (skip i k) * y k) * sum n (fun k => w (skip i k) * y k) / q.
  Proof.
    intros Q y. unfold form, schur.
    rewrite (sum_ext n _ (fun k => sum n (fun l => y k * A (skip i k) (skip i l) * y l) - (w (skip i k) * y k) * (sum n (fun l => w (skip i l) * y l) / q))).
    - rewrite sum_minus, sum_scal_r. unfold delete. field. auto.
    - intros k K. rewrite (sum_ext n _ (fun l => y k * A (skip i k) (skip i l) * y l - (w (skip i k) * y k / q) * (w (skip i l) * y l))) by (intros; field; auto).
      rewrite sum_minus, sum_scal. field. auto.
  Qed.
  Lemma form_square : q <> 0 -> forall x, form (S n) A x = form n schur (without i x) + q * ((x i + sum n (fun k => w (skip i k) * x (skip i k)) / q) * (x i + sum n (fun k => w (skip i k) * x (skip i k)) / q)).
  Proof. intros Q x. rewrite form_split, form_schur by auto. unfold without. change other with skip. field. auto. Qed.

  Lemma schur_minimises : 0 < q -> minimises n A i schur.
  Proof.
    intros Q. split.
    - intros x. rewrite form_square by lra. match goal with |- _ <= _ + _ * (?a * ?a) => pose proof (Rle_0_sqr a); unfold Rsqr in *; nra end.
    - intros y. set (t := sum n (fun k => w (skip i k) * y k) / q).
      set (x := fun k => if Nat.eqb k i then - t else if Nat.ltb k i then y k else y (pred k)).
      assert (E : forall k, (k < n)%nat -> x (skip i k) = y k).
      { intros k K. unfold x. pose proof (skip_ne i k). destruct (Nat.eqb_spec (skip i k) i); [lia|]. unfold skip. destruct (Nat.ltb_spec k i).
        - destruct (Nat.ltb_spec k i); [auto|lia]. - destruct (Nat.ltb_spec (S k) i); [lia|auto]. }
      exists x. split. { exact E. } rewrite form_square by lra.
      rewrite (form_ext n schur schur (without i x) y) by auto.
      replace (sum n (fun k => w (skip i k) * x (skip i k))) with (sum n (fun k => w (skip i k) * y k)) by (apply sum_ext; intros; rewrite E; auto).
      assert (X : x i = - t) by (unfold x; rewrite Nat.eqb_refl; auto). rewrite X. fold t. ring.
  Qed.
  Lemma proj_schur : 1 / 100000000 <= q -> exists B, quadric_proj (S n) A i = Ok B /\ forall k l, B k l = schur k l.
  Proof.
    intros Q. unfold quadric_proj. destruct (Nat.leb_spec (S n) i); [lia|]. unfold quadric_zero.
    destruct (Rlt_dec (Rabs q) (/ 100000000)) as [C|C]. { rewrite Rabs_right in C by lra. lra. }
    destruct (Rlt_dec q 0); [lra|]. eexists. split; [reflexivity|]. intros k l. unfold delete, schur, w.
    pose proof (sqrt_lt_R0 q ltac:(lra)) as S0. pose proof (sqrt_sqrt q ltac:(lra)) as S2. rewrite <- S2 at 3. field. lra.
  Qed.
End Square.

Lemma minimises_ext : forall n A i B B', (forall k l, B k l = B' k l) -> minimises n A i B -> minimises n A i B'.
Proof.
  intros n A i B B' E [H1 H2]. assert (F : forall x, form n B x = form n B' x) by (intros; apply form_ext; auto). split.
  - intros x. rewrite <- F. auto. - intros y. destruct (H2 y) as (x & X1 & X2). exists x. rewrite <- F. auto.
Qed.

(** ** C43 *)
(** The projected quadric is, for each position of the other coordinates, the least value along the removed one. *)
Theorem C43_minimum : forall n A i, (i < S n)%nat -> 1 / 100000000 <= A i i ->
  exists B, quadric_proj (S n) A i = Ok B /\ minimises n A i B.
Proof.
  intros n A i I Q. destruct (proj_schur n A i I Q) as (B & E & S). exists B. split; auto. apply (minimises_ext n A i (schur A i)).
  - intros. symmetry. auto. - apply schur_minimises; auto. lra.
Qed.
Print Assumptions C43_minimum.

Lemma delete_posdef : forall n A i, (i < S n)%nat -> posdef (S n) A -> posdef n (delete A i).
Proof.
  intros n A i I P y (k & K & Y).
  set (x := fun k => if Nat.eqb k i then 0 else if Nat.ltb k i then y k else y (pred k)).
  assert (E : forall k, (k < n)%nat -> x (skip i k) = y k).
  { intros k' K'. unfold x. pose proof (skip_ne i k'). destruct (Nat.eqb_spec (skip i k') i); [lia|]. unfold skip. destruct (Nat.ltb_spec k' i).
    - destruct (Nat.ltb_spec k' i); [auto|lia]. - destruct (Nat.ltb_spec (S k') i); [lia|auto]. }
  assert (F : form (S n) A x = form n (delete A i) y).
  { rewrite form_split with (i := i) by auto. assert (X : x i = 0) by (unfold x; rewrite Nat.eqb_refl; auto). rewrite X.
    rewrite (form_ext n (delete A i) (delete A i) (without i x) y) by auto. ring. }
  rewrite <- F. apply P. exists (skip i k). split; [apply skip_lt; auto|rewrite E; auto].
Qed.
Lemma minimises_posdef : forall n A i B, (i < S n)%nat -> minimises n A i B -> posdef (S n) A -> posdef n B.
Proof.
  intros n A i B I [_ M] P y (k & K & Y). destruct (M y) as (x & X & <-). apply P. exists (other i k). split; [apply (skip_lt n i k); auto|]. fold (without i x k). rewrite X; auto.
Qed.

(** Every positive definite matrix can be projected along every axis, and the result is positive definite; symmetry is kept. *)
Theorem C43_definite : forall n A i, (i < S n)%nat -> posdef (S n) A ->
  exists B, quadric_proj (S n) A i = Ok B /\ posdef n B /\ (symmetric (S n) A -> symmetric n B).
Proof.
  intros n A i I P. pose proof (posdef_diag _ _ i P I) as Q. destruct (Rlt_dec (A i i) (1 / 100000000)) as [L|L].
  - exists (delete A i). split; [|split].
    + unfold quadric_proj. destruct (Nat.leb_spec (S n) i); [lia|]. destruct (Rlt_dec (Rabs (A i i)) quadric_zero) as [|C]; auto. exfalso. apply C. unfold quadric_zero. rewrite Rabs_right; lra.
    + apply delete_posdef; auto.
    + intros S k l K L'. unfold delete. apply S; apply skip_lt; auto.
  - destruct (proj_schur n A i I) as (B & E & S); [lra|]. exists B. split; [auto|split].
    + apply (minimises_posdef n A i B I); auto. apply (minimises_ext n A i (schur A i)). { intros. symmetry. auto. } apply schur_minimises; auto.
    + intros Y k l K L'. rewrite !S. unfold schur. rewrite (Y (skip i k) (skip i l)) by (apply skip_lt; auto). field. lra.
Qed.
Print Assumptions C43_definite.

(** The projected matrix is the inverse of the corresponding block of the inverse. *)
Theorem C43_inverse : forall n A N i, (i < S n)%nat -> symmetric (S n) A -> 1 / 100000000 <= A i i -> inverse_of (S n) A N ->
  exists B, quadric_proj (S n) A i = Ok B /\ inverse_of n B (fun k l => N (other i k) (other i l)).
Proof.
  intros n A N i I Y Q H. destruct (proj_schur n A i I Q) as (B & E & S). exists B. split; auto. change other with skip.
  assert (SC : forall k l, (k < n)%nat -> (l < n)%nat -> B k l = A (skip i k) (skip i l) - A (skip i k) i * A i (skip i l) / A i i).
  { intros k l K L. rewrite S. unfold schur. rewrite (Y (skip i k) i), (Y (skip i l) i) by (auto; apply skip_lt; auto). field. lra. }
  intros k l K L. pose proof (skip_lt n i k I K) as SK. pose proof (skip_lt n i l I L) as SL.
  assert (EE : eye (skip i k) (skip i l) = eye k l).
  { unfold eye. destruct (Nat.eqb_spec k l) as [->|NE]; [rewrite Nat.eqb_refl; auto|]. destruct (Nat.eqb_spec (skip i k) (skip i l)) as [C|]; auto. apply skip_inj in C. contradiction. }
  split.
  - destruct (H _ _ SK SL) as [H1 _]. destruct (H _ _ I SL) as [H2 _]. unfold mul in *. rewrite (sum_skip n i) in H1, H2 by auto. rewrite eye_ne in H2 by (apply not_eq_sym, skip_ne). rewrite EE in H1.
    rewrite (sum_ext n _ (fun m => A (skip i k) (skip i m) * N (skip i m) (skip i l) - (A (skip i k) i / A i i) * (A i (skip i m) * N (skip i m) (skip i l)))).
    2:{ intros m Hm. rewrite SC by auto. field. lra. }
    rewrite sum_minus, sum_scal, <- H1. replace (sum n (fun k0 => A i (skip i k0) * N (skip i k0) (skip i l))) with (- (A i i * N i (skip i l))) by lra. field. lra.
  - destruct (H _ _ SK SL) as [_ H1]. destruct (H _ _ SK I) as [_ H2]. unfold mul in *. rewrite (sum_skip n i) in H1, H2 by auto. rewrite eye_ne in H2 by apply skip_ne. rewrite EE in H1.
    rewrite (sum_ext n _ (fun m => N (skip i k) (skip i m) * A (skip i m) (skip i l) - (A i (skip i l) / A i i) * (N (skip i k) (skip i m) * A (skip i m) i))).
    2:{ intros m Hm. rewrite SC by auto. field. lra. }
    rewrite sum_minus, sum_scal, <- H1. replace (sum n (fun k0 => N (skip i k) (skip i k0) * A (skip i k0) i)) with (- (N (skip i k) i * A i i)) by lra. field. lra.
Qed.
Print Assumptions C43_inverse.

Lemma stiff_posdef : forall n A, stiff n A -> posdef n A.
Proof. intros n A S x (k & K & X). specialize (S x k K). assert (0 < x k * x k) by (pose proof (Rsqr_pos_lt (x k) X); unfold Rsqr in *; auto). lra. Qed.
Lemma stiff_diag : forall n A i, (i < n)%nat -> stiff n A -> 1 / 100000000 <= A i i.
Proof. intros n A i I S. specialize (S (fun k => 1 * eye k i) i I). rewrite form_axis in S by auto. rewrite eye_same in S. lra. Qed.
Lemma minimises_stiff : forall n A i B, (i < S n)%nat -> minimises n A i B -> stiff (S n) A -> stiff n B.
Proof.
  intros n A i B I [_ M] S y k K. destruct (M y) as (x & X & <-). specialize (S x (other i k) (skip_lt n i k I K)). rewrite <- (X k K). exact S.
Qed.

Lemma other_twice : forall i j k, (i < j)%nat -> other j (other i k) = other i (other (pred j) k).
Proof. intros i j k L. unfold other. repeat match goal with |- context [Nat.ltb ?a ?b] => destruct (Nat.ltb_spec a b) end; lia. Qed.
Lemma other_below : forall i j, (i < j)%nat -> other j i = i.
Proof. intros. unfold other. destruct (Nat.ltb_spec i j); lia. Qed.
Lemma other_above : forall i j, (i < j)%nat -> other i (pred j) = j.
Proof. intros. unfold other. destruct (Nat.ltb_spec (pred j) i); lia. Qed.

(** The order of two projections does not matter: first coordinate j then i, or first i then j (which has moved to j - 1). *)
Theorem C43_order : forall n A i j, (i < j)%nat -> (j < S (S n))%nat -> symmetric (S (S n)) A -> stiff (S (S n)) A ->
  exists B B' C C', quadric_proj (S (S n)) A j = Ok B /\ quadric_proj (S n) B i = Ok C /\
    quadric_proj (S (S n)) A i = Ok B' /\ quadric_proj (S n) B' (pred j) = Ok C' /\
    forall k l, (k < n)%nat -> (l < n)%nat -> C k l = C' k l.
Proof.
  intros n A i j L J Y SF. assert (I : (i < S (S n))%nat) by lia.
  destruct (proj_schur (S n) A j J (stiff_diag _ _ _ J SF)) as (B & E1 & SB). destruct (proj_schur (S n) A i I (stiff_diag _ _ _ I SF)) as (B' & E2 & SB').
  pose proof (stiff_diag _ _ _ J SF) as Qj. pose proof (stiff_diag _ _ _ I SF) as Qi.
  assert (ST : stiff (S n) B). { apply (minimises_stiff (S n) A j); auto. apply (minimises_ext _ _ _ (schur A j)). { intros. symmetry. auto. } apply schur_minimises; auto. lra. }
  assert (ST' : stiff (S n) B'). { apply (minimises_stiff (S n) A i); auto. apply (minimises_ext _ _ _ (schur A i)). { intros. symmetry. auto. } apply schur_minimises; auto. lra. }
  assert (I1 : (i < S n)%nat) by lia. assert (J1 : (pred j < S n)%nat) by lia.
  destruct (proj_schur n B i I1 (stiff_diag _ _ _ I1 ST)) as (C & E3 & SC). destruct (proj_schur n B' (pred j) J1 (stiff_diag _ _ _ J1 ST')) as (C' & E4 & SC').
  pose proof (stiff_diag _ _ _ I1 ST) as Qij. pose proof (stiff_diag _ _ _ J1 ST') as Qji.
  exists B, B', C, C'. repeat (split; [assumption|]). intros k l K Hl. rewrite SC, SC'. unfold schur. rewrite !SB, !SB'. rewrite SB in Qij. rewrite SB' in Qji. unfold schur in *.
  change skip with other in *. rewrite (other_twice i j k), (other_twice i j l), (other_below i j), (other_above i j) by auto. rewrite (other_below i j) in Qij by auto. rewrite (other_above i j) in Qji by auto.
  set (k' := other i (other (pred j) k)). set (l' := other i (other (pred j) l)).
  assert (K' : (k' < S (S n))%nat) by (apply (skip_lt (S n) i); auto; apply (skip_lt n (pred j)); auto).
  assert (L' : (l' < S (S n))%nat) by (apply (skip_lt (S n) i); auto; apply (skip_lt n (pred j)); auto).
  clearbody k' l'. rewrite (Y k' i), (Y k' j), (Y l' i), (Y l' j), (Y j i) by auto. rewrite (Y j i) in Qij, Qji by auto.
  set (aij := A i j) in *. set (aii := A i i) in *. set (ajj := A j j) in *.
  assert (D : aii * ajj - aij * aij <> 0). { intros D. assert (aii - 1 / 2 * (aij + aij) * (1 / 2 * (aij + aij)) / ajj = (aii * ajj - aij * aij) / ajj) as X by (field; lra). rewrite X, D in Qij. unfold Rdiv in Qij. rewrite Rmult_0_l in Qij. lra. }
  field. repeat split; try lra; intros Z; apply D; lra.
Qed.
Print Assumptions C43_order.

(** Below the cut-off 1e-8 the row and column are only deleted, and the result is not the projection. *)
Theorem C43_soft_axis_refuted : ~ (forall n A i, (i < S n)%nat -> symmetric (S n) A -> posdef (S n) A ->
  exists B, quadric_proj (S n) A i = Ok B /\ minimises n A i B).
Proof.
  intros H. set (A := fun i j : nat => match i, j with O, O => 1 | S O, S O => 1 / 1000000000 | _, _ => 1 / 100000 end : R).
  destruct (H 1%nat A 1%nat) as (B & E & M1 & M2).
  - lia.
  - intros i j I J. destruct i as [|[|]], j as [|[|]]; auto; lia.
  - intros x (k & K & X). unfold form. cbn. replace (0 + (0 + x 0%nat * 1 * x 0%nat + x 0%nat * (1 / 100000) * x 1%nat) + (0 + x 1%nat * (1 / 100000) * x 0%nat + x 1%nat * (1 / 1000000000) * x 1%nat))
      with ((x 0%nat + x 1%nat / 100000) * (x 0%nat + x 1%nat / 100000) + 9 / 10000000000 * (x 1%nat * x 1%nat)) by field.
    pose proof (Rle_0_sqr (x 0%nat + x 1%nat / 100000)) as S1. pose proof (Rle_0_sqr (x 1%nat)) as S2. unfold Rsqr in *.
    destruct (Req_dec (x 1%nat) 0) as [Z|Z].
    + assert (x 0%nat <> 0) as Z0. { destruct k as [|[|k]]; [auto|congruence|lia]. } rewrite Z. pose proof (Rsqr_pos_lt _ Z0). unfold Rsqr in *. replace (x 0%nat + 0 / 100000) with (x 0%nat) by field. lra.
    + pose proof (Rsqr_pos_lt _ Z). unfold Rsqr in *. lra.
  - unfold quadric_proj in E. cbn in E. destruct (Rlt_dec (Rabs (1 / 1000000000)) quadric_zero) as [C|C].
    + apply Ok_inj in E. subst B. specialize (M1 (fun k => match k with O => 1 | _ => - 10000 end)). unfold form, without, other, delete, skip in M1. cbn in M1. lra.
    + apply C. unfold quadric_zero. rewrite Rabs_right; lra.
Qed.
Print Assumptions C43_soft_axis_refuted.

(** A concrete case: a stiff symmetric matrix with correlated axes. *)
Example C43_example : exists A, symmetric 2 A /\ stiff 2 A /\ A 0%nat 1%nat <> 0.
Proof.
  exists (fun i j : nat => match i, j with O, O => 2 | S O, S O => 2 | _, _ => 1 end). repeat split.
  - intros i j I J. destruct i as [|[|]], j as [|[|]]; auto; lia.
  - intros x k K. unfold form. cbn. destruct k as [|[|]]; [| |lia].
    + pose proof (Rle_0_sqr (x 0%nat + x 1%nat)). pose proof (Rle_0_sqr (x 0%nat)). pose proof (Rle_0_sqr (x 1%nat)). unfold Rsqr in *. lra.
    + pose proof (Rle_0_sqr (x 0%nat + x 1%nat)). pose proof (Rle_0_sqr (x 0%nat)). pose proof (Rle_0_sqr (x 1%nat)). unfold Rsqr in *. lra.
  - cbn. lra.
Qed.
