(** C70: convolution of a model with the resolution. *)
From Coq Require Import Reals List ZArith Arith Bool Lra Lia Psatz Permutation FunctionalExtensionality.
From Verif Require Import Base LinAlg M_Mat M_ScanData M_Conv S_Mat S_Conv S_ScanData L_Mat L_Reso P_Quadric P_Widths P_Filter.
From Verif Require L_ScanData.
Import ListNotations.
Open Scope R_scope.

Lemma form3 : forall A x, symmetric 3 A -> form 3 A x = A 0%nat 0%nat * (x 0%nat * x 0%nat) + A 1%nat 1%nat * (x 1%nat * x 1%nat) + A 2%nat 2%nat * (x 2%nat * x 2%nat)
  + 2 * A 0%nat 1%nat * (x 0%nat * x 1%nat) + 2 * A 0%nat 2%nat * (x 0%nat * x 2%nat) + 2 * A 1%nat 2%nat * (x 1%nat * x 2%nat).
Proof.
  intros A x S. unfold form. cbn. rewrite (S 1 0)%nat, (S 2 0)%nat, (S 2 1)%nat by lia. ring.
Qed.
Definition vec3 (a b c : R) : nat -> R := fun k => nth k [a; b; c] 0.
(** ** Positive determinants *)
Lemma det3_pos : forall m, symmetric 3 m -> posdef 3 m -> 0 < det3 m /\ 0 < m 0%nat 0%nat * m 1%nat 1%nat - m 0%nat 1%nat * m 0%nat 1%nat.
Proof.
  intros m S P. pose proof (posdef_diag 3 m 0 P ltac:(lia)) as D0.
  assert (M : 0 < m 0%nat 0%nat * m 1%nat 1%nat - m 0%nat 1%nat * m 0%nat 1%nat).
  { pose proof (P (vec3 (- m 0%nat 1%nat) (m 0%nat 0%nat) 0)) as F. rewrite form3 in F by auto. cbn in F.
    assert (0 < m 0%nat 0%nat * (m 0%nat 0%nat * m 1%nat 1%nat - m 0%nat 1%nat * m 0%nat 1%nat)).
    { match type of F with _ -> 0 < ?t => replace (m 0%nat 0%nat * (m 0%nat 0%nat * m 1%nat 1%nat - m 0%nat 1%nat * m 0%nat 1%nat)) with t by ring end. apply F. exists 1%nat. split; [lia|]. cbn. lra. }
    apply (Rmult_lt_reg_l (m 0%nat 0%nat)); lra. }
  split; auto.
  set (c0 := m 0%nat 1%nat * m 1%nat 2%nat - m 0%nat 2%nat * m 1%nat 1%nat). set (c1 := m 0%nat 2%nat * m 0%nat 1%nat - m 0%nat 0%nat * m 1%nat 2%nat). set (c2 := m 0%nat 0%nat * m 1%nat 1%nat - m 0%nat 1%nat * m 0%nat 1%nat) in *.
  pose proof (P (vec3 c0 c1 c2)) as F. rewrite form3 in F by auto. cbn in F.
  assert (E : 0 < c2 * det3 m).
  { match type of F with _ -> 0 < ?t => replace (c2 * det3 m) with t end. { apply F. exists 2%nat. split; [lia|]. cbn. lra. }
    unfold det3. rewrite (S 1 0)%nat, (S 2 0)%nat, (S 2 1)%nat by lia. unfold c0, c1, c2. ring. }
  apply (Rmult_lt_reg_l c2); lra.
Qed.
Lemma eigen_positive : forall m a b c, symmetric 3 m -> posdef 3 m -> eigenvalues m (a, b, c) -> 0 < a /\ 0 < b /\ 0 < c /\ a * b * c = det3 m.
Proof.
  intros m a b c S P E.
  assert (R : forall x, x <= 0 -> det3 (fun i j => x * eye i j - m i j) <> 0).
  { intros x X. set (m' := fun i j => m i j + (- x) * eye i j).
    assert (S' : symmetric 3 m') by (intros i j I J; unfold m'; rewrite S, eye_sym by auto; auto).
    assert (P' : posdef 3 m').
    { intros y Y. pose proof (P y Y) as F. replace (form 3 m' y) with (form 3 m y + (- x) * (y 0%nat * y 0%nat + y 1%nat * y 1%nat + y 2%nat * y 2%nat)).
      - nra.
      - rewrite !form3 by auto. unfold m', eye. cbn. ring. }
    destruct (det3_pos m' S' P') as [D _]. unfold m' in D. unfold det3 in *. lra. }
  pose proof (E a) as Ea. pose proof (E b) as Eb. pose proof (E c) as Ec. pose proof (E 0) as E0.
  repeat split.
  - destruct (Rlt_dec 0 a); auto. exfalso. apply (R a); [lra|]. rewrite Ea. ring.
  - destruct (Rlt_dec 0 b); auto. exfalso. apply (R b); [lra|]. rewrite Eb. ring.
  - destruct (Rlt_dec 0 c); auto. exfalso. apply (R c); [lra|]. rewrite Ec. ring.
  - unfold det3 in E0 |- *. unfold eye in E0. cbn in E0. lra.
Qed.
Lemma det3_inverse : forall m N, inverse_of 3 m N -> det3 m * det3 N = 1.
Proof.
  intros m N I.
  assert (E : det3 (mul 3 m N) = 1).
  { unfold det3. rewrite !(fun i j Hi Hj => proj1 (I i j Hi Hj)) by lia. unfold eye. cbn. ring. }
  rewrite <- E. unfold det3, mul. cbn. ring.
Qed.
(** Hadamard's inequality *)
Lemma hadamard : forall N, symmetric 3 N -> posdef 3 N ->
  det3 N <= N 0%nat 0%nat * N 1%nat 1%nat * N 2%nat 2%nat /\
  (det3 N = N 0%nat 0%nat * N 1%nat 1%nat * N 2%nat 2%nat <-> N 0%nat 1%nat = 0 /\ N 0%nat 2%nat = 0 /\ N 1%nat 2%nat = 0).
Proof.
  intros N S P. destruct (det3_pos N S P) as [_ M]. pose proof (posdef_diag 3 N 0 P ltac:(lia)) as D0. pose proof (posdef_diag 3 N 1 P ltac:(lia)) as D1. pose proof (posdef_diag 3 N 2 P ltac:(lia)) as D2.
  set (a := N 0%nat 0%nat) in *. set (b := N 1%nat 1%nat) in *. set (c := N 2%nat 2%nat) in *. set (d := N 0%nat 1%nat) in *. set (e := N 0%nat 2%nat) in *. set (f := N 1%nat 2%nat) in *.
  assert (E : a * (a * b * c - det3 N) = (a * f - d * e) * (a * f - d * e) + (a * b - d * d) * (e * e) + a * c * (d * d)).
  { unfold det3. rewrite (S 1 0)%nat, (S 2 0)%nat, (S 2 1)%nat by lia. fold a b c d e f. ring. }
  assert (T1 := Rle_0_sqr (a * f - d * e)). assert (T2 := Rle_0_sqr e). assert (T3 := Rle_0_sqr d). unfold Rsqr in *.
  assert (U2 : 0 <= (a * b - d * d) * (e * e)) by (apply Rmult_le_pos; lra). assert (U3 : 0 <= a * c * (d * d)) by (apply Rmult_le_pos; [apply Rmult_le_pos; lra|lra]).
  split.
  - assert (0 <= a * (a * b * c - det3 N)) by lra. destruct (Rle_dec (det3 N) (a * b * c)); auto. exfalso. assert (a * (a * b * c - det3 N) < 0) by (assert (0 < a * (det3 N - a * b * c)) by (apply Rmult_lt_0_compat; lra); lra). lra.
  - split.
    + intros Q. rewrite Q in E. replace (a * (a * b * c - a * b * c)) with 0 in E by ring.
      assert (e * e = 0). { apply (Rmult_eq_reg_l (a * b - d * d)); lra. } assert (d * d = 0). { apply (Rmult_eq_reg_l (a * c)); [lra|]. assert (0 < a * c) by (apply Rmult_lt_0_compat; auto). lra. }
      assert (d = 0) by (apply Rsqr_0_uniq; auto). assert (e = 0) by (apply Rsqr_0_uniq; auto). split; [auto|split; [auto|]].
      assert (Z : (a * f - d * e) * (a * f - d * e) = 0) by lra. apply Rsqr_0_uniq in Z. rewrite H1, Rmult_0_l, Rminus_0_r in Z. apply Rmult_integral in Z. destruct Z; lra.
    + intros (Z1 & Z2 & Z3). unfold det3. rewrite (S 1 0)%nat, (S 2 0)%nat, (S 2 1)%nat by lia. fold a b c d e f. rewrite Z1, Z2, Z3. ring.
Qed.
Lemma determinant_step : forall n A, symmetric (S n) A -> posdef (S n) A -> let E := fun i j => A (S i) (S j) - A (S i) 0%nat * A 0%nat (S j) / A 0%nat 0%nat in
  determinant (S n) A = A 0%nat 0%nat * determinant n E /\ symmetric n E /\ posdef n E.
Proof.
  intros m A Y P E0. pose proof (posdef_diag _ _ 0%nat P ltac:(lia)) as Q.
  assert (PV : pivot (S m) A = Some 0%nat). { unfold pivot. cbn [seq find]. unfold nonzero. destruct (Req_EM_T (A 0%nat 0%nat) 0); [lra|auto]. }
  assert (E : forall i j, (i < m)%nat -> (j < m)%nat -> E0 i j = schur A 0 i j).
  { intros i j I J. unfold E0. unfold schur, skip. cbn [Nat.ltb Nat.leb]. rewrite (Y (S i) 0%nat), (Y (S j) 0%nat) by lia. field. lra. }
  assert (SP : posdef m (schur A 0)). { apply (minimises_posdef m A 0); auto; [lia|]. apply schur_minimises; auto. lia. }
  split; [|split].
  - cbn [determinant]. rewrite PV. cbn [Nat.eqb exchange]. replace (eliminate (fun i j => A (exchange 0 i) j)) with E0. { change (A (exchange 0 0) 0%nat) with (A 0%nat 0%nat). ring. }
    extensionality i. extensionality j. reflexivity.
  - intros i j I J. rewrite !E by auto. unfold schur. rewrite (Y (skip 0 i) (skip 0 j)) by (apply skip_lt; lia). field. lra.
  - apply posdef_ext with (schur A 0); auto. intros. symmetry. auto.
Qed.
Lemma determinant_det3 : forall A, symmetric 3 A -> posdef 3 A -> determinant 3 A = det3 A.
Proof.
  intros A S P. destruct (determinant_step 2 A S P) as (E1 & S1 & P1). cbv zeta in *. rewrite E1. set (B := fun i j => A (Datatypes.S i) (Datatypes.S j) - A (Datatypes.S i) 0%nat * A 0%nat (Datatypes.S j) / A 0%nat 0%nat) in *.
  destruct (determinant_step 1 B S1 P1) as (E2 & S2 & P2). cbv zeta in *. rewrite E2. set (C := fun i j => B (Datatypes.S i) (Datatypes.S j) - B (Datatypes.S i) 0%nat * B 0%nat (Datatypes.S j) / B 0%nat 0%nat) in *.
  destruct (determinant_step 0 C S2 P2) as (E3 & _ & _). rewrite E3. cbn [determinant].
  pose proof (posdef_diag 3 A 0 P ltac:(lia)) as D0. pose proof (posdef_diag 2 B 0 P1 ltac:(lia)) as D1.
  unfold C. transitivity (A 0%nat 0%nat * (B 0%nat 0%nat * B 1%nat 1%nat - B 1%nat 0%nat * B 0%nat 1%nat)). { clearbody B. field. lra. }
  unfold B, det3. field. lra.
Qed.
Lemma determinant_det4 : forall A, symmetric 4 A -> posdef 4 A -> determinant 4 A = det4 A.
Proof.
  intros A S P. destruct (determinant_step 3 A S P) as (E1 & S1 & P1). cbv zeta in *. rewrite E1, determinant_det3 by auto. pose proof (posdef_diag 4 A 0 P ltac:(lia)) as D0.
  unfold det4, det3, minor0, other. cbn [Nat.ltb Nat.leb]. field. lra.
Qed.

(** The determinant by elimination is the one by expansion for every matrix, also when rows have to be exchanged. *)
Lemma pivot_cases : forall n A, (pivot n A = None /\ forall r, (r < n)%nat -> A r 0%nat = 0) \/
  exists r, pivot n A = Some r /\ (r < n)%nat /\ A r 0%nat <> 0 /\ forall r', (r' < r)%nat -> A r' 0%nat = 0.
Proof.
  intros n A. unfold pivot. assert (H : forall k m, (find (fun r => nonzero (A r 0%nat)) (seq k m) = None /\ forall r, (k <= r < k + m)%nat -> A r 0%nat = 0) \/
    exists r, find (fun r => nonzero (A r 0%nat)) (seq k m) = Some r /\ (k <= r < k + m)%nat /\ A r 0%nat <> 0 /\ forall r', (k <= r' < r)%nat -> A r' 0%nat = 0).
  { intros k m. revert k. induction m as [|m IH]; intros k; cbn [seq find]. { left. split; auto. intros; lia. }
    unfold nonzero at 1 3. destruct (Req_EM_T (A k 0%nat) 0) as [Z|N].
    - destruct (IH (S k)) as [(E & Q)|(r & E & R & N & Q)]; [left|right].
      + split; auto. intros r R. destruct (Nat.eq_dec r k) as [->|]; auto. apply Q. lia.
      + exists r. split; auto. split; [lia|]. split; auto. intros r' R'. destruct (Nat.eq_dec r' k) as [->|]; auto. apply Q. lia.
    - right. exists k. split; auto. split; [lia|]. split; auto. intros; lia. }
  destruct (H 0%nat n) as [(E & Q)|(r & E & R & N & Q)]; [left|right].
  - split; auto. intros r R. apply Q. lia.
  - exists r. split; auto. split; [lia|]. split; auto. intros r' R'. apply Q. lia.
Qed.
Lemma determinant_1 : forall A, determinant 1 A = A 0%nat 0%nat.
Proof.
  intros A. cbn [determinant]. destruct (pivot_cases 1 A) as [(-> & Z)|(r & -> & R & N & _)]; [rewrite Z; auto|]. assert (r = 0%nat) by lia. subst r. cbn. ring.
Qed.
Lemma determinant_2 : forall A, determinant 2 A = A 0%nat 0%nat * A 1%nat 1%nat - A 0%nat 1%nat * A 1%nat 0%nat.
Proof.
  intros A. cbn [determinant]. fold (determinant 1). destruct (pivot_cases 2 A) as [(-> & Z)|(r & -> & R & N & Q)]; [rewrite !Z by lia; ring|].
  change (match pivot 1 _ with Some _ => _ | None => _ end) with (determinant 1 (eliminate (fun i j => A (exchange r i) j))). rewrite determinant_1. unfold eliminate.
  destruct r as [|[|r]]; [| |lia]; cbn [exchange Nat.eqb]; [|rewrite (Q 0%nat) by lia]; field; auto.
Qed.
Lemma determinant_3 : forall A, determinant 3 A = det3 A.
Proof.
  intros A. destruct (pivot_cases 3 A) as [(E & Z)|(r & E & R & N & Q)].
  - cbn [determinant]. rewrite E. unfold det3. rewrite !Z by lia. ring.
  - transitivity ((if Nat.eqb r 0 then 1 else -1) * A (exchange r 0) 0%nat * determinant 2 (eliminate (fun i j => A (exchange r i) j))). { cbn [determinant]. rewrite E. reflexivity. }
    rewrite determinant_2. unfold eliminate, det3. destruct r as [|[|[|r]]]; [| | |lia]; cbn [exchange Nat.eqb].
    + field; auto. + rewrite (Q 0%nat) by lia. field; auto. + rewrite (Q 0%nat), (Q 1%nat) by lia. field; auto.
Qed.
Theorem C70_determinant : forall A, determinant 4 A = det4 A.
Proof.
  intros A. destruct (pivot_cases 4 A) as [(E & Z)|(r & E & R & N & Q)].
  - cbn [determinant]. rewrite E. unfold det4, det3, minor0, other. cbn [Nat.ltb Nat.leb]. rewrite !Z by lia. ring.
  - transitivity ((if Nat.eqb r 0 then 1 else -1) * A (exchange r 0) 0%nat * determinant 3 (eliminate (fun i j => A (exchange r i) j))). { cbn [determinant]. rewrite E. reflexivity. }
    rewrite determinant_3. unfold eliminate, det4, det3, minor0, other. cbn [Nat.ltb Nat.leb]. destruct r as [|[|[|[|r]]]]; [| | | |lia]; cbn [exchange Nat.eqb].
    + field; auto. + rewrite (Q 0%nat) by lia. field; auto. + rewrite (Q 0%nat), (Q 1%nat) by lia. field; auto. + rewrite (Q 0%nat), (Q 1%nat), (Q 2%nat) by lia. field; auto.
Qed.
Print Assumptions C70_determinant.

(** ** Widths *)
Lemma one_step : forall n A N i, (i < S n)%nat -> symmetric (S n) A -> stiff (S n) A -> inverse_of (S n) A N ->
  exists B, quadric_proj (S n) A i = Ok B /\ symmetric n B /\ stiff n B /\ minimises n A i B /\ inverse_of n B (fun k l => N (other i k) (other i l)).
Proof.
  intros n A N i I Y S V. destruct (project_step n A i I S Y) as (B & E & M & S' & Y'). exists B. repeat (split; [assumption|]).
  destruct (C43_inverse n A N i I Y (stiff_diag _ _ _ I S) V) as (B' & E' & V'). assert (B' = B) by (apply Ok_inj; congruence). subst. auto.
Qed.
Lemma inv_root_inverse : forall B N, posdef 1 B -> inverse_of 1 B N -> inv_root (B 0%nat 0%nat) = Ok (sqrt (N 0%nat 0%nat)).
Proof.
  intros B N P V. pose proof (posdef_diag 1 B 0 P ltac:(lia)) as D. destruct (V 0 0)%nat as [E _]; [lia|lia|]. unfold mul, eye in E. cbn in E. rewrite Rplus_0_l in E.
  unfold inv_root. destruct (Req_EM_T (B 0%nat 0%nat) 0); [lra|]. f_equal. rewrite Rabs_right by lra.
  replace (N 0%nat 0%nat) with (/ B 0%nat 0%nat). { rewrite sqrt_inv by lra. field. apply Rgt_not_eq, sqrt_lt_R0. auto. }
  apply (Rmult_eq_reg_l (B 0%nat 0%nat)); [|lra]. rewrite E. field. lra.
Qed.
Lemma inverse_ext : forall n A N N', (forall i j, (i < n)%nat -> (j < n)%nat -> N i j = N' i j) -> inverse_of n A N -> inverse_of n A N'.
Proof.
  intros n A N N' E V i j I J. destruct (V i j I J) as [V1 V2]. split; [rewrite <- V1|rewrite <- V2]; unfold mul; apply sum_ext; intros k K; rewrite E by auto; reflexivity.
Qed.
Lemma sigmas : forall A N, symmetric 4 A -> stiff 4 A -> inverse_of 4 A N ->
  exists mh, quadric_proj 4 A 3 = Ok mh /\ minimises 3 A 3 mh /\ symmetric 3 mh /\ stiff 3 mh /\ inverse_of 3 mh N /\
    incoh_sigma_qs mh = Ok (sqrt (N 0%nat 0%nat), sqrt (N 1%nat 1%nat), sqrt (N 2%nat 2%nat)) /\ incoh_sigma_en A = Ok (sqrt (N 3%nat 3%nat)) /\ coh_sigma A 3 = Ok (1 / sqrt (A 3%nat 3%nat)).
Proof.
  intros A N Y S V. destruct (one_step 3 A N 3 ltac:(lia) Y S V) as (mh & E & Y1 & S1 & M1 & V1).
  exists mh. do 4 (split; [assumption|]).
  split. { apply inverse_ext with (2 := V1). intros i j I J. unfold other. destruct (Nat.ltb_spec i 3); [|lia]. destruct (Nat.ltb_spec j 3); [auto|lia]. }
  split; [|split].
  - destruct (one_step 2 mh _ 2 ltac:(lia) Y1 S1 V1) as (m2 & E2 & Y2 & S2 & _ & V2).
    destruct (one_step 1 m2 _ 1 ltac:(lia) Y2 S2 V2) as (e1 & F1 & _ & T1 & _ & W1). destruct (one_step 1 m2 _ 0 ltac:(lia) Y2 S2 V2) as (e2 & F2 & _ & T2 & _ & W2).
    destruct (one_step 2 mh _ 1 ltac:(lia) Y1 S1 V1) as (m1 & E3 & Y3 & S3 & _ & V3). destruct (one_step 1 m1 _ 0 ltac:(lia) Y3 S3 V3) as (e3 & F3 & _ & T3 & _ & W3).
    unfold incoh_sigma_qs. rewrite E2. cbn [bind]. rewrite F1. cbn [bind]. rewrite F2. cbn [bind]. rewrite E3. cbn [bind]. rewrite F3. cbn [bind].
    rewrite (inv_root_inverse _ _ (stiff_posdef _ _ T1) W1), (inv_root_inverse _ _ (stiff_posdef _ _ T2) W2), (inv_root_inverse _ _ (stiff_posdef _ _ T3) W3). reflexivity.
  - destruct (one_step 3 A N 2 ltac:(lia) Y S V) as (a & E2 & Y2 & S2 & _ & V2). destruct (one_step 2 a _ 1 ltac:(lia) Y2 S2 V2) as (b & E3 & Y3 & S3 & _ & V3).
    destruct (one_step 1 b _ 0 ltac:(lia) Y3 S3 V3) as (c & E4 & _ & T & _ & W). unfold incoh_sigma_en. rewrite E2. cbn [bind]. rewrite E3. cbn [bind]. rewrite E4. cbn [bind].
    rewrite (inv_root_inverse _ _ (stiff_posdef _ _ T) W). reflexivity.
  - unfold coh_sigma, inv_root. pose proof (posdef_diag 4 A 3 (stiff_posdef _ _ S) ltac:(lia)) as D. destruct (Req_EM_T (A 3%nat 3%nat) 0); [lra|]. rewrite Rabs_right by lra. reflexivity.
Qed.
(** the energy part alone is a lower bound for the whole *)
Lemma energy_bound : forall A N v e, symmetric 4 A -> stiff 4 A -> inverse_of 4 A N -> e * e <= N 3%nat 3%nat * form 4 A (displacement v e).
Proof.
  intros A N v e Y S V.
  destruct (one_step 3 A N 2 ltac:(lia) Y S V) as (a & E2 & Y2 & S2 & M2 & V2). destruct (one_step 2 a _ 1 ltac:(lia) Y2 S2 V2) as (b & E3 & Y3 & S3 & M3 & V3).
  destruct (one_step 1 b _ 0 ltac:(lia) Y3 S3 V3) as (c & E4 & _ & T & M4 & W).
  pose proof (posdef_diag 1 c 0 (stiff_posdef _ _ T) ltac:(lia)) as D. destruct (W 0 0)%nat as [E _]; [lia|lia|]. unfold mul, eye in E. cbn in E. rewrite Rplus_0_l in E.
  pose proof (shadow_step 4 A 3 _ _ 2 a ltac:(lia) (shadow_id 4 A) M2) as H1. pose proof (shadow_step 4 A 2 _ _ 1 b ltac:(lia) H1 M3) as H2. destruct (shadow_step 4 A 1 _ _ 0 c ltac:(lia) H2 M4) as [B _].
  specialize (B (displacement v e)). rewrite form1 in B. change (displacement v e (other 2 (other 1 (other 0 0)))) with e in B.
  assert (NP : 0 < N 3%nat 3%nat) by (apply (Rmult_lt_reg_l (c 0%nat 0%nat)); [auto|]; lra).
  apply Rle_trans with (N 3%nat 3%nat * (c 0%nat 0%nat * (e * e))); [|apply Rmult_le_compat_l; lra].
  right. replace (N 3%nat 3%nat * (c 0%nat 0%nat * (e * e))) with ((c 0%nat 0%nat * N 3%nat 3%nat) * (e * e)) by ring. rewrite E. ring.
Qed.
Lemma ellipsoid_form : forall A mh v, minimises 3 A 3 mh -> (form 3 mh (at3 v) < 9 <-> in_ellipsoid A v).
Proof.
  intros A mh v [M1 M2]. assert (X : forall e, form 3 mh (without 3 (displacement v e)) = form 3 mh (at3 v)).
  { intros e. apply form_ext; auto. intros i I. destruct i as [|[|[|]]]; [reflexivity|reflexivity|reflexivity|lia]. }
  split.
  - intros F. destruct (M2 (at3 v)) as (x & X1 & X2). exists (x 3%nat). rewrite (form_ext 4 A A (displacement v (x 3%nat)) x); [lra|auto|].
    intros i I. destruct i as [|[|[|[|]]]]; [| | |reflexivity|lia]; symmetry; [apply (X1 0%nat)|apply (X1 1%nat)|apply (X1 2%nat)]; lia.
  - intros (e & F). specialize (M1 (displacement v e)). rewrite X in M1. lra.
Qed.

(** ** The mesh *)
Lemma tick_eq : forall n i s, (0 < n)%nat -> tick n i * s = - (3 * s) + INR i * (6 * s / INR n).
Proof. intros n i s P. unfold tick. field. apply not_0_INR. lia. Qed.
Lemma tick_inj : forall n i j s, (0 < n)%nat -> 0 < s -> tick n i * s = tick n j * s -> i = j.
Proof.
  intros n i j s P S E. assert (0 < INR n) by (apply lt_0_INR; auto). apply Rmult_eq_reg_r in E; [|lra]. unfold tick in E. apply INR_eq.
  apply (Rmult_eq_reg_r (6 / INR n)). { unfold Rdiv in *. lra. } apply Rgt_not_eq. unfold Rdiv. apply Rmult_lt_0_compat; [lra|]. apply Rinv_0_lt_compat. auto.
Qed.
Lemma indices_in : forall n1 n2 n3 i j k, In (i, j, k) (indices (n1, n2, n3)) <-> (i <= n1)%nat /\ (j <= n2)%nat /\ (k <= n3)%nat.
Proof.
  intros. unfold indices. rewrite in_flat_map. split.
  - intros (x & X & H). rewrite in_flat_map in H. destruct H as (y & Y & H). rewrite in_map_iff in H. destruct H as (z & E & Z). inversion E; subst. rewrite in_seq in X, Y, Z. lia.
  - intros (A & B & C). exists i. rewrite in_seq. split; [lia|]. rewrite in_flat_map. exists j. rewrite in_seq. split; [lia|]. rewrite in_map_iff. exists k. rewrite in_seq. split; [auto|lia].
Qed.
Lemma nodup_app : forall {X} (l m : list X), NoDup l -> NoDup m -> (forall z, In z l -> In z m -> False) -> NoDup (l ++ m).
Proof.
  intros X l m. induction l as [|a l IH]; intros D E F; auto. inversion D; subst. cbn [List.app]. constructor.
  - rewrite in_app_iff. intros [H|H]; [auto|]. apply (F a); [left|]; auto.
  - apply IH; auto. intros z Z1 Z2. apply (F z); [right|]; auto.
Qed.
Lemma NoDup_flat : forall {X Y} (f : X -> list Y) l, NoDup l -> (forall x, In x l -> NoDup (f x)) -> (forall x y z, In x l -> In y l -> In z (f x) -> In z (f y) -> x = y) -> NoDup (flat_map f l).
Proof.
  intros X Y f l. induction l as [|a l IH]; intros D F U; [constructor|]. inversion D; subst. cbn [flat_map]. apply nodup_app; [apply F; left; auto| |].
  - apply IH; auto; intros; [apply F; right; auto|eapply U; eauto; right; auto].
  - intros z Z1 Z2. rewrite in_flat_map in Z2. destruct Z2 as (y & Y1 & Y2). assert (a = y) by (eapply U; eauto; [left|right]; auto). subst. auto.
Qed.
Lemma indices_nodup : forall n, NoDup (indices n).
Proof.
  intros [[n1 n2] n3]. unfold indices. apply NoDup_flat; [apply seq_NoDup| |].
  - intros i _. apply NoDup_flat; [apply seq_NoDup| |].
    + intros j _. apply FinFun.Injective_map_NoDup; [|apply seq_NoDup]. intros x y E. congruence.
    + intros x y z _ _ A B. rewrite in_map_iff in A, B. destruct A as (? & <- & _). destruct B as (? & B & _). congruence.
  - intros x y z _ _ A B. rewrite in_flat_map in A, B. destruct A as (? & _ & A). destruct B as (? & _ & B). rewrite in_map_iff in A, B. destruct A as (? & <- & _). destruct B as (? & B & _). congruence.
Qed.
Lemma nodup_map_in : forall {X Y} (f : X -> Y) l, NoDup l -> (forall x y, In x l -> In y l -> f x = f y -> x = y) -> NoDup (map f l).
Proof.
  intros X Y f l. induction l as [|a l IH]; intros D U; [constructor|]. inversion D; subst. cbn [map]. constructor.
  - rewrite in_map_iff. intros (x & E & I). assert (x = a) by (apply U; auto; [right|left]; auto). subst. auto.
  - apply IH; auto. intros x y I J. apply U; right; auto.
Qed.
Lemma node_mesh : forall s1 s2 s3 n1 n2 n3 v, (0 < n1)%nat -> (0 < n2)%nat -> (0 < n3)%nat ->
  (In v (map (node (s1, s2, s3) (n1, n2, n3)) (indices (n1, n2, n3))) <-> mesh s1 s2 s3 n1 n2 n3 v).
Proof.
  intros s1 s2 s3 n1 n2 n3 v P1 P2 P3. rewrite in_map_iff. split.
  - intros ([[i j] k] & E & I). apply indices_in in I. exists i, j, k. unfold node in E. rewrite !tick_eq in E by auto. intuition.
  - intros (i & j & k & A & B & C & E). exists (i, j, k). split; [|apply indices_in; auto]. unfold node. rewrite !tick_eq by auto. auto.
Qed.
Lemma node_nodup : forall s1 s2 s3 n1 n2 n3, (0 < n1)%nat -> (0 < n2)%nat -> (0 < n3)%nat -> 0 < s1 -> 0 < s2 -> 0 < s3 ->
  NoDup (map (node (s1, s2, s3) (n1, n2, n3)) (indices (n1, n2, n3))).
Proof.
  intros. apply nodup_map_in; [apply indices_nodup|]. intros [[i j] k] [[i' j'] k'] _ _ E. unfold node in E. injection E as E1 E2 E3.
  apply tick_inj in E1; auto. apply tick_inj in E2; auto. apply tick_inj in E3; auto. congruence.
Qed.
Lemma inside_spec : forall A mh v, minimises 3 A 3 mh -> (inside mh v = true <-> in_ellipsoid A v).
Proof.
  intros A mh v M. rewrite <- (ellipsoid_form A mh v M). unfold inside. change (sum 3 (fun k => sum 3 (fun l => at3 v k * mh k l * at3 v l))) with (form 3 mh (at3 v)).
  destruct (Rlt_dec (form 3 mh (at3 v)) 9); [split; auto|]. split; intros; [discriminate|lra].
Qed.
Lemma weight_form : forall A v e, weight A v e = form 4 A (displacement v e).
Proof. intros. reflexivity. Qed.
Lemma fold_left_sum : forall l a, fold_left Rplus l a = a + fold_right Rplus 0 l.
Proof. induction l as [|x l IH]; intros a; cbn; [ring|]. rewrite IH. ring. Qed.
Lemma at_point_spec : forall A disp inten q en v,
  fold_left Rplus (zipw (fun i x => i * exp (- x / 2)) (inten (vadd v q)) (weights disp A q en v)) 0 = at_displacement A disp inten q en v.
Proof.
  intros. rewrite fold_left_sum, Rplus_0_l. unfold at_displacement, weights. f_equal. generalize (inten (vadd v q)), (disp (vadd v q)). intros l. induction l as [|a l IH]; intros [|b m]; cbn; auto. f_equal; auto.
Qed.

(** ** The steps *)
Lemma jumps_after : forall A N disp q axis b j k i l, jumps A N disp q axis b j k i l -> (i <= 10)%nat.
Proof. intros until l. induction 1; lia. Qed.
Lemma jumps_unique : forall A N disp q axis b j k i l, jumps A N disp q axis b j k i l -> forall l', jumps A N disp q axis b j k i l' -> l = l'.
Proof.
  intros until l. induction 1; intros l' H'; inversion H'; subst; auto; try (exfalso; tauto); try (apply jumps_after in H0; lia); try (apply jumps_after in H; lia); f_equal; auto.
Qed.
Definition place (axis i j k : nat) : nat * nat * nat := match axis with 0 => (i, j, k) | 1 => (j, i, k) | _ => (j, k, i) end%nat.
Lemma first_mesh_node : forall N axis i j k, node (sqrt (N 0%nat 0%nat), sqrt (N 1%nat 1%nat), sqrt (N 2%nat 2%nat)) (10, 10, 10)%nat (place axis i j k) = first_mesh N axis i j k.
Proof.
  intros. unfold node, place, first_mesh. destruct axis as [|[|]]; rewrite !tick_eq by lia; replace (INR 10) with 10 by (cbn; ring); reflexivity.
Qed.
Section Steps.
  Variable A N mh : fmat.
  Variable disp : vec -> list R.
  Variable q : vec.
  Hypothesis M : minimises 3 A 3 mh.
  Hypothesis bands : forall v, length (disp v) = length (disp q).
  Let s := (sqrt (N 0%nat 0%nat), sqrt (N 1%nat 1%nat), sqrt (N 2%nat 2%nat)).
  Let arr (b : nat) (ijk : nat * nat * nat) : num := let v := node s (10, 10, 10)%nat ijk in if inside mh v then nth_error (disp (vadd v q)) b else None.
  Lemma present_jumps : forall axis b j k, (b < length (disp q))%nat -> forall m i, (i + m = 10)%nat ->
    jumps A N disp q axis b j k i
      (present (map (fun i => match arr b (place axis (S i) j k), arr b (place axis i j k) with Some y, Some x => Some (Rabs (y - x)) | _, _ => None end) (seq i m))).
  Proof.
    intros axis b j k B. induction m as [|m IH]; intros i E; [replace i with 10%nat by lia; constructor|]. cbn [seq map]. specialize (IH (S i) ltac:(lia)).
    assert (G : forall i, if inside mh (first_mesh N axis i j k) then arr b (place axis i j k) = Some (nth b (disp (vadd (first_mesh N axis i j k) q)) 0) else arr b (place axis i j k) = None).
    { intros i'. unfold arr. fold s. unfold s. rewrite first_mesh_node. destruct (inside mh (first_mesh N axis i' j k)); auto. apply nth_error_nth'. rewrite bands. auto. }
    pose proof (G i) as G0. pose proof (G (S i)) as G1.
    pose proof (inside_spec A mh (first_mesh N axis i j k) M) as I0. pose proof (inside_spec A mh (first_mesh N axis (S i) j k) M) as I1.
    set (rest := map _ _) in *. clearbody rest.
    destruct (inside mh (first_mesh N axis i j k)), (inside mh (first_mesh N axis (S i) j k)); rewrite G0, G1; unfold present; cbn [flat_map]; cbn [List.app];
      try (apply jumps_take; [exact IH|tauto|tauto]); apply jumps_skip; try exact IH; intros [H1 H2]; (apply I0 in H1 || apply I1 in H2); (discriminate || (apply I1 in H2; discriminate)).
  Qed.
  Lemma nanmax_spec : forall l, match nanmax l with Some m => In (Some m) l /\ (forall x, In (Some x) l -> x <= m) | None => forall x, ~ In (Some x) l end.
  Proof.
    intros l. assert (P : forall x, In x (present l) <-> In (Some x) l).
    { intros x. unfold present. rewrite in_flat_map. split; [intros ([y|] & Y & H); [destruct H as [->|[]]; auto|destruct H]|]. intros H. exists (Some x). split; auto. left. auto. }
    unfold nanmax. destruct (present l) as [|r rest]; [intros x X; apply P in X; destruct X|]. split.
    - apply P. clear P. revert r. induction rest as [|y rest IH]; intros r; cbn [fold_left]; [left; auto|]. destruct (IH (Rmax r y)) as [H|H]; [|right; right; auto].
      rewrite <- H. unfold Rmax. destruct (Rle_dec r y); [right; left|left]; auto.
    - intros x X. apply P in X. destruct (fold_max_le rest r (fold_left Rmax rest r)) as [F _]. specialize (F (Rle_refl _)). rewrite Forall_forall in F. apply F. auto.
  Qed.
  Lemma lines_in : forall axis L, (axis < 3)%nat ->
    (In L (match axis with
      | 0 => flat_map (fun b => flat_map (fun j => map (fun k => steps 10 (fun i => arr b (i, j, k))) (seq 0 11)) (seq 0 11)) (seq 0 (length (disp q)))
      | 1 => flat_map (fun b => flat_map (fun i => map (fun k => steps 10 (fun j => arr b (i, j, k))) (seq 0 11)) (seq 0 11)) (seq 0 (length (disp q)))
      | _ => flat_map (fun b => flat_map (fun i => map (fun j => steps 10 (fun k => arr b (i, j, k))) (seq 0 11)) (seq 0 11)) (seq 0 (length (disp q)))
      end%nat) <-> exists b j k, (b < length (disp q))%nat /\ (j <= 10)%nat /\ (k <= 10)%nat /\ L = steps 10 (fun i => arr b (place axis i j k))).
  Proof.
    clearbody arr. intros axis L X. assert (E : forall f : nat -> nat -> nat -> list num, In L (flat_map (fun b => flat_map (fun j => map (fun k => f b j k) (seq 0 11)) (seq 0 11)) (seq 0 (length (disp q))))
      <-> exists b j k, (b < length (disp q))%nat /\ (j <= 10)%nat /\ (k <= 10)%nat /\ L = f b j k).
    { intros f. rewrite in_flat_map. split.
      - intros (b & B & H). rewrite in_flat_map in H. destruct H as (j & J & H). rewrite in_map_iff in H. destruct H as (k & K & H). rewrite in_seq in B, J, H. exists b, j, k. repeat split; auto; lia.
      - intros (b & j & k & B & J & K & H). exists b. rewrite in_seq. split; [lia|]. rewrite in_flat_map. exists j. rewrite in_seq. split; [lia|]. rewrite in_map_iff. exists k. rewrite in_seq. split; [auto|lia]. }
    destruct axis as [|[|[|]]]; [| | |lia]; cbn [place].
    - apply (E (fun b j k => steps 10 (fun i => arr b (i, j, k)))).
    - apply (E (fun b j k => steps 10 (fun i => arr b (j, i, k)))).
    - apply (E (fun b j k => steps 10 (fun i => arr b (j, k, i)))).
  Qed.
  Lemma step_spec : forall axis, (axis < 3)%nat -> typical_jump A N disp q axis (get_max_step (length (disp q)) (10, 10, 10)%nat arr axis).
  Proof.
    intros axis X. unfold get_max_step. set (lines := match axis with 0 => _ | _ => _ end%nat).
    assert (LI : forall L, In L lines <-> exists b j k, (b < length (disp q))%nat /\ (j <= 10)%nat /\ (k <= 10)%nat /\ L = steps 10 (fun i => arr b (place axis i j k))) by (intros L; apply (lines_in axis L X)).
    clearbody lines. pose proof (nanmax_spec (map nanmean lines)) as Z.
    assert (MM : forall L x, nanmean L = Some x <-> present L <> [] /\ x = mean (present L)).
    { intros L x. unfold nanmean, mean. destruct (present L) as [|r rest]; [split; [discriminate|intros [H _]; congruence]|]. rewrite fold_left_sum, Rplus_0_l. split; [intros H; split; [discriminate|congruence]|intros [_ ->]; auto]. }
    assert (PJ : forall b j k, (b < length (disp q))%nat -> jumps A N disp q axis b j k 0 (present (steps 10 (fun i => arr b (place axis i j k))))) by (intros b j k B; apply (present_jumps axis b j k B 10 0 eq_refl)).
    assert (IM : forall x, In (Some x) (map nanmean lines) <-> exists b j k ls, (b < length (disp q))%nat /\ (j <= 10)%nat /\ (k <= 10)%nat /\ jumps A N disp q axis b j k 0 ls /\ ls <> [] /\ x = mean ls).
    { intros x. rewrite in_map_iff. split.
      - intros (L & E & I). apply LI in I. destruct I as (b & j & k & B & J & K & ->). apply MM in E. destruct E as [E1 E2]. exists b, j, k. eexists. do 3 (split; [assumption|]). split; [apply PJ; auto|]. auto.
      - intros (b & j & k & ls & B & J & K & JJ & NE & E). exists (steps 10 (fun i => arr b (place axis i j k))). split; [|apply LI; exists b, j, k; auto].
        apply MM. rewrite (jumps_unique _ _ _ _ _ _ _ _ _ _ (PJ b j k B) _ JJ). auto. }
    destruct (nanmax (map nanmean lines)) as [m|].
    - left. destruct Z as [Z1 Z2]. split; [apply IM; auto|]. intros b j k ls B J K JJ NE. apply Z2. apply IM. exists b, j, k, ls. auto 10.
    - right. split; auto. intros b j k ls B J K JJ. destruct ls as [|a ls]; auto. exfalso. apply (Z (mean (a :: ls))). apply IM. exists b, j, k, (a :: ls). repeat (split; [assumption|]). split; [discriminate|auto].
  Qed.
End Steps.

(** ** The value *)
Section Value.
  Variable A N mh : fmat.
  Hypothesis Y : symmetric 4 A.
  Hypothesis SA : stiff 4 A.
  Hypothesis VA : inverse_of 4 A N.
  Hypothesis M : minimises 3 A 3 mh.
  Let s := (sqrt (N 0%nat 0%nat), sqrt (N 1%nat 1%nat), sqrt (N 2%nat 2%nat)).
  Lemma N_pos : forall i, (i < 4)%nat -> 0 < N i i.
  Proof. intros i I. apply (posdef_diag 4 N i); auto. apply (posdef_inverse 4 A N); auto. apply stiff_posdef. auto. Qed.
  Lemma pts_in : forall n1 n2 n3 v, (0 < n1)%nat -> (0 < n2)%nat -> (0 < n3)%nat ->
    (In v (generate_pts s mh (n1, n2, n3)) <-> mesh (sqrt (N 0%nat 0%nat)) (sqrt (N 1%nat 1%nat)) (sqrt (N 2%nat 2%nat)) n1 n2 n3 v /\ in_ellipsoid A v).
  Proof. intros n1 n2 n3 v P1 P2 P3. unfold generate_pts, s. rewrite filter_In, node_mesh, (inside_spec A mh v M) by auto. tauto. Qed.
  Lemma first_in : forall v, In v (generate_pts s mh (10, 10, 10)%nat) <-> (exists i j k, (i <= 10)%nat /\ (j <= 10)%nat /\ (k <= 10)%nat /\ v = first_mesh N 0 i j k) /\ in_ellipsoid A v.
  Proof.
    intros v. rewrite pts_in by lia. assert (E : forall i j k, first_mesh N 0 i j k = V (- (3 * sqrt (N 0%nat 0%nat)) + INR i * (6 * sqrt (N 0%nat 0%nat) / INR 10))
      (- (3 * sqrt (N 1%nat 1%nat)) + INR j * (6 * sqrt (N 1%nat 1%nat) / INR 10)) (- (3 * sqrt (N 2%nat 2%nat)) + INR k * (6 * sqrt (N 2%nat 2%nat) / INR 10))).
    { intros. unfold first_mesh. replace (INR 10) with 10 by (cbn; ring). reflexivity. }
    split; intros [(i & j & k & I & J & K & ->) H]; (split; [|exact H]); exists i, j, k; rewrite E; auto.
  Qed.
  Lemma centre_in : In (V 0 0 0) (generate_pts s mh (10, 10, 10)%nat).
  Proof.
    apply first_in. split.
    - exists 5%nat, 5%nat, 5%nat. repeat (split; [lia|]). unfold first_mesh. replace (INR 5) with 5 by (cbn; ring). f_equal; field.
    - exists 0. unfold form. cbn. lra.
  Qed.
  Variable disp : vec -> list R.
  Variable q : vec.
  Variable en : R.
  Lemma energies_in : forall w, In w (flat_map (fun v => disp (vadd v q)) (generate_pts s mh (10, 10, 10)%nat)) <-> exists v, first_points A N disp q v w.
  Proof.
    intros w. rewrite in_flat_map. unfold first_points. split.
    - intros (v & P & W). exists v. apply first_in in P. tauto.
    - intros (v & P & E & W). exists v. split; auto. apply first_in. auto.
  Qed.
  Lemma weights_in : forall x, In x (flat_map (weights disp A q en) (generate_pts s mh (10, 10, 10)%nat)) <-> exists v w, first_points A N disp q v w /\ x = form 4 A (displacement v (w - en)).
  Proof.
    intros x. rewrite in_flat_map. unfold first_points, weights. split.
    - intros (v & P & W). apply in_map_iff in W. destruct W as (w & <- & W). exists v, w. apply first_in in P. split; [tauto|]. apply weight_form.
    - intros (v & w & (P & E & W) & ->). exists v. split; [apply first_in; auto|]. apply in_map_iff. exists w. split; auto.
  Qed.
End Value.
Lemma refine_cells : forall A rez max_step s, 0 < A 3%nat 3%nat -> 0 < rez -> 1 <= max_step ->
  cells A rez max_step s (refine (1 / sqrt (A 3%nat 3%nat) * rez) max_step s) /\ (0 < refine (1 / sqrt (A 3%nat 3%nat) * rez) max_step s)%nat.
Proof.
  intros A rez max_step s P R1 R2. pose proof (sqrt_lt_R0 _ P) as Q. set (w := sqrt (A 3%nat 3%nat)) in *. unfold cells. fold w. clearbody w.
  replace (1 / w * rez) with (rez / w) by (field; lra). assert (0 < rez / w) by (apply Rdiv_lt_0_compat; auto). set (t := rez / w) in *. clearbody t. unfold refine.
  destruct (Rlt_dec t s) as [L|L]; [|split; [split; [auto|lra]|lia]]. replace (10 * s / t) with (10 * (s / t)) by (field; lra). set (x := Rmin (10 * (s / t)) max_step).
  assert (X : 1 <= x). { apply Rmin_glb; auto. assert (1 < s / t); [|lra]. apply (Rmult_lt_reg_r t); auto. unfold Rdiv. rewrite Rmult_assoc, Rinv_l; lra. }
  clearbody x. destruct (base_Int_part x) as [B1 B2]. assert (Z1 : (1 <= Int_part x)%Z). { apply L_ScanData.floor_le. exact X. }
  split; [|lia]. split; [lra|]. intros _. rewrite INR_IZR_INZ, Z2Nat.id by lia. lra.
Qed.
Lemma volume : forall N mh a b c n1 n2 n3, symmetric 3 mh -> posdef 3 mh -> inverse_of 3 mh N -> eigenvalues mh (a, b, c) -> (0 < n1)%nat -> (0 < n2)%nat -> (0 < n3)%nat ->
  1 / sqrt a * (1 / sqrt b) * (1 / sqrt c) * (2 * 3) ^ 3 / (INR n1 * INR n2 * INR n3)
  = 6 * sqrt (N 0%nat 0%nat) / INR n1 * (6 * sqrt (N 1%nat 1%nat) / INR n2) * (6 * sqrt (N 2%nat 2%nat) / INR n3) * shrink N.
Proof.
  intros N mh a b c n1 n2 n3 S P I E P1 P2 P3. destruct (eigen_positive mh a b c S P E) as (A1 & A2 & A3 & D). pose proof (det3_inverse mh N I) as DI. rewrite <- D in DI.
  pose proof (posdef_inverse 3 mh N S P I) as PN. pose proof (posdef_diag 3 N 0 PN ltac:(lia)) as N0. pose proof (posdef_diag 3 N 1 PN ltac:(lia)) as N1. pose proof (posdef_diag 3 N 2 PN ltac:(lia)) as N2.
  unfold shrink. set (x := N 0%nat 0%nat) in *. set (y := N 1%nat 1%nat) in *. set (z := N 2%nat 2%nat) in *. set (d := det3 N) in *. clearbody x y z d.
  assert (ABC : 0 < a * b * c) by (apply Rmult_lt_0_compat; auto; apply Rmult_lt_0_compat; auto).
  assert (d = / (a * b * c)). { apply (Rmult_eq_reg_l (a * b * c)); [|lra]. rewrite DI, Rinv_r; lra. } subst d.
  assert (XYZ : 0 < x * y * z) by (apply Rmult_lt_0_compat; auto; apply Rmult_lt_0_compat; auto).
  assert (SQ : sqrt x * sqrt y * sqrt z * sqrt (/ (a * b * c) / (x * y * z)) = 1 / sqrt a * (1 / sqrt b) * (1 / sqrt c)).
  { rewrite sqrt_div; [|left; apply Rinv_0_lt_compat; auto|auto]. rewrite sqrt_inv by lra. rewrite !sqrt_mult by (auto with real; nra).
    pose proof (sqrt_lt_R0 _ N0). pose proof (sqrt_lt_R0 _ N1). pose proof (sqrt_lt_R0 _ N2). pose proof (sqrt_lt_R0 _ A1). pose proof (sqrt_lt_R0 _ A2). pose proof (sqrt_lt_R0 _ A3). field. repeat split; lra. }
  rewrite <- SQ. assert (0 < INR n1) by (apply lt_0_INR; auto). assert (0 < INR n2) by (apply lt_0_INR; auto). assert (0 < INR n3) by (apply lt_0_INR; auto). field. repeat split; lra.
Qed.

(** The value of the convolution at (q, en): 0 if nothing is near; else r0 sqrt(det A) / (2 pi)^2 times the sum, over the points of a mesh
    inside the ellipsoid, of intensity times Gaussian, times the volume of a cell of the mesh - times [shrink N]. *)
Theorem C70_value : forall eig disp inten rez max_step q en r0 A N,
  symmetric 4 A -> stiff 4 A -> inverse_of 4 A N -> (forall m, inverse_of 3 m N -> eigenvalues m (eig m)) ->
  0 < rez -> 1 <= max_step -> disp q <> [] -> (forall v, length (disp v) = length (disp q)) ->
  far A N disp q en /\ convolution eig disp inten rez max_step (Some (q, en, r0, A)) = Ok (Some 0) \/
  ~ far A N disp q en /\
  exists j1 j2 j3 n1 n2 n3 G,
    typical_jump A N disp q 0 j1 /\ typical_jump A N disp q 1 j2 /\ typical_jump A N disp q 2 j3 /\
    cells A rez max_step j1 n1 /\ cells A rez max_step j2 n2 /\ cells A rez max_step j3 n3 /\
    NoDup G /\
    (forall v, In v G <-> mesh (sqrt (N 0%nat 0%nat)) (sqrt (N 1%nat 1%nat)) (sqrt (N 2%nat 2%nat)) n1 n2 n3 v /\ in_ellipsoid A v /\
       exists w, In w (disp (vadd v q)) /\ form 4 A (displacement v (w - en)) < 125) /\
    convolution eig disp inten rez max_step (Some (q, en, r0, A)) =
      Ok (Some (r0 * sqrt (det4 A) / (2 * PI) ^ 2 * fold_right Rplus 0 (map (at_displacement A disp inten q en) G)
        * (6 * sqrt (N 0%nat 0%nat) / INR n1 * (6 * sqrt (N 1%nat 1%nat) / INR n2) * (6 * sqrt (N 2%nat 2%nat) / INR n3)) * shrink N)).
Proof.
  intros eig disp inten rez max_step q en r0 A N Y SA VA EV RP MP NE LB.
  destruct (sigmas A N Y SA VA) as (mh & E1 & M & Ym & Sm & Vm & E2 & E3 & E4). pose proof (stiff_posdef _ _ SA) as PA. pose proof (stiff_posdef _ _ Sm) as Pm.
  pose proof (N_pos A N Y SA VA) as NP. specialize (EV mh Vm).
  set (s := (sqrt (N 0%nat 0%nat), sqrt (N 1%nat 1%nat), sqrt (N 2%nat 2%nat))) in *.
  pose proof (energies_in A N mh M disp q) as EI. pose proof (weights_in A N mh M disp q en) as WI. pose proof (centre_in A N mh M) as CI.
  pose proof (step_spec A N mh disp q M LB) as ST. fold s in EI, WI, CI, ST.
  destruct (eig mh) as [[a b] c] eqn:EG. destruct (eigen_positive mh a b c Ym Pm EV) as (A1 & A2 & A3 & _).
  pose proof (volume N mh a b c) as VOL.
  unfold convolution. rewrite E1. cbn [bind]. rewrite E2. cbn [bind]. rewrite E3. cbn [bind]. rewrite E4. cbn [bind]. rewrite EG. cbv zeta.
  destruct (Rlt_dec 0 a); [|lra]. destruct (Rlt_dec 0 b); [|lra]. destruct (Rlt_dec 0 c); [|lra]. cbn [bind].
  set (vol := 1 / sqrt a * (1 / sqrt b) * (1 / sqrt c) * (2 * 3) ^ 3) in *.
  match goal with |- context [get_max_step _ _ ?f 0] => set (arr := f) in * end.
  assert (C0 : exists w, In w (disp (vadd (V 0 0 0) q))). { specialize (LB (vadd (V 0 0 0) q)). destruct (disp (vadd (V 0 0 0) q)) as [|w l]; [|exists w; left; auto]. destruct (disp q); [congruence|discriminate]. }
  destruct C0 as (w0 & C0). pose proof (EI w0) as EI0. rewrite in_flat_map in EI0. assert (F0 : first_points A N disp q (V 0 0 0) w0).
  { destruct (proj1 (first_in A N mh M (V 0 0 0)) CI) as [G1 G2]. split; [exact G1|]. split; auto. }
  set (pts := generate_pts s mh (10, 10, 10)%nat) in *. clearbody pts.
  destruct (flat_map (fun v => disp (vadd v q)) pts) as [|d ds] eqn:FM.
  { exfalso. apply (proj2 (EI w0)). exists (V 0 0 0). auto. }
  assert (LO : forall x, fold_left Rmax ds d < x <-> forall v w, first_points A N disp q v w -> w < x).
  { intros x. rewrite fold_max_lt, Forall_forall. split; [intros H v w F; apply H; apply EI; exists v; auto|]. intros H w W. apply EI in W. destruct W as (v & W). eauto. }
  assert (HI : forall x, x < fold_left Rmin ds d <-> forall v w, first_points A N disp q v w -> x < w).
  { intros x. rewrite fold_min_gt, Forall_forall. split; [intros H v w F; apply H; apply EI; exists v; auto|]. intros H w W. apply EI in W. destruct W as (v & W). eauto. }
  destruct (Rlt_dec (fold_left Rmax ds d) (en - 3 * sqrt (N 3%nat 3%nat))) as [L1|L1]. { left. split; auto. left. apply LO. auto. }
  destruct (Rlt_dec (en + 3 * sqrt (N 3%nat 3%nat)) (fold_left Rmin ds d)) as [L2|L2]. { left. split; auto. right. left. apply HI. auto. }
  destruct (flat_map (weights disp A q en) pts) as [|w ws] eqn:FW.
  { exfalso. apply (proj2 (WI (form 4 A (displacement (V 0 0 0) (w0 - en))))). exists (V 0 0 0), w0. auto. }
  assert (WE : 125 < fold_left Rmin ws w <-> forall v w, first_points A N disp q v w -> 125 < form 4 A (displacement v (w - en))).
  { rewrite fold_min_gt, Forall_forall. split; [intros H v w' F; apply H; apply WI; exists v, w'; auto|]. intros H x W. apply WI in W. destruct W as (v & w' & F & ->). eauto. }
  replace (5 ^ 3) with 125 by ring. destruct (Rlt_dec 125 (fold_left Rmin ws w)) as [L3|L3]. { left. split; auto. right. right. apply WE. auto. }
  right. split. { intros [F|[F|F]]; [apply L1, LO|apply L2, HI|apply L3, WE]; auto. }
  assert (T0 : typical_jump A N disp q 0 (get_max_step (length (disp q)) (10, 10, 10)%nat arr 0)) by (apply (ST 0%nat); lia). assert (T1 : typical_jump A N disp q 1 (get_max_step (length (disp q)) (10, 10, 10)%nat arr 1)) by (apply (ST 1%nat); lia). assert (T2 : typical_jump A N disp q 2 (get_max_step (length (disp q)) (10, 10, 10)%nat arr 2)) by (apply (ST 2%nat); lia). 
  pose proof (posdef_diag 4 A 3 PA ltac:(lia)) as A33.
  set (j1 := get_max_step (length (disp q)) (10, 10, 10)%nat arr 0) in *. set (j2 := get_max_step (length (disp q)) (10, 10, 10)%nat arr 1) in *. set (j3 := get_max_step (length (disp q)) (10, 10, 10)%nat arr 2) in *.
  clearbody j1 j2 j3. destruct (refine_cells A rez max_step j1 A33 RP MP) as [R1 Q1]. destruct (refine_cells A rez max_step j2 A33 RP MP) as [R2 Q2]. destruct (refine_cells A rez max_step j3 A33 RP MP) as [R3 Q3].
  set (n1 := refine (1 / sqrt (A 3%nat 3%nat) * rez) max_step j1) in *. set (n2 := refine (1 / sqrt (A 3%nat 3%nat) * rez) max_step j2) in *. set (n3 := refine (1 / sqrt (A 3%nat 3%nat) * rez) max_step j3) in *.
  clearbody n1 n2 n3. cbn [fst snd].
  set (keep := fun v => existsb (fun x => if Rlt_dec x 125 then true else false) (weights disp A q en v)).
  exists j1, j2, j3, n1, n2, n3, (filter keep (generate_pts s mh (n1, n2, n3))). do 6 (split; [assumption|]).
  assert (INR n1 > 0) by (apply lt_0_INR; auto). assert (INR n2 > 0) by (apply lt_0_INR; auto). assert (INR n3 > 0) by (apply lt_0_INR; auto).
  split; [|split].
  - apply NoDup_filter. unfold generate_pts. apply NoDup_filter. apply node_nodup; auto; apply sqrt_lt_R0, NP; lia.
  - intros v. rewrite filter_In. unfold s. rewrite (pts_in A N mh M n1 n2 n3 v Q1 Q2 Q3). fold s. assert (K : keep v = true <-> exists w, In w (disp (vadd v q)) /\ form 4 A (displacement v (w - en)) < 125).
    { unfold keep. rewrite existsb_exists. unfold weights. split.
      - intros (x & X & L). apply in_map_iff in X. destruct X as (w' & <- & W). exists w'. split; auto. rewrite weight_form in L. destruct (Rlt_dec (form 4 A (displacement v (w' - en))) 125); [auto|discriminate].
      - intros (w' & W & L). exists (weight A v (w' - en)). split; [apply in_map_iff; eauto|]. rewrite weight_form. destruct (Rlt_dec (form 4 A (displacement v (w' - en))) 125); [auto|contradiction]. }
    tauto.
  - destruct (Req_EM_T (INR n1 * INR n2 * INR n3) 0) as [Z|Z]. { exfalso. revert Z. apply Rgt_not_eq. apply Rmult_lt_0_compat; auto. apply Rmult_lt_0_compat; auto. }
    rewrite (determinant_det4 A Y PA). pose proof (determinant_pos 4 A Y PA) as DP. rewrite (determinant_det4 A Y PA) in DP. destruct (Rlt_dec (det4 A) 0); [lra|]. f_equal. f_equal.
    rewrite fold_left_sum, Rplus_0_l. rewrite (map_ext _ (at_displacement A disp inten q en)) by (intros v; apply at_point_spec).
    rewrite (VOL n1 n2 n3 Ym Pm Vm EV Q1 Q2 Q3). set (T := fold_right Rplus 0 _). set (sh := shrink N). set (dd := sqrt (det4 A)). clearbody T sh dd.
    unfold Rdiv. ring.
Qed.
Print Assumptions C70_value.
(** Where the convolution is skipped, no point of the first mesh is within three standard deviations of the dispersion. *)
Theorem C70_skipped : forall A N disp q en, symmetric 4 A -> stiff 4 A -> inverse_of 4 A N -> far A N disp q en ->
  forall v w, first_points A N disp q v w -> 9 < form 4 A (displacement v (w - en)).
Proof.
  intros A N disp q en Y S VA F v w P. pose proof (energy_bound A N v (w - en) Y S VA) as B. pose proof (N_pos A N Y S VA 3 ltac:(lia)) as NP. pose proof (sqrt_lt_R0 _ NP) as SP. pose proof (sqrt_sqrt (N 3%nat 3%nat) ltac:(lra)) as SS.
  set (t := sqrt (N 3%nat 3%nat)) in *. set (f := form 4 A (displacement v (w - en))) in *. rewrite <- SS in B.
  assert (G : 3 * t < Rabs (w - en) -> 9 < f).
  { intros H. assert (9 * (t * t) < (w - en) * (w - en)). { assert (RR : Rabs (w - en) * Rabs (w - en) = (w - en) * (w - en)) by (rewrite <- Rabs_mult; apply Rabs_right, Rle_ge, Rle_0_sqr). rewrite <- RR. set (z := Rabs (w - en)) in *. clearbody z. nra. }
    apply (Rmult_lt_reg_l (t * t)); nra. }
  destruct F as [F|[F|F]]; specialize (F v w P); [| |fold f in F; lra]; apply G; fold t in F; [rewrite Rabs_left|rewrite Rabs_right]; lra.
Qed.
Print Assumptions C70_skipped.
(** The factor left over: at most 1, and 1 only if displacements along different axes are uncorrelated. *)
Theorem C70_shrink : forall A N, symmetric 4 A -> stiff 4 A -> inverse_of 4 A N ->
  0 < shrink N <= 1 /\ (shrink N = 1 <-> N 0%nat 1%nat = 0 /\ N 0%nat 2%nat = 0 /\ N 1%nat 2%nat = 0).
Proof.
  intros A N Y S VA. destruct (sigmas A N Y S VA) as (mh & _ & _ & Ym & Sm & Vm & _). pose proof (stiff_posdef _ _ Sm) as Pm.
  pose proof (symmetric_inverse 3 mh N Ym Vm) as YN. pose proof (posdef_inverse 3 mh N Ym Pm Vm) as PN. destruct (hadamard N YN PN) as [H1 H2]. destruct (det3_pos N YN PN) as [H3 _].
  pose proof (posdef_diag 3 N 0 PN ltac:(lia)) as N0. pose proof (posdef_diag 3 N 1 PN ltac:(lia)) as N1. pose proof (posdef_diag 3 N 2 PN ltac:(lia)) as N2.
  assert (XYZ : 0 < N 0%nat 0%nat * N 1%nat 1%nat * N 2%nat 2%nat) by (apply Rmult_lt_0_compat; auto; apply Rmult_lt_0_compat; auto). unfold shrink. rewrite <- H2.
  set (d := det3 N) in *. set (x := N 0%nat 0%nat * N 1%nat 1%nat * N 2%nat 2%nat) in *. clearbody d x.
  assert (Q : 0 < d / x) by (apply Rdiv_lt_0_compat; auto). assert (QE : d / x * x = d) by (field; lra).
  split; [split; [apply sqrt_lt_R0; auto|]|split].
  - rewrite <- sqrt_1. apply sqrt_le_1_alt. apply (Rmult_le_reg_r x); lra.
  - intros E. pose proof (sqrt_sqrt (d / x) ltac:(lra)) as SS. rewrite E in SS. rewrite <- QE, <- SS. ring.
  - intros ->. unfold Rdiv. rewrite Rinv_r by lra. apply sqrt_1.
Qed.
Print Assumptions C70_shrink.

(** ** The cell *)
Lemma typical_unique : forall A N disp q axis s t, typical_jump A N disp q axis s -> typical_jump A N disp q axis t -> s = t.
Proof.
  intros A N disp q axis s t [[(b & j & k & ls & B & J & K & JJ & NE & E) H]|[E H]] [[(b' & j' & k' & ls' & B' & J' & K' & JJ' & NE' & E') H']|[E' H']].
  - apply Rle_antisym; [rewrite E; apply (H' b j k)|rewrite E'; apply (H b' j' k')]; auto.
  - exfalso. apply NE. apply (H' b j k); auto.
  - exfalso. apply NE'. apply (H b' j' k'); auto.
  - congruence.
Qed.
Lemma cells_unique : forall A rez max_step s n m, cells A rez max_step s n -> cells A rez max_step s m -> n = m.
Proof.
  intros A rez max_step s n m [H1 H2] [G1 G2]. destruct (Rle_dec s (rez / sqrt (A 3%nat 3%nat))) as [L|L]; [rewrite H1, G1; auto|].
  specialize (H2 ltac:(lra)). specialize (G2 ltac:(lra)). set (x := Rmin _ _) in *. clearbody x. assert (INR n < INR (S m)) by (rewrite S_INR; lra). assert (INR m < INR (S n)) by (rewrite S_INR; lra).
  apply INR_lt in H, H0. lia.
Qed.
Lemma sum_perm : forall l m, Permutation l m -> fold_right Rplus 0 l = fold_right Rplus 0 m.
Proof. induction 1; cbn; lra. Qed.
Lemma sum_pos : forall l x, Forall (fun r => 0 <= r) l -> In x l -> x <= fold_right Rplus 0 l.
Proof.
  induction l as [|a l IH]; intros x F I; [destruct I|]. inversion F; subst. cbn. assert (0 <= fold_right Rplus 0 l). { clear -H2. induction l; cbn; [lra|]. inversion H2; subst. specialize (IHl H3). lra. }
  destruct I as [->|I]; [lra|]. specialize (IH x H2 I). lra.
Qed.
Definition tilted : fmat := fun i j => nth j (nth i [[25 / 9; - 20 / 9; 0; 0]; [- 20 / 9; 25 / 9; 0; 0]; [0; 0; 1; 0]; [0; 0; 0; 1]] []) 0.
Definition tilted_cov : fmat := fun i j => nth j (nth i [[1; 4 / 5; 0; 0]; [4 / 5; 1; 0; 0]; [0; 0; 1; 0]; [0; 0; 0; 1]] []) 0.
Lemma tilted_ok : symmetric 4 tilted /\ stiff 4 tilted /\ inverse_of 4 tilted tilted_cov /\ (forall m, inverse_of 3 m tilted_cov -> eigenvalues m (5, 5 / 9, 1)).
Proof.
  assert (I4 : inverse_of 4 tilted tilted_cov). { intros i j I J. unfold mul, tilted, tilted_cov, eye. destruct i as [|[|[|[|]]]], j as [|[|[|[|]]]]; try lia; cbn; split; field. }
  split; [|split; [|split; [exact I4|]]].
  - intros i j I J. destruct i as [|[|[|[|]]]], j as [|[|[|[|]]]]; try lia; reflexivity.
  - intros x k K. unfold form, tilted. cbn. pose proof (Rle_0_sqr (x 0%nat - x 1%nat)). pose proof (Rle_0_sqr (x 0%nat)). pose proof (Rle_0_sqr (x 1%nat)). pose proof (Rle_0_sqr (x 2%nat)). pose proof (Rle_0_sqr (x 3%nat)).
    unfold Rsqr in *. destruct k as [|[|[|[|]]]]; [| | | |lia]; nra.
  - intros m I. assert (I3 : inverse_of 3 tilted_cov tilted). { intros i j I' J'. unfold mul, tilted, tilted_cov, eye. destruct i as [|[|[|]]], j as [|[|[|]]]; try lia; cbn; split; field. }
    assert (I' : inverse_of 3 tilted_cov m). { intros i j A B. destruct (I i j A B). auto. }
    pose proof (inverse_unique 3 tilted_cov m tilted I' I3) as U. unfold eigenvalues. intros x. unfold det3. rewrite !U by lia. unfold eye, tilted. cbn. field.
Qed.
(** One expects the sum of intensity times Gaussian times the volume of a cell. With correlated axes the value is smaller: the volume used
    is that of a box along the principal axes, but the mesh fills the larger box along h, k and l. *)
Theorem C70_cell_volume_refuted : ~ (forall eig disp inten rez max_step q en r0 A N,
  symmetric 4 A -> stiff 4 A -> inverse_of 4 A N -> (forall m, inverse_of 3 m N -> eigenvalues m (eig m)) ->
  0 < rez -> 1 <= max_step -> disp q <> [] -> (forall v, length (disp v) = length (disp q)) ->
  far A N disp q en \/
  exists j1 j2 j3 n1 n2 n3 G,
    typical_jump A N disp q 0 j1 /\ typical_jump A N disp q 1 j2 /\ typical_jump A N disp q 2 j3 /\
    cells A rez max_step j1 n1 /\ cells A rez max_step j2 n2 /\ cells A rez max_step j3 n3 /\
    NoDup G /\
    (forall v, In v G <-> mesh (sqrt (N 0%nat 0%nat)) (sqrt (N 1%nat 1%nat)) (sqrt (N 2%nat 2%nat)) n1 n2 n3 v /\ in_ellipsoid A v /\
       exists w, In w (disp (vadd v q)) /\ form 4 A (displacement v (w - en)) < 125) /\
    convolution eig disp inten rez max_step (Some (q, en, r0, A)) =
      Ok (Some (r0 * sqrt (det4 A) / (2 * PI) ^ 2 * fold_right Rplus 0 (map (at_displacement A disp inten q en) G)
        * (6 * sqrt (N 0%nat 0%nat) / INR n1 * (6 * sqrt (N 1%nat 1%nat) / INR n2) * (6 * sqrt (N 2%nat 2%nat) / INR n3))))).
Proof.
  intros C. destruct tilted_ok as (Y & SA & VA & EV). pose proof (stiff_posdef _ _ SA) as PA.
  assert (LB : forall v : vec, length [0] = length [0]) by reflexivity.
  specialize (C (fun _ => (5, 5 / 9, 1)) (fun _ => [0]) (fun _ => [1]) 1 100 (V 0 0 0) 0 1 tilted tilted_cov Y SA VA EV ltac:(lra) ltac:(lra) ltac:(discriminate) LB).
  assert (F0 : first_points tilted tilted_cov (fun _ => [0]) (V 0 0 0) (V 0 0 0) 0).
  { destruct (sigmas _ _ Y SA VA) as (mh & _ & M & _). destruct (proj1 (first_in tilted tilted_cov mh M (V 0 0 0)) (centre_in tilted tilted_cov mh M)) as [G1 G2]. split; [exact G1|]. split; [exact G2|left; reflexivity]. }
  assert (FF : form 4 tilted (displacement (V 0 0 0) (0 - 0)) = 0) by (unfold form; cbn; ring).
  assert (NF : ~ far tilted tilted_cov (fun _ => [0]) (V 0 0 0) 0).
  { pose proof (sqrt_pos (tilted_cov 3%nat 3%nat)). intros [F|[F|F]]; specialize (F _ _ F0); lra. }
  destruct (C70_value (fun _ => (5, 5 / 9, 1)) (fun _ => [0]) (fun _ => [1]) 1 100 (V 0 0 0) 0 1 tilted tilted_cov Y SA VA EV ltac:(lra) ltac:(lra) ltac:(discriminate) LB) as [[F _]|[_ W]]; [contradiction|].
  destruct C as [F|C]; [contradiction|].
  destruct W as (j1 & j2 & j3 & n1 & n2 & n3 & G & J1 & J2 & J3 & C1 & C2 & C3 & ND & GI & E).
  destruct C as (j1' & j2' & j3' & n1' & n2' & n3' & G' & J1' & J2' & J3' & C1' & C2' & C3' & ND' & GI' & E').
  rewrite <- (typical_unique _ _ _ _ _ _ _ J1 J1') in C1'. rewrite <- (typical_unique _ _ _ _ _ _ _ J2 J2') in C2'. rewrite <- (typical_unique _ _ _ _ _ _ _ J3 J3') in C3'.
  rewrite <- (cells_unique _ _ _ _ _ _ C1 C1') in *. rewrite <- (cells_unique _ _ _ _ _ _ C2 C2') in *. rewrite <- (cells_unique _ _ _ _ _ _ C3 C3') in *.
  assert (PG : Permutation G G') by (apply NoDup_Permutation; auto; intros v; rewrite GI, GI'; tauto).
  rewrite <- (sum_perm _ _ (Permutation_map (at_displacement tilted (fun _ => [0]) (fun _ => [1]) (V 0 0 0) 0) PG)) in E'. rewrite E in E'. apply Ok_inj in E'. injection E' as E'.
  assert (NPOS : forall s n, cells tilted 1 100 s n -> 0 < INR n).
  { intros s n [H1 H2]. destruct (Rle_dec s (1 / sqrt (tilted 3%nat 3%nat))) as [L|L]; [rewrite H1 by auto; apply lt_0_INR; lia|].
    specialize (H2 ltac:(lra)). assert (TP : 0 < 1 / sqrt (tilted 3%nat 3%nat)). { apply Rdiv_lt_0_compat; [lra|]. apply sqrt_lt_R0. cbn. lra. }
    set (t := 1 / sqrt (tilted 3%nat 3%nat)) in *. clearbody t. assert (1 <= Rmin (10 * s / t) 100). { apply Rmin_glb; [|lra]. apply (Rmult_le_reg_r t); auto. unfold Rdiv. rewrite Rmult_assoc, Rinv_l; lra. }
    destruct n; [cbn in H2; lra|]. apply lt_0_INR. lia. }
  pose proof (NPOS _ _ C1) as Q1. pose proof (NPOS _ _ C2) as Q2. pose proof (NPOS _ _ C3) as Q3.
  assert (AD : forall v, 0 < at_displacement tilted (fun _ => [0]) (fun _ => [1]) (V 0 0 0) 0 v). { intros v. unfold at_displacement. cbn [combine map fold_right fst snd]. rewrite Rmult_1_l, Rplus_0_r. apply exp_pos. }
  assert (G0 : exists v, In v G).
  { exists (V 0 0 0). apply GI. destruct (sigmas _ _ Y SA VA) as (mh & _ & M & _).
    (* the centre is a point of every mesh with an even number of cells *)
    assert (TJ : forall axis s, typical_jump tilted tilted_cov (fun _ => [0]) (V 0 0 0) axis s -> s = 0).
    { assert (Z : forall axis b j k i ls, jumps tilted tilted_cov (fun _ => [0]) (V 0 0 0) axis b j k i ls -> fold_right Rplus 0 ls = 0).
      { intros until ls. induction 1; cbn [fold_right]; auto. rewrite IHjumps. rewrite Rminus_diag_eq by reflexivity. rewrite Rabs_R0. ring. }
      intros axis s [[(b & j & k & ls & _ & _ & _ & JJ & _ & ->) _]|[-> _]]; auto. unfold mean. rewrite (Z _ _ _ _ _ _ JJ). unfold Rdiv. ring. }
    assert (T10 : forall axis s n, typical_jump tilted tilted_cov (fun _ => [0]) (V 0 0 0) axis s -> cells tilted 1 100 s n -> n = 10%nat).
    { intros axis s n T [H _]. apply H. rewrite (TJ _ _ T). left. apply Rdiv_lt_0_compat; [lra|]. apply sqrt_lt_R0. cbn. lra. }
    rewrite (T10 _ _ _ J1 C1), (T10 _ _ _ J2 C2), (T10 _ _ _ J3 C3). split; [|split].
    - apply (proj1 (pts_in tilted tilted_cov mh M 10 10 10 (V 0 0 0) ltac:(lia) ltac:(lia) ltac:(lia)) (centre_in tilted tilted_cov mh M)).
    - exists 0. replace 0 with (0 - 0) at 4 by ring. lra.
    - exists 0. split; [left; auto|]. rewrite FF. lra. }
  destruct G0 as (v0 & G0).
  assert (SP : 0 < fold_right Rplus 0 (map (at_displacement tilted (fun _ => [0]) (fun _ => [1]) (V 0 0 0) 0) G)).
  { eapply Rlt_le_trans; [apply (AD v0)|]. apply sum_pos; [|apply in_map; auto]. apply Forall_forall. intros r I. apply in_map_iff in I. destruct I as (v & <- & _). left. apply AD. }
  pose proof (determinant_pos 4 tilted Y PA) as DP. rewrite (determinant_det4 tilted Y PA) in DP. pose proof (sqrt_lt_R0 _ DP) as DS.
  pose proof (sqrt_lt_R0 _ (N_pos _ _ Y SA VA 0%nat ltac:(lia))) as S0. pose proof (sqrt_lt_R0 _ (N_pos _ _ Y SA VA 1%nat ltac:(lia))) as S1. pose proof (sqrt_lt_R0 _ (N_pos _ _ Y SA VA 2%nat ltac:(lia))) as S2.
  destruct (C70_shrink _ _ Y SA VA) as [_ SH]. assert (SN : shrink tilted_cov <> 1). { intros H. apply SH in H. destruct H as [H _]. cbn in H. lra. }
  pose proof PI_RGT_0 as PP.
  assert (X : 0 < 1 * sqrt (det4 tilted) / (2 * PI) ^ 2 * fold_right Rplus 0 (map (at_displacement tilted (fun _ => [0]) (fun _ => [1]) (V 0 0 0) 0) G)
        * (6 * sqrt (tilted_cov 0%nat 0%nat) / INR n1 * (6 * sqrt (tilted_cov 1%nat 1%nat) / INR n2) * (6 * sqrt (tilted_cov 2%nat 2%nat) / INR n3))).
  { set (S := fold_right _ _ _) in *. set (dd := sqrt (det4 tilted)) in *. set (p := PI) in *. set (s0 := sqrt (tilted_cov 0%nat 0%nat)) in *. set (s1 := sqrt (tilted_cov 1%nat 1%nat)) in *. set (s2 := sqrt (tilted_cov 2%nat 2%nat)) in *.
    clearbody S dd p s0 s1 s2. assert (0 < (2 * p) ^ 2) by (apply pow_lt; lra).
    assert (0 < 6 * s0 / INR n1) by (apply Rdiv_lt_0_compat; lra). assert (0 < 6 * s1 / INR n2) by (apply Rdiv_lt_0_compat; lra). assert (0 < 6 * s2 / INR n3) by (apply Rdiv_lt_0_compat; lra).
    assert (0 < 1 * dd / (2 * p) ^ 2) by (apply Rdiv_lt_0_compat; lra). apply Rmult_lt_0_compat; [apply Rmult_lt_0_compat; auto|]. apply Rmult_lt_0_compat; auto. apply Rmult_lt_0_compat; auto. }
  apply SN. set (x := _ * _ * (_ * _ * _)) in *. clearbody x. apply (Rmult_eq_reg_l x); lra.
Qed.
Print Assumptions C70_cell_volume_refuted.

(** ** What the value does not depend on *)
Lemma some_inj : forall (a b : R), Some a = Some b -> a = b.
Proof. congruence. Qed.
(** The convolution is linear in the intensity of the model, for any matrix. *)
Theorem C70_linear : forall eig disp i1 i2 a b rez max_step q en r0 A x y,
  (forall v, length (i1 v) = length (disp v)) -> (forall v, length (i2 v) = length (disp v)) ->
  convolution eig disp i1 rez max_step (Some (q, en, r0, A)) = Ok (Some x) -> convolution eig disp i2 rez max_step (Some (q, en, r0, A)) = Ok (Some y) ->
  convolution eig disp (fun v => map (fun p => a * fst p + b * snd p) (combine (i1 v) (i2 v))) rez max_step (Some (q, en, r0, A)) = Ok (Some (a * x + b * y)).
Proof.
  intros eig disp i1 i2 a b rez max_step q en r0 A x y L1 L2. unfold convolution.
  destruct (quadric_proj 4 A 3) as [mh|]; [|discriminate]. cbn [bind]. destruct (incoh_sigma_qs mh) as [s|]; [|discriminate]. cbn [bind]. destruct (incoh_sigma_en A) as [se|]; [|discriminate]. cbn [bind].
  destruct (coh_sigma A 3) as [sc|]; [|discriminate]. cbn [bind]. cbv zeta. destruct (let '(u, v, w) := eig mh in _) as [vol|]; [|discriminate]. cbn [bind].
  assert (Z : forall z, Ok (Some 0) = Ok (Some z) -> z = 0) by (intros z H; apply Ok_inj in H; congruence).
  destruct (flat_map (fun v => disp (vadd v q)) (generate_pts s mh (10, 10, 10)%nat)) as [|d ds]; [discriminate|].
  destruct (Rlt_dec (fold_left Rmax ds d) (en - 3 * se)); [intros H1 H2; apply Z in H1, H2; subst; do 2 f_equal; ring|].
  destruct (Rlt_dec (en + 3 * se) (fold_left Rmin ds d)); [intros H1 H2; apply Z in H1, H2; subst; do 2 f_equal; ring|].
  destruct (flat_map (weights disp A q en) (generate_pts s mh (10, 10, 10)%nat)) as [|w ws]; [discriminate|].
  destruct (Rlt_dec (5 ^ 3) (fold_left Rmin ws w)); [intros H1 H2; apply Z in H1, H2; subst; do 2 f_equal; ring|].
  set (G := filter _ _). set (sz := _ * _ * INR _). clearbody G sz. destruct (Req_EM_T sz 0) as [|N0]; [discriminate|]. destruct (Rlt_dec (determinant 4 A) 0); [discriminate|].
  intros H1 H2. apply Ok_inj in H1, H2. apply some_inj in H1, H2. subst x y. f_equal. f_equal.
  set (t := fun (inten : vec -> list R) v => fold_left Rplus (zipw (fun i x => i * exp (- x / 2)) (inten (vadd v q)) (weights disp A q en v)) 0).
  change (r0 * (fold_left Rplus (map (t (fun v => map (fun p => a * fst p + b * snd p) (combine (i1 v) (i2 v)))) G) 0 * (vol / sz)) * sqrt (determinant 4 A) / (2 * PI) ^ 2
    = a * (r0 * (fold_left Rplus (map (t i1) G) 0 * (vol / sz)) * sqrt (determinant 4 A) / (2 * PI) ^ 2) + b * (r0 * (fold_left Rplus (map (t i2) G) 0 * (vol / sz)) * sqrt (determinant 4 A) / (2 * PI) ^ 2)).
  assert (T : forall v, t (fun v => map (fun p => a * fst p + b * snd p) (combine (i1 v) (i2 v))) v = a * t i1 v + b * t i2 v).
  { intros v. unfold t, weights. rewrite !fold_left_sum, !Rplus_0_l. specialize (L1 (vadd v q)). specialize (L2 (vadd v q)). revert L1 L2. generalize (i1 (vadd v q)), (i2 (vadd v q)), (disp (vadd v q)).
    intros l m k. revert l m. induction k as [|e k IH]; intros [|u l] [|u' m] L1 L2; try discriminate; cbn [map combine zipw fold_right fst snd]; [ring|]. rewrite IH by (cbn in *; lia). ring. }
  assert (TT : fold_left Rplus (map (t (fun v => map (fun p => a * fst p + b * snd p) (combine (i1 v) (i2 v)))) G) 0 = a * fold_left Rplus (map (t i1) G) 0 + b * fold_left Rplus (map (t i2) G) 0).
  { rewrite !fold_left_sum, !Rplus_0_l. clear -T. clearbody t. induction G as [|v G IH]; cbn [map fold_right]; [ring|]. rewrite IH, T. ring. }
  rewrite TT. unfold Rdiv. ring.
Qed.
Print Assumptions C70_linear.
(** It is proportional to R0, and not negative if R0 and the intensities are not. *)
Theorem C70_scale : forall eig disp inten rez max_step q en r0 A x c,
  convolution eig disp inten rez max_step (Some (q, en, r0, A)) = Ok (Some x) ->
  convolution eig disp inten rez max_step (Some (q, en, c * r0, A)) = Ok (Some (c * x)) /\
  (0 <= r0 -> (forall v, Forall (fun i => 0 <= i) (inten v)) -> 0 <= x).
Proof.
  intros eig disp inten rez max_step q en r0 A x c. unfold convolution.
  destruct (quadric_proj 4 A 3) as [mh|]; [|discriminate]. cbn [bind]. destruct (incoh_sigma_qs mh) as [s|]; [|discriminate]. cbn [bind]. destruct (incoh_sigma_en A) as [se|]; [|discriminate]. cbn [bind].
  destruct (coh_sigma A 3) as [sc|]; [|discriminate]. cbn [bind]. cbv zeta. destruct (eig mh) as [[u v] w].
  destruct (Rlt_dec 0 u) as [U|]; [|discriminate]. destruct (Rlt_dec 0 v) as [V'|]; [|discriminate]. destruct (Rlt_dec 0 w) as [W|]; [|discriminate]. cbn [bind].
  assert (Z : forall z, Ok (Some 0) = Ok (Some z) -> z = 0) by (intros z H; apply Ok_inj in H; congruence).
  assert (VP : 0 < 1 / sqrt u * (1 / sqrt v) * (1 / sqrt w) * (2 * 3) ^ 3).
  { pose proof (sqrt_lt_R0 _ U). pose proof (sqrt_lt_R0 _ V'). pose proof (sqrt_lt_R0 _ W). repeat apply Rmult_lt_0_compat; try lra; apply Rinv_0_lt_compat; auto. }
  set (vol := 1 / sqrt u * (1 / sqrt v) * (1 / sqrt w) * (2 * 3) ^ 3) in *. clearbody vol.
  destruct (flat_map (fun v => disp (vadd v q)) (generate_pts s mh (10, 10, 10)%nat)) as [|d ds]; [discriminate|].
  destruct (Rlt_dec (fold_left Rmax ds d) (en - 3 * se)); [intros H1; apply Z in H1; subst; split; [do 2 f_equal; ring|lra]|].
  destruct (Rlt_dec (en + 3 * se) (fold_left Rmin ds d)); [intros H1; apply Z in H1; subst; split; [do 2 f_equal; ring|lra]|].
  destruct (flat_map (weights disp A q en) (generate_pts s mh (10, 10, 10)%nat)) as [|w0 ws]; [discriminate|].
  destruct (Rlt_dec (5 ^ 3) (fold_left Rmin ws w0)); [intros H1; apply Z in H1; subst; split; [do 2 f_equal; ring|lra]|].
  match goal with |- context [Req_EM_T (INR ?x * INR ?y * INR ?z) 0] => set (sz := INR x * INR y * INR z); assert (NP : 0 <= sz) by (apply Rmult_le_pos; [apply Rmult_le_pos|]; apply pos_INR) end.
  set (G := filter _ _). clearbody G sz. destruct (Req_EM_T sz 0) as [|N0]; [discriminate|]. destruct (Rlt_dec (determinant 4 A) 0); [discriminate|].
  intros H1. apply Ok_inj in H1. apply some_inj in H1. subst x.
  set (T := fold_left Rplus _ 0). split; [f_equal; f_equal; clearbody T; unfold Rdiv; ring|]. intros R0 IP. assert (TP : 0 <= T).
  { unfold T. rewrite fold_left_sum, Rplus_0_l. clear -IP. induction G as [|v G IH]; cbn [map fold_right]; [lra|]. apply Rplus_le_le_0_compat; [|exact IH]. rewrite fold_left_sum, Rplus_0_l. specialize (IP (vadd v q)).
    revert IP. generalize (inten (vadd v q)), (weights disp A q en v). intros l m IP. revert m. induction IP as [|i l I _ IH']; intros [|x m]; cbn [zipw fold_right]; try lra. apply Rplus_le_le_0_compat; [|apply IH']. apply Rmult_le_pos; [auto|left; apply exp_pos]. }
  clearbody T. pose proof (sqrt_pos (determinant 4 A)) as DP. pose proof PI_RGT_0 as PP. set (D := sqrt (determinant 4 A)) in *. set (p := PI) in *. clearbody D p. assert (0 < (2 * p) ^ 2) by (apply pow_lt; lra).
  assert (0 < vol / sz) by (apply Rdiv_lt_0_compat; lra). apply Rmult_le_pos; [|left; apply Rinv_0_lt_compat; auto]. apply Rmult_le_pos; [|auto]. apply Rmult_le_pos; [auto|]. apply Rmult_le_pos; lra.
Qed.
Print Assumptions C70_scale.
(** No displacement within three standard deviations is outside the box that the mesh cuts, and each is close to a point of the mesh. *)
Theorem C70_box : forall A N v e n1 n2 n3, symmetric 4 A -> stiff 4 A -> inverse_of 4 A N -> (0 < n1)%nat -> (0 < n2)%nat -> (0 < n3)%nat -> form 4 A (displacement v e) < 9 ->
  in_ellipsoid A v /\ Rabs e <= 3 * sqrt (N 3%nat 3%nat) /\
  exists u, mesh (sqrt (N 0%nat 0%nat)) (sqrt (N 1%nat 1%nat)) (sqrt (N 2%nat 2%nat)) n1 n2 n3 u /\
    Rabs (vx v - vx u) <= 6 * sqrt (N 0%nat 0%nat) / INR n1 /\ Rabs (vy v - vy u) <= 6 * sqrt (N 1%nat 1%nat) / INR n2 /\ Rabs (vz v - vz u) <= 6 * sqrt (N 2%nat 2%nat) / INR n3.
Proof.
  intros A N v e n1 n2 n3 Y S VA P1 P2 P3 F. split; [exists e; auto|].
  assert (B : forall i, (i < 4)%nat -> - (3 * sqrt (N i i)) <= displacement v e i <= 3 * sqrt (N i i)).
  { intros i I. destruct (C44_extent A i I Y S) as (c & w & _ & W & X & _). rewrite (C44_variance A N i I Y S VA) in W. apply Ok_inj in W. subst w. pose proof sig2fwhm_pos as SP.
    set (s := M_Utilities.sig2fwhm) in *. clearbody s. specialize (X (fun k => s / 3 * displacement v e k)).
    assert (FE : form 4 A (fun k => s / 3 * displacement v e k) = s * s / 9 * form 4 A (displacement v e)).
    { unfold form. rewrite <- sum_scal. apply sum_ext. intros k K. rewrite <- sum_scal. apply sum_ext. intros l L. field. }
    rewrite FE in X. set (f := form 4 A (displacement v e)) in *. assert (s * s / 9 * f <= s * s) by nra. specialize (X H). set (d := displacement v e i) in *. set (t := sqrt (N i i)) in *. clearbody d t. nra. }
  split. { apply Rabs_le. apply (B 3%nat). lia. }
  assert (ONE : forall s n x, (0 < n)%nat -> - (3 * s) <= x <= 3 * s -> exists i, (i <= n)%nat /\ Rabs (x - (- (3 * s) + INR i * (6 * s / INR n))) <= 6 * s / INR n).
  { intros s n x NP X. assert (0 < INR n) by (apply lt_0_INR; auto). assert (ID : forall m, (m <= n)%nat -> exists i, (i <= n)%nat /\ (Rabs (x - (- (3 * s) + INR i * (6 * s / INR n))) <= 6 * s / INR n \/ - (3 * s) + INR m * (6 * s / INR n) <= x)).
    { induction m as [|m IH]; intros Hm; [exists 0%nat; split; [lia|right; cbn; lra]|]. destruct (IH ltac:(lia)) as (i & I & [H1|H1]); [exists i; auto|].
      destruct (Rle_dec (- (3 * s) + INR (Datatypes.S m) * (6 * s / INR n)) x); [exists 0%nat; split; [lia|auto]|]. exists m. split; [lia|left]. rewrite S_INR in n0. apply Rabs_le. lra. }
    destruct (ID n ltac:(lia)) as (i & I & [H1|H1]); [exists i; auto|]. exists n. split; [lia|]. replace (INR n * (6 * s / INR n)) with (6 * s) in * by (field; lra).
    assert (0 <= 6 * s / INR n). { apply Rmult_le_pos; [lra|]. left. apply Rinv_0_lt_compat. auto. } apply Rabs_le. lra. }
  destruct (ONE _ n1 _ P1 (B 0%nat ltac:(lia))) as (i & I & H1). destruct (ONE _ n2 _ P2 (B 1%nat ltac:(lia))) as (j & J & H2). destruct (ONE _ n3 _ P3 (B 2%nat ltac:(lia))) as (k & K & H3).
  eexists. split; [exists i, j, k; split; [exact I|]; split; [exact J|]; split; [exact K|reflexivity]|]. cbn [vx vy vz]. auto.
Qed.
Print Assumptions C70_box.
(** [calculate] gives one value for each point, in order, whatever the number of workers; a point that cannot be reached is nan. *)
Theorem C70_calculate : forall eig disp inten ps workers rs,
  calculate eig disp inten ps workers = Ok rs <-> (0 < workers)%nat /\ Forall2 (fun p r => match p with None => r = None | Some _ => convolution eig disp inten (1 / 5) 100 p = Ok r end) ps rs.
Proof.
  intros eig disp inten ps workers rs. unfold calculate. destruct workers as [|k]; [split; [discriminate|intros [H _]; lia]|].
  assert (E : mapM (convolution eig disp inten (1 / 5) 100) ps = Ok rs <-> Forall2 (fun p r => match p with None => r = None | Some _ => convolution eig disp inten (1 / 5) 100 p = Ok r end) ps rs).
  { revert rs. induction ps as [|p ps IH]; intros rs.
    - split; [intros H; apply Ok_inj in H; subst; constructor|inversion 1; reflexivity].
    - assert (C : forall r, convolution eig disp inten (1 / 5) 100 p = Ok r <-> match p with None => r = None | Some _ => convolution eig disp inten (1 / 5) 100 p = Ok r end).
      { intros r. destruct p as [p|]; [tauto|]. change (convolution eig disp inten (1 / 5) 100 None) with (Ok (None : num)). split; [intros H; apply Ok_inj in H; auto|intros ->; auto]. }
      cbn [mapM]. split.
      + intros H. destruct (convolution eig disp inten (1 / 5) 100 p) as [r|] eqn:R; [|discriminate]. cbn [bind] in H. destruct (mapM (convolution eig disp inten (1 / 5) 100) ps) as [rs'|] eqn:M; [|discriminate]. cbn [bind] in H. apply Ok_inj in H. subst rs.
        constructor; [destruct p; [exact R|apply C; auto]|apply IH; auto].
      + intros H. inversion H as [|a b c d H1 H2]; subst. apply C in H1. rewrite H1. cbn [bind]. apply IH in H2. rewrite H2. reflexivity. }
  rewrite E. split; [intros H; split; [lia|auto]|tauto].
Qed.
Print Assumptions C70_calculate.

(** A case that meets the hypotheses: flat dispersion, unit matrix, at an energy in the window. *)
Example C70_example : exists disp inten q en A N, symmetric 4 A /\ stiff 4 A /\ inverse_of 4 A N /\ (forall m, inverse_of 3 m N -> eigenvalues m (5, 5 / 9, 1)) /\
  disp q <> [] /\ (forall v, length (disp v : list R) = length (disp q)) /\ (forall v, length (inten v : list R) = length (disp v)) /\ ~ far A N disp q en /\
  (exists r, convolution (fun _ => (5, 5 / 9, 1)) disp inten (1 / 5) 100 (Some (q, en, 1, A)) = Ok (Some r) /\ 0 <= r) /\ shrink N = 3 / 5.
Proof.
  destruct tilted_ok as (Y & SA & VA & EV). exists (fun _ => [0; 3]), (fun _ => [1; 2]), (V 0 0 0), 0, tilted, tilted_cov. do 4 (split; [assumption|]). split; [discriminate|]. split; [reflexivity|]. split; [reflexivity|].
  assert (NF : ~ far tilted tilted_cov (fun _ => [0; 3]) (V 0 0 0) 0).
  { assert (F0 : first_points tilted tilted_cov (fun _ => [0; 3]) (V 0 0 0) (V 0 0 0) 0).
    { destruct (sigmas _ _ Y SA VA) as (mh & _ & M & _). destruct (proj1 (first_in tilted tilted_cov mh M (V 0 0 0)) (centre_in tilted tilted_cov mh M)) as [G1 G2]. split; [exact G1|]. split; [exact G2|left; reflexivity]. }
    assert (FF : form 4 tilted (displacement (V 0 0 0) (0 - 0)) = 0) by (unfold form; cbn; ring).
    pose proof (sqrt_pos (tilted_cov 3%nat 3%nat)). intros [F|[F|F]]; specialize (F _ _ F0); lra. }
  split; [exact NF|]. split.
  - destruct (C70_value (fun _ => (5, 5 / 9, 1)) (fun _ => [0; 3]) (fun _ => [1; 2]) (1 / 5) 100 (V 0 0 0) 0 1 tilted tilted_cov Y SA VA EV ltac:(lra) ltac:(lra) ltac:(discriminate) ltac:(reflexivity)) as [[F _]|[_ (j1 & j2 & j3 & n1 & n2 & n3 & G & _ & _ & _ & _ & _ & _ & _ & _ & E)]]; [contradiction|].
    eexists. split; [exact E|]. eapply (proj2 (C70_scale _ _ _ _ _ _ _ _ _ _ 1 E)); [lra|]. intros v. repeat constructor; lra.
  - unfold shrink, det3, tilted_cov. cbn. replace (1 * (1 * 1 - 0 * 0) - 4 / 5 * (4 / 5 * 1 - 0 * 0) + 0 * (4 / 5 * 0 - 1 * 0)) with (3 / 5 * (3 / 5)) by field. replace (3 / 5 * (3 / 5) / (1 * 1 * 1)) with (3 / 5 * (3 / 5)) by field. apply sqrt_square. lra.
Qed.
