(** Square and rectangular real matrices of any size: the part of numpy used by the resolution code, and the projection of a
    quadric (src/tavi/instrument/resolution/ellipsoid.py, convolution.py). A matrix is the function giving its entries; its
    size is carried separately. *)
From Coq Require Import Reals List Arith Bool.
From Verif Require Import Base.
Import ListNotations.
Open Scope R_scope.

Definition fmat := nat -> nat -> R.

(** f(0) + ... + f(n - 1) *)
Fixpoint sum (n : nat) (f : nat -> R) : R := match n with O => 0 | S m => sum m f + f m end.
(** A @ B, where A has [n] columns *)
Definition mul (n : nat) (A B : fmat) : fmat := fun i j => sum n (fun k => A i k * B k j).
(** A.T *)
Definition transpose (A : fmat) : fmat := fun i j => A j i.
Definition fadd (A B : fmat) : fmat := fun i j => A i j + B i j.
Definition fscale (c : R) (A : fmat) : fmat := fun i j => c * A i j.
(** np.eye *)
Definition eye : fmat := fun i j => if Nat.eqb i j then 1 else 0.

(** np.delete(np.delete(A, i, axis=0), i, axis=1): the indices that remain, and the matrix *)
Definition skip (i k : nat) : nat := if Nat.ltb k i then k else S k.
Definition delete (A : fmat) (i : nat) : fmat := fun k l => A (skip i k) (skip i l).

(** np.linalg.inv and np.linalg.det by elimination with a row exchange. Simplification: the first non-zero pivot is used where
    LAPACK uses the largest one; over the reals the inverse does not depend on it. *)
Definition nonzero (x : R) : bool := if Req_EM_T x 0 then false else true.
Definition pivot (n : nat) (A : fmat) : option nat := find (fun r => nonzero (A r 0%nat)) (seq 0 n).
(** exchanging rows 0 and r *)
Definition exchange (r i : nat) : nat := if Nat.eqb i 0 then r else if Nat.eqb i r then 0%nat else i.
Definition eliminate (P : fmat) : fmat := fun i j => P (S i) (S j) - P (S i) 0%nat * P 0%nat (S j) / P 0%nat 0%nat.

Fixpoint inv (n : nat) (A : fmat) : result fmat :=
  match n with
  | O => Ok A
  | S m =>
      match pivot n A with
      | None => Err LinAlgError
      | Some r =>
          let P := fun i j => A (exchange r i) j in
          let p := P 0%nat 0%nat in
          do T <- inv m (eliminate P);
          let c := fun i => - sum m (fun k => T i k * P (S k) 0%nat) / p in
          Ok (fun i j =>
                match i, exchange r j with
                | O, O => / p - sum m (fun k => P 0%nat (S k) * c k) / p
                | O, S j' => - sum m (fun k => P 0%nat (S k) * T k j') / p
                | S i', O => c i'
                | S i', S j' => T i' j'
                end)
      end
  end.
Fixpoint determinant (n : nat) (A : fmat) : R :=
  match n with
  | O => 1
  | S m =>
      match pivot n A with
      | None => 0
      | Some r =>
          let P := fun i j => A (exchange r i) j in
          (if Nat.eqb r 0 then 1 else -1) * P 0%nat 0%nat * determinant m (eliminate P)
      end
  end.

(** ellipsoid.py:186, convolution.py:20 *)
Definition quadric_zero : R := / 100000000.
(** ellipsoid.py:183-204 and convolution.py:10-31 (the same computation): [n] is the size of the square matrix. The root of a
    negative diagonal element makes every entry nan. *)
Definition quadric_proj (n : nat) (quadric : fmat) (idx : nat) : result fmat :=
  if Nat.leb n idx then Err IndexError
  else
    let q := quadric idx idx in
    if Rlt_dec (Rabs q) quadric_zero then Ok (delete quadric idx)
    else if Rlt_dec q 0 then Err NotANumber
    else
      let v := fun k => 1 / 2 * (quadric idx k + quadric k idx) / sqrt q in
      Ok (delete (fun k l => quadric k l - v k * v l) idx).
