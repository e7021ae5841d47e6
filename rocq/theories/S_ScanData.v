(** Specification vocabulary for scan data: points, bins, totals. *)
From Coq Require Import Reals List Bool.
From Verif Require Import Base M_ScanData.
Import ListNotations.
Open Scope R_scope.

(** A measured point: abscissa, counts and normalisation (monitor, time, ...). *)
Record point := Point { px : R; py : R; pw : R }.
Definition col (f : point -> R) (pts : list point) : list num := map (fun p => Some (f p)) pts.

(** The data set [d], with the normalisation column possibly overridden by the argument [arg], holds the points [pts]. *)
Definition holds (d : data1d) (pts : list point) : Prop := dx d = col px pts /\ dy d = col py pts.
Definition normalised (d : data1d) (arg : option (list num)) (pts : list point) : Prop :=
  arg = Some (col pw pts) \/ (arg = None /\ dnorm d = Some (col pw pts)).

(** Bin [i] of width [step] starting at [lo]: the half-open interval centred on lo + i step, its edges shifted down by a
    hundredth of the step. *)
Definition in_bin (lo step : R) (i : nat) (x : R) : Prop :=
  lo + (INR i - 1 / 2) * step - step / 100 <= x < lo + (INR i + 1 / 2) * step - step / 100.
Definition in_bin_dec (lo step : R) (i : nat) (x : R) : {in_bin lo step i x} + {~ in_bin lo step i x}.
Proof.
  unfold in_bin. destruct (Rle_dec (lo + (INR i - 1 / 2) * step - step / 100) x); [|right; tauto].
  destruct (Rlt_dec x (lo + (INR i + 1 / 2) * step - step / 100)); [left|right]; tauto.
Defined.
Definition decb {P : Prop} (d : {P} + {~ P}) : bool := if d then true else false.
(** The points of bin [i]. *)
Definition bin (lo step : R) (i : nat) (pts : list point) : list point :=
  filter (fun p => decb (in_bin_dec lo step i (px p))) pts.

(** [n] is the number of bin centres lo + i step not beyond hi (up to the same hundredth of a step). *)
Definition bin_count (lo hi step : R) (n : nat) : Prop :=
  forall i : nat, (i < n)%nat <-> lo + INR i * step <= hi + step / 100.

(** What the bins cover together. *)
Definition covered (lo step : R) (n : nat) (x : R) : Prop :=
  lo - step / 2 - step / 100 <= x < lo + (INR n - 1 / 2) * step - step / 100.
Definition covered_dec (lo step : R) (n : nat) (x : R) : {covered lo step n x} + {~ covered lo step n x}.
Proof.
  unfold covered. destruct (Rle_dec (lo - step / 2 - step / 100) x); [|right; tauto].
  destruct (Rlt_dec x (lo + (INR n - 1 / 2) * step - step / 100)); [left|right]; tauto.
Defined.

Fixpoint total {A} (f : A -> R) (l : list A) : R := match l with [] => 0 | a :: l' => f a + total f l' end.

(** Two-dimensional points and cells. *)
Record point2 := Point2 { qx : R; qy : R; qz : R; qw : R }.
Definition col2 (f : point2 -> R) (pts : list point2) : list num := map (fun p => Some (f p)) pts.
Definition holds2 (d : data2d) (pts : list point2) : Prop := ex2 d = col2 qx pts /\ ey2 d = col2 qy pts /\ ez2 d = col2 qz pts.
Definition normalised2 (d : data2d) (arg : option (list num)) (pts : list point2) : Prop :=
  arg = Some (col2 qw pts) \/ (arg = None /\ enorm2 d = Some (col2 qw pts)).
Definition cell (lox sx loy sy : R) (i j : nat) (pts : list point2) : list point2 :=
  filter (fun p => decb (in_bin_dec lox sx i (qx p)) && decb (in_bin_dec loy sy j (qy p))) pts.
Definition entry (m : list (list num)) (i j : nat) : option num :=
  match nth_error m i with Some r => nth_error r j | None => None end.

(** The four rebinning calls: with tolerance or on a grid, each with or without renormalisation to a value. *)
Inductive kind := Tol | TolRenorm (norm_val : R) | Grid | GridRenorm (norm_val : R).
Definition rebin (k : kind) (d : data1d) (p : option R * option R * R) (arg : option (list num)) : result data1d :=
  match k with
  | Tol => rebin_tol d p arg
  | TolRenorm v => rebin_tol_renorm d p arg v
  | Grid => rebin_grid d p
  | GridRenorm v => rebin_grid_renorm d p arg v
  end.
(** All but plain grid rebinning need a normalisation column. *)
Definition suits (k : kind) (d : data1d) (arg : option (list num)) (pts : list point) : Prop :=
  match k with Grid => True | _ => normalised d arg pts end.
Definition on_grid (k : kind) : bool := match k with Grid | GridRenorm _ => true | _ => false end.
(** What the counts of a bin are divided by, and then multiplied by. *)
Definition denom (k : kind) (l : list point) : R :=
  match k with Tol | Grid => INR (length l) | TolRenorm _ | GridRenorm _ => total pw l end.
Definition factor (k : kind) : R := match k with Tol | Grid => 1 | TolRenorm v | GridRenorm v => v end.
(** The arrays a user sees. *)
Definition arrays (r : result data1d) : result (list num * list num * list num) := rmap (fun d => (dx d, dy d, derr d)) r.
(** entry [i] as a number (0 if there is none) *)
Definition value (l : list num) (i : nat) : R := match nth_error l i with Some (Some v) => v | _ => 0 end.
