(** Model of src/tavi/data/fit.py (range, components and the weights of a fit) and of the oblique axes of
    src/tavi/plotter.py. *)
From Coq Require Import Reals List ZArith String Bool.
From Verif Require Import Base M_ScanData M_Project.
Import ListNotations.
Open Scope string_scope.
Open Scope list_scope.
Open Scope R_scope.

(** fit.py:48-62. A component is its prefix and the name of its model. *)
Record fit1d := Fit1D {
  f_x : list num; f_y : list num; f_err : option (list num);
  f_signals : list (string * string); f_backgrounds : list (string * string);
  f_nsig : Z; f_nbkg : Z }.

(** [self.x >= fit_min] and [self.x <= fit_max] *)
Definition in_range (lo hi : R) (x : num) : bool :=
  match x with
  | Some v => (if Rle_dec lo v then true else false) && (if Rle_dec v hi then true else false)
  | None => false
  end.

(** numpy's boolean indexing: IndexError when the mask has another length *)
Fixpoint keep {A} (mask : list bool) (l : list A) : list A :=
  match mask, l with b :: m, x :: l' => if b then x :: keep m l' else keep m l' | _, _ => [] end.
Definition index_mask {A} (mask : list bool) (l : list A) : result (list A) :=
  if Nat.eqb (List.length mask) (List.length l) then Ok (keep mask l) else Err IndexError.

(** fit.py:81-88. The attributes are replaced one after the other, so an exception leaves the earlier ones replaced. *)
Definition set_range (r : R * R) (f : fit1d) : fit1d * option exn :=
  let (lo, hi) := r in
  let mask := map (in_range lo hi) (f_x f) in
  let x := keep mask (f_x f) in
  let f1 := Fit1D x (f_y f) (f_err f) (f_signals f) (f_backgrounds f) (f_nsig f) (f_nbkg f) in
  match index_mask mask (f_y f) with
  | Err e => (f1, Some e)
  | Ok y =>
      let f2 := Fit1D x y (f_err f) (f_signals f) (f_backgrounds f) (f_nsig f) (f_nbkg f) in
      match f_err f with
      | None => (f2, None)
      | Some err =>
          match index_mask mask err with
          | Err e => (f2, Some e)
          | Ok e => (Fit1D x y (Some e) (f_signals f) (f_backgrounds f) (f_nsig f) (f_nbkg f), None)
          end
      end
  end.

(** fit.py:17-35: the models that lmfit builds from a prefix and a nan policy alone, and the two that need more
    arguments (an expression, knots) and raise TypeError *)
Definition plain_models : list string :=
  ["Gaussian"; "Lorentzian"; "Voigt"; "PseudoVoigt"; "DampedOscillator"; "DampedHarmonicOscillator";
   "Constant"; "Linear"; "Quadratic"; "Polynomial"; "Exponential"; "PowerLaw"].
Definition needy_models : list string := ["Expression"; "Spline"].
Definition build_model (m : string) : option exn :=
  if existsb (String.eqb m) plain_models then None
  else if existsb (String.eqb m) needy_models then Some TypeError else Some KeyError.

(** fit.py:95-109 *)
Definition add_signal (m : string) (f : fit1d) : fit1d * option exn :=
  let n := (f_nsig f + 1)%Z in
  let prefix := ("s" ++ str_of n ++ "_")%string in
  match build_model m with
  | Some e => (Fit1D (f_x f) (f_y f) (f_err f) (f_signals f) (f_backgrounds f) n (f_nbkg f), Some e)
  | None => (Fit1D (f_x f) (f_y f) (f_err f) (f_signals f ++ [(prefix, m)]) (f_backgrounds f) n (f_nbkg f), None)
  end.

(** fit.py:111-125 *)
Definition add_background (m : string) (f : fit1d) : fit1d * option exn :=
  let n := (f_nbkg f + 1)%Z in
  let prefix := ("b" ++ str_of n ++ "_")%string in
  match build_model m with
  | Some e => (Fit1D (f_x f) (f_y f) (f_err f) (f_signals f) (f_backgrounds f) (f_nsig f) n, Some e)
  | None => (Fit1D (f_x f) (f_y f) (f_err f) (f_signals f) (f_backgrounds f ++ [(prefix, m)]) (f_nsig f) n, None)
  end.

Inductive fit_op := SetRange (r : R * R) | AddSignal (m : string) | AddBackground (m : string).
Definition fit_step (f : fit1d) (o : fit_op) : fit1d :=
  fst (match o with SetRange r => set_range r f | AddSignal m => add_signal m f | AddBackground m => add_background m f end).

(** fit.py:37-59: a fit of [data], without the optional arguments, which are [SetRange], [AddSignal], [AddBackground] *)
Definition new_fit (d : data1d) : fit1d := Fit1D (dx d) (dy d) (Some (derr d)) [] [] 0 0.

(** fit.py:145-174: the components in the order of the composite model *)
Definition components (f : fit1d) : list (string * string) := f_signals f ++ f_backgrounds f.

(** fit.py:193-197: the weights handed to lmfit *)
Definition fit_weights (f : fit1d) (use_errorbar : bool) : option (list num) := if use_errorbar then f_err f else None.

(** lmfit's Model.fit, external: least squares of [(model - data) * weights] *)
Fixpoint objective (w y m : list R) : R :=
  match w, y, m with
  | a :: w', b :: y', c :: m' => ((c - b) * a) * ((c - b) * a) + objective w' y' m'
  | _, _, _ => 0
  end.

(** ** plotter.py *)
(** [y / np.tan(a)]: nan or inf when the tangent is zero. At a right angle numpy's tangent is about 1.6e16 and the
    quotient is zero up to rounding. *)
Definition over_tan (y a : R) : num := if Req_EM_T (sin a) 0 then None else Some (y * cos a / sin a).
(** plotter.py:16-18 *)
Definition tr (x y angle : R) : num * R := (nadd (Some x) (over_tan y (angle / 180 * PI)), y).
(** plotter.py:21-23 *)
Definition inv_tr (x y angle : R) : num * R := (nsub (Some x) (over_tan y (angle / 180 * PI)), y).
