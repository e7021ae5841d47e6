(** Model of src/tavi/data/fit.py and convfit.py: fitting, and the parameters kept between fits. *)
From Coq Require Import Reals List ZArith String Bool.
From Verif Require Import Base M_ScanData M_Project M_Tavi M_Fit M_ConvFit.
Import ListNotations.
Open Scope string_scope.
Open Scope list_scope.

(** lmfit's ModelResult, the members that are read *)
Record outcome := Outcome { oc_success : bool; oc_errorbars : bool; oc_params : pars }.

(** fit.py:52-57: what is fitted, and [result] (of which only the parameters are read here). [_parameters] is written and never read. *)
Record run (S : Type) := Run { ru_set : S; ru_result : option outcome }.
Arguments Run {S}. Arguments ru_set {S}. Arguments ru_result {S}.

(** Both classes have the same code, with other data ([S]) and one difference in what is accepted. *)
Section Run.
  Context {S E : Type}.
  Variable edit : S -> E -> S.                  (* ranges and components *)
  Variable guess : S -> result pars.
  Variable call : S -> pars -> bool -> result outcome.   (* self.model.fit(self.y, pars, x=self.x, weights=self.err) *)
  Variable accept : outcome -> bool.
  (** fit.py:145-153, convfit.py:133-142 params *)
  Definition params_of (r : run S) : result pars := match ru_result r with Some o => Ok (oc_params o) | None => guess (ru_set r) end.
  (** fit.py:193-207, convfit.py:189-200 fit: the result is kept when the fit is accepted, otherwise ValueError is raised *)
  Definition fit_of (p : pars) (use_errorbar : bool) (r : run S) : run S * result outcome :=
    match call (ru_set r) p use_errorbar with
    | Err e => (r, Err e)
    | Ok o => if accept o then (Run (ru_set r) (Some o), Ok o) else (r, Err ValueError)
    end.
  Inductive op := Edit (e : E) | Fit (p : pars) (use_errorbar : bool).
  Definition run_step (r : run S) (o : op) : run S :=
    match o with Edit e => Run (edit (ru_set r) e) (ru_result r) | Fit p u => fst (fit_of p u r) end.
End Run.
Arguments op : clear implicits.

(** The parameters of the models of lmfit that fit.py:17-31 names, without the prefix. *)
Definition arguments (m : string) : list string :=
  if existsb (String.eqb m) ["Gaussian"; "Lorentzian"; "DampedOscillator"] then ["amplitude"; "center"; "sigma"]
  else if existsb (String.eqb m) ["Voigt"; "DampedHarmonicOscillator"] then ["amplitude"; "center"; "sigma"; "gamma"]
  else if String.eqb m "PseudoVoigt" then ["amplitude"; "center"; "sigma"; "fraction"]
  else if String.eqb m "Constant" then ["c"]
  else if String.eqb m "Linear" then ["slope"; "intercept"]
  else if String.eqb m "Quadratic" then ["a"; "b"; "c"]
  else if String.eqb m "Polynomial" then ["c0"; "c1"; "c2"; "c3"; "c4"; "c5"; "c6"; "c7"]
  else if String.eqb m "Exponential" then ["amplitude"; "decay"]
  else if String.eqb m "PowerLaw" then ["amplitude"; "exponent"]
  else [].
(** A component is its prefix and the name of its model. *)
Definition param_names (c : string * string) : list string := map (fun a => (fst c ++ a)%string) (arguments (snd c)).

Section Fit1D.
  (** lmfit, external: the least squares of a composite model (components, y, x, weights, first values), and the guess of one component (y, x) *)
  Variable lm_fit : list (string * string) -> list num -> list num -> option (list num) -> pars -> result outcome.
  Variable lm_guess : string * string -> list num -> list num -> result pars.
  (** fit.py:155-166 guess: [pars += ...] for every component in turn *)
  Definition guess1 (f : fit1d) : result pars :=
    fold_left (fun acc c => do p <- acc; do g <- lm_guess c (f_y f) (f_x f); Ok (dupdate String.eqb p g)) (components f) (Ok []).
  (** fit.py:168-174, 193-197: the sum of no models is a number, which has no fit; lmfit refuses parameters without a value *)
  Definition call1 (f : fit1d) (p : pars) (use_errorbar : bool) : result outcome :=
    match components f with
    | [] => Err AttributeError
    | cs => if forallb (fun k => dmem String.eqb k p) (flat_map param_names cs) then lm_fit cs (f_y f) (f_x f) (fit_weights f use_errorbar) p
            else Err ValueError
    end.
  (** fit.py:198-207: without error bars the fit is refused too *)
  Definition accept1 (o : outcome) : bool := oc_success o && oc_errorbars o.
  Definition run1 (d : data1d) (ops : list (op fit_op)) : run fit1d := fold_left (run_step fit_step call1 accept1) ops (Run (new_fit d) None).
  Definition params1 : run fit1d -> result pars := params_of guess1.
  Definition fit1 : pars -> bool -> run fit1d -> run fit1d * result outcome := fit_of call1 accept1.
End Fit1D.

Section ConvFit1D.
  (** the same for components that are signals (true) or backgrounds seen through the resolution *)
  Variable lm_fit : list (bool * string) -> list (R * R) -> list num -> list num -> option (list num) -> pars -> result outcome.
  Variable lm_guess : list num -> list num -> string -> R * R * R.
  (** convfit.py:189-193 *)
  Definition callc (f : convfit) (p : pars) (use_errorbar : bool) : result outcome :=
    do cs <- composite f;
    do i <- conv_fit_inputs f p use_errorbar;
    let '(y, x, w) := i in lm_fit cs (c_rez f) y x w p.
  (** convfit.py:194-200 *)
  Definition acceptc (o : outcome) : bool := oc_success o.
  Definition runc (d : data1d) (rez : list (R * R)) (ops : list (op conv_op)) : run convfit :=
    fold_left (run_step conv_step callc acceptc) ops (Run (fst (new_conv d rez None)) None).
  Definition paramsc : run convfit -> result pars := params_of (fun f => Ok (conv_guess lm_guess f)).
End ConvFit1D.
