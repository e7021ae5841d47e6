(** Model of src/tavi/data/convfit.py: fits of a curve convolved with the resolution at each point. The attributes that it shares with
    fit.py are those of M_Fit. *)
From Coq Require Import Reals List ZArith String Bool.
From Verif Require Import Base M_Utilities M_ScanData M_Project M_Tavi M_Fit.
From Verif Require M_Ellipsoid.
Import ListNotations.
Open Scope string_scope.
Open Scope list_scope.
Open Scope R_scope.

(** convfit.py:11-14 *)
Definition gaussian (x amplitude center sigma : R) : R :=
  amplitude / (sqrt (2 * PI) * sigma) * exp (- ((x - center) ^ 2) / (2 * sigma ^ 2)).
(** convfit.py:17-18 *)
Definition constant (x c : R) : R := c * 1.

(** np.linspace(a, b, n)[k] *)
Definition linspace_at (a b : R) (n k : nat) : R := a + INR k * ((b - a) / INR (n - 1)).
(** convfit.py:26-33, one point: NUM_SIGMA is 5 and NUM_PTS is [pts], 10000 in the code *)
Definition conv_point (pts : nat) (signal : R -> R) (rez : R * R) (x : R) : R :=
  let (r0, fwhm_rez) := rez in
  let sigma_rez := fwhm_rez / (2 * sqrt (2 * ln 2)) in
  let del_x := 2 * 5 * sigma_rez / INR pts in
  let x_rez k := linspace_at (- 5 * sigma_rez) (5 * sigma_rez) pts k in
  fold_left Rplus (map (fun k => gaussian (x_rez k) r0 0 sigma_rez * signal (x - x_rez k)) (seq 0 pts)) 0 * del_x.
Definition NUM_PTS : nat := Z.to_nat 10000.
(** convfit.py:21-34, for an array of floats. [rez_params[i]] raises IndexError past the end; a resolution of width zero gives nan, an error here. *)
Fixpoint conv_loop (signal : R -> R) (rez_params : list (R * R)) (xs : list num) : result (list num) :=
  match xs with
  | [] => Ok []
  | x :: xs' =>
      match rez_params with
      | [] => Err IndexError
      | rez :: rest =>
          if Req_EM_T (snd rez) 0 then Err NotANumber
          else do ys <- conv_loop signal rest xs';
               Ok ((match x with Some r => Some (conv_point NUM_PTS signal rez r) | None => None end) :: ys)
      end
  end.
Definition conv_1d (xs : list num) (signal : R -> R) (rez_params : list (R * R)) : result (list num) := conv_loop signal rez_params xs.
(** convfit.py:21-34, for an array of integers: np.empty_like(x) (line 25) is one too, and line 33 stores each value as an integer. *)
Definition conv_1d_ints (xs : list Z) (signal : R -> R) (rez_params : list (R * R)) : result (list num) :=
  do ys <- conv_loop signal rez_params (map (fun n => Some (IZR n)) xs); Ok (map (option_map M_Ellipsoid.to_int) ys).

(** convfit.py:59-76. A component is a prefix and what was appended: the model, or - for a background of another name - the name itself.
    [c_intr] lists the prefixes of _signal_models_intrinsic; _background_models_instrinsic is never filled. *)
Inductive item := AModel (prefix : string) | AName (s : string).
Record convfit := CF {
  c_fit : fit1d; c_rez : list (R * R);
  c_sig : list item; c_bkg : list item; c_intr : list string }.
Definition with_fit (g : fit1d) (f : convfit) : convfit := CF g (c_rez f) (c_sig f) (c_bkg f) (c_intr f).
(** convfit.py:81-88: the range masks x, y and err *)
Definition conv_set_range (r : R * R) (f : convfit) : convfit * option exn :=
  let (g, e) := set_range r (c_fit f) in (with_fit g f, e).
(** convfit.py:59-79 *)
Definition new_conv (d : data1d) (rez_params : list (R * R)) (fit_range : option (R * R)) : convfit * option exn :=
  let f := CF (new_fit d) rez_params [] [] [] in
  match fit_range with None => (f, None) | Some r => conv_set_range r f end.
Definition with_counts (ns nb : Z) (g : fit1d) : fit1d := Fit1D (f_x g) (f_y g) (f_err g) (f_signals g) (f_backgrounds g) ns nb.
(** convfit.py:90-112: for another name [model_intrinsic] is unbound when it is appended; by then the name itself has been appended *)
Definition conv_add_signal (m : string) (f : convfit) : convfit * option exn :=
  let n := (f_nsig (c_fit f) + 1)%Z in
  let g := with_counts n (f_nbkg (c_fit f)) (c_fit f) in
  let prefix := ("s" ++ str_of n ++ "_")%string in
  if String.eqb m "Gaussian" then (CF g (c_rez f) (List.app (c_sig f) [AModel prefix]) (c_bkg f) (List.app (c_intr f) [prefix]), None)
  else (CF g (c_rez f) (List.app (c_sig f) [AName m]) (c_bkg f) (c_intr f), Some UnboundLocalError).
(** convfit.py:114-129 *)
Definition conv_add_background (m : string) (f : convfit) : convfit :=
  let n := (f_nbkg (c_fit f) + 1)%Z in
  let g := with_counts (f_nsig (c_fit f)) n (c_fit f) in
  let prefix := ("b" ++ str_of n ++ "_")%string in
  let it := if String.eqb m "Constant" then AModel prefix else AName m in
  CF g (c_rez f) (c_sig f) (List.app (c_bkg f) [it]) (c_intr f).

Inductive conv_op := CSetRange (r : R * R) | CAddSignal (m : string) | CAddBackground (m : string).
Definition conv_step (f : convfit) (o : conv_op) : convfit :=
  match o with CSetRange r => fst (conv_set_range r f) | CAddSignal m => fst (conv_add_signal m f) | CAddBackground m => conv_add_background m f end.

(** Parameters of lmfit: a dictionary of values. *)
Definition pars := list (string * R).
Definition pget (p : pars) (k : string) : result R := match sget k p with Some r => Ok r | None => Err TypeError end.
(** lmfit's evaluation of a component: the arguments of the function are the parameters with its prefix, and a missing one is a missing
    argument. convfit.py:94-97: a Gaussian of width zero gives nan, an error here. *)
Definition eval_signal (p : pars) (rez : list (R * R)) (xs : list num) (prefix : string) : result (list num) :=
  do a <- pget p (prefix ++ "amplitude")%string; do c <- pget p (prefix ++ "center")%string; do s <- pget p (prefix ++ "sigma")%string;
  if Req_EM_T s 0 then Err NotANumber else conv_1d xs (fun x => gaussian x a c s) rez.
(** convfit.py:41-44 *)
Definition eval_background (p : pars) (rez : list (R * R)) (xs : list num) (prefix : string) : result (list num) :=
  do c <- pget p (prefix ++ "c")%string; conv_1d xs (fun x => constant x c) rez.
(** convfit.py:159-164: np.sum of the components; lmfit adds models only *)
Definition composite (f : convfit) : result (list (bool * string)) :=
  match List.app (map (pair true) (c_sig f)) (map (pair false) (c_bkg f)) with
  | [] => Err AttributeError
  | (_, AName _) :: _ => Err TypeError
  | l => mapM (fun bi => match bi with (b, AModel p) => Ok (b, p) | (_, AName _) => Err ValueError end) l
  end.
(** convfit.py:186-187 *)
Definition conv_eval (f : convfit) (p : pars) (xs : list num) : result (list num) :=
  do comps <- composite f;
  do ys <- mapM (fun bp : bool * string => if fst bp then eval_signal p (c_rez f) xs (snd bp) else eval_background p (c_rez f) xs (snd bp)) comps;
  match ys with [] => Err AttributeError | y :: rest => Ok (fold_left (zipw nadd) rest y) end.

(** The same at an array of integers: convfit.py:94-97 and 41-44 with [conv_1d_ints] *)
Definition eval_ints (p : pars) (rez : list (R * R)) (xs : list Z) (bp : bool * string) : result (list num) :=
  let prefix := snd bp in
  if fst bp then
    do a <- pget p (prefix ++ "amplitude")%string; do c <- pget p (prefix ++ "center")%string; do s <- pget p (prefix ++ "sigma")%string;
    if Req_EM_T s 0 then Err NotANumber else conv_1d_ints xs (fun x => gaussian x a c s) rez
  else do c <- pget p (prefix ++ "c")%string; conv_1d_ints xs (fun x => constant x c) rez.
(** convfit.py:186-187 *)
Definition conv_eval_ints (f : convfit) (p : pars) (xs : list Z) : result (list num) :=
  do comps <- composite f;
  do ys <- mapM (eval_ints p (c_rez f) xs) comps;
  match ys with [] => Err AttributeError | y :: rest => Ok (fold_left (zipw nadd) rest y) end.

Section Guess.
  (** lmfit's GaussianModel.guess: values for the parameters of one component *)
  Variable lm_guess : list num -> list num -> string -> R * R * R.
  (** convfit.py:144-157. The derived parameters of lmfit (fwhm, height) are left out. *)
  Definition conv_guess (f : convfit) : pars :=
    fold_left (fun p prefix => let '(a, c, s) := lm_guess (f_y (c_fit f)) (f_x (c_fit f)) prefix in
                 sset (prefix ++ "sigma")%string s (sset (prefix ++ "center")%string c (sset (prefix ++ "amplitude")%string a p))) (c_intr f) [].
End Guess.
(** the parameters that the composite model has *)
Definition names (bp : bool * string) : list string :=
  if fst bp then [(snd bp ++ "amplitude")%string; (snd bp ++ "center")%string; (snd bp ++ "sigma")%string] else [(snd bp ++ "c")%string].
(** convfit.py:189-200 up to the least squares: what lmfit is given; it refuses parameters without a value (ValueError) *)
Definition conv_fit_inputs (f : convfit) (p : pars) (use_errorbar : bool) : result (list num * list num * option (list num)) :=
  do comps <- composite f;
  if forallb (fun k => dmem String.eqb k p) (flat_map names comps) then Ok (f_y (c_fit f), f_x (c_fit f), fit_weights (c_fit f) use_errorbar)
  else Err ValueError.
(** fit.py:176-188 x_to_plot: linspace between the given ends, by default those of the data; a nan among the data makes every value nan *)
Definition fit_x_to_plot (f : fit1d) (lo hi : option R) (n : nat) : result (list num) :=
  do a <- (match lo with Some r => Ok (Some r) | None => match f_x f with [] => Err ValueError | x :: l => Ok (fold_left (fun u v => match u, v with Some a, Some b => Some (Rmin a b) | _, _ => None end) l x) end end);
  do b <- (match hi with Some r => Ok (Some r) | None => match f_x f with [] => Err ValueError | x :: l => Ok (fold_left (fun u v => match u, v with Some a, Some b => Some (Rmax a b) | _, _ => None end) l x) end end);
  Ok (map (fun k => match a, b with Some a, Some b => Some (if Nat.eqb n 1 then a else linspace_at a b n k) | _, _ => None end) (seq 0 n)).
(** convfit.py:172-184, the same code *)
Definition conv_x_to_plot (f : convfit) (lo hi : option R) (n : nat) : result (list num) := fit_x_to_plot (c_fit f) lo hi n.
