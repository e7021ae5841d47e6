(** Specification vocabulary for C75: histories of plots, and what they are to show. *)
From Coq Require Import Reals List ZArith String Bool.
From Verif Require Import Base M_Utilities M_Mat M_ScanData M_Project M_Tavi M_Ellipsoid M_Plotter.
Import ListNotations.
Open Scope string_scope.
Open Scope list_scope.

Section Histories.
  Variable V : Type.
  Variable text : string -> V.
  Notation fmt := (fmt V).

  (** labels and limits of the axes *)
  Record axes := Axes { ax_xlabel : option string; ax_ylabel : option string; ax_xlim : option (R * R); ax_ylim : option (R * R) }.
  (** What is done to plots, which are numbered: 1D and 2D plots apart. Curves, meshes and ellipses are numbered too, all together, so that the
      same one can be put on several plots. *)
  Inductive op :=
  | AddScan (p i : nat) (kw : fmt) | AddFit (p : nat) (f : fitted) (x : option (list num)) (deconv : bool) (kw : fmt)
  | AddComponents (p : nat) (f : fitted) (x : option (list num)) (kw : list (string * list V))
  | AddBar (p : nat) (pos : (num * num) + model_result) (fwhm : R) (kw : fmt) | Show1 (p : nat) | SetTitle1 (p : nat) (t : option string)
  | AddContour (p i : nat) (kw : fmt) | AddCurve (p i : nat) (kw : fmt) | AddReso (p : nat) (o : option nat) (kw : fmt) | Show2 (p : nat) | SetTitle2 (p : nat) (t : option string)
  | SetAxes1 (p : nat) (a : axes) | SetAxes2 (p : nat) (a : axes).
  (** keyword arguments have distinct names, and so have the components of a fit *)
  Definition distinct (o : op) : Prop :=
    match o with
    | AddBar _ pos _ kw => NoDup (map fst kw) /\ match pos with inl _ => True | inr r => forall x, NoDup (map fst (mr_components r x)) end
    | AddScan _ _ kw | AddFit _ _ _ _ kw | AddContour _ _ kw | AddCurve _ _ kw | AddReso _ _ kw => NoDup (map fst kw)
    | AddComponents _ _ _ kw => NoDup (map fst kw)
    | _ => True
    end.

  (** ** What a history is to show *)
  (** the latest value given for a keyword to the object [i], on whatever plot *)
  Definition gives (o : op) (i : nat) (k : string) : option V :=
    match o with
    | AddScan _ j kw | AddContour _ j kw | AddCurve _ j kw | AddReso _ (Some j) kw => if Nat.eqb j i then sget k kw else None
    | _ => None
    end.
  Definition latest (h : list op) (i : nat) (k : string) : option V :=
    fold_left (fun a o => match gives o i k with Some v => Some v | None => a end) h None.
  (** the objects added to a plot *)
  Definition scans_of (p : nat) (h : list op) : list nat := flat_map (fun o => match o with AddScan q i _ => if Nat.eqb q p then [i] else [] | _ => [] end) h.
  Definition contours_of (p : nat) (h : list op) : list nat := flat_map (fun o => match o with AddContour q i _ => if Nat.eqb q p then [i] else [] | _ => [] end) h.
  Definition curves_of (p : nat) (h : list op) : list nat := flat_map (fun o => match o with AddCurve q i _ => if Nat.eqb q p then [i] else [] | _ => [] end) h.
  Definition resos_of (p : nat) (h : list op) : list nat := flat_map (fun o => match o with AddReso q (Some i) _ => if Nat.eqb q p then [i] else [] | _ => [] end) h.
  (** a curve and the keywords it is drawn with *)
  Record shown := Shown { sh_x : list num; sh_y : list num; sh_err : option (list num); sh_fmt : string -> option V }.
  (** the curves of a fit: at the given points or its own; as fitted, without the resolution, or evaluated if there is no fit *)
  Definition fit_shown (f : fitted) (x : option (list num)) (deconv : bool) (kw : fmt) : list shown :=
    let x := match x with Some x => x | None => fi_x f end in
    match fi_result f, deconv, fi_intrinsic f with
    | None, _, _ => [Shown x (fi_eval f x) None (fun k => sget k kw)]
    | Some r, false, _ => [Shown x (r x) None (fun k => sget k kw)]
    | Some _, true, Some g => [Shown x (g x) None (fun k => sget k kw)]
    | Some _, true, None => []
    end.
  (** one curve for each component, labelled by its prefix without the last character, with its own value of each keyword *)
  Definition components_shown (f : fitted) (x : option (list num)) (kw : list (string * list V)) : list shown :=
    let x := match x with Some x => x | None => fi_x f end in
    let comps := fi_components f x in
    match fi_result f with
    | None => []
    | Some _ =>
        if forallb (fun kv => Nat.eqb (List.length (snd kv)) (List.length comps)) kw then
          map (fun ic => Shown x (snd (snd ic)) None (fun k => match sget k kw with
                 | Some vs => nth_error vs (fst ic)
                 | None => if String.eqb k "label" then Some (text (substring 0 (String.length (fst (snd ic)) - 1) (fst (snd ic)))) else None end))
              (combine (seq 0 (List.length comps)) comps)
        else []
    end.
  Definition fits_of (p : nat) (h : list op) : list shown :=
    flat_map (fun o => match o with
      | AddFit q f x d kw => if Nat.eqb q p then fit_shown f x d kw else []
      | AddComponents q f x kw => if Nat.eqb q p then components_shown f x kw else []
      | _ => [] end) h.
  (** the place of a bar: as given, or half way up the first signal at its centre, above the other components *)
  Definition bar_place (pos : (num * num) + model_result) (q : num * num) : Prop :=
    match pos with
    | inl r => q = r
    | inr r => exists x y, sget "s1_center" (mr_params r) = Some x /\ sget "s1_" (mr_components r x) = Some y /\
        q = (x, nadd (ndiv y (Some 2%R)) (fold_left nadd (map snd (filter (fun c => negb (String.eqb (fst c) "s1_")) (mr_components r x))) (Some 0%R)))
    end.
  (** the bars of a plot; a fit without a first signal has no place for one *)
  Definition placeable (pos : (num * num) + model_result) : bool :=
    match pos with inl _ => true | inr r => match sget "s1_center" (mr_params r) with Some x => match sget "s1_" (mr_components r x) with Some _ => true | None => false end | None => false end end.
  Definition bars_of (p : nat) (h : list op) : list (((num * num) + model_result) * R * fmt) :=
    flat_map (fun o => match o with AddBar q pos w kw => if Nat.eqb q p && placeable pos then [(pos, w, kw)] else [] | _ => [] end) h.
  (** the title the user gave last, "" at first *)
  Definition own_title1 (p : nat) (h : list op) : option string := fold_left (fun a o => match o with SetTitle1 q t => if Nat.eqb q p then t else a | _ => a end) h (Some "").
  Definition own_title2 (p : nat) (h : list op) : option string := fold_left (fun a o => match o with SetTitle2 q t => if Nat.eqb q p then t else a | _ => a end) h (Some "").
  (** the labels and limits the user gave last, none at first *)
  Definition own_axes1 (p : nat) (h : list op) : axes := fold_left (fun a o => match o with SetAxes1 q b => if Nat.eqb q p then b else a | _ => a end) h (Axes None None None None).
  Definition own_axes2 (p : nat) (h : list op) : axes := fold_left (fun a o => match o with SetAxes2 q b => if Nat.eqb q p then b else a | _ => a end) h (Axes None None None None).
  Definition draws (c : cmd V) (s : shown) : Prop :=
    match c, sh_err s with
    | Line _ x y f, None => x = sh_x s /\ y = sh_y s /\ forall k, sget k f = sh_fmt s k
    | ErrorBars _ x y (Some e) f, Some e' => x = sh_x s /\ y = sh_y s /\ e = e' /\ forall k, sget k f = sh_fmt s k
    | _, _ => False
    end.
  (** a curve as it was measured, with the keywords given last *)
  Definition as_given (h : list op) (c : curve) (i : nat) : shown := Shown (cu_x c) (cu_y c) (cu_err c) (latest h i).
  (** a bar: in its place, half the width to either side, with the keywords it was given and caps of size 3 unless another was asked for *)
  Definition draws_bar (capsize3 : V) (c : cmd V) (b : ((num * num) + model_result) * R * fmt) : Prop :=
    let '(pos, w, kw) := b in
    exists x y f, c = Bar V x y (w / 2)%R f /\ bar_place pos (x, y) /\
      sget "capsize" f = Some (match sget "capsize" kw with Some v => v | None => capsize3 end) /\ (forall k, k <> "capsize" -> sget k f = sget k kw).
  (** the different texts among [l], in some order, joined *)
  Definition joins (sep : string) (l : list string) (t : string) : Prop := exists ls, t = String.concat sep ls /\ NoDup ls /\ forall s, In s ls <-> In s l.
  (** the entries that are there *)
  Definition present {A} (l : list (option A)) : list A := flat_map (fun o => match o with Some a => [a] | None => [] end) l.
  (** the curve and the keywords of a command that draws one *)
  Definition curve_fmt (c : cmd V) : option fmt := match c with Line _ _ _ f | ErrorBars _ _ _ _ f => Some f | _ => None end.
  (** everything but curves, meshes, bars and outlines *)
  Definition decoration (c : cmd V) : Prop :=
    match c with XLim _ _ _ | YLim _ _ _ | Title _ _ | XLabel _ _ | YLabel _ _ | Grid _ | Legend _ _ => True | _ => False end.
End Histories.
