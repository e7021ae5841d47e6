(** Model of src/tavi/plotter.py: what is put on a plot and what is handed to matplotlib when it is drawn. Lines 16-23 (tr, inv_tr) are in
    M_Fit.v, the points of an ellipse in M_Ellipse.v. *)
From Coq Require Import Reals List ZArith String Bool.
From Verif Require Import Base PyStr PySort M_Utilities M_Mat M_ScanData M_Project M_Tavi M_Fit M_Ellipsoid M_Ellipse.
Import ListNotations.
Open Scope string_scope.
Open Scope list_scope.

Section Plots.
  (** values of keyword arguments, and the one of "capsize" that is put in by default (3) and of a label *)
  Variable V : Type.
  Variable capsize3 : V.
  Variable text : string -> V.
  Definition fmt := dict string V.

  (** ** What can be put on a plot *)
  (** scan_data.py ScanData1D, ScanData2D: the attributes used here; [fmt] is kept apart because the plots change it *)
  Record curve := Curve { cu_x : list num; cu_y : list num; cu_err : option (list num); cu_title : option string; cu_xlabel : string; cu_ylabel : string }.
  Record mesh := Mesh { me_x : list (list num); me_y : list (list num); me_z : list (list num); me_title : option string; me_xlabel : option string; me_ylabel : option string }.
  (** plotter.py:26-30 FitData1D and 33-37 ResoBar, with their fmt: made by the plot itself and not shared *)
  Record fit_curve := FitCurve { fc_x : list num; fc_y : list num; fc_fmt : fmt }.
  Record reso_bar := ResoBar { rb_pos : num * num; rb_fwhm : R; rb_fmt : fmt }.
  (** fit.py, convfit.py: the attributes used here. [fi_eval] is eval at the current parameters, [fi_result] result.eval at them,
      [fi_intrinsic] that of the model without resolution, which only ConvFit1D has, [fi_components] result.eval_components. *)
  Record fitted := Fitted {
    fi_x : list num; fi_eval : list num -> list num; fi_result : option (list num -> list num); fi_intrinsic : option (list num -> list num);
    fi_components : list num -> list (string * list num) }.
  (** lmfit's ModelResult, as used by add_reso_bar: parameter values, and the components at a point *)
  Record model_result := ModelResult { mr_params : dict string num; mr_components : num -> dict string num }.

  (** ** Commands handed to the axes *)
  Inductive cmd :=
  | Line (x y : list num) (f : fmt)                       (* ax.plot *)
  | ErrorBars (x y : list num) (yerr : option (list num)) (f : fmt)   (* ax.errorbar *)
  | Bar (x y : num) (xerr : R) (f : fmt)                  (* ax.errorbar with xerr *)
  | Colours (x y z : list (list num)) (f : fmt)           (* ax.pcolormesh *)
  | Outline (points : list (num * num)) (f : fmt)         (* ax.plot of an ellipse *)
  | XLim (a b : R) | YLim (a b : R) | Title (t : string) | XLabel (l : string) | YLabel (l : string) | Grid | Legend (loc : nat).

  (** ** Plots *)
  (** plotter.py:54-67; LOG_X and LOG_Y are never read *)
  Record plot1 := Plot1 {
    p1_scans : list nat; p1_fits : list fit_curve; p1_bars : list reso_bar; p1_title : option string;
    p1_xlabel : option string; p1_ylabel : option string; p1_xlim : option (R * R); p1_ylim : option (R * R) }.
  Definition new_plot1 : plot1 := Plot1 [] [] [] (Some "") None None None None.
  (** plotter.py:194-209 *)
  Record plot2 := Plot2 {
    p2_contours : list nat; p2_curves : list nat; p2_resos : list nat; p2_title : option string;
    p2_xlabel : option string; p2_ylabel : option string; p2_xlim : option (R * R); p2_ylim : option (R * R) }.
  Definition new_plot2 : plot2 := Plot2 [] [] [] (Some "") None None None None.

  (** for key, val in kwargs.items(): fmt.update({key: val}) *)
  Definition give (kw f : fmt) : fmt := dupdate String.eqb f kw.
  Definition formats := nat -> fmt.
  Definition give_to (i : nat) (kw : fmt) (s : formats) : formats := fun j => if Nat.eqb j i then give kw (s j) else s j.

  (** plotter.py:69-72 *)
  Definition add_scan (i : nat) (kw : fmt) (p : plot1) (s : formats) : plot1 * formats :=
    (Plot1 (p1_scans p ++ [i]) (p1_fits p) (p1_bars p) (p1_title p) (p1_xlabel p) (p1_ylabel p) (p1_xlim p) (p1_ylim p), give_to i kw s).
  Definition with_fits (p : plot1) (l : list fit_curve) : plot1 := Plot1 (p1_scans p) l (p1_bars p) (p1_title p) (p1_xlabel p) (p1_ylabel p) (p1_xlim p) (p1_ylim p).
  (** plotter.py:83-104; Fit1D has no model_intrinsic *)
  Definition add_fit (f : fitted) (x : option (list num)) (deconv : bool) (kw : fmt) (p : plot1) : result plot1 :=
    let x := match x with None => fi_x f | Some x => x end in
    do y <- (match fi_result f with
             | None => Ok (fi_eval f x)
             | Some r => if deconv then match fi_intrinsic f with Some g => Ok (g x) | None => Err AttributeError end else Ok (r x)
             end);
    Ok (with_fits p (p1_fits p ++ [FitCurve x y (give kw [])])).
  (** plotter.py:126-127 *)
  Fixpoint pick (i : nat) (kw : list (string * list V)) (f : fmt) : result fmt :=
    match kw with [] => Ok f | (k, vs) :: kw' => match nth_error vs i with Some v => pick i kw' (sset k v f) | None => Err IndexError end end.
  (** plotter.py:122-127: one component *)
  Definition component (x : list num) (kw : list (string * list V)) (i : nat) (c : string * list num) : result fit_curve :=
    do f <- pick i kw (sset "label" (text (substring 0 (String.length (fst c) - 1) (fst c))) []);
    Ok (FitCurve x (snd c) f).
  (** plotter.py:106-127 *)
  Definition add_fit_components (f : fitted) (x : option (list num)) (kw : list (string * list V)) (p : plot1) : result plot1 :=
    let x := match x with None => fi_x f | Some x => x end in
    match fi_result f with
    | None => Ok p
    | Some _ =>
        let comps := fi_components f x in
        if forallb (fun kv => Nat.eqb (List.length (snd kv)) (List.length comps)) kw
        then do l <- mapM (fun ic => component x kw (fst ic) (snd ic)) (combine (seq 0 (List.length comps)) comps); Ok (with_fits p (p1_fits p ++ l))
        else Err ValueError
    end.
  (** plotter.py:137-142: half way up the first signal, above the other components; sum() starts from 0 *)
  Definition bar_pos (r : model_result) : result (num * num) :=
    match sget "s1_center" (mr_params r) with
    | None => Err KeyError
    | Some x => let cs := mr_components r x in
        match sget "s1_" cs with
        | None => Err KeyError
        | Some y => Ok (x, nadd (ndiv y (Some 2%R)) (fold_left nadd (map snd (ddel String.eqb "s1_" cs)) (Some 0%R)))
        end
    end.
  (** plotter.py:129-147 *)
  Definition add_reso_bar (pos : (num * num) + model_result) (fwhm : R) (kw : fmt) (p : plot1) : result plot1 :=
    do q <- (match pos with inl q => Ok q | inr r => bar_pos r end);
    Ok (Plot1 (p1_scans p) (p1_fits p) (p1_bars p ++ [ResoBar q fwhm (give kw [])]) (p1_title p) (p1_xlabel p) (p1_ylabel p) (p1_xlim p) (p1_ylim p)).

  Section Draw.
    (** the objects that were put on the plots, by identity; [arrange] gives the iteration order of a set of texts *)
    Variables (curves : nat -> curve) (meshes : nat -> mesh) (ellipses : nat -> ellipse) (arrange : list string -> list string).
    Variable eig : fmat -> (R * R) * ((R * R) * (R * R)).

    Definition lim1 (f : R -> R -> cmd) (o : option (R * R)) : list cmd := match o with Some (a, b) => [f a b] | None => [] end.
    (** self.title = data.title in a loop *)
    Definition last_title (t : option string) (l : list (option string)) : option string := fold_left (fun _ t' => t') l t.
    Definition capped (b : reso_bar) : reso_bar := match sget "capsize" (rb_fmt b) with Some _ => b | None => ResoBar (rb_pos b) (rb_fwhm b) (sset "capsize" capsize3 (rb_fmt b)) end.
    Definition has_label (f : fmt) : bool := match sget "label" f with Some _ => true | None => false end.

    (** plotter.py:149-190: the commands, and the plot afterwards *)
    Definition plot_1d (p : plot1) (s : formats) : list cmd * plot1 :=
      let scans := map (fun i => match cu_err (curves i) with None => Line (cu_x (curves i)) (cu_y (curves i)) (s i) | Some e => ErrorBars (cu_x (curves i)) (cu_y (curves i)) (Some e) (s i) end) (p1_scans p) in
      let title := last_title (p1_title p) (map (fun i => cu_title (curves i)) (p1_scans p)) in
      let fits := map (fun f => Line (fc_x f) (fc_y f) (fc_fmt f)) (p1_fits p) in
      let bars' := map capped (p1_bars p) in
      let bars := map (fun b => Bar (fst (rb_pos b)) (snd (rb_pos b)) (rb_fwhm b / 2)%R (rb_fmt b)) bars' in
      (scans ++ fits ++ bars ++ lim1 XLim (p1_xlim p) ++ lim1 YLim (p1_ylim p) ++
       (match title with Some t => [Title t] | None => [] end) ++
       (match p1_xlabel p with None => [XLabel (String.concat "," (arrange (map (fun i => cu_xlabel (curves i)) (p1_scans p))))] | Some _ => [] end) ++
       (match p1_ylabel p with None => [YLabel (String.concat "," (arrange (map (fun i => cu_ylabel (curves i)) (p1_scans p))))] | Some _ => [] end) ++
       [Grid] ++ (if existsb has_label (map s (p1_scans p) ++ map fc_fmt (p1_fits p)) then [Legend 0] else []),
       Plot1 (p1_scans p) (p1_fits p) bars' title (p1_xlabel p) (p1_ylabel p) (p1_xlim p) (p1_ylim p)).

    (** plotter.py:211-225 *)
    Definition add_contour (i : nat) (kw : fmt) (p : plot2) (s : formats) : plot2 * formats :=
      (Plot2 (p2_contours p ++ [i]) (p2_curves p) (p2_resos p) (p2_title p) (p2_xlabel p) (p2_ylabel p) (p2_xlim p) (p2_ylim p), give_to i kw s).
    Definition add_curve (i : nat) (kw : fmt) (p : plot2) (s : formats) : plot2 * formats :=
      (Plot2 (p2_contours p) (p2_curves p ++ [i]) (p2_resos p) (p2_title p) (p2_xlabel p) (p2_ylabel p) (p2_xlim p) (p2_ylim p), give_to i kw s).
    Definition add_reso (o : option nat) (kw : fmt) (p : plot2) (s : formats) : plot2 * formats :=
      match o with
      | None => (p, s)
      | Some i => (Plot2 (p2_contours p) (p2_curves p) (p2_resos p ++ [i]) (p2_title p) (p2_xlabel p) (p2_ylabel p) (p2_xlim p) (p2_ylim p), give_to i kw s)
      end.

    (** sorted({labels that are not None}) joined by ", " *)
    Definition label_set (l : list (option string)) : string :=
      String.concat ", " (sort (nodup string_dec (flat_map (fun o => match o with Some s => [s] | None => [] end) l))).
    (** plotter.py:239-281: the commands, the plot afterwards, and the colour mesh that is returned. 128 points cannot be refused. *)
    Definition outline (i : nat) : list (num * num) := match drawn eig (ellipses i) 128 with Ok l => l | Err _ => [] end.
    Definition plot_2d (p : plot2) (s : formats) : list cmd * plot2 * option nat :=
      let contours := map (fun i => Colours (me_x (meshes i)) (me_y (meshes i)) (me_z (meshes i)) (s i)) (p2_contours p) in
      let title := last_title (p2_title p) (map (fun i => me_title (meshes i)) (p2_contours p)) in
      let curves' := map (fun i => ErrorBars (cu_x (curves i)) (cu_y (curves i)) (cu_err (curves i)) []) (p2_curves p) in
      let resos := map (fun i => Outline (outline i) (s i)) (p2_resos p) in
      let xl := match p2_resos p with [] => map (fun i => me_xlabel (meshes i)) (p2_contours p) | l => map (fun i => Some (fst (ee_labels (ellipses i)))) l end in
      let yl := match p2_resos p with [] => map (fun i => me_ylabel (meshes i)) (p2_contours p) | l => map (fun i => Some (snd (ee_labels (ellipses i)))) l end in
      (contours ++ curves' ++ resos ++ lim1 XLim (p2_xlim p) ++ lim1 YLim (p2_ylim p) ++
       (match title with Some t => [Title t] | None => [] end) ++
       (match p2_xlabel p with None => [XLabel (label_set xl)] | Some _ => [] end) ++
       (match p2_ylabel p with None => [YLabel (label_set yl)] | Some _ => [] end) ++
       [Grid] ++ (if existsb has_label (map s (p2_contours p ++ p2_resos p ++ p2_curves p)) then [Legend 1] else []),
       Plot2 (p2_contours p) (p2_curves p) (p2_resos p) title (p2_xlabel p) (p2_ylabel p) (p2_xlim p) (p2_ylim p),
       last (map Some (p2_contours p)) None).
  End Draw.
End Plots.
