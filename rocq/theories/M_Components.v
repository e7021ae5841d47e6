(** Model of src/tavi/instrument/components (all but the goniometer's geometry, which is M_Goni) and of
    src/tavi/instrument/tas_base.py: parameters of the parts of an instrument. *)
From Coq Require Import Reals List String Bool.
From Verif Require Import Base LinAlg M_Utilities M_Tas M_Goni.
Import ListNotations.
Open Scope string_scope.
Open Scope list_scope.
Open Scope R_scope.

(** Values of attributes. Simplification: the other Python types a parameter file may hold (lists, nested
    dictionaries other than a goniometer's limits) are left out. *)
Inductive attr := ANum (x : R) | AStr (s : string) | ABool (b : bool) | ANone | ALim (l : dict string (option R * option R)).
Definition attrs := dict string attr.
Definition aset (k : string) (v : attr) (c : attrs) : attrs := dset String.eqb k v c.
Definition aget (k : string) (c : attrs) : option attr := dget String.eqb k c.

(** component_base.py:26-28: [for key, val in param_dict.items(): setattr(self, key, val)]. The class's properties have no
    setter, so a parameter of that name raises AttributeError. *)
Fixpoint setattrs (props : list string) (params c : attrs) : result attrs :=
  match params with
  | [] => Ok c
  | (k, v) :: ps => if existsb (String.eqb k) props then Err AttributeError else setattrs props ps (aset k v c)
  end.

(** component_base.py:19-28, after the subclass has set its default values [defaults] *)
Definition component (props : list string) (defaults : attrs) (params : option attrs) (name : string) : result attrs :=
  let c := aset "component_name" (AStr name) defaults in
  match params with None => Ok c | Some ps => setattrs props ps c end.

(** component_base.py:30-40. Simplification: [param] is not the name of a method or property. *)
Definition update (c : attrs) (param : string) (value : attr) : attrs :=
  match aget param c with Some _ => aset param value c | None => c end.

(** component_base.py:42-51 and 78-90; utilities.py:15 [cm2angstrom = 1e8] *)
Definition cm2angstrom : R := 100000000.
Definition min2rad (a : option R) : option R := option_map (fun x => deg2rad (x / 60)) a.
Definition to_angstrom (l : option R) : option R := option_map (fun x => x * cm2angstrom) l.

(** component_base.py:53-76 *)
Definition to_angstrom_shape (l : option R) (shape : string) : option R :=
  match l with
  | None => None
  | Some x =>
      if String.eqb shape "rectangular" then Some (x / sqrt 12 * cm2angstrom)
      else if String.eqb shape "circular" || String.eqb shape "spherical" then Some (x / 4 * cm2angstrom)
      else None
  end.

(** Reading an attribute as a number or None; component_base.py computes with it. Simplification: bool is not a number. *)
Definition opt_num (k : string) (c : attrs) : result (option R) :=
  match aget k c with
  | None => Err AttributeError
  | Some (ANum x) => Ok (Some x)
  | Some ANone => Ok None
  | Some _ => Err TypeError
  end.
Definition num (k : string) (c : attrs) : result R :=
  do o <- opt_num k c; match o with Some x => Ok x | None => Err TypeError end.
Definition str (k : string) (c : attrs) : result string :=
  match aget k c with None => Err AttributeError | Some (AStr s) => Ok s | Some _ => Err TypeError end.

(** ** Distances: component_base.py:93-127 *)
Definition distances_defaults : attrs :=
  [("src_mono", ANone); ("mono_sample", ANone); ("sample_ana", ANone); ("ana_det", ANone); ("mono_monitor", ANone)].
Definition distances_props : list string := ["_src_mono"; "_mono_sample"; "_sample_ana"; "_ana_det"; "_mono_monitor"].
(** component_base.py:110-111 *)
Definition d_src_mono (c : attrs) : result (option R) := rmap to_angstrom (opt_num "src_mono" c).
(** component_base.py:114-115 *)
Definition d_mono_sample (c : attrs) : result (option R) := rmap to_angstrom (opt_num "src_mono" c).
(** component_base.py:118-119 *)
Definition d_sample_ana (c : attrs) : result (option R) := rmap to_angstrom (opt_num "src_mono" c).
(** component_base.py:122-123 *)
Definition d_ana_det (c : attrs) : result (option R) := rmap to_angstrom (opt_num "src_mono" c).
(** component_base.py:126-127 *)
Definition d_mono_monitor (c : attrs) : result (option R) := rmap to_angstrom (opt_num "src_mono" c).

(** ** Monochromator and analyser: mono_ana.py *)
(** mono_ana.py:10-23 *)
Definition mono_ana_xtal : dict string R :=
  [("PG002", 3.35416); ("Pg002", 3.35416); ("PG004", 1.67708); ("Cu111", 2.08717); ("Cu220", 1.27813);
   ("Ge111", 3.26627); ("Ge220", 2.00018); ("Ge311", 1.70576); ("Ge331", 1.29789); ("Be002", 1.79160);
   ("Be110", 1.14280); ("Heusler", 3.435)].
(** mono_ana.py:40-59 *)
Definition mono_defaults : attrs :=
  [("type", AStr "PG002"); ("d_spacing", ANum 3.35416); ("mosaic_h", ANone); ("mosaic_v", ANone); ("sense", AStr "-");
   ("shape", AStr "rectangular"); ("width", ANum 12); ("height", ANum 8); ("depth", ANum 0.15);
   ("curved_h", ABool false); ("curvh", ANum 0); ("optimally_curved_h", ABool false);
   ("curved_v", ABool false); ("curvv", ANum 0); ("optimally_curved_v", ABool false)].
Definition mono_props : list string := ["_sense"; "_mosaic_h"; "_mosaic_v"; "_width"; "_height"; "_depth"].

(** mono_ana.py:34-62: the table is consulted last, so it overrides a d_spacing parameter *)
Definition new_mono (params : option attrs) (name : string) : result attrs :=
  do c <- component mono_props mono_defaults params name;
  match aget "type" c with
  | Some (AStr t) =>
      match dget String.eqb t mono_ana_xtal with
      | Some d => Ok (aset "d_spacing" (ANum d) c)
      | None => Err KeyError
      end
  | Some (ALim _) => Err TypeError
  | _ => Err KeyError
  end.

(** mono_ana.py:67-75 *)
Definition m_sense (c : attrs) : result R :=
  match aget "sense" c with
  | None => Err AttributeError
  | Some (AStr s) => if String.eqb s "+" then Ok 1 else if String.eqb s "-" then Ok (-1) else Err ValueError
  | Some _ => Err ValueError
  end.
(** mono_ana.py:77-83 *)
Definition m_mosaic (k : string) (c : attrs) : result R := rmap (fun x => deg2rad (x / 60)) (num k c).
(** mono_ana.py:85-98 *)
Definition m_size (k : string) (c : attrs) : result (option R) :=
  do x <- opt_num k c; do s <- str "shape" c; Ok (to_angstrom_shape x s).

(** mono_ana.py:100-110. arcsin outside [-1, 1], the root of a negative number and division by zero are nan or inf. *)
Definition get_bragg_angle_from_energy (c : attrs) (energy : R) : result R :=
  do d <- num "d_spacing" c;
  if Rle_dec energy 0 then Err NotANumber
  else if Req_EM_T d 0 then Err NotANumber
  else
    let x := 9.045 / 2 / d / sqrt energy in
    if Rlt_dec 1 (Rabs x) then Err NotANumber
    else do s <- m_sense c; Ok (rad2deg (asin x) * s).

(** mono_ana.py:112-122 *)
Definition get_energy_from_bragg_angle (c : attrs) (bragg_angle : R) : result R :=
  do d <- num "d_spacing" c;
  let x := sin (deg2rad bragg_angle) in
  if Req_EM_T (d * d * (x * x)) 0 then Err NotANumber
  else Ok (81.81 / 4 / (d * d) / (x * x)).

(** tas.py:143-151 and 153-161 *)
Definition get_theta (c : attrs) (e : R) : result R :=
  do k <- en2q e;
  do d <- num "d_spacing" c;
  do th <- get_angle_bragg k d;
  do s <- m_sense c;
  Ok (rad2deg (th * s)).

(** ** The other parts *)
(** collimators.py:17-27 *)
Definition collimators_defaults : attrs :=
  [("h_pre_mono", ANum 30); ("h_pre_sample", ANum 30); ("h_post_sample", ANum 30); ("h_post_ana", ANum 30);
   ("v_pre_mono", ANum 30); ("v_pre_sample", ANum 30); ("v_post_sample", ANum 30); ("v_post_ana", ANum 30)].
Definition collimators_props : list string :=
  ["horizontal_divergence"; "_horizontal_divergence"; "vertical_divergence"; "_vertical_divergence"].
Definition divergence (ks : list string) (c : attrs) : result (list R) :=
  mapM (fun k => rmap (fun x => deg2rad (x / 60)) (num k c)) ks.
(** collimators.py:42-50 *)
Definition h_divergence : attrs -> result (list R) := divergence ["h_pre_mono"; "h_pre_sample"; "h_post_sample"; "h_post_ana"].
(** collimators.py:62-70 *)
Definition v_divergence : attrs -> result (list R) := divergence ["v_pre_mono"; "v_pre_sample"; "v_post_sample"; "v_post_ana"].

(** guide.py:10-29 *)
Definition guide_defaults : attrs := [("in_use", ABool false); ("div_h", ANone); ("div_v", ANone)].
Definition guide_props : list string := ["_div_h"; "_div_v"].
(** detector.py:16-35, monitor.py:16-35 *)
Definition size_defaults : attrs := [("shape", AStr "rectangular"); ("width", ANone); ("height", ANone)].
Definition size_props : list string := ["_width"; "_height"].
(** source.py:10-30 *)
Definition source_defaults : attrs := ("name", AStr "HFIR") :: size_defaults.
(** goni.py:32-47: the parameters may overwrite component_name, which is then set again *)
Definition goni_defaults : attrs := [("type", AStr "Y,-Z,X"); ("sense", ANone); ("limits", ALim default_limits)].
Definition goni_props : list string := ["stacking_order"; "mode"; "motor_senses"; "_sense"].
Definition new_goni (params : option attrs) (name : string) : result attrs :=
  do c <- component goni_props goni_defaults params ""; Ok (aset "component_name" (AStr name) c).

(** ** The instrument: tas_base.py *)
(** The attributes of an instrument; [None] is a part never set. *)
Definition parts := dict string attrs.

(** tas_base.py:57-67 *)
Definition component_classes : list (string * (option attrs -> string -> result attrs)) :=
  [("source", component size_props source_defaults);
   ("collimators", component collimators_props collimators_defaults);
   ("guide", component guide_props guide_defaults);
   ("monochromator", new_mono);
   ("monitor", component size_props size_defaults);
   ("goniometer", new_goni);
   ("analyzer", new_mono);
   ("detector", component size_props size_defaults);
   ("distances", component distances_props distances_defaults)].

(** tas_base.py:69-72. An exception leaves the parts built before it in place. *)
Fixpoint load_loop (classes : list (string * (option attrs -> string -> result attrs))) (config : dict string attrs)
    (i : parts) : parts * option exn :=
  match classes with
  | [] => (i, None)
  | (n, mk) :: cs =>
      match dget String.eqb n config with
      | None => load_loop cs config i
      | Some p => match mk (Some p) n with
                  | Err e => (i, Some e)
                  | Ok c => load_loop cs config (dset String.eqb n c i)
                  end
      end
  end.
(** tas_base.py:56-72 *)
Definition load_instrument_parameters (config : dict string attrs) (i : parts) : parts * option exn :=
  load_loop component_classes config i.

(** tas_base.py:51: the documented attribute holding the distances *)
Definition arms (i : parts) : option attrs := dget String.eqb "arms" i.
