(** Model of src/tavi/tavi_model/tavi_project.py and tavi_data.py: projects that load and select scans, used from a script. *)
From Coq Require Import Reals List ZArith String Bool.
From Verif Require Import Base PyStr M_Filter M_ScanData M_Project M_Spice M_Load.
Import ListNotations.
Open Scope string_scope.
Open Scope list_scope.

(** tavi_data.py:63-80. What rawdataptr refers to: the object that dataclasses.field() gives, the default outside a dataclass, or what
    LoadManager.load returned. *)
Inductive raw_ptr := Placeholder | Loaded (d : option (dict string raw_scan)).
(** The value of a selection: what Filter.filter_data returned. *)
Definition selection := option (list string).
(** show_selected_data is a dictionary shared by reference. Nothing in TAVI sets scan_list (tavi_data.py:74-80); a script may. *)
Record tavi_data := TaviData { td_raw : raw_ptr; td_scan_list : option (dict string fscan); td_process : selection; td_show : nat }.
(** All projects and all dictionaries of selections; [None] is the name of a selection without a name. *)
Record world := World { projects : list tavi_data; dicts : list (dict (option string) selection) }.
Definition oeqb (a b : option string) : bool := match a, b with Some x, Some y => String.eqb x y | None, None => true | _, _ => false end.
(** tavi_data.py:68: the one dictionary that is the default of every call *)
Definition start : world := World [] [[]].
Definition set_nth {A} (l : list A) (i : nat) (x : A) : list A := match skipn i l with [] => l | _ :: r => firstn i l ++ x :: r end.

Section Workspace.
  Variable float_of : string -> option R.
  Variable int_of : string -> option Z.
  Variable genfromtxt : list string -> result (list (list num)).
  Variable xml_last : list string -> option (option string).
  (** What a script can do. [Give] is project.tavi_data.scan_list = ..., [Own] is project.tavi_data.show_selected_data = {}. *)
  Inductive op :=
  | New
  | LoadScans (i : nat) (fs : tree) (folder : path) (files : list string) (ub_dir : option path) (facility : option string)
  | SelectScans (i : nat) (name : option string) (conds : list condition) (l : logic) (category : option string) (tol : R)
  | Give (i : nat) (scans : dict string fscan)
  | Own (i : nat).
  Definition upd (w : world) (i : nat) (f : tavi_data -> tavi_data) : world :=
    match nth_error (projects w) i with Some p => World (set_nth (projects w) i (f p)) (dicts w) | None => w end.
  (** tavi_project.py:43-44, 79-81, 91-107. An operation on a project that does not exist does nothing. *)
  Definition exec (w : world) (o : op) : world * result unit :=
    match o with
    | New => (World (projects w ++ [TaviData Placeholder None (Some []) 0]) (dicts w), Ok tt)
    | LoadScans i fs folder files ub facility =>
        match load float_of int_of genfromtxt xml_last fs folder files ub facility with
        | Ok d => (upd w i (fun p => TaviData (Loaded d) (td_scan_list p) (td_process p) (td_show p)), Ok tt)
        | Err e => (w, Err e)
        end
    | SelectScans i name conds l category tol =>
        match nth_error (projects w) i with
        | None => (w, Ok tt)
        | Some p =>
            match td_scan_list p with
            | None => (w, Err AttributeError)
            | Some scans =>
                match snd (filter_data (new_filter scans conds l tol)) with
                | Err e => (w, Err e)
                | Ok r =>
                    if oeqb category (Some "model")
                    then (upd w i (fun p => TaviData (td_raw p) (td_scan_list p) r (td_show p)), Ok tt)
                    else (World (projects w) (set_nth (dicts w) (td_show p) (dset oeqb name r (nth (td_show p) (dicts w) []))), Ok tt)
                end
            end
        end
    | Give i scans => (upd w i (fun p => TaviData (td_raw p) (Some scans) (td_process p) (td_show p)), Ok tt)
    | Own i => (World (projects (upd w i (fun p => TaviData (td_raw p) (td_scan_list p) (td_process p) (List.length (dicts w))))) (dicts w ++ [[]]), Ok tt)
    end.
  Definition run (h : list op) : world := fold_left (fun w o => fst (exec w o)) h start.
  (** What a script sees of a project. *)
  Definition raw_of (w : world) (i : nat) : option raw_ptr := option_map td_raw (nth_error (projects w) i).
  Definition shown_in (w : world) (i : nat) (name : option string) : option selection :=
    match nth_error (projects w) i with Some p => dget oeqb name (nth (td_show p) (dicts w) []) | None => None end.
  Definition processed_in (w : world) (i : nat) : option selection := option_map td_process (nth_error (projects w) i).
End Workspace.
