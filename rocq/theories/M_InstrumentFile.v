(** Model of src/tavi/instrument/tas_base.py:74-89 and 118-120: an instrument whose parameters come from files, one after another. *)
From Coq Require Import Reals List String Bool.
From Verif Require Import Base LinAlg M_Utilities M_Tas M_Goni M_Components.
Import ListNotations.
Open Scope string_scope.
Open Scope list_scope.

(** What a path leads to: nothing or a folder (None), a file that json.load cannot read, or a file with parameters. *)
Definition disk := string -> option (result (dict string attrs)).
(** The attributes set by loading: the parts and json_path (tas_base.py:37-54). *)
Record instrument := Instrument { in_parts : parts; in_json_path : option string }.
(** tas_base.py:36-54 *)
Definition new_instrument : instrument := Instrument [] None.
(** tas_base.py:74-89: the new state and the exception, if any. A path that is no file is only announced with a message. *)
Definition load_json (d : disk) (path : string) (i : instrument) : instrument * option exn :=
  match d path with
  | None => (i, None)
  | Some (Err e) => (i, Some e)
  | Some (Ok config) =>
      let '(p, e) := load_instrument_parameters config (in_parts i) in
      match e with None => (Instrument p (Some path), None) | Some e => (Instrument p (in_json_path i), Some e) end
  end.
(** A script that loads one file after another and goes on after an exception. *)
Definition load_all (d : disk) (paths : list string) (i : instrument) : instrument := fold_left (fun i p => fst (load_json d p i)) paths i.
