(** Model of looking into the logs of an entry, src/tavi/data/nexus_entry.py. *)
From Coq Require Import Reals List String Bool.
From Verif Require Import Base PyStr M_Tavi M_Nexus.
Import ListNotations.
Open Scope string_scope.
Open Scope list_scope.

(** nexus_entry.py:308-315 get_data_from_daslogs(key, default). The logs are a dict; a value without a dataset raises. *)
Definition data_from_daslogs (e : list (string * val)) (key : string) (default : option val) : result (option val) :=
  do d <- daslogs e;
  match d with
  | Leaf _ => Err AttributeError
  | Dict l =>
      match sget key l with
      | None => Ok default
      | Some (Leaf x) => Err (no_item x)
      | Some (Dict v) => match sget "dataset" v with Some x => Ok (Some x) | None => Err KeyError end
      end
  end.
(** nexus_entry.py:317-324 get_metadata_from_daslogs(key, default). M_Nexus.get_metadata_from_daslogs is the case without a default. *)
Definition metadata_from_daslogs (e : list (string * val)) (key : string) (default : option val) : result (option val) :=
  do r <- get_metadata_from_daslogs e key; Ok (match r with Some v => Some v | None => default end).
