(** Specification vocabulary for C73: entries that can be saved, and what is to be kept of them. *)
From Coq Require Import Reals List String Ascii Bool.
From Verif Require Import Base PyStr M_Tavi M_Nexus P_Nexus L_NexusFile P_NexusFile.
Import ListNotations.
Open Scope string_scope.
Open Scope list_scope.

(** Attributes are values under distinct names. *)
Definition valued (o : option val) : Prop :=
  match o with None => True | Some (Leaf _) => False | Some (Dict a) => NoDup (map fst a) /\ forall k v, In (k, v) a -> exists x, v = Leaf x end.
(** The content is of the declared type: text, numbers or whole numbers; with another type, or none, anything goes. *)
Definition declares (attrs : option val) (t : string) : Prop := exists a, attrs = Some (Dict a) /\ sget "type" a = Some (Leaf (LStr t)).
Definition suits (attrs : option val) (x : leaf) : Prop :=
  (declares attrs "NX_CHAR" -> match x with LStr _ | LStrs _ => True | _ => False end) /\
  (declares attrs "NX_FLOAT" -> match x with LNum _ | LArr _ | LList _ => True | _ => False end) /\
  (declares attrs "NX_INT" -> match x with LNum r => exists z, r = IZR z | LArr l | LList l => Forall (fun r => exists z, r = IZR z) l | _ => False end).
(** Groups of groups and datasets; the content of a dataset suits its declared type. *)
Inductive savable : val -> Prop :=
| Sv_dataset : forall l x, NoDup (map fst l) -> (forall k v, In (k, v) l -> k = "attrs" \/ k = "dataset") -> sget "dataset" l = Some (Leaf x) ->
    valued (sget "attrs" l) -> suits (sget "attrs" l) x -> savable (Dict l)
| Sv_group : forall l, NoDup (map fst l) -> sget "dataset" l = None -> valued (sget "attrs" l) -> (forall k v, In (k, v) l -> k <> "attrs" -> savable v) -> savable (Dict l).
(** What a stored content is read as: a list as an array, a list of texts as one text, anything else as it is. An attribute that is a list of texts stays one. *)
Definition as_array (x : leaf) : leaf := match x with LList l => LArr l | _ => x end.
Definition after (show : list string -> string) (x : leaf) : leaf := match x with LList l => LArr l | LStrs l => LStr (show l) | _ => x end.

(** Nothing else is in the way of the plot: "data" holds only datasets and names a signal and axes, and what has such a name is a dataset. *)
Definition plot_ready (e : list (string * val)) : Prop :=
  forall l, sget "data" e = Some (Dict l) -> sget "dataset" l = None /\ (forall k v, In (k, v) l -> k <> "attrs" -> exists m, v = Dict m /\ is_dataset m) /\
    (exists y, leaf_at ["data"; "attrs"; "signal"] (Dict e) = Some (LStr y)) /\ (exists x, leaf_at ["data"; "attrs"; "axes"] (Dict e) = Some (LStr x)) /\
    forall d p m, plots e d -> follow (p ++ d :: inside d) (Dict e) = Some (Dict m) -> is_dataset m.
(** Outside the logs, and not below monitor/data: what is still there when a scan has been made. *)
Definition lasting (p : list string) : Prop := hd "" p <> "SPICElogs" /\ hd "" p <> "DASlogs" /\ firstn 2 p <> ["monitor"; "data"].
(** What is plotted under "data" is what the entry holds under that name; if nothing is there yet, the name has one content outside the logs. *)
Definition agreed (e : list (string * val)) : Prop := forall d p x, plots e d -> hd "" (p ++ [d]) <> "SPICElogs" -> ~ In "attrs" (p ++ [d]) ->
  leaf_at (p ++ d :: inside d ++ ["dataset"]) (Dict e) = Some x ->
  leaf_at ["data"; d; "dataset"] (Dict e) = Some x \/
  leaf_at ["data"; d; "dataset"] (Dict e) = None /\
    (inside d = [] -> lasting (p ++ [d]) /\
       forall q y, hd "" (q ++ [d]) <> "SPICElogs" -> hd "" (q ++ [d]) <> "DASlogs" -> ~ In "attrs" q -> leaf_at (q ++ [d; "dataset"]) (Dict e) = Some y -> y = x).
(** No attribute is called "dataset". *)
Inductive tidy : val -> Prop :=
| Tidy_leaf : forall x, tidy (Leaf x)
| Tidy_dict : forall l, (forall a, In ("attrs", a) l -> exists d, a = Dict d /\ sget "dataset" d = None) -> (forall k v, In (k, v) l -> k <> "attrs" -> tidy v) -> tidy (Dict l).
(** Everything at or below the name [k] is stored in a form that is read back unchanged. *)
Definition solid (show : list string -> string) (e : list (string * val)) (k : string) : Prop :=
  forall p q x, leaf_at (p ++ k :: q ++ ["dataset"]) (Dict e) = Some x -> after show x = x.
(** Names contain no slash. *)
Definition slashless (e : list (string * val)) : Prop := forall p k w, follow (p ++ [k]) (Dict e) = Some w -> split_on "/" k = [k].
