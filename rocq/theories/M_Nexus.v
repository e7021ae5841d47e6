(** Model of src/tavi/data/nexus_entry.py: lookup in an entry, writing to and reading from NeXus files. *)
From Coq Require Import Reals List String Ascii Bool.
From Verif Require Import Base PyStr M_Tavi.
Import ListNotations.
Open Scope string_scope.
Open Scope list_scope.

(** Contents of datasets and attributes: a string, a number, a numeric array (of any shape, given by its elements), an array or list of
    strings, a Python list of numbers. *)
Inductive leaf := LStr (s : string) | LNum (x : R) | LArr (l : list R) | LStrs (l : list string) | LList (l : list R).
(** A NexusEntry is a nested Python dict. *)
Inductive val := Leaf (x : leaf) | Dict (l : list (string * val)).
Definition items (v : val) : list (string * val) := match v with Dict l => l | Leaf _ => [] end.

(** The result of trying obj["attrs"] / obj["dataset"] (lines 57-66): a dict without the key prints a message, a str raises
    TypeError, an array IndexError (a plain number TypeError). *)
Definition no_item (x : leaf) : exn := match x with LArr _ | LStrs _ => IndexError | _ => TypeError end.

Section Get.
  Context (full : list string) (wanted : string).   (* key.split("/"); "attrs" or "dataset" *)

  (** nexus_entry.py:42-74 _getitem_recursively(obj, key, ATTRS).
      [go (Some ks) t]: the walk of lines 48-55 has reached [t] and [ks] remain; the loop of lines 67-74 then runs over the items of
      the node where the walk ended, because obj has been rebound. [go None t]: a new call on [t]. *)
  Fixpoint go (t : val) (walk : option (list string)) {struct t} : result (option val) :=
    match t with
    | Leaf x => match walk with None => Ok None | Some _ => Err (no_item x) end
    | Dict l =>
        let fix search (l : list (string * val)) : result (option val) :=
          match l with
          | [] => Ok None
          | (k, v) :: l' =>
              if String.eqb k "attrs" || String.eqb k "dataset" then search l'
              else match v with
                   | Leaf _ => search l'
                   | Dict _ => do r <- go v None; match r with Some x => Ok (Some x) | None => search l' end
                   end
          end in
        let fix child (k : string) (rest : list string) (l : list (string * val)) : result (option val) :=
          match l with
          | [] => Ok None
          | (k', v) :: l' => if String.eqb k k' then go v (Some rest) else child k rest l'
          end in
        match walk with
        | Some [] => match dget String.eqb wanted l with Some v => Ok (Some v) | None => search l end
        | Some (k :: ks) => child k ks l
        | None => match full with
                  | k :: ks => if dmem String.eqb k l then child k ks l else search l
                  | [] => search l
                  end
        end
    end.
End Get.

(** nexus_entry.py:277-306 get(key, ATTRS, default): returns the entry after the call too (logs are popped). *)
Definition get (e : list (string * val)) (key : string) (attrs : bool) (default : option val) : list (string * val) * result (option val) :=
  let e' := ddel String.eqb "DASlogs" (ddel String.eqb "SPICElogs" e) in
  let key' := if attrs then key else if String.eqb key "detector" then "detector/data" else if String.eqb key "monitor" then "monitor/monitor"
              else if String.eqb key "sample" then "sample/sample" else key in
  (e', do r <- go (split_on "/" key') (if attrs then "attrs" else "dataset") (Dict e') None; Ok (match r with Some v => Some v | None => default end)).

(** nexus_entry.py:308-324 *)
Definition daslogs (e : list (string * val)) : result val :=
  match sget "DASlogs" e with Some v => Ok v | None => match sget "SPICElogs" e with Some v => Ok v | None => Err UnboundLocalError end end.
Definition get_metadata_from_daslogs (e : list (string * val)) (key : string) : result (option val) :=
  do d <- daslogs e;
  match sget "attrs" (items d) with Some a => Ok (sget key (items a)) | None => Err KeyError end.

(** * Files *)
(** An HDF5 object: a group or a dataset, with attributes, or a soft link to an absolute path. *)
Inductive h5 := HGroup (a : dict string leaf) (c : list (string * h5)) | HData (a : dict string leaf) (d : leaf) | HLink (path : list string).

(** numpy astype("int") truncates towards zero *)
Definition trunc (x : R) : R := if Rle_dec 0 x then IZR (Int_part x) else Ropp (IZR (Int_part (Ropp x))).
(** nexus_entry.py:84-112 format_dataset. Encoding to utf-8 and back is the identity on text (ASCII text assumed).
    Text that stands for numbers is not converted here (numpy would; a ValueError otherwise). *)
Definition type_of (attrs : option val) : option string := match attrs with Some (Dict a) => match sget "type" a with Some (Leaf (LStr t)) => Some t | _ => None end | _ => None end.
Definition stored (x : leaf) : leaf := match x with LList l => LArr l | _ => x end.   (* h5py stores a list as an array *)
Definition format_dataset (attrs : option val) (dv : leaf) : result leaf :=
  match type_of attrs with
  | Some "NX_CHAR" => match dv with LStr s => Ok (LStr s) | LStrs l => Ok (LStrs l) | LArr [] | LList [] => Ok (LArr []) | LArr _ | LList _ => Err AttributeError | LNum _ => Err ValueError end
  | Some "NX_FLOAT" => match dv with LNum x => Ok (LNum x) | LArr l | LList l => Ok (LArr l) | _ => Err ValueError end
  | Some "NX_INT" => match dv with LNum x => Ok (LNum (trunc x)) | LArr l | LList l => Ok (LArr (map trunc l)) | _ => Err ValueError end
  | _ => Ok (stored dv)
  end.

(** nexus_entry.attrs[k] = v for every attribute (lines 115-119); an attribute that is not a plain value cannot be written. *)
Fixpoint set_attrs (l : list (string * val)) (a : dict string leaf) : result (dict string leaf) :=
  match l with
  | [] => Ok a
  | (k, Leaf x) :: l' => set_attrs l' (sset k (stored x) a)
  | (_, Dict _) :: _ => Err TypeError
  end.

(** lines 114-129 of _write_recursively on a dataset (second call, line 126): attributes are written, other values are skipped,
    a dict inside a dataset cannot be written. *)
Fixpoint write_data_items (l : list (string * val)) (a : dict string leaf) : result (dict string leaf) :=
  match l with
  | [] => Ok a
  | (k, v) :: l' =>
      if String.eqb k "attrs" then match v with Dict x => do a' <- set_attrs x a; write_data_items l' a' | Leaf _ => Err AttributeError end
      else match v with Leaf _ => write_data_items l' a | Dict _ => Err AttributeError end
  end.
(** lines 114-129 of _write_recursively on a group with attributes [a] and members [c]. Names are plain (no slash). *)
Fixpoint write_group (v : val) (node : dict string leaf * list (string * h5)) {struct v} : result (dict string leaf * list (string * h5)) :=
  match v with
  | Leaf _ => Err AttributeError
  | Dict l =>
      (fix loop (l : list (string * val)) (node : dict string leaf * list (string * h5)) : result (dict string leaf * list (string * h5)) :=
         match l with
         | [] => Ok node
         | (k, v) :: l' =>
             do node' <-
               (if String.eqb k "attrs" then match v with Dict x => do a <- set_attrs x (fst node); Ok (a, snd node) | Leaf _ => Err AttributeError end
                else match v with
                     | Leaf _ => Ok node
                     | Dict x =>
                         match sget "dataset" x with
                         | Some (Leaf dv) =>
                             (* delete an existing object, create the dataset, write its attributes *)
                             do d <- format_dataset (sget "attrs" x) dv;
                             do a <- write_data_items x [];
                             Ok (fst node, ddel String.eqb k (snd node) ++ [(k, HData a d)])
                         | Some (Dict _) => Err TypeError
                         | None =>
                             (* require_group *)
                             match sget k (snd node) with
                             | None => do g <- write_group v ([], []); Ok (fst node, snd node ++ [(k, HGroup (fst g) (snd g))])
                             | Some (HGroup a c) => do g <- write_group v (a, c); Ok (fst node, sset k (HGroup (fst g) (snd g)) (snd node))
                             | Some _ => Err TypeError
                             end
                         end
                     end);
             loop l' node'
         end) l node
  end.

(** The repr of an array of strings, str(np.array([...])). *)
Section Read.
  Context (show : list string -> string).
  (** lines 145-151: str(value.asstr()[...]) turns an array of strings into the text of its repr. *)
  Definition read_leaf (x : leaf) : leaf := match x with LStrs l => LStr (show l) | _ => x end.
  Definition attr_items (a : dict string leaf) : list (string * val) := map (fun kx => (fst kx, Leaf (snd kx))) a.
  (** what is read for a dataset, lines 142-156 *)
  Definition read_data (a : dict string leaf) (d : leaf) : val :=
    match a with [] => Dict [("dataset", Leaf (read_leaf d))] | _ => Dict [("attrs", Dict (attr_items a)); ("dataset", Leaf (read_leaf d))] end.
  (** lines 132-159 _read_recursively: [read c] is what items becomes. [resolve]: the dataset a soft link leads to (dangling links and
      links to groups are left out). *)
  Context (resolve : list string -> option (dict string leaf * leaf)).
  Fixpoint read_node (n : h5) : option val :=
    match n with
    | HGroup a c =>
        Some (Dict (("attrs", Dict (attr_items a)) ::
          (fix all (c : list (string * h5)) : list (string * val) :=
             match c with [] => [] | (k, n') :: c' => match read_node n' with Some v => (k, v) :: all c' | None => all c' end end) c))
    | HData a d => Some (read_data a d)
    | HLink p => match resolve p with Some (a, d) => Some (read_data a d) | None => None end
    end.
End Read.

(** Following a path of names in a file. *)
Fixpoint at_path (p : list string) (n : h5) {struct p} : option h5 :=
  match p with
  | [] => Some n
  | k :: p' => match n with HGroup _ c => match sget k c with Some n' => at_path p' n' | None => None end | _ => None end
  end.
Definition resolve_in (root : h5) (p : list string) : option (dict string leaf * leaf) :=
  match at_path p root with Some (HData a d) => Some (a, d) | _ => None end.

(** * Files with entries *)
(** nexus_entry.py:11-29 _find_val_path(val, grp): members in file order; soft links are not entered (the writer puts them only under
    "data", which is skipped). *)
Definition inside (v : string) : list string := if String.eqb v "detector" then ["data"] else if String.eqb v "monitor" then ["monitor"] else [].
Fixpoint find_path (v : string) (n : h5) {struct n} : option (list string) :=
  match n with
  | HGroup _ c =>
      (fix loop (c : list (string * h5)) : option (list string) :=
         match c with
         | [] => None
         | (k, n') :: c' =>
             if String.eqb k "SPICElogs" || String.eqb k "data" then loop c'
             else if String.eqb v k then Some (k :: inside v)
             else match n' with
                  | HGroup _ _ => match find_path v n' with Some p => Some (k :: p) | None => loop c' end
                  | _ => loop c'
                  end
         end) c
  | _ => None
  end.

(** Replacing the object at a path. *)
Fixpoint edit (p : list string) (f : h5 -> h5) (n : h5) {struct p} : h5 :=
  match p with
  | [] => f n
  | k :: p' => match n with HGroup a c => match sget k c with Some m => HGroup a (sset k (edit p' f m) c) | None => n end | _ => n end
  end.
Definition slashed (p : list string) : string := fold_right (fun k s => ("/" ++ k ++ s)%string) "" p.
Definition set_target (t : string) (n : h5) : h5 :=
  match n with HGroup a c => HGroup (sset "target" (LStr t) a) c | HData a d => HData (sset "target" (LStr t) a) d | HLink q => HLink q end.
Fixpoint strip (name q : list string) : option (list string) :=
  match name, q with [], _ => Some q | a :: name', b :: q' => if String.eqb a b then strip name' q' else None | _, [] => None end.

(** nexus_entry.py:256-262 (and 263-269): a soft link data/[d] to the object at [p] inside the entry [scan], whose own path is [name]; the
    "target" attribute is set through the link, so on the object itself. Links leading out of the entry count as no dataset; a member [d]
    that is not a dataset makes the link creation fail. *)
Definition is_data (name : list string) (scan m : h5) : bool :=
  match m with
  | HData _ _ => true
  | HLink q => match strip name q with Some r => match at_path r scan with Some (HData _ _) => true | _ => false end | None => false end
  | HGroup _ _ => false
  end.
Definition put_link (name : list string) (d : string) (path : option (list string)) (scan : h5) : result h5 :=
  match path with
  | None => Ok scan
  | Some p =>
      match at_path p scan with
      | None => Ok scan
      | Some _ =>
          match at_path ["data"] scan with
          | Some (HGroup da dc) =>
              let dc' := match sget d dc with Some m => if is_data name scan m then ddel String.eqb d dc else dc | None => dc end in
              if dmem String.eqb d dc' then Err OSError
              else Ok (edit p (set_target (slashed (name ++ p))) (edit ["data"] (fun _ => HGroup da (dc' ++ [(d, HLink (name ++ p))])) scan))
          | _ => Err AttributeError
          end
      end
  end.
(** nexus_entry.py:249-269. A "signal" or "axes" attribute that is not a string is matched with no name. *)
Definition attrs_h5 (n : h5) : dict string leaf := match n with HGroup a _ => a | HData a _ => a | HLink _ => [] end.
Definition text (x : leaf) : option string := match x with LStr s => Some s | _ => None end.
Definition link1 (name : list string) (d : leaf) (path : option (list string)) (scan : h5) : result h5 :=
  match text d with Some s => put_link name s path scan | None => Ok scan end.
Definition path_for (d : leaf) (scan : h5) : option (list string) := match text d with Some s => find_path s scan | None => None end.
Definition make_links (name : list string) (scan : h5) : result h5 :=
  match at_path ["data"] scan with
  | None => Ok scan
  | Some data =>
      match sget "signal" (attrs_h5 data), sget "axes" (attrs_h5 data) with
      | Some y, Some x =>
          let py := path_for y scan in let px := path_for x scan in
          do s1 <- link1 name y py scan; link1 name x px s1
      | _, _ => Err KeyError
      end
  end.
(** nexus_entry.py:247-269 on the entry's group. *)
Definition write_entry (name : list string) (e : list (string * val)) (node : h5) : result h5 :=
  match node with
  | HGroup a c => do g <- write_group (Dict e) (a, c); make_links name (HGroup (fst g) (snd g))
  | _ => Err TypeError
  end.
(** require_group along a path, then [f] on that group. *)
Fixpoint in_group (p : list string) (f : h5 -> result h5) (n : h5) {struct p} : result h5 :=
  match p with
  | [] => f n
  | k :: p' =>
      match n with
      | HGroup a c =>
          do m <- in_group p' f (match sget k c with Some m => m | None => HGroup [] [] end);
          Ok (HGroup a (sset k m c))
      | _ => Err TypeError
      end
  end.
(** nexus_entry.py:239-275 to_nexus(path, name): [stamp] is file_name, file_time and the versions. *)
Definition to_nexus (name : list string) (e : list (string * val)) (stamp : dict string leaf) (root : h5) : result h5 :=
  do r <- in_group name (write_entry name e) root;
  match r with HGroup a c => Ok (HGroup (dupdate String.eqb a stamp) c) | _ => Err TypeError end.

(** nexus_entry.py:214-237 from_nexus(path, scan_num, prefix); what is read below a group (lines 136-159). *)
Section From.
  Context (show : list string -> string).
  Definition read_members (resolve : list string -> option (dict string leaf * leaf)) (c : list (string * h5)) : list (string * val) :=
    tl (items (match read_node show resolve (HGroup [] c) with Some v => v | None => Dict [] end)).
  Definition from_nexus (root : h5) (prefix : list string) (scan_num : option Z) : result (list (string * val)) :=
    match at_path prefix root with
    | Some (HGroup _ c) =>
        match scan_num with
        | None => Ok (read_members (resolve_in root) c)
        | Some n => match sget (scan_name n) c with
                    | Some (HGroup _ c') => Ok [(scan_name n, Dict (read_members (resolve_in root) c'))]
                    | Some _ => Err AttributeError
                    | None => Err KeyError
                    end
        end
    | Some _ => Err AttributeError
    | None => Err KeyError
    end.

  (** data/tavi.py:110-140 save and 85-108 open_file. The project is experiment -> scan name -> entry. With no path given the file is created
      under a default name but to_nexus is called with None (line 130), which raises TypeError. Processed data is empty. *)
  Definition project := dict string (dict string (list (string * val))).
  Fixpoint save_scans (path_given : bool) (exp : string) (l : dict string (list (string * val))) (stamp : dict string leaf) (root : h5) : result h5 :=
    match l with
    | [] => Ok root
    | (n, e) :: l' => if path_given then do r <- to_nexus ["data"; exp; n] e stamp root; save_scans path_given exp l' stamp r else Err TypeError
    end.
  Definition empty_group (n : h5) : result h5 := Ok n.
  Fixpoint save_exps (path_given : bool) (d : project) (stamp : dict string leaf) (root : h5) : result h5 :=
    match d with
    | [] => Ok root
    | (exp, l) :: d' => do r <- in_group ["data"; exp] empty_group root; do r' <- save_scans path_given exp l stamp r; save_exps path_given d' stamp r'
    end.
  Definition save (path_given : bool) (d : project) (stamp : dict string leaf) : result h5 :=
    do r <- save_exps path_given d stamp (HGroup [] [("data", HGroup [] [])]);
    match r with
    | HGroup a c => Ok (HGroup a (c ++ [("processed_data", HGroup [] []); ("fits", HGroup [] []); ("plots", HGroup [] [])]))
    | _ => Err TypeError
    end.
  Fixpoint open_exps (root : h5) (exps : list string) : result (dict string (list (string * val))) :=
    match exps with
    | [] => Ok []
    | x :: exps' => do l <- from_nexus root ["data"; x] None; do d <- open_exps root exps'; Ok ((x, l) :: d)
    end.
  Definition open_file (root : h5) : result (dict string (list (string * val))) :=
    match at_path ["data"] root with
    | Some (HGroup _ c) => open_exps root (map fst c)
    | Some _ => Err AttributeError
    | None => Err KeyError
    end.
End From.
