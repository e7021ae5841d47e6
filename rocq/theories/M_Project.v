(** Model of src/tavi/tavi_model/dummy_model.py, src/tavi/tavi_model/random_model.py and of their wiring to the views
    (mainwindow.py:31-43, tavi_presenter/*.py, tavi_view/load_view.py:146-160). *)
From Coq Require Import List String Ascii Bool Arith ZArith DecimalString.
From Verif Require Import Base PyStr PySort.
Import ListNotations.
Open Scope string_scope.
Open Scope list_scope.

(** dummy_model.py:11-29 the attributes of the (single) TaviProject. *)
Record project := Project { file_list : list string; temp_file_list : list string; loaded_files : nat; total_files : nat; selected_scan : option string }.
Definition new_project : project := Project [] [] 0 0 None.

(** dummy_model.py:54-63: the loop over completed futures; [batch] is completed_batch. Workers return the file name
    (load_manager, 43-45), so the results arrive as the file names in the order of completion. *)
Fixpoint batches (order batch : list string) (p : project) : project * list string :=
  match order with
  | [] => (p, batch)
  | f :: order' =>
      let batch' := batch ++ [f] in
      if Nat.leb 10 (List.length batch')
      then batches order' [] (Project (file_list p ++ batch') (temp_file_list p ++ batch') (loaded_files p + List.length batch') (total_files p) (selected_scan p))
      else batches order' batch' p
  end.
(** dummy_model.py:47-69 load: [entries] is os.listdir(folder) (called twice; the folder is taken not to change in between),
    [order] the order in which the futures complete. The second component is the list published in the scan_uuid event. *)
Definition load (p : project) (entries order : list string) : project * list string :=
  let p0 := Project (file_list p) [] (loaded_files p) (List.length entries) (selected_scan p) in
  let '(p1, batch) := batches order [] p0 in
  let p2 := match batch with
            | [] => p1
            | _ => Project (file_list p1 ++ batch) (temp_file_list p1 ++ batch) (loaded_files p1 + List.length batch) (total_files p1) (selected_scan p1)
            end in
  let p3 := Project (file_list p2) (sort (temp_file_list p2)) (loaded_files p2) (total_files p2) (selected_scan p2) in
  (p3, temp_file_list p3).

(** list.index *)
Fixpoint index_of (f : string) (l : list string) : result nat :=
  match l with
  | [] => Err ValueError
  | g :: l' => if String.eqb f g then Ok 0 else do i <- index_of f l'; Ok (S i)
  end.

(** * Python strings and integers *)
(** s.strip(chars): remove characters of the set from both ends. *)
Definition in_set (cs : string) (c : ascii) : bool := existsb (Ascii.eqb c) (list_ascii_of_string cs).
Fixpoint lstrip_set (cs s : string) : string :=
  match s with String c s' => if in_set cs c then lstrip_set cs s' else s | EmptyString => EmptyString end.
Fixpoint rstrip_set (cs s : string) : string :=
  match s with
  | EmptyString => EmptyString
  | String c s' => match rstrip_set cs s' with EmptyString => if in_set cs c then EmptyString else String c EmptyString | t => String c t end
  end.
Definition strip_set (cs s : string) : string := rstrip_set cs (lstrip_set cs s).
(** int(s): optional sign and decimal digits. Surrounding blanks are removed; digits other than 0-9 are not modelled. *)
Definition int_of (s : string) : result Z :=
  let s := strip_set " " s in
  let digits t := match NilZero.uint_of_string t with Some u => Ok (Z.of_uint u) | None => Err ValueError end in
  match s with
  | String "-" t => do z <- digits t; Ok (- z)%Z
  | String "+" t => digits t
  | _ => digits s
  end.
(** str(n) *)
Definition str_of (z : Z) : string := NilZero.string_of_int (Z.to_int z).
Fixpoint join (sep : string) (l : list string) : string :=
  match l with [] => "" | [a] => a | a :: l' => (a ++ sep ++ join sep l')%string end.

(** random_model.py:26-33 one piece of the file name *)
Definition next_piece (name : string) : result string :=
  if prefixb "scan" name
  then do n <- int_of (strip_set ".dat" (strip_set "scan" name)); Ok ("scan" ++ str_of (n + 1) ++ ".dat")%string
  else Ok name.
(** random_model.py:24-34 the name published as next file; [prev] is the attribute next_file (absent at first). *)
Definition next_file (prev : option string) (cur : string) : result string :=
  match cur with
  | "" => match prev with Some n => Ok n | None => Err AttributeError end
  | _ => do l <- mapM next_piece (split_on "_" cur); Ok (join "_" l)
  end.

(** * The application *)
(** What the views show: one folder node with its files per load (load_view.py:146-156), the text of the metadata view
    (metadata_presenter.py:38-45), here the pair it is made of, and that of the next-file view. *)
Record app := App { proj : project; rnd_next : option string; tree : list (string * list string); meta_view : option (string * nat); next_view : option string }.
Definition new_app : app := App new_project None [] None None.

(** load_view.py:146-151 title of the node *)
Definition node_title (files : list string) : result string :=
  match files with
  | [] => Err IndexError
  | f :: _ => if contains "exp" f then match split_on "_" f with _ :: t :: _ => Ok t | _ => Err IndexError end else Ok "Folder"
  end.
(** The result is the exception that surfaces, if any; the application goes on in the new state. *)
Definition app_load (a : app) (entries order : list string) : app * result unit :=
  let '(p, published) := load (proj a) entries order in
  match node_title published with
  | Ok t => (App p (rnd_next a) (tree a ++ [(t, published)]) (meta_view a) (next_view a), Ok tt)
  | Err e => (App p (rnd_next a) (tree a) (meta_view a) (next_view a), Err e)
  end.
(** dummy_model.py:34-41 set_selected_scan: first the selected_uuid event, delivered to get_next_file (random_presenter.py:33,
    random_model.py:19-37), then get_selected_metadata. *)
Definition click (a : app) (f : string) : app * result unit :=
  let p := Project (file_list (proj a)) (temp_file_list (proj a)) (loaded_files (proj a)) (total_files (proj a)) (Some f) in
  let a1 := App p (rnd_next a) (tree a) (meta_view a) (next_view a) in
  match next_file (rnd_next a) f with
  | Err e => (a1, Err e)
  | Ok n =>
      let a2 := App p (if String.eqb f "" then rnd_next a else Some n) (tree a) (meta_view a) (next_view a) in
      match index_of f (file_list p) with
      | Err e => (a2, Err e)
      | Ok i => (App p (rnd_next a2) (tree a) (Some (f, i)) (Some n), Ok tt)
      end
  end.

Inductive user := Load (entries order : list string) | Click (f : string).
Definition step (a : app) (u : user) : app := match u with Load es o => fst (app_load a es o) | Click f => fst (click a f) end.
Definition run (h : list user) : app := fold_left step h new_app.
