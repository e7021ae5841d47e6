(** Model of the delivery of updates to the window: every presenter hands its update to the window's thread through a signal
    connected with Qt.QueuedConnection (load_presenter.py:39-47, metadata_presenter.py:32-45, random_presenter.py:32-40).
    M_Project's [run] shows an update the moment it is published; here it waits in the queue of the window's event loop. *)
From Coq Require Import List String Ascii Bool Arith ZArith.
From Verif Require Import Base PyStr PySort M_Project.
Import ListNotations.
Open Scope string_scope.
Open Scope list_scope.

(** What is emitted: the list of files of a folder (load_presenter.py:45-47 update_tree_signal), the text of the metadata view
    (metadata_presenter.py:38-45 set_metadata_signal), here the pair it is made of, and that of the next-file view
    (random_presenter.py:39-41 set_random_signal). The list of a folder is not changed after it was emitted: the next load
    makes a new list (dummy_model.py:48), so it is passed by value. *)
Inductive update := UTree (files : list string) | UMeta (f : string) (i : nat) | UNext (n : string).

(** What the window shows. *)
Record views := Views { v_tree : list (string * list string); v_meta : option (string * nat); v_next : option string }.

(** load_view.py:146-156 add_tree_data, metadata_view.py:60 and radom_view.py:54-55 set_values. An exception of add_tree_data ends
    this delivery and is reported by the event loop; nothing was added by then (lines 147-149 come before 152). *)
Definition show (v : views) (u : update) : views :=
  match u with
  | UTree l => match node_title l with Ok t => Views (v_tree v ++ [(t, l)]) (v_meta v) (v_next v) | Err _ => v end
  | UMeta f i => Views (v_tree v) (Some (f, i)) (v_next v)
  | UNext n => Views (v_tree v) (v_meta v) (Some n)
  end.

(** The models, the queue of the window's thread (Qt delivers the events posted to a thread in the order of posting) and the window. *)
Record gui := Gui { g_proj : project; g_rnd : option string; g_queue : list update; g_views : views }.
Definition new_gui : gui := Gui new_project None [] (Views [] None None).

(** load_presenter.py:49-50, proxy.py:21-24, dummy_model.py:47-69: the handler of the button waits for the worker, so the list is
    in the queue when it returns. *)
Definition gui_load (g : gui) (entries order : list string) : gui :=
  let '(p, published) := load (g_proj g) entries order in Gui p (g_rnd g) (g_queue g ++ [UTree published]) (g_views g).
(** load_presenter.py:52-53, dummy_model.py:34-41, random_model.py:19-37: get_next_file runs first and posts its name after looking
    the file up (random_model.py:36-37), then get_selected_metadata. *)
Definition gui_click (g : gui) (f : string) : gui * result unit :=
  let p := Project (file_list (g_proj g)) (temp_file_list (g_proj g)) (loaded_files (g_proj g)) (total_files (g_proj g)) (Some f) in
  match next_file (g_rnd g) f with
  | Err e => (Gui p (g_rnd g) (g_queue g) (g_views g), Err e)
  | Ok n =>
      let rnd := if String.eqb f "" then g_rnd g else Some n in
      match index_of f (file_list p) with
      | Err e => (Gui p rnd (g_queue g) (g_views g), Err e)
      | Ok i => (Gui p rnd ((g_queue g ++ [UNext n]) ++ [UMeta f i]) (g_views g), Ok tt)
      end
  end.
(** The event loop takes the first event of the queue. *)
Definition deliver (g : gui) : gui :=
  match g_queue g with [] => g | u :: q => Gui (g_proj g) (g_rnd g) q (show (g_views g) u) end.

(** The window's thread either handles an action of the user or delivers an event; a schedule is any sequence of both. *)
Inductive turn := User (u : user) | Deliver.
Definition gui_step (g : gui) (t : turn) : gui :=
  match t with
  | User (Load es o) => gui_load g es o
  | User (Click f) => fst (gui_click g f)
  | Deliver => deliver g
  end.
Definition gui_run (s : list turn) : gui := fold_left gui_step s new_gui.

(** load_view.py:158-160 select_file: only a row below a folder can be selected. *)
Definition listed (v : views) (f : string) : Prop := exists nd, In nd (v_tree v) /\ In f (snd nd).
