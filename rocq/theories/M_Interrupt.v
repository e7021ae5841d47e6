(** Model of saving a project (src/tavi/data/tavi.py:110-140) and of converting a folder (src/tavi/convert_spice_to_nexus.py:34-35)
    when an exception is raised in the middle: a full disk, a lost connection, a value that cannot be stored, Ctrl-C. *)
From Coq Require Import Reals List ZArith String Bool.
From Verif Require Import Base M_ScanData M_Spice M_Tavi M_Nexus M_Builder M_Convert.
Import ListNotations.
Open Scope string_scope.
Open Scope list_scope.

(** [f_exn] is raised while to_nexus writes the scan [f_scan] of the experiment [f_exp] (nexus_entry.py:239-275). What its group
    holds by then depends on how far it came: [f_left], any tree. The with statements close the file, so that what was written is
    there. (If the process dies instead, HDF5 does not say what is in a file that was not closed.) *)
Record failure := Failure { f_exp : string; f_scan : string; f_left : h5; f_exn : exn }.
Definition fails (w : option failure) (exp n : string) : option (h5 * exn) :=
  match w with Some f => if (String.eqb exp (f_exp f) && String.eqb n (f_scan f))%bool then Some (f_left f, f_exn f) else None | None => None end.
(** require_group(name) and then [part] in its place *)
Definition leave (p : list string) (part root : h5) : h5 := match in_group p (fun _ => Ok part) root with Ok r => r | Err _ => root end.

(** tavi.py:125-130, a path being given: the file that is left, and what is raised *)
Fixpoint save_scans_f (w : option failure) (exp : string) (l : dict string (list (string * val))) (stamp : dict string leaf) (root : h5) : h5 * result unit :=
  match l with
  | [] => (root, Ok tt)
  | (n, e) :: l' =>
      match fails w exp n with
      | Some (part, x) => (leave ["data"; exp; n] part root, Err x)
      | None => match to_nexus ["data"; exp; n] e stamp root with Ok r => save_scans_f w exp l' stamp r | Err x => (root, Err x) end
      end
  end.
Fixpoint save_exps_f (w : option failure) (d : project) (stamp : dict string leaf) (root : h5) : h5 * result unit :=
  match d with
  | [] => (root, Ok tt)
  | (exp, l) :: d' =>
      match in_group ["data"; exp] empty_group root with
      | Err x => (root, Err x)
      | Ok r => let (r', z) := save_scans_f w exp l stamp r in match z with Ok _ => save_exps_f w d' stamp r' | Err x => (r', Err x) end
      end
  end.
(** tavi.py:122-139: the file is created anew (mode "w"), whatever it held before. *)
Definition save_f (w : option failure) (d : project) (stamp : dict string leaf) : h5 * result unit :=
  let (r, z) := save_exps_f w d stamp (HGroup [] [("data", HGroup [] [])]) in
  match z with
  | Err x => (r, Err x)
  | Ok _ => match r with
            | HGroup a c => (HGroup a (c ++ [("processed_data", HGroup [] []); ("fits", HGroup [] []); ("plots", HGroup [] [])]), Ok tt)
            | _ => (r, Err TypeError)
            end
  end.
(** tavi.py:110-140 on the files of the disk; an OSError is printed and not raised (139-140), also the one of a file that cannot be
    created ([creatable] = false). *)
Definition save_to (creatable : bool) (w : option failure) (p : string) (d : project) (stamp : dict string leaf) (files : disk) : disk * result unit :=
  if creatable
  then let (r, z) := save_f w d stamp in (sset p r files, match z with Err OSError => Ok tt | _ => z end)
  else (files, Ok tt).

(** convert_spice_to_nexus.py:34-35: every scan has its own file; [f_left] is what is in that of the failing one. *)
Fixpoint write_scans_f (w : option failure) (folder : string) (stamp : string -> dict string leaf) (scans : dict string entry) (d : disk) : disk * result unit :=
  match scans with
  | [] => (d, Ok tt)
  | (name, e) :: rest =>
      let p := (folder ++ name ++ ".h5")%string in
      match fails w "" name with
      | Some (part, x) => (sset p part d, Err x)
      | None => match to_nexus [name] e (stamp p) (opened d p) with
                | Ok r => write_scans_f w folder stamp rest (sset p r d)
                | Err x => (d, Err x)
                end
      end
  end.

Section Convert.
  Variable float_of : string -> option R.
  Variable int_of : string -> option Z.
  Variable repr : pv -> string.
  Variable date_of : string -> option string.
  Variable genfromtxt : list string -> result (list (list num)).
  Variable xml_matrix : string -> option (option string).
  (** convert_spice_to_nexus.py:7-35 (see M_Convert) with such a failure *)
  Definition convert_f (w : option failure) (fs : files) (spice_folder : string) (listing : list string) (given : option string) (i : option config) (s : option (dict string pv))
    (stamp : string -> dict string leaf) (d : disk) : disk * result unit :=
    match from_spice float_of int_of repr date_of genfromtxt xml_matrix fs (path_of spice_folder) listing None i s with
    | Err x => (d, Err x)
    | Ok [] => (d, Err StopIteration)
    | Ok ((k, e) :: rest) =>
        match dataset_name e with
        | Err x => (d, Err x)
        | Ok name => write_scans_f w (nexus_folder spice_folder given name) stamp ((k, e) :: rest) d
        end
    end.
End Convert.
