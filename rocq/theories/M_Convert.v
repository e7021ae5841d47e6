(** Model of src/tavi/convert_spice_to_nexus.py: a folder of SPICE files turned into a folder of NeXus files. *)
From Coq Require Import Reals List ZArith String Ascii Bool.
From Verif Require Import Base PyStr M_ScanData M_Spice M_Project M_Tavi M_Nexus M_Builder.
Import ListNotations.
Open Scope string_scope.
Open Scope list_scope.

(** The pieces of a path; an absolute path without "." and "..". A doubled or final slash says nothing. *)
Definition path_of (s : string) : path := filter (fun x => negb (String.eqb x "")) (split_on "/"%char s).
(** convert_spice_to_nexus.py:24-25 scan0001["attrs"]["dataset_name"], used as a text *)
Definition dataset_name (e : entry) : result string :=
  match sget "attrs" e with
  | Some (Dict a) => match sget "dataset_name" a with Some (Leaf (LStr t)) => Ok t | Some _ => Err TypeError | None => Err KeyError end
  | Some (Leaf _) => Err TypeError
  | None => Err KeyError
  end.
(** 27-29: the folder of the NeXus files *)
Definition nexus_folder (spice_folder : string) (given : option string) (name : string) : string :=
  match given with
  | Some f => f
  | None => String.concat "/" (removelast (split_on "/"%char spice_folder) ++ [(name ++ "/")%string])
  end.
(** The files with their contents; a file that does not exist is created empty (h5py.File(path, "a")). *)
Definition disk := dict string h5.
Definition opened (d : disk) (p : string) : h5 := match sget p d with Some r => r | None => HGroup [] [] end.
(** 34-35. [stamp] is what to_nexus notes about the file. An error leaves the files written so far. *)
Fixpoint write_scans (folder : string) (stamp : string -> dict string leaf) (scans : dict string entry) (d : disk) : disk * result unit :=
  match scans with
  | [] => (d, Ok tt)
  | (name, e) :: rest =>
      let p := (folder ++ name ++ ".h5")%string in
      match to_nexus [name] e (stamp p) (opened d p) with
      | Ok r => write_scans folder stamp rest (sset p r d)
      | Err x => (d, Err x)
      end
  end.

Section Convert.
  Variable float_of : string -> option R.
  Variable int_of : string -> option Z.
  Variable repr : pv -> string.
  Variable date_of : string -> option string.
  Variable genfromtxt : list string -> result (list (list num)).
  Variable xml_matrix : string -> option (option string).
  (** 7-35; [listing] is os.listdir of the folder of data files. The folder is made with its parents (31-32). Simplification: a file that is
      being written when an error occurs is left as it was. *)
  Definition convert_spice_to_nexus (fs : files) (spice_folder : string) (listing : list string) (given : option string) (i : option config) (s : option (dict string pv))
    (stamp : string -> dict string leaf) (d : disk) : disk * result unit :=
    match from_spice float_of int_of repr date_of genfromtxt xml_matrix fs (path_of spice_folder) listing None i s with
    | Err x => (d, Err x)
    | Ok [] => (d, Err StopIteration)
    | Ok ((k, e) :: rest) =>
        match dataset_name e with
        | Err x => (d, Err x)
        | Ok name => write_scans (nexus_folder spice_folder given name) stamp ((k, e) :: rest) d
        end
    end.
End Convert.
