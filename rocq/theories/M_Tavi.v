(** Model of src/tavi/data/tavi.py (container of experiments) and of the naming of scan groups (scan_group.py:23-28).
    A scan entry (NexusEntry) is any value; [dataset_name] is entry["attrs"]["dataset_name"], a KeyError if absent.
    A Scan object is the pair of its name and its entry. *)
From Coq Require Import List String Ascii Bool ZArith DecimalString.
From Verif Require Import Base PyStr PySort M_Project.
Import ListNotations.
Open Scope string_scope.
Open Scope list_scope.

Notation sget := (dget String.eqb).
Notation sset := (dset String.eqb).

Section Tavi.
  Context {E : Type} (dataset_name : E -> result string).

  Definition scans := dict string E.
  Definition data := dict string scans.

  (** tavi.py:39-48 load_data. An existing but empty experiment counts as absent ("not data_dict.get"). *)
  Definition load_one (d : data) (s : string * E) : result data :=
    do exp <- dataset_name (snd s);
    match sget exp d with
    | None | Some [] => Ok (sset exp [s] d)
    | Some l => Ok (sset exp (sset (fst s) (snd s) l) d)
    end.
  Fixpoint load_loop (d : data) (l : scans) : result data :=
    match l with [] => Ok d | s :: l' => do d' <- load_one d s; load_loop d' l' end.
  Definition load_data (l : scans) : result data := load_loop [] l.

  (** tavi.py:66-73 and 64: self.data.update(TAVI.load_data(scan_dict)) *)
  Definition load_scans (d : data) (l : scans) : result data := do new <- load_data l; Ok (dupdate String.eqb d new).

  (** tavi.py:50-64 load_nexus_data_from_disk: [folder] lists the files with what reading them gives; only names starting with "scan",
      in sorted order; a scan in a later file replaces one of the same name. *)
  Fixpoint read_files (folder : dict string (result scans)) (names : list string) (acc : scans) : result scans :=
    match names with
    | [] => Ok acc
    | f :: rest => match sget f folder with
                   | Some r => do l <- r; read_files folder rest (dupdate String.eqb acc l)
                   | None => Err FileNotFoundError
                   end
    end.
  Definition load_nexus (d : data) (folder : dict string (result scans)) : result data :=
    do l <- read_files folder (sort (filter (prefixb "scan") (dkeys folder))) []; load_scans d l.

  (** f"scan{n:04}": at least four characters, zeros after the sign. *)
  Fixpoint zeros (n : nat) : string := match n with O => "" | S k => String "0" (zeros k) end.
  Definition pad4 (z : Z) : string :=
    if (z <? 0)%Z then let s := str_of (- z) in String "-" (zeros (3 - String.length s) ++ s)
    else let s := str_of z in (zeros (4 - String.length s) ++ s)%string.
  Definition scan_name (n : Z) : string := ("scan" ++ pad4 n)%string.

  (** tavi.py:142-160 get_scan *)
  Inductive request := Num (n : Z) | Pair (exp : string) (n : Z) | Other.
  Definition first_exp (d : data) : result string := match d with [] => Err StopIteration | (e, _) :: _ => Ok e end.
  Definition fetch (d : data) (exp name : string) : result (string * E) :=
    match sget exp d with
    | None => Err KeyError
    | Some l => match sget name l with None => Err KeyError | Some e => Ok (name, e) end
    end.
  Definition get_scan (d : data) (r : request) : result (string * E) :=
    match r with
    | Pair exp n => fetch d exp (scan_name n)
    | Num n => do exp <- first_exp d; fetch d exp (scan_name n)
    | Other => Err ValueError
    end.

  (** tavi.py:176-190 group_scans, first loop: names; second loop: scans. *)
  Definition group_names (d : data) (rs : list request) : result (list (string * string)) :=
    do first <- first_exp d;
    mapM (fun r => match r with
                   | Num n => Ok (first, scan_name n)
                   | Pair exp n => Ok (exp, scan_name n)
                   | Other => Err ValueError
                   end) rs.
  Definition group_scans (d : data) (rs : list request) : result (list (string * E)) :=
    do names <- group_names d rs; mapM (fun x => fetch d (fst x) (snd x)) names.

  (** scan_group.py:23-28: class attribute scan_group_number (starts at 1); "" asks for the default name. *)
  Definition group_name (counter : Z) (name : string) : string * Z :=
    ((if String.eqb name "" then "CombinedScans" ++ str_of counter else name)%string, (counter + 1)%Z).
  Fixpoint make_groups (counter : Z) (names : list string) : list string :=
    match names with [] => [] | n :: rest => let '(g, c) := group_name counter n in g :: make_groups c rest end.
End Tavi.
