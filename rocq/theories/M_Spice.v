(** Model of src/tavi/data/spice_reader.py: text files written by SPICE. Strings are ASCII. *)
From Coq Require Import Reals List ZArith String Ascii Bool.
From Verif Require Import Base PyStr M_ScanData M_Project.
Import ListNotations.
Open Scope string_scope.
Open Scope list_scope.

(** ** Strings *)
(** str.isspace for ASCII *)
Definition is_space (c : ascii) : bool :=
  let n := nat_of_ascii c in (Nat.leb 9 n && Nat.leb n 13) || (Nat.leb 28 n && Nat.leb n 32).
(** s.lstrip() / s.rstrip() / s.strip() *)
Fixpoint lstrip_ws (s : string) : string :=
  match s with String c s' => if is_space c then lstrip_ws s' else s | EmptyString => EmptyString end.
Fixpoint rstrip_ws (s : string) : string :=
  match s with
  | EmptyString => EmptyString
  | String c s' =>
      match rstrip_ws s' with
      | EmptyString => if is_space c then EmptyString else String c EmptyString
      | t => String c t
      end
  end.
Definition strip_ws (s : string) : string := rstrip_ws (lstrip_ws s).
(** s.split(): the maximal runs of non-blank characters *)
Fixpoint words (s : string) : list string :=
  match s with
  | EmptyString => []
  | String c s' =>
      if is_space c then words s'
      else match s' with
           | String c' _ => if is_space c' then String c EmptyString :: words s'
                            else match words s' with w :: ws => String c w :: ws | [] => [String c EmptyString] end
           | EmptyString => [String c EmptyString]
           end
  end.
Definition join (sep : string) (l : list string) : string := String.concat sep l.
(** s.endswith(c) *)
Fixpoint ends_with (c : ascii) (s : string) : bool :=
  match s with EmptyString => false | String c' EmptyString => Ascii.eqb c c' | String _ s' => ends_with c s' end.
(** s.split("=", maxsplit=1) of a string containing "=" *)
Fixpoint split_first (sep : ascii) (s : string) : string * string :=
  match s with
  | EmptyString => (EmptyString, EmptyString)
  | String c s' => if Ascii.eqb c sep then (EmptyString, s') else let (a, b) := split_first sep s' in (String c a, b)
  end.

Definition hash : ascii := "#"%char.
Definition equals : ascii := "="%char.
Definition comma : ascii := ","%char.

(** Values of the metadata *)
Inductive mval := MStr (s : string) | MNums (l : list R) | MStrs (l : list string).
Definition metadata := dict string mval.
Definition mget (k : string) (m : metadata) := dget String.eqb k m.
Definition mset (k : string) (v : mval) (m : metadata) := dset String.eqb k v m.

Section Reader.
  (** Python's [float(s)]; [None] when it raises ValueError *)
  Variable float_of : string -> option R.
  (** Python's [int(s)] *)
  Variable int_of : string -> option Z.

  (** spice_reader.py:20-42: state of the loop *)
  Record cstate := CState { cs_p : string; cs_sf : string; cs_n : Z; cs_vals : list R; cs_chan : list string; cs_lab : list string }.

  (** spice_reader.py:23-28 *)
  Definition polarisation (line old : string) : string :=
    if contains "parq" line then "Px" else if contains "perpqh" line then "Py" else if contains "perpq" line then "Pz" else old.
  (** spice_reader.py:31-34 *)
  Definition flipping (line old : string) : string :=
    if existsb (fun s => contains s line) ["drive hguide off vguide off"; "floff"; "drive hguide 0 vguide 0"] then "NSF"
    else if existsb (fun s => contains s line) ["drive hguide on vguide on"; "flon"; "drive"] then "SF" else old.
  (** spice_reader.py:38: [( *_, norm_channel, norm_val) = line.split()] *)
  Fixpoint last_two (l : list string) : result (string * string) :=
    match l with
    | [] | [_] => Err ValueError
    | [a; b] => Ok (a, b)
    | _ :: l' => last_two l'
    end.

  (** spice_reader.py:20-42 *)
  Definition count_step (st : cstate) (piece : string) : result cstate :=
    let line := strip_ws piece in
    let p := polarisation line (cs_p st) in
    let sf := flipping line (cs_sf st) in
    if contains "count preset" line then
      do (ch, v) <- last_two (words line);
      match float_of v with
      | None => Err ValueError
      | Some x => Ok (CState p sf (cs_n st + 1) (cs_vals st ++ [x])
                        (cs_chan st ++ [(ch ++ "_" ++ str_of (cs_n st))%string]) (cs_lab st ++ [(p ++ " " ++ sf)%string]))
      end
    else Ok (CState p sf (cs_n st) (cs_vals st) (cs_chan st) (cs_lab st)).
  Fixpoint count_loop (st : cstate) (l : list string) : result cstate :=
    match l with [] => Ok st | x :: l' => do st' <- count_step st x; count_loop st' l' end.

  (** spice_reader.py:11-44 *)
  Definition parse_countfile (countfile : string) : result (list R * list string * list string) :=
    do st <- count_loop (CState "" "" 1 [] [] []) (split_on comma countfile);
    Ok (cs_vals st, cs_chan st, cs_lab st).

  (** spice_reader.py:52-71: one line *)
  Definition meta_step (acc : metadata * list string) (raw : string) : metadata * list string :=
    let (md, un) := acc in
    let line := strip_ws (PyStr.lstrip hash raw) in
    if contains "completed" line || contains "stopped" line then
      match words line with
      | time :: meridiem :: date :: _ => (mset "end_time" (MStr (date ++ " " ++ time ++ " " ++ meridiem)%string) md, un)
      | _ => (md, un)
      end
    else if contains "=" line then
      match map strip_ws (split_on equals line) with
      | key :: vals =>
          let v := join "=" vals in
          match mget key md with
          | Some (MStr old) => (mset key (MStr (old ++ ", " ++ v)%string) md, un)
          | _ => (mset key (MStr v) md, un)
          end
      | [] => (md, un)
      end
    else (md, un ++ [line]).

  (** spice_reader.py:47-80 *)
  Definition metadata_to_dict (lines : list string) : result (metadata * option (list string)) :=
    let (md, un) := fold_left meta_step lines ([], []) in
    let un' := match un with [] => None | _ => Some un end in
    let polarised := match mget "preset_type" md with Some (MStr p) => String.eqb p "countfile" | _ => false end in
    if polarised then
      match mget "countfile" md with
      | Some (MStr c) =>
          do (vals, chans, labs) <- parse_countfile c;
          Ok (mset "labels" (MStrs labs) (mset "norm_channels" (MStrs chans) (mset "norm_vals" (MNums vals) md)), un')
      | _ => Err KeyError
      end
    else Ok (md, un').

  (** Path.suffix of a file name: from the last dot, unless that is the first or the last character *)
  Fixpoint last_dot (s : string) : option string :=
    match s with
    | EmptyString => None
    | String c s' => match last_dot s' with Some t => Some t | None => if Ascii.eqb c "." then Some s else None end
    end.
  Definition suffix (name : string) : string :=
    match name with
    | EmptyString => ""
    | String _ s' => match last_dot s' with Some (String _ EmptyString) => "" | Some t => t | None => "" end
    end.

  (** The position of an element: list.index; ValueError when absent *)
  Fixpoint cut_at (x : string) (l : list string) : option (list string * list string) :=
    match l with
    | [] => None
    | y :: l' => if String.eqb x y then Some ([], l') else match cut_at x l' with Some (a, b) => Some (y :: a, b) | None => None end
    end.
  (** spice_reader.py:137: split before the first line starting with the prefix *)
  Fixpoint cut_before (p : string) (l : list string) : option (list string * list string) :=
    match l with
    | [] => None
    | y :: l' => if prefixb p y then Some ([], l) else match cut_before p l' with Some (a, b) => Some (y :: a, b) | None => None end
    end.

  (** numpy.genfromtxt(file, comments="#"), external: a rectangular table or an exception; the array returned is the
      table with its axes of length one dropped *)
  Variable genfromtxt : list string -> result (list (list num)).

  Definition column (i : nat) (t : list (list num)) : list num := map (fun row => nth i row None) t.
  (** [data_array.T] iterated: the columns; for a one-dimensional array its elements, as arrays of length one *)
  Definition transposed (t : list (list num)) : result (list (list num)) :=
    match t with
    | [] => Ok []
    | [row] => match row with [_] => Err TypeError | _ => Ok (map (fun v => [v]) row) end
    | row :: _ => match row with [_] => Ok t | _ => Ok (map (fun i => column i t) (seq 0 (List.length row))) end
    end.
  (** spice_reader.py:155: a dictionary comprehension over zip *)
  Fixpoint data_dict (cols : list string) (vals : list (list num)) (d : dict string (list num)) : dict string (list num) :=
    match cols, vals with c :: cols', v :: vals' => data_dict cols' vals' (dset String.eqb c v d) | _, _ => d end.

  Record spice_file := SpiceFile {
    sf_metadata : metadata; sf_data : option (dict string (list num));
    sf_unrecognized : option (list string); sf_errors : option (list string) }.

  Definition col_mark : string := "# col_headers =".
  Definition sum_mark : string := "# Sum of Counts =".

  (** spice_reader.py:120-143, 145-157, for the lines of an existing file *)
  Definition headers (content : list string) : list string :=
    filter (fun l => prefixb "#" l) (map strip_ws content).
  Definition read_lines (content : list string) : result spice_file :=
    match cut_at col_mark (headers content) with
    | None => Err ValueError
    | Some (_, []) => Err IndexError
    | Some (meta, names :: rest) =>
        let col_names := words (PyStr.lstrip hash names) in
        let (errs, meta') := match cut_before sum_mark rest with
                             | Some (e, summary) => (Some e, meta ++ summary)
                             | None => (None, meta)
                             end in
        do (md, un) <- metadata_to_dict meta';
        do t <- genfromtxt content;
        if match t with [] => true | [] :: _ => true | _ => false end then Ok (SpiceFile md None un errs)
        else do vals <- transposed t; Ok (SpiceFile md (Some (data_dict col_names vals [])) un errs)
    end.

  (** ** Files *)
  Definition path := list string.
  (** A folder tree: the lines of the file at a path; [is_dir] for folders. *)
  Record files := Files { lines_of : path -> option (list string); is_dir : path -> bool }.
  Definition is_file (fs : files) (p : path) : bool := match lines_of fs p with Some _ => true | None => false end.
  Definition base (p : path) : string := last p "".

  (** spice_reader.py:83-157 *)
  Definition read_spice_datafile (fs : files) (p : path) : result spice_file :=
    match lines_of fs p with
    | None => if is_dir fs p then Err ValueError else Err FileNotFoundError
    | Some content => if String.eqb (suffix (base p)) ".dat" then read_lines content else Err ValueError
    end.

  (** ** UB configuration files *)
  Inductive uval := UNum (x : R) | UInt (z : Z) | UVec (l : list R) | UStr (s : string).
  Definition ubdict := dict string uval.

  (** [[float(v) for v in l]] *)
  Fixpoint floats (l : list string) : result (list R) :=
    match l with
    | [] => Ok []
    | s :: l' => match float_of s with None => Err ValueError | Some x => do xs <- floats l'; Ok (x :: xs) end
    end.

  (** spice_reader.py:162-189: one line, [prev] being the line before it ([contents[-1]] for the first) *)
  Definition ini_step (prev line0 : string) (u : ubdict) : result ubdict :=
    let line := strip_ws line0 in
    if String.eqb line "" then Ok u
    else if starts_with "[" line && ends_with "]" line then Ok u
    else if negb (contains "=" line) then Ok u
    else
      let (k0, v0) := split_first equals line in
      let key := strip_ws k0 in
      let val := strip_ws v0 in
      if String.eqb key "Mode" then
        let m := strip_ws prev in
        if String.eqb m "[UBMode]" then
          match int_of val with Some z => Ok (dset String.eqb "UBMode" (UInt z) u) | None => Err ValueError end
        else if String.eqb m "[AngleMode]" then
          match int_of val with Some z => Ok (dset String.eqb "AngleMode" (UInt z) u) | None => Err ValueError end
        else Ok u
      else if contains "," val then
        do xs <- floats (split_on comma (PyStr.strip (ascii_of_nat 34) val)); Ok (dset String.eqb key (UVec xs) u)
      else if String.eqb val (String (ascii_of_nat 34) (String (ascii_of_nat 34) EmptyString)) then Ok u
      else match float_of val with
           | Some x => Ok (dset String.eqb key (UNum x) u)
           | None => Ok (dset String.eqb key (UStr val) u)
           end.
  Fixpoint ini_loop (prev : string) (l : list string) (u : ubdict) : result ubdict :=
    match l with [] => Ok u | x :: l' => do u' <- ini_step prev x u; ini_loop x l' u' end.
  (** spice_reader.py:160-190 *)
  Definition parse_ini (contents : list string) : result ubdict := ini_loop (last contents "") contents [].

  (** xml.etree.ElementTree, external: the words of the [matrix] attribute of the [matrix] element ([Some None] when the
      attribute is missing), [None] when there is no such element or the text is not XML *)
  Variable xml_matrix : string -> option (option string).
  (** spice_reader.py:193-211 *)
  Definition parse_xml (contents : string) : result ubdict :=
    match xml_matrix contents with
    | None => Err ValueError
    | Some a =>
        do xs <- floats (words (match a with Some s => s | None => "" end));
        if Nat.eqb (List.length xs) 9 then Ok [("UBMatrix", UVec xs)] else Err ValueError
    end.

  Definition newline : string := String (ascii_of_nat 10) EmptyString.
  (** spice_reader.py:214-246 *)
  Definition read_spice_ubconf (fs : files) (p : path) : result ubdict :=
    match lines_of fs p with
    | None => if is_dir fs p then Err ValueError else Err FileNotFoundError
    | Some content =>
        if existsb (String.eqb (suffix (base p))) [".ini"; ".dat"] then
          match content with
          | [] => Err IndexError
          | first :: _ =>
              if contains "[UBMode]" first then parse_ini content
              else if contains "xml" first then parse_xml (join newline content)
              else Err UnboundLocalError
          end
        else Err ValueError
    end.

  (** ** SPICElogs *)
  (** Values of the attributes: metadata, the list of messages, or None *)
  Inductive aval := AMeta (v : mval) | AList (l : list string) | ANone.
  Record spicelogs := SpiceLogs {
    sl_attrs : dict string aval;
    sl_data : dict string (list num);
    sl_ub : option (string * ubdict) }.  (* file_path and the parameters *)

  Definition backslash : ascii := ascii_of_nat 92.
  (** spice_reader.py:357-364 *)
  Definition ub_file_of (name : string) : string :=
    if contains (String backslash EmptyString) name then last (split_on backslash name) ""
    else if contains "/" name then last (split_on "/"%char name) "" else name.
  (** os.path.join(folder..., name) for a name that is not absolute; an absolute one replaces the folder *)
  Definition join_path (folder : path) (name : string) : path :=
    if starts_with "/" name then tl (split_on "/"%char name) else folder ++ split_on "/"%char name.
  Definition show_path (p : path) : string := ("/" ++ join "/" p)%string.
  (** spice_reader.py:354-355: the folder holding the scan's folder; [p] is absolute and normalised *)
  Definition grandparent (p : path) : path := removelast (removelast p).

  (** spice_reader.py:318-387 (the second definition, which replaces the first). Simplification: a column named
      "metadata" or "ub_conf" would overwrite that entry. *)
  Definition create_spicelogs (fs : files) (p : path) : result spicelogs :=
    do sf <- read_spice_datafile fs p;
    let instrument := hd "" (split_on "_"%char (base p)) in
    let a0 := [("instrument", AMeta (MStr instrument))] in
    let a1 := dupdate String.eqb a0 (map (fun kv => (fst kv, AMeta (snd kv))) (sf_metadata sf)) in
    let a2 := match sf_errors sf with
              | None => dset String.eqb "Error Messages" ANone a1
              | Some [] => dset String.eqb "Error Messages" (AList []) a1
              | Some _ => a1
              end in
    let a3 := match sf_unrecognized sf with Some l => dset String.eqb "Others" (AList l) a2 | None => a2 end in
    let data := match sf_data sf with Some d => d | None => [] end in
    match mget "ubconf" (sf_metadata sf) with
    | None => Err KeyError
    | Some (MStr name) =>
        let folder := grandparent p ++ ["UBConf"] in
        let ub_path := join_path folder (ub_file_of name) in
        let temp_path := join_path (folder ++ ["temp"]) (ub_file_of name) in
        if is_file fs ub_path then
          do u <- read_spice_ubconf fs ub_path; Ok (SpiceLogs a3 data (Some (show_path ub_path, u)))
        else if is_file fs temp_path then
          do u <- read_spice_ubconf fs ub_path; Ok (SpiceLogs a3 data (Some (show_path temp_path, u)))
        else Ok (SpiceLogs a3 data None)
    | Some _ => Err TypeError
    end.
End Reader.
