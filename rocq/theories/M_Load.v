(** Model of src/tavi/tavi_model/FileSystem: load_manager.py, Facilities/load_ornl.py and its own spice_reader.py. *)
From Coq Require Import Reals List ZArith String Ascii Bool.
From Verif Require Import Base PyStr M_ScanData M_Project M_Spice.
Import ListNotations.
Open Scope string_scope.
Open Scope list_scope.

(** ** Python helpers *)
(** s.strip(chars) for a set of characters *)
Fixpoint lstrip_set (p : ascii -> bool) (s : string) : string :=
  match s with String c s' => if p c then lstrip_set p s' else s | EmptyString => EmptyString end.
Fixpoint rstrip_set (p : ascii -> bool) (s : string) : string :=
  match s with
  | EmptyString => EmptyString
  | String c s' => match rstrip_set p s' with EmptyString => if p c then EmptyString else String c EmptyString | t => String c t end
  end.
Definition strip_set (p : ascii -> bool) (s : string) : string := rstrip_set p (lstrip_set p s).
Definition is_digit (c : ascii) : bool := let n := nat_of_ascii c in Nat.leb 48 n && Nat.leb n 57.
Definition is_letter (c : ascii) : bool :=
  let n := nat_of_ascii c in (Nat.leb 65 n && Nat.leb n 90) || (Nat.leb 97 n && Nat.leb n 122) || Nat.eqb n 95.
Fixpoint all_chars (p : ascii -> bool) (s : string) : bool :=
  match s with EmptyString => true | String c s' => p c && all_chars p s' end.
Definition keywords : list string :=
  ["False"; "None"; "True"; "and"; "as"; "assert"; "async"; "await"; "break"; "class"; "continue"; "def"; "del"; "elif"; "else";
   "except"; "finally"; "for"; "from"; "global"; "if"; "import"; "in"; "is"; "lambda"; "nonlocal"; "not"; "or"; "pass"; "raise";
   "return"; "try"; "while"; "with"; "yield"].
(** dataclasses.make_dataclass accepts identifiers that are not keywords, else TypeError (ASCII names) *)
Definition field_name_ok (s : string) : bool :=
  match s with
  | EmptyString => false
  | String c r => is_letter c && all_chars (fun d => is_letter d || is_digit d) r && negb (existsb (String.eqb s) keywords)
  end.

(** s.replace("-", "_").replace(" ", "_").replace(".", "") *)
Fixpoint sanitize (s : string) : string :=
  match s with
  | EmptyString => EmptyString
  | String c r => if Ascii.eqb c "-" then String "_" (sanitize r) else if Ascii.eqb c " " then String "_" (sanitize r)
                  else if Ascii.eqb c "." then sanitize r else String c (sanitize r)
  end.

(** A class with dynamically added attributes. Simplification: hasattr is true only of attributes added here, not of the
    names every class has (such as __doc__). *)
Definition klass (A : Type) := dict string A.
Definition add_attr {A} (k : string) (v : A) (c : klass A) : result (klass A) :=
  if dmem String.eqb k c then Ok (dset String.eqb k v c)
  else if field_name_ok k then Ok (dset String.eqb k v c) else Err TypeError.

Section Loader.
  Variable float_of : string -> option R.
  Variable int_of : string -> option Z.
  Variable genfromtxt : list string -> result (list (list num)).
  (** xml.etree on the text: the [matrix] attribute of the last [matrix] element; [None] in case of a parse error or a missing
      attribute, [Some None] when there is no such element *)
  Variable xml_last : list string -> option (option string).

  (** ** FileSystem/spice_reader.py *)
  Record raw_file := RawFile { rf_table : list (list num); rf_cols : list string; rf_meta : dict string string;
                               rf_others : list string; rf_errors : list string }.

  Fixpoint index_of (p : string -> bool) (l : list string) : option nat :=
    match l with [] => None | x :: l' => if p x then Some O else option_map S (index_of p l') end.

  (** spice_reader.py:43-58 *)
  Definition meta_line (acc : dict string string * list string) (entry : string) : result (dict string string * list string) :=
    let (md, others) := acc in
    let line := strip_set (fun c => Ascii.eqb c "#" || Ascii.eqb c " ") entry in
    if contains "completed" line || contains "stopped" line then
      match split_on " "%char line with
      | p0 :: p1 :: _ :: p3 :: _ => Ok (dset String.eqb "end_time" (p3 ++ " " ++ p0 ++ " " ++ p1)%string md, others)
      | _ => Err IndexError
      end
    else if contains "=" line then
      match split_on "="%char line with
      | k :: vals => Ok (dset String.eqb (strip_ws k) (match join "=" vals with String _ r => r | EmptyString => EmptyString end) md, others)
      | [] => Ok acc
      end
    else Ok (md, others ++ [line]).
  Fixpoint meta_loop (acc : dict string string * list string) (l : list string) : result (dict string string * list string) :=
    match l with [] => Ok acc | x :: l' => do acc' <- meta_line acc x; meta_loop acc' l' end.
  (** spice_reader.py:62-66 *)
  Fixpoint countfile_lines (l : list string) : result (list string) :=
    match l with
    | [] => Ok []
    | e :: l' =>
        if prefixb "# countfile" e then
          match split_on "="%char e with
          | [_; v] => do r <- countfile_lines l'; Ok (strip_ws v :: r)
          | _ => Err ValueError
          end
        else countfile_lines l'
    end.

  (** spice_reader.py:9-70 *)
  Definition read_raw (content : list string) : result raw_file :=
    let headers := map strip_ws (filter (fun l => contains "#" l) content) in
    match index_of (String.eqb "# col_headers =") headers with
    | None => Err ValueError
    | Some ic =>
        match nth_error headers (ic + 1) with
        | None => Err IndexError
        | Some names =>
            let cols := words (PyStr.strip "#"%char names) in
            let meta := firstn ic headers in
            let errs := skipn (ic + 2) headers in
            let (meta', errs') := match index_of (fun h => prefixb "# Sum of Counts =" h) headers with
                                  | Some i => (meta ++ skipn i headers, firstn (List.length errs - (List.length headers - i)) errs)
                                  | None => (meta, errs)
                                  end in
            do (md, others) <- meta_loop ([], []) meta';
            do md' <- (match dget String.eqb "preset_type" md with
                       | Some p => if String.eqb p "countfile"
                                   then do cs <- countfile_lines meta'; Ok (dset String.eqb "countfile" (join ", " cs) md)
                                   else Ok md
                       | None => Ok md
                       end);
            do t <- genfromtxt content;
            Ok (RawFile t cols md' others errs')
        end
    end.

  (** spice_reader.py:84-103 *)
  Definition ub_line (prev line0 : string) (u : ubdict) : result ubdict :=
    let line := strip_ws line0 in
    if String.eqb line "" then Ok u
    else if starts_with "[" line then Ok u
    else match split_on "="%char line with
         | [key; val] =>
             if String.eqb key "Mode" then
               let m := strip_ws prev in
               if String.eqb m "[UBMode]" then
                 match int_of val with Some z => Ok (dset String.eqb "UBMode" (UInt z) u) | None => Err ValueError end
               else if String.eqb m "[AngleMode]" then
                 match int_of val with Some z => Ok (dset String.eqb "AngleMode" (UInt z) u) | None => Err ValueError end
               else Ok u
             else if contains "," val then
               do xs <- floats float_of (split_on comma (PyStr.strip (ascii_of_nat 34) val)); Ok (dset String.eqb key (UVec xs) u)
             else if String.eqb val (String (ascii_of_nat 34) (String (ascii_of_nat 34) EmptyString)) then Ok u
             else match float_of val with Some x => Ok (dset String.eqb key (UNum x) u) | None => Err ValueError end
         | _ => Err ValueError
         end.
  Fixpoint ub_loop (prev : string) (l : list string) (u : ubdict) : result ubdict :=
    match l with [] => Ok u | x :: l' => do u' <- ub_line prev x u; ub_loop x l' u' end.
  (** spice_reader.py:73-110 *)
  Definition read_ub (content : list string) : result ubdict :=
    match content with
    | [] => Err IndexError
    | first :: _ =>
        if String.eqb first ("[UBMode]" ++ newline)%string then ub_loop (last content "") content []
        else match xml_last content with
             | None => Err ValueError
             | Some None => Err UnboundLocalError
             | Some (Some m) =>
                 let ws := split_on " "%char m in
                 if Nat.ltb (List.length ws) 9 then
                   do _ <- floats float_of ws; Err IndexError
                 else do xs <- floats float_of (firstn 9 ws); Ok [("UBMatrix", UVec xs)]
             end
    end.

  (** ** Facilities/load_ornl.py *)
  (** Value of a column attribute: a column; or the array holding a whole row (load_ornl.py:153 reached for a column index
      beyond the table) *)
  Inductive colval := Col (l : list num) | RowOf (l : list num).
  Record raw_scan := RawScan { rs_data : klass colval; rs_cols : list string; rs_meta : klass string; rs_others : list string;
                               rs_errors : list string; rs_ub : klass uval }.

  (** [numeric_data] as numpy returns it: axes of length one dropped *)
  Inductive ndarray := A0 (x : num) | A1 (l : list num) | A2 (t : list (list num)).
  Definition squeeze (t : list (list num)) : ndarray :=
    match t with
    | [] => A1 []
    | [row] => match row with [x] => A0 x | _ => A1 row end
    | row :: _ => match row with [_] => A1 (map (fun r => nth 0 r None) t) | _ => A2 t end
    end.
  (** load_ornl.py:141-153: [numeric_data[:, i]], else [np.array([numeric_data[i]])]. (A 0-d array cannot be indexed by [:, i]
      or [i]: IndexError.) *)
  Definition column_of (a : ndarray) (i : nat) : result colval :=
    match a with
    | A0 _ => Err IndexError
    | A1 l => match nth_error l i with Some x => Ok (Col [x]) | None => Err IndexError end
    | A2 t => if Nat.ltb i (List.length (hd [] t)) then Ok (Col (column i t))
              else match nth_error t i with Some row => Ok (RowOf row) | None => Err IndexError end
    end.
  (** load_ornl.py:133-153 *)
  Definition load_column (a : ndarray) (cols : list string) (d : klass colval) (name : string) : result (klass colval) :=
    match name with
    | EmptyString => Err IndexError
    | String c _ =>
        let name' := if is_digit c then String "_" name else name in
        match index_of (String.eqb name') cols with
        | None =>  (* make_dataclass comes before the failing index() *)
            if dmem String.eqb (sanitize name') d || field_name_ok (sanitize name') then Err ValueError else Err TypeError
        | Some i =>
            if dmem String.eqb (sanitize name') d || field_name_ok (sanitize name')
            then do v <- column_of a i; Ok (dset String.eqb (sanitize name') v d)
            else Err TypeError
        end
    end.
  Fixpoint load_columns (a : ndarray) (cols : list string) (d : klass colval) (l : list string) : result (klass colval) :=
    match l with [] => Ok d | x :: l' => do d' <- load_column a cols d x; load_columns a cols d' l' end.

  (** A file system with directory listings: [listing fs None] is the current directory *)
  Record tree := Tree { content_of : path -> option (list string); listing : option path -> option (list string) }.

  (** os.path.join(folder, os.pardir) and below are kept symbolic: ".." is a component *)
  Definition in_list (x : string) (l : list string) : bool := existsb (String.eqb x) l.
  Definition read_file (fs : tree) (p : path) : result (list string) :=
    match content_of fs p with Some c => Ok c | None => Err FileNotFoundError end.
  Fixpoint add_all {A} (l : list (string * A)) (c : klass A) : result (klass A) :=
    match l with [] => Ok c | (k, v) :: l' => do c' <- add_attr k v c; add_all l' c' end.

  (** load_ornl.py:175-207; the state is [self.ub_dir] and the [UbConf] class *)
  Definition load_ub (fs : tree) (folder : path) (name : string) (st : option path * klass uval) : result (option path * klass uval) :=
    let (ub_dir, u) := st in
    if String.eqb name "" then Ok st
    else
      do dir <- (match ub_dir with
                 | Some d => Ok (Some d)
                 | None => match listing fs (Some (folder ++ [".."])) with
                           | None => Err FileNotFoundError
                           | Some l => Ok (if in_list "UBConf" l then Some (folder ++ [".."; "UBConf"]) else None)
                           end
                 end);
      match listing fs dir with
      | None => Err FileNotFoundError
      | Some l =>
          if in_list name l then
            match dir with
            | None => Err TypeError
            | Some d => do c <- read_file fs (d ++ [name]); do ub <- read_ub c; do u' <- add_all ub u; Ok (dir, u')
            end
          else
            match dir with
            | None => Err TypeError
            | Some d =>
                match listing fs (Some (d ++ ["tmp"])) with
                | None => Err FileNotFoundError
                | Some l' =>
                    if in_list name l' then
                      do c <- read_file fs (d ++ [name]); do ub <- read_ub c; do u' <- add_all ub u; Ok (dir, u')
                    else Ok (dir, u)
                end
            end
      end.

  (** load_ornl.py:159-207 *)
  Fixpoint load_meta (fs : tree) (folder : path) (l : list (string * string)) (st : option path * klass uval) (m : klass string)
    : result (option path * klass uval * klass string) :=
    match l with
    | [] => Ok (st, m)
    | (key, value) :: l' =>
        match key with
        | EmptyString => Err IndexError
        | String c _ =>
            let key' := sanitize (if is_digit c then String "_" key else key) in
            do m' <- add_attr key' value m;
            do st' <- (if String.eqb key' "ubconf" then load_ub fs folder value st else Ok st);
            load_meta fs folder l' st' m'
        end
    end.

  (** load_ornl.py:123-220: one file; [ub_dir] is [self.ub_dir] before, and the first component of the result after.
      Simplification: a column called "column_names" or a header key called "others" is overwritten. *)
  Definition load_file (fs : tree) (folder : path) (ub_dir : option path) (filename : string) : result (option path * raw_scan) :=
    do content <- read_file fs (folder ++ [filename]);
    do rf <- read_raw content;
    do d <- load_columns (squeeze (rf_table rf)) (rf_cols rf) [] (rf_cols rf);
    do (st, m) <- load_meta fs folder (rf_meta rf) (ub_dir, []) [];
    Ok (fst st, RawScan d (rf_cols rf) m (rf_others rf) (rf_errors rf) (snd st)).
  Fixpoint load_list (fs : tree) (folder : path) (ub_dir : option path) (l : list string) (acc : dict string raw_scan) : result (dict string raw_scan) :=
    match l with
    | [] => Ok acc
    | f :: l' => do (ub', s) <- load_file fs folder ub_dir f; load_list fs folder ub' l' (dset String.eqb f s acc)
    end.
  (** load_ornl.py:121-122, 221 for a folder that is given *)
  Definition load_ornl (fs : tree) (folder : path) (files : list string) (ub_dir : option path) : result (dict string raw_scan) :=
    do l <- (match files with [] => match listing fs (Some folder) with Some l => Ok l | None => Err FileNotFoundError end | _ => Ok files end);
    load_list fs folder ub_dir l [].

  (** ** load_manager.py *)
  (** load_manager.py:35 *)
  Definition supported : list string := ["ORNL"; "ANSTO"; "ILL"; "PSI"; "NIST"; "HZB"; "FRMII"].
  (** load_ornl.py:56-57 and the score() of the other loaders *)
  Definition score (facility : string) : Z := if String.eqb facility "ORNL" then 100%Z else 0%Z.
  (** max(d, key=d.get): the first key of greatest value *)
  Fixpoint max_by (f : string -> Z) (best : string) (l : list string) : string :=
    match l with [] => best | x :: l' => if Z.ltb (f best) (f x) then max_by f x l' else max_by f best l' end.
  (** load_manager.py:50-90 *)
  Definition rank_facility (sc : string -> Z) : string := max_by sc (hd "" supported) (tl supported).
  (** load_manager.py:92-101; [None] is Python's None *)
  Definition load (fs : tree) (folder : path) (files : list string) (ub_dir : option path) (facility : option string)
    : result (option (dict string raw_scan)) :=
    let f := match facility with Some s => if String.eqb s "" then rank_facility score else s | None => rank_facility score end in
    if String.eqb f "ORNL" then do d <- load_ornl fs folder files ub_dir; Ok (Some d) else Ok None.
End Loader.
