(** Model of utilities.py:239-287 (axis labels) and of src/tavi/configuration.py. *)
From Coq Require Import Reals List ZArith String Ascii Bool.
From Verif Require Import Base M_Project.
Import ListNotations.
Open Scope string_scope.
Open Scope list_scope.

(** ** Labels *)
(** A component of a projection vector: a Python int or float. Simplification: numpy's integers, which are neither for
    isinstance and are shown like non-integral floats, are left out; vectors have three components. *)
Inductive comp := CInt (z : Z) | CFloat (x : R).
Definition comp_val (c : comp) : R := match c with CInt z => IZR z | CFloat x => x end.
Definition is_zero (c : comp) : bool := if Req_EM_T (comp_val c) 0%R then true else false.
(** [float.is_integer] and [int(val)] *)
Definition integral (x : R) : option Z := let z := Int_part x in if Req_EM_T x (IZR z) then Some z else None.
Definition comp_int (c : comp) : option Z := match c with CInt z => Some z | CFloat x => integral x end.

Inductive axis := En | Vec (a b c : comp).

(** utilities.py:256: the index of the first nonzero element, -1 for the zero vector *)
Definition first_nonzero (a b c : comp) : Z :=
  if is_zero a then if is_zero b then if is_zero c then (-1)%Z else 2%Z else 1%Z else 0%Z.

Definition hkl_dict : dict Z string := [(0%Z, "H"); (1%Z, "K"); (2%Z, "L")].
Definition zmem (k : Z) (d : dict Z string) : bool := dmem Z.eqb k d.
Definition pop (k : Z) (d : dict Z string) : option (string * dict Z string) :=
  match dget Z.eqb k d with Some v => Some (v, ddel Z.eqb k d) | None => None end.

(** utilities.py:257-264. Python's [%] is the modulus with the sign of the divisor, [Z.modulo]. *)
Definition pick_letter (idx : Z) (d : dict Z string) : result (string * dict Z string) :=
  match pop idx d with
  | Some r => Ok r
  | None => match pop ((idx + 1) mod 3)%Z d with
            | Some r => Ok r
            | None => match pop ((idx + 2) mod 3)%Z d with
                      | Some r => Ok r
                      | None => Err IndexError
                      end
            end
  end.

Section Labels.
  (** Python's [f"{x:.3f}"] *)
  Variable fmt3 : R -> string.

  (** utilities.py:269-280 *)
  Definition entry (letter : string) (c : comp) : string :=
    match comp_int c with
    | Some z =>
        if (z =? 0)%Z then "0"
        else if (z =? 1)%Z then letter
        else if (z =? -1)%Z then ("-" ++ letter)%string
        else (str_of z ++ letter)%string
    | None => (fmt3 (comp_val c) ++ letter)%string
    end.
  (** utilities.py:266-284 *)
  Definition label (letter : string) (a b c : comp) : string :=
    ("(" ++ entry letter a ++ ", " ++ entry letter b ++ ", " ++ entry letter c ++ ") (r.l.u.)")%string.

  (** utilities.py:249-285 *)
  Fixpoint label_loop (axes : list axis) (d : dict Z string) : result (list string) :=
    match axes with
    | [] => Ok []
    | En :: axes' => do l <- label_loop axes' d; Ok ("E (meV)" :: l)
    | Vec a b c :: axes' =>
        do (x, d') <- pick_letter (first_nonzero a b c) d;
        do l <- label_loop axes' d';
        Ok (label x a b c :: l)
    end.

  (** utilities.py:242: equality with ((1,0,0),(0,1,0),(0,0,1),"en"); 1 == 1.0 in Python *)
  Definition comp_eqb (c : comp) (z : Z) : bool := if Req_EM_T (comp_val c) (IZR z) then true else false.
  Definition is_hkl (axes : list axis) : bool :=
    match axes with
    | [Vec a1 a2 a3; Vec b1 b2 b3; Vec c1 c2 c3; En] =>
        comp_eqb a1 1 && comp_eqb a2 0 && comp_eqb a3 0 && comp_eqb b1 0 && comp_eqb b2 1 && comp_eqb b3 0
        && comp_eqb c1 0 && comp_eqb c2 0 && comp_eqb c3 1
    | _ => false
    end.

  (** utilities.py:239-287 *)
  Definition labels_from_projection (axes : option (list axis)) : result (list string) :=
    match axes with
    | None => Ok ["Q_para (A^-1)"; "Q_perp (A^-1)"; "Q_up (A^-1)"; "E (meV)"]
    | Some l =>
        if is_hkl l then Ok ["(H, 0, 0) (r.l.u.)"; "(0, K, 0) (r.l.u.)"; "(0, 0, L) (r.l.u.)"; "E (meV)"]
        else label_loop l hkl_dict
    end.
End Labels.

(** ** Configuration *)
(** A parsed configuration file: the fields of [DEFAULT] and the sections in order. A value is None for a field
    without "=". Simplifications: names are already in lower case (ConfigParser lowers field names) and values hold no
    "%" (interpolation). *)
Definition fields := dict string (option string).
Record config := Config { c_defaults : fields; c_sections : dict string fields }.

(** ConfigParser.sections() *)
Definition sections (c : config) : list string := dkeys (c_sections c).
(** [field in config[section]]: its own or a default *)
Definition has_field (c : config) (s f : string) : bool :=
  match dget String.eqb s (c_sections c) with
  | Some fs => dmem String.eqb f fs || dmem String.eqb f (c_defaults c)
  | None => false
  end.
(** [config[section][field]] *)
Definition field_value (c : config) (s f : string) : option (option string) :=
  match dget String.eqb s (c_sections c) with
  | Some fs => match dget String.eqb f fs with Some v => Some v | None => dget String.eqb f (c_defaults c) end
  | None => None
  end.
(** config.items(section): the defaults, updated with the section *)
Definition items (c : config) (s : string) : fields :=
  match dget String.eqb s (c_sections c) with
  | Some fs => dupdate String.eqb (c_defaults c) fs
  | None => []
  end.
(** config.add_section(section) for a section that is not there *)
Definition add_section (c : config) (s : string) : config := Config (c_defaults c) (dset String.eqb s [] (c_sections c)).
(** [config[section][field] = value] *)
Definition set_field (c : config) (s f : string) (v : option string) : config :=
  match dget String.eqb s (c_sections c) with
  | Some fs => Config (c_defaults c) (dset String.eqb s (dset String.eqb f v fs) (c_sections c))
  | None => c
  end.

(** configuration.py:65-69 *)
Definition fill_field (s : string) (c : config) (item : string * option string) : config :=
  if has_field c s (fst item) then c else set_field c s (fst item) (snd item).
(** configuration.py:60-69. [template_config[section][field]] is the value [items] lists. *)
Definition fill_section (template : config) (c : config) (s : string) : config :=
  let c1 := if existsb (String.eqb s) (sections c) then c else add_section c s in
  fold_left (fill_field s) (items template s) c1.
(** configuration.py:54-72. The result is also what is written to the user's file. *)
Definition validate (template c : config) : config := fold_left (fill_section template) (sections template) c.

(** configuration.py:79-102, for a file that exists, with a non-empty [name]: the string, a bool, or None. This parser is
    made without allow_no_value, so a field without a value anywhere in the file is a ParsingError ([ValueError] here); and lines that
    start with "#" or ";" are comments to it, whereas the parser of [validate] (comment_prefixes="/") takes them for fields. *)
Inductive setting := SBool (b : bool) | SStr (s : string) | SNone.
Definition comment (f : string) : bool := match f with String c _ => Ascii.eqb c "#" || Ascii.eqb c ";" | EmptyString => false end.
Definition uncommented (fs : fields) : fields := filter (fun fv => negb (comment (fst fv))) fs.
Definition visible (c : config) : config := Config (uncommented (c_defaults c)) (map (fun s => (fst s, uncommented (snd s))) (c_sections c)).
Definition valueless (c : config) : bool :=
  existsb (fun fv => match snd fv with None => true | Some _ => false end)
          (c_defaults c ++ List.concat (map snd (c_sections c))).
Definition get_data (c : config) (s f : string) : result setting :=
  if valueless (visible c) then Err ValueError
  else match field_value (visible c) s f with
       | Some (Some v) =>
           Ok (if String.eqb v "True" then SBool true else if String.eqb v "False" then SBool false
               else if String.eqb v "None" then SNone else SStr v)
       | _ => Ok SNone
       end.
