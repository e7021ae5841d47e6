(** Model of src/tavi/data/nexus_builder.py (SPICE logs turned into a NeXus entry), of NexusEntry.from_spice and get_dataset_names
    (src/tavi/data/nexus_entry.py) and of Scan.from_spice and Scan.data (src/tavi/data/scan.py). *)
From Coq Require Import Reals List ZArith String Ascii Bool.
From Verif Require Import Base PyStr PySort M_ScanData M_Project M_Tavi M_Spice M_Nexus.
Import ListNotations.
Open Scope string_scope.
Open Scope list_scope.

(** Python values given to NXdataset: None, a string, a number, a bool, a numeric array, a list of numbers, a list of strings.
    Nan and infinities are left out. *)
Inductive pv := PNone | PStr (s : string) | PNum (x : R) | PBool (b : bool) | PArr (l : list R) | PList (l : list R) | PStrs (l : list string).
Definition entry := list (string * val).

(** s.replace(".", "").isnumeric() for ASCII text *)
Definition ascii_digit (c : ascii) : bool := let n := nat_of_ascii c in Nat.leb 48 n && Nat.leb n 57.
Fixpoint no_dots (s : string) : string :=
  match s with EmptyString => EmptyString | String c s' => if Ascii.eqb c "." then no_dots s' else String c (no_dots s') end.
Fixpoint all_digits (s : string) : bool := match s with EmptyString => true | String c s' => ascii_digit c && all_digits s' end.
Definition isnumeric (s : string) : bool := match s with EmptyString => false | _ => all_digits s end.

Section Builder.
  (** Python's float(s) and int(s); [None] when they raise ValueError *)
  Variable float_of : string -> option R.
  Variable int_of : string -> option Z.
  (** str() of a value that is not a string *)
  Variable repr : pv -> string.
  (** datetime.strptime(s, "%m/%d/%Y %I:%M:%S %p") as New York time in ISO format; [None] when it raises ValueError *)
  Variable date_of : string -> option string.

  Definition to_num (is_float : bool) (s : string) : result R :=
    if is_float then match float_of s with Some x => Ok x | None => Err ValueError end
    else match int_of s with Some z => Ok (IZR z) | None => Err ValueError end.
  Definition cast (is_float : bool) (x : R) : R := if is_float then x else trunc x.
  (** nexus_builder.py:31-58 _recast_type; a scalar text that is not made of digits and dots leaves [dataset] unbound. *)
  Definition recast (is_float : bool) (v : pv) : result leaf :=
    match v with
    | PStr s =>
        if contains "," s then do l <- mapM (to_num is_float) (split_on ","%char s); Ok (LArr l)
        else if isnumeric (no_dots s) then do x <- to_num is_float s; Ok (LNum x)
        else Err UnboundLocalError
    | PNum x => Ok (LNum (cast is_float x))
    | PBool b => Ok (LNum (if b then 1 else 0))
    | PArr l | PList l => Ok (LArr (map (cast is_float) l))
    | PStrs l => do x <- mapM (to_num is_float) l; Ok (LArr x)
    | PNone => Err TypeError
    end.
  (** A value kept as it is (a bool as the number it equals). *)
  Definition plain (v : pv) : leaf :=
    match v with
    | PNone => LStr "None" | PStr s => LStr s | PNum x => LNum x | PBool b => LNum (if b then 1 else 0) | PArr l => LArr l | PList l => LList l | PStrs l => LStrs l
    end.
  (** nexus_builder.py:74-93: the dataset *)
  Definition dataset_of (v : pv) (kw : list (string * string)) : result leaf :=
    match sget "type" kw with
    | None => Ok (plain v)
    | Some t =>
        if String.eqb t "NX_CHAR" then Ok (match v with PStrs l => LStrs l | PList l => LArr l | PStr s => LStr s | _ => LStr (repr v) end)
        else if String.eqb t "NX_INT" then recast false v
        else if String.eqb t "NX_FLOAT" then recast true v
        else if String.eqb t "NX_DATE_TIME" then
          match v with PStr s => match date_of s with Some d => Ok (LStr d) | None => Err ValueError end | _ => Err TypeError end
        else Ok (plain v)
    end.
  (** nexus_builder.py:64-95 NXdataset(ds, ...): the keyword arguments are texts. *)
  Definition nxdataset (v : pv) (kw : list (string * string)) : result entry :=
    match v with
    | PNone => Ok []
    | PStr "" => Ok []
    | _ => do x <- dataset_of v kw; Ok [("dataset", Leaf x); ("attrs", Dict (map (fun a => (fst a, Leaf (LStr (snd a)))) kw))]
    end.

  (** nexus_builder.py:110-121 NXentry(...): a keyword argument is an attribute, or an NXdataset or NXentry. *)
  Inductive karg := KAttr (x : leaf) | KObj (e : entry).
  Definition kattrs (kw : list (string * karg)) : entry :=
    fold_left (fun a kv => match snd kv with KAttr x => sset (fst kv) (Leaf x) a | KObj _ => a end) kw [].
  Definition kmembers (kw : list (string * karg)) : entry :=
    flat_map (fun kv => match snd kv with KObj (x :: e) => [(fst kv, Dict (x :: e))] | _ => [] end) kw.
  Definition nxentry (kw : list (string * karg)) : entry := dupdate String.eqb [("attrs", Dict (kattrs kw))] (kmembers kw).
  (** nexus_builder.py:123-127 *)
  Definition add_dataset (k : string) (ds : entry) (e : entry) : entry := match ds with [] => e | _ => sset k (Dict ds) e end.
  (** nexus_builder.py:129-133. Truth of a value: texts and lists by length, numbers by not being zero; the truth of an array of more
      than one element raises ValueError. *)
  Definition falsy (x : leaf) : result bool :=
    match x with
    | LStr s => Ok (String.eqb s "")
    | LNum r => Ok (if Req_EM_T r 0 then true else false)
    | LArr [] => Ok true
    | LArr [r] => Ok (if Req_EM_T r 0 then true else false)
    | LArr _ => Err ValueError
    | LStrs l => Ok (match l with [] => true | _ => false end)
    | LList l => Ok (match l with [] => true | _ => false end)
    end.
  Definition add_attribute (k : string) (x : leaf) (e : entry) : result entry :=
    do f <- falsy x;
    if f then Ok e
    else match sget "attrs" e with
         | Some (Dict a) => Ok (sset "attrs" (Dict (sset k (Leaf x) a)) e)
         | Some (Leaf _) => Err AttributeError
         | None => Err KeyError
         end.

  (** An entry with constant text attributes, and datasets added one by one. NXentry(k=NXdataset(...), ..., NX_class=...) is written
      [fill fields (texts attrs)]: its keyword arguments are distinct (see [nxentry_members] in L_Builder.v). *)
  Definition texts (l : list (string * string)) : entry := [("attrs", Dict (map (fun a => (fst a, Leaf (LStr (snd a)))) l))].
  Definition fld := (string * pv * list (string * string))%type.
  Fixpoint fill (l : list fld) (e : entry) : result entry :=
    match l with [] => Ok e | (k, v, kw) :: l' => do d <- nxdataset v kw; fill l' (add_dataset k d e) end.

  Definition tfloat := ("type", "NX_FLOAT").
  Definition tint := ("type", "NX_INT").
  Definition tchar := ("type", "NX_CHAR").
  Definition tangle := ("type", "NX_ANGLE").
  Definition req := ("EX_required", "true").
  Definition units (u : string) := ("units", u).

  (** ** SPICE logs: the dictionary made by _create_spicelogs (M_Spice.create_spicelogs), all numbers being finite *)
  Record logs := Logs { lg_meta : dict string aval; lg_data : dict string (list R) }.
  Fixpoint finite (l : list num) : option (list R) :=
    match l with [] => Some [] | Some x :: l' => match finite l' with Some r => Some (x :: r) | None => None end | None :: _ => None end.
  Fixpoint finite_data (d : dict string (list num)) : result (dict string (list R)) :=
    match d with
    | [] => Ok []
    | (k, l) :: d' => match finite l with Some r => do r' <- finite_data d'; Ok ((k, r) :: r') | None => Err NotANumber end
    end.
  Definition logs_of (s : spicelogs) : result logs := do d <- finite_data (sl_data s); Ok (Logs (sl_attrs s) d).

  Section Scan.
    Variable L : logs.
    (** spicelogs.get(c) *)
    Definition col (c : string) : pv := match sget c (lg_data L) with Some l => PArr l | None => PNone end.
    (** metadata.get(k) *)
    Definition pv_of (a : aval) : pv :=
      match a with AMeta (MStr s) => PStr s | AMeta (MNums l) => PList l | AMeta (MStrs l) => PStrs l | AList l => PStrs l | ANone => PNone end.
    Definition meta (k : string) : pv := match sget k (lg_meta L) with Some a => pv_of a | None => PNone end.
    (** metadata[k] used as a text *)
    Definition meta_text (k : string) : result string :=
      match sget k (lg_meta L) with
      | None => Err KeyError
      | Some (AMeta (MStr s)) => Ok s
      | Some _ => Err AttributeError
      end.
    (** metadata.get(k)[i] *)
    Definition meta_item (k : string) (i : nat) : result pv :=
      match meta k with
      | PStr s => match String.get i s with Some c => Ok (PStr (String c EmptyString)) | None => Err IndexError end
      | PList l => match nth_error l i with Some x => Ok (PNum x) | None => Err IndexError end
      | PStrs l => match nth_error l i with Some s => Ok (PStr s) | None => Err IndexError end
      | _ => Err TypeError
      end.
    Definition char_at (k : string) (i : nat) : result pv :=
      do s <- meta_text k; match String.get i s with Some c => Ok (PStr (String c EmptyString)) | None => Err IndexError end.

    (** ** Parameters from the configuration files: json.load of a file, or no file given *)
    Definition config := dict string (dict string pv).
    Variable instr : option config.
    Variable smpl : option (dict string pv).
    Definition params (name : string) : dict string pv :=
      match instr with Some c => match sget name c with Some d => d | None => [] end | None => [] end.
    Definition one_of (k : string) (l : list string) : bool := existsb (String.eqb k) l.
    (** nexus_builder.py:206-213, 287-294 *)
    Definition source_kw (k : string) : list (string * string) :=
      if String.eqb k "shape" then [tchar] else if one_of k ["width"; "height"] then [tfloat; units "cm"] else [].
    (** nexus_builder.py:234-247 and 267-280 ([mosaic] differs) *)
    Definition crystal_kw (mosaic : list (string * string)) (k : string) : list (string * string) :=
      if String.eqb k "shape" then [tchar]
      else if one_of k ["width"; "height"; "depth"] then [tfloat; units "cm"]
      else if one_of k ["mosaic_h"; "mosaic_v"] then mosaic
      else if one_of k ["curved_h"; "optimally_curved_h"; "curved_v"; "optimally_curved_v"] then [tchar]
      else if one_of k ["curvh"; "curvv"] then [tfloat; units "cm^-1"]
      else [].
    Definition with_kw (f : string -> list (string * string)) (d : dict string pv) : list fld := map (fun kv => (fst kv, snd kv, f (fst kv))) d.

    (** nexus_builder.py:188-189 *)
    Definition nxuser : result entry :=
      do u <- meta_text "users"; fill [("name", PStrs (split_on ","%char u), [tchar])] (texts [("NX_class", "NXuser")]).
    (** 193-213 *)
    Definition nxsource : result entry :=
      fill ([("name", PStr "HFIR", [tchar; req]); ("probe", PStr "neutron", [tchar; req])] ++ with_kw source_kw (params "source"))
        (texts [("NX_class", "NXsource"); req]).
    (** 217-247 *)
    Definition nxmono : result entry :=
      do sense <- char_at "sense" 0;
      fill ([("ei", col "ei", [tfloat; req; units "meV"]); ("type", meta "monochromator", [tchar]); ("sense", sense, [tchar]);
             ("m1", col "m1", [tfloat; units "degrees"]); ("m2", col "m2", [tfloat; units "degrees"]);
             ("mfocus", col "mfocus", [tfloat]); ("marc", col "marc", [tfloat]); ("mtrans", col "mtrans", [tfloat]);
             ("focal_length", col "focal_length", [tfloat])]
            ++ with_kw (crystal_kw [tfloat; units "mins of arc"]) (params "monochromator"))
        (texts [("NX_class", "NXcrystal"); req]).
    (** 251-280 *)
    Definition nxana : result entry :=
      do sense <- char_at "sense" 2;
      fill ([("ef", col "ef", [tfloat; req; units "meV"]); ("type", meta "analyzer", [tchar]); ("sense", sense, [tchar]);
             ("a1", col "a1", [tfloat; units "degrees"]); ("a2", col "a2", [tfloat; units "degrees"]); ("afocus", col "afocus", [tfloat])]
            ++ flat_map (fun i => [(("qm" ++ i)%string, col ("qm" ++ i)%string, [tfloat]); (("xm" ++ i)%string, col ("xm" ++ i)%string, [tfloat])])
                 ["1"; "2"; "3"; "4"; "5"; "6"; "7"; "8"]
            ++ with_kw (crystal_kw [tangle; units "minutes of arc"]) (params "analyzer"))
        (texts [("NX_class", "NXcrystal"); req]).
    (** [while f"detector_{idx}" in spicelogs.keys()] (298-303 and 405-420): the numbers the loop visits. There are at most as many as columns. *)
    Definition numbered (name : string) (i : Z) : string := (name ++ "_" ++ str_of i)%string.
    Fixpoint count_up (fuel : nat) (i : Z) : list Z :=
      match fuel with
      | O => []
      | S f => if dmem String.eqb (numbered "detector" i) (lg_data L) then i :: count_up f (i + 1) else []
      end.
    Definition channels : list Z := count_up (S (List.length (lg_data L))) 1.
    (** 284-303 *)
    Definition nxdet : result entry :=
      fill ([("data", col "detector", [tint; req; units "counts"])] ++ with_kw source_kw (params "detector")
            ++ map (fun i => (numbered "detector" i, col (numbered "detector" i), [tint; units "counts"])) channels)
        (texts [("NX_class", "NXdetector"); req]).
    (** 307-336; the four divergences of the configuration must be numbers *)
    Definition four (names : list string) (d : dict string pv) : result (option (list R)) :=
      (fix go (l : list string) : result (option (list R)) :=
         match l with
         | [] => Ok (Some [])
         | k :: l' => match sget k d with
                      | None => Ok None
                      | Some (PNum x) => do r <- go l'; Ok (match r with Some r' => Some (x :: r') | None => None end)
                      | Some _ => Err TypeError
                      end
         end) names.
    Definition opt_field (k : string) (o : option (list R)) (kw : list (string * string)) : list fld := match o with Some l => [(k, PList l, kw)] | None => [] end.
    Definition nxcoll : result entry :=
      do c <- meta_text "collimation";
      do div <- mapM (to_num true) (split_on "-"%char c);
      do h <- four ["h_pre_mono"; "h_pre_sample"; "h_post_sample"; "h_post_ana"] (params "collimators");
      do v <- four ["v_pre_mono"; "v_pre_sample"; "v_post_sample"; "v_post_ana"] (params "collimators");
      fill ([("type", PStr "Soller", [tchar]); ("divergence_x", PList div, [tangle; units "minutes of arc"])]
            ++ opt_field "divergence_x" h [tangle; units "minutes of arc"] ++ opt_field "divergence_y" v [tangle; units "minutes of arc"])
        (texts [("NX_class", "NXcollimator")]).
    (** 340-347 *)
    Definition slit_names : list string :=
      ["bat"; "bab"; "bal"; "bar"; "bbt"; "bbb"; "bbl"; "bbr"; "slita_lf"; "slita_rt"; "slita_tp"; "slita_bt"; "slitb_lf"; "slitb_rt"; "slitb_tp"; "slitb_bt";
       "slit_pre_lf"; "slit_pre_rt"; "slit_pre_tp"; "slit_pre_bt"].
    Definition nxslits : result entry :=
      fill (map (fun s => (s, col s, [tfloat; units "cm"])) slit_names) (texts [("NX_class", "NXslit")]).
    (** 350-353 *)
    Definition nxflipper : result entry :=
      fill (map (fun s => (s, col s, [tfloat])) ["fguide"; "hguide"; "vguide"]) (texts [("NX_class", "NXflipper")]).
    (** 357-379 *)
    Definition nxgoni : result entry :=
      do sense <- char_at "sense" 1;
      fill ([("sense", sense, [tchar])]
            ++ map (fun s => (s, col s, [tfloat; units "degrees"])) ["s1"; "s2"; "sgu"; "sgl"; "stu"; "stl"; "omega"; "two_theta"; "2theta"; "chi"; "phi"]
            ++ with_kw (fun _ => [tchar]) (filter (fun kv => String.eqb (fst kv) "type") (params "goniometer")))
        (texts [("NX_class", "NXtransformations")]).
    (** 383-440 *)
    Definition channel_fields (i : Z) : result (list fld) :=
      do mode <- meta_item "norm_channels" (Z.to_nat (i - 1));
      do preset <- meta_item "norm_vals" (Z.to_nat (i - 1));
      do lab <- meta_item "labels" (Z.to_nat (i - 1));
      Ok [(numbered "mode" i, mode, [tchar]); (numbered "preset" i, preset, [tfloat]); (numbered "time" i, col (numbered "time" i), [tfloat; units "seconds"]);
          (numbered "monitor" i, col (numbered "monitor" i), [tint; units "counts"]); (numbered "mcu" i, col (numbered "mcu" i), [tfloat; units "mcu"]);
          (numbered "label" i, lab, [tchar])].
    Definition counters : list fld :=
      [("time", col "time", [tfloat; units "seconds"]); ("monitor", col "monitor", [tint; units "counts"]); ("mcu", col "mcu", [tfloat; units "mcu"])].
    Definition is_text (v : pv) (s : string) : bool := match v with PStr t => String.eqb t s | _ => false end.
    Definition nxmonitor : result entry :=
      let shape := with_kw (fun _ => [tchar]) (filter (fun kv => String.eqb (fst kv) "shape") (params "monitor")) in
      let attrs := texts [("NX_class", "NXmonitor"); req] in
      if is_text (meta "preset_type") "normal" then
        fill ([("preset_type", PStr "normal", [tchar]); ("mode", meta "preset_channel", [tchar; req]); ("preset", meta "preset_value", [tfloat; req])] ++ counters ++ shape) attrs
      else if is_text (meta "preset_type") "countfile" then
        do c <- meta_text "countfile";
        do ch <- mapM channel_fields channels;
        fill ([("preset_type", PStr "countfile", [tchar]); ("countfile", PStrs (split_on ","%char c), [tchar])] ++ List.concat ch ++ shape) attrs
      else fill (counters ++ shape) attrs.
    (** 459-514 *)
    Definition sample_kw (k : string) : list (string * string) :=
      if String.eqb k "shape" then [tchar]
      else if one_of k ["width"; "height"; "depth"; "plane_normal"; "in_plane_ref"] then [tfloat; units "cm"]
      else if one_of k ["mosaic_h"; "mosaic_v"] then [tangle; units "minutes of arc"]
      else if String.eqb k "ub_matrix" then [tfloat]
      else [].
    Definition sample_params : list fld :=
      match smpl with
      | None => []
      | Some d => map (fun kv => (if String.eqb (fst kv) "ub_matrix" then "orientation_matrix" else fst kv, snd kv, sample_kw (fst kv)))
                      (filter (fun kv => negb (one_of (fst kv) ["a"; "b"; "c"; "alpha"; "beta"; "gamma"])) d)
      end.
    Definition temperatures : list string :=
      ["temp"; "temp_a"; "temp_2"; "coldtip"; "tsample"; "sample"; "vti"; "dr_tsample"; "dr_temp"; "lt"; "ht"; "sorb_temp"; "sorb"; "sample_ht"].
    (** 509-512: np.reshape of the matrix to three rows of three, kept here as nine numbers *)
    Definition ub_of_nine : result unit :=
      match smpl with
      | None => Ok tt
      | Some d => match sget "ub_matrix" d with
                  | None => Ok tt
                  | Some (PList l) | Some (PArr l) => if Nat.eqb (List.length l) 9 then Ok tt else Err ValueError
                  | Some _ => Err ValueError
                  end
      end.
    Definition nxsample : result entry :=
      do _ <- ub_of_nine;
      fill ([("name", meta "samplename", [tchar; req]); ("type", meta "sampletype", [tchar; req]); ("unit_cell", meta "latticeconstants", [tfloat; req]);
             ("qh", col "h", [tfloat; req; units "r.l.u."]); ("qk", col "k", [tfloat; req; units "r.l.u."]); ("ql", col "l", [tfloat; req; units "r.l.u."]);
             ("en", col "e", [tfloat; req; units "meV"]); ("q", col "q", [tfloat; units "Angstrom^-1"]); ("mosaic", meta "samplemosaic", [tfloat; units "degrees"]);
             ("Pt.", col "Pt.", [tint]);
             ("orientation_matrix", meta "ubmatrix", [tfloat; req; units "NX_DIMENSIONLESS"]); ("plane_normal", meta "plane_normal", [tfloat])]
            ++ map (fun s => (s, col s, [tfloat; units "Kelvin"])) temperatures
            ++ map (fun s => (s, col s, [tfloat; units "Tesla"])) ["persistent_field"; "mag_i"]
            ++ sample_params)
        (texts [("NX_class", "NXsample"); req]).
    (** 517-523; an attribute that would be None is left out *)
    Definition renamed (s : string) : string :=
      if String.eqb s "h" then "qh" else if String.eqb s "k" then "qk" else if String.eqb s "l" then "ql" else if String.eqb s "e" then "en" else s.
    Definition text_attr (k : string) (v : pv) : entry := match v with PNone => [] | _ => [(k, Leaf (plain v))] end.
    Definition nxdata : entry :=
      [("attrs", Dict ([("NX_class", Leaf (LStr "NXdata")); ("EX_required", Leaf (LStr "true"))] ++ text_attr "signal" (meta "def_y")
                       ++ text_attr "axes" (match meta "def_x" with PStr s => PStr (renamed s) | v => v end)))].
    (** nexus_builder.py:136-154 _formatted_spicelogs. The UB configuration is formatted (139-144) and then dropped. *)
    Fixpoint add_attributes (l : dict string aval) (e : entry) : result entry :=
      match l with
      | [] => Ok e
      | (k, a) :: l' => do e' <- (match pv_of a with PNone => Ok e | v => add_attribute k (plain v) e end); add_attributes l' e'
      end.
    Definition formatted_spicelogs : result entry :=
      do e <- add_attributes (lg_meta L) (texts [("NX_class", "NXcollection"); ("EX_required", "false")]);
      fill (map (fun kl => (fst kl, PArr (snd kl), [])) (lg_data L)) e.
    (** "{} {}".format(metadata.get("date"), metadata.get("time")) (525) *)
    Definition fmt (v : pv) : string := match v with PStr s => s | PNone => "None" | _ => repr v end.
    (** 445-457, 530-544 and the whole of spice_scan_to_nxdict (157-545) *)
    Definition spice_scan_to_nxdict : result entry :=
      do user <- nxuser;
      do source <- nxsource;
      do mono <- nxmono;
      do ana <- nxana;
      do det <- nxdet;
      do coll <- nxcoll;
      do slits <- nxslits;
      do flipper <- nxflipper;
      do goni <- nxgoni;
      do monitor <- nxmonitor;
      do name <- nxdataset (meta "instrument") [tchar];
      let instrument := nxentry [("source", KObj source); ("monochromator", KObj mono); ("collimator", KObj coll); ("analyser", KObj ana); ("detector", KObj det);
                                 ("slits", KObj slits); ("flipper", KObj flipper); ("goniometer", KObj goni); ("name", KObj name);
                                 ("NX_class", KAttr (LStr "NXinstrument")); ("EX_required", KAttr (LStr "true"))] in
      do sample <- nxsample;
      do spice <- formatted_spicelogs;
      do definition <- nxdataset (PStr "NXtas") [tchar; req];
      do title <- nxdataset (meta "scan_title") [tchar; req];
      do start_time <- nxdataset (PStr (fmt (meta "date") ++ " " ++ fmt (meta "time"))) [("type", "NX_DATE_TIME"); req];
      do end_time <- nxdataset (meta "end_time") [("type", "NX_DATE_TIME")];
      Ok (nxentry [("SPICElogs", KObj spice); ("data", KObj nxdata); ("definition", KObj definition); ("title", KObj title); ("start_time", KObj start_time);
                   ("end_time", KObj end_time); ("instrument", KObj instrument); ("monitor", KObj monitor); ("sample", KObj sample); ("user", KObj user);
                   ("NX_class", KAttr (LStr "NXentry")); ("EX_required", KAttr (LStr "true"))]).
  End Scan.

  (** ** Folders *)
  Variable genfromtxt : list string -> result (list (list num)).
  Variable xml_matrix : string -> option (option string).
  (** s.endswith(t) *)
  Definition ends_str (t s : string) : bool := String.eqb (String.substring (String.length s - String.length t) (String.length t) s) t && Nat.leb (String.length t) (String.length s).
  (** nexus_builder.py:157-186: one file with its logs *)
  Definition scan_file (fs : files) (p : path) (instr : option config) (smpl : option (dict string pv)) : result entry :=
    do sl <- create_spicelogs float_of int_of genfromtxt xml_matrix fs p;
    do L <- logs_of sl;
    spice_scan_to_nxdict L instr smpl.
  (** nexus_builder.py:588-609 *)
  Fixpoint convert (fs : files) (dir : path) (dataset_name : string) (instr : option config) (smpl : option (dict string pv)) (names : list string) (acc : dict string entry)
    : result (dict string entry) :=
    match names with
    | [] => Ok acc
    | f :: rest =>
        match split_on "_"%char f with
        | _ :: _ :: part :: _ =>
            do e <- scan_file fs (dir ++ [f]) instr smpl;
            do a <- (match sget "attrs" e with Some (Dict a) => Ok a | _ => Err KeyError end);
            let e' := sset "attrs" (Dict (sset "dataset_name" (Leaf (LStr dataset_name)) a)) e in
            convert fs dir dataset_name instr smpl rest (sset (hd "" (split_on "."%char part)) e' acc)
        | _ => Err ValueError
        end
    end.
  (** nexus_builder.py:548-609; [listing] is os.listdir of the Datafiles folder [dir]. Sorting full paths in one folder is sorting names. *)
  Definition spice_data_to_nxdict (fs : files) (dir : path) (listing : list string) (scan_num : option Z) (instr : option config) (smpl : option (dict string pv))
    : result (dict string entry) :=
    let keyword := match scan_num with None => ".dat" | Some n => (scan_name n ++ ".dat")%string end in
    let names := sort (filter (ends_str keyword) listing) in
    match names with
    | [] => Err IndexError
    | first :: _ =>
        do sf <- read_spice_datafile float_of genfromtxt fs (dir ++ [first]);
        let ipts := match mget "proposal" (sf_metadata sf) with Some (MStr s) => s | Some _ => "" | None => "UNKNOWN" end in
        match split_on "_"%char first with
        | [instrument; exp; _] => convert fs dir ("IPTS" ++ ipts ++ "_" ++ instrument ++ "_" ++ exp)%string instr smpl names []
        | _ => Err ValueError
        end
    end.
  (** nexus_entry.py:172-212 NexusEntry.from_spice; [folder] is absolute. The entries are copied unchanged (160-169). *)
  Definition from_spice (fs : files) (folder : path) (listing : list string) (scan_num : option Z) (instr : option config) (smpl : option (dict string pv))
    : result (dict string entry) :=
    if negb (is_dir fs folder) then (if is_file fs folder then Err NotADirectoryError else Err FileNotFoundError)
    else if negb (is_dir fs (folder ++ ["Datafiles"])) then Err FileNotFoundError
    else spice_data_to_nxdict fs (folder ++ ["Datafiles"]) listing scan_num instr smpl.
End Builder.

(** ** Scans *)
(** nexus_entry.py:329-336 _get_name: values inside a component. ["dataset" in val] is a search in a text for a text, raises TypeError
    for a number, and is False for an array. An array or list of strings counts as an array. *)
Fixpoint get_names (n : nat) (l : entry) : result (list string) :=
  match l with
  | [] => Ok []
  | (k, v) :: l' =>
      do here <- (match v with
                  | Dict d => match sget "dataset" d with
                              | Some (Leaf (LArr a)) => Ok (if Nat.eqb (List.length a) n then [k] else [])
                              | Some (Leaf (LStrs a)) => Ok (if Nat.eqb (List.length a) n then [k] else [])
                              | _ => Ok []
                              end
                  | Leaf (LStr s) => if contains "dataset" s then Err TypeError else Ok []
                  | Leaf (LNum _) => Err TypeError
                  | Leaf _ => Ok []
                  end);
      do rest <- get_names n l'; Ok (here ++ rest)
  end.
(** nexus_entry.py:342-350: the components of the instrument *)
Fixpoint component_names (n : nat) (l : entry) : result (list string) :=
  match l with
  | [] => Ok []
  | (k, v) :: l' =>
      do here <- (if String.eqb k "attrs" then Ok []
                  else match v with
                       | Leaf _ => Err AttributeError
                       | Dict d =>
                           if String.eqb k "detector" then
                             if dmem String.eqb "data" d then Ok ["detector"]
                             else do a <- get_names n d; Ok (a ++ a)
                           else get_names n d
                       end);
      do rest <- component_names n l'; Ok (here ++ rest)
  end.
Definition child (k : string) (e : entry) : result entry :=
  match sget k e with Some (Dict d) => Ok d | Some (Leaf _) => Err AttributeError | None => Err KeyError end.
(** nexus_entry.py:326-361 get_dataset_names; the entry it leaves (get removes the logs, "data" is removed from the monitor) *)
Definition get_dataset_names (e : entry) : entry * result (list string) :=
  let (e1, pts) := get e "Pt." false None in
  match (do p <- pts;
         do n <- (match p with
                  | Some (Leaf (LArr a)) | Some (Leaf (LList a)) => Ok (List.length a)
                  | Some (Leaf (LStrs a)) => Ok (List.length a)
                  | Some (Leaf (LStr s)) => Ok (String.length s)
                  | Some (Dict d) => Ok (List.length d)
                  | Some (Leaf (LNum _)) | None => Err TypeError
                  end);
         do instru <- child "instrument" e1;
         do a <- component_names n instru;
         do monitor <- child "monitor" e1;
         Ok (n, a, monitor)) with
  | Err x => (e1, Err x)
  | Ok (n, a, monitor) =>
      let (e2, md) := get e1 "monitor/data" false None in
      match md with
      | Err x => (e2, Err x)
      | Ok o =>
          let e3 := match o with Some _ => sset "monitor" (Dict (ddel String.eqb "data" monitor)) e2 | None => e2 end in
          (e3, do _ <- (match o with Some _ => if dmem String.eqb "data" monitor then Ok tt else Err KeyError | None => Ok tt end);
               do m <- child "monitor" e3;
               do b <- get_names n m;
               do s <- child "sample" e3;
               do c <- get_names n s;
               Ok (a ++ b ++ c))
      end
  end.
(** scan.py:190-196 Scan.data: name -> value *)
Fixpoint data_of (names : list string) (e : entry) (acc : dict string (option val)) : result (dict string (option val)) :=
  match names with
  | [] => Ok acc
  | k :: names' => let (e', r) := get e k false None in do v <- r; data_of names' e' (sset k v acc)
  end.
Definition scan_data (e : entry) : result (dict string (option val)) :=
  let (e', r) := get_dataset_names e in do names <- r; data_of names e' [].
