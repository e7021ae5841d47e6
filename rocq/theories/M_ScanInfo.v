(** Model of src/tavi/data/scan.py: making a scan, and what a scan says about itself. *)
From Coq Require Import Reals List ZArith String Ascii Bool DecimalString.
From Verif Require Import Base PyStr LinAlg M_UB M_ScanData M_Spice M_Project M_Tavi M_Nexus M_Builder.
Import ListNotations.
Open Scope string_scope.
Open Scope list_scope.

(** scan.py:82-86 Scan: the name, the entry (as get_dataset_names leaves it) and the data. *)
Record scan := Scan { sn_name : string; sn_entry : entry; sn_data : dict string (option val) }.
Definition new_scan (name : string) (e : entry) : result scan :=
  let (e', r) := get_dataset_names e in do names <- r; do d <- data_of names e' []; Ok (Scan name e' d).

(** scan.py:99-105, 110-111: exactly one entry is expected. *)
Definition only (d : dict string entry) : result (string * entry) := match d with [x] => Ok x | _ => Err ValueError end.

(** self._nexus_dict.get(key): the entry has been stripped of its logs when the scan was made, so the calls leave it alone. *)
Definition look (c : scan) (key : string) : result (option val) := snd (get (sn_entry c) key false None).
(** self._nexus_dict.get("data", ATTRS=True)[key] *)
Definition plot_attr (c : scan) (key : string) : result val :=
  do r <- snd (get (sn_entry c) "data" true None);
  match r with
  | Some (Dict a) => match sget key a with Some v => Ok v | None => Err KeyError end
  | _ => Err TypeError
  end.
(** value == text; an array of texts compared with a text is not used by any entry built here and counts as different *)
Definition equals_text (o : option val) (t : string) : bool := match o with Some (Leaf (LStr s)) => String.eqb s t | _ => false end.

(** scan.py:19-33 ScanInfo. The three preset fields are single values (label "") or lists. *)
Inductive preset := Single (channel value : option val) | Several (channels values labels : list (option val)).
Record info := Info { in_exp : option val; in_num : Z; in_title : option val; in_y : val; in_x : val; in_start : option val; in_end : option val;
  in_type : option val; in_preset : preset }.

(** scan.py:125-130: at most twelve channels, up to the first without a mode *)
Fixpoint count_channels (c : scan) (fuel : nat) (k : Z) : result (list (option val * option val * option val)) :=
  match fuel with
  | O => Ok []
  | S fuel' =>
      do m <- look c ("monitor/mode_" ++ str_of k)%string;
      match m with
      | None => Ok []
      | Some _ =>
          do p <- look c ("monitor/preset_" ++ str_of k)%string;
          do l <- look c ("monitor/label_" ++ str_of k)%string;
          do rest <- count_channels c fuel' (k + 1);
          Ok ((m, p, l) :: rest)
      end
  end.

(** name[-4:] *)
Definition last4 (s : string) : string := let n := String.length s in String.substring (n - 4) (if Nat.leb 4 n then 4 else n) s.

Section Info.
  Variable int_of : string -> option Z.   (* int() of a text *)
  (** scan.py:113-145 scan_info. With another kind of preset the names preset_channel, preset_value and label are unbound, which is noticed
      when they are used, after the other fields have been looked up. *)
  Definition scan_info (c : scan) : result info :=
    do ty <- look c "preset_type";
    do pr <- (if equals_text ty "normal" then
                do ch <- look c "monitor/mode"; do v <- look c "monitor/preset"; Ok (Some (Single ch v))
              else if equals_text ty "countfile" then
                do l <- count_channels c 12 1;
                Ok (Some (Several (map (fun x => fst (fst x)) l) (map (fun x => snd (fst x)) l) (map snd l)))
              else Ok None);
    do exp <- (match sget "attrs" (sn_entry c) with Some (Dict a) => Ok (sget "dataset_name" a) | Some (Leaf _) => Err AttributeError | None => Err KeyError end);
    do num <- (match int_of (last4 (sn_name c)) with Some z => Ok z | None => Err ValueError end);
    do title <- look c "title";
    do y <- plot_attr c "signal";
    do x <- plot_attr c "axes";
    do t0 <- look c "start_time";
    do t1 <- look c "end_time";
    match pr with
    | None => Err UnboundLocalError
    | Some p => Ok (Info exp num title y x t0 t1 ty p)
    end.
End Info.

(** scan.py:36-52 SampleUBInfo *)
Record sample_info := SampleInfo { sa_name : option val; sa_cell : option val; sa_mosaic : option val; sa_ub : mat; sa_type : option val; sa_uv : option (vec * vec); sa_normal : option val }.
(** value.reshape(3, 3): None and texts and lists have no reshape; a number has one element. An array of texts is not a matrix (TypeError when it
    is used as one). *)
Definition reshape33 (o : option val) : result mat :=
  match o with
  | Some (Leaf (LArr [a; b; c; d; e; f; g; h; i])) => Ok (M a b c d e f g h i)
  | Some (Leaf (LArr _)) | Some (Leaf (LNum _)) => Err ValueError
  | Some (Leaf (LStrs _)) => Err TypeError
  | _ => Err AttributeError
  end.
(** scan.py:147-174 sample_ub_info *)
Definition sample_ub_info (c : scan) : result sample_info :=
  do ty <- look c "sample/type";
  do mosaic <- look c "sample/mosaic";
  do u <- look c "sample/orientation_matrix";
  do ub <- reshape33 u;
  do cell <- look c "sample/unit_cell";
  do uv <- (if equals_text ty "crystal" then do p <- ub_matrix_to_uv (mm t_spice_to_mantid ub); Ok (Some p) else Ok None);
  do name <- look c "sample/name";
  do normal <- look c "sample/plane_normal";
  Ok (SampleInfo name cell mosaic ub ty uv normal).

(** scan.py:55-64 InstrumentInfo; the name of the instrument is left "" *)
Record instrument_info_ := InstrumentInfo { ii_name : string; ii_mono : option val; ii_ana : option val; ii_sense : string; ii_collimation : option val }.
(** a + b of texts; anything else that occurs (None) cannot be added to a text *)
Definition add_text (a : result string) (o : option val) : result string :=
  do s <- a; match o with Some (Leaf (LStr t)) => Ok (s ++ t)%string | _ => Err TypeError end.
(** scan.py:176-188 instrument_info *)
Definition instrument_info (c : scan) : result instrument_info_ :=
  do m <- look c "monochromator/type";
  do a <- look c "analyser/type";
  do s1 <- look c "monochromator/sense";
  do s2 <- look c "goniometer/sense";
  do s12 <- add_text (add_text (Ok "") s1) s2;
  do s3 <- look c "analyser/sense";
  do s <- add_text (Ok s12) s3;
  do col <- look c "divergence_x";
  Ok (InstrumentInfo "" m a s col).

Section Load.
  Variable float_of : string -> option R.
  Variable int_of : string -> option Z.
  Variable repr : pv -> string.
  Variable date_of : string -> option string.
  Variable genfromtxt : list string -> result (list (list num)).
  Variable xml_matrix : string -> option (option string).
  (** scan.py:92-105 Scan.from_spice *)
  Definition scan_from_spice (fs : files) (folder : path) (listing : list string) (scan_num : Z) (instr : option config) (smpl : option (dict string pv)) : result scan :=
    do d <- from_spice float_of int_of repr date_of genfromtxt xml_matrix fs folder listing (Some scan_num) instr smpl;
    do x <- only d;
    new_scan (fst x) (snd x).
End Load.

(** scan.py:107-111 Scan.from_nexus(path, scan_num) of a file; every value of the dict is turned into an entry by its items (nexus_entry.py:162-170). *)
Definition scan_from_nexus (show : list string -> string) (root : h5) (scan_num : option Z) : result scan :=
  do d <- from_nexus show root [] scan_num;
  match d with
  | [(name, Dict e)] => new_scan name e
  | [(_, Leaf _)] => Err AttributeError
  | _ => Err ValueError
  end.
