(** Specification vocabulary for C76: SPICE files that can be written as NeXus files. *)
From Coq Require Import Reals List ZArith String Ascii Bool.
From Verif Require Import Base PyStr S_Str M_ScanData M_Spice M_Project M_Tavi P_Nexus M_Builder L_ScanFields P_Builder2 P_Builder3 P_Builder4 P_Folder.
Import ListNotations.
Open Scope string_scope.
Open Scope list_scope.

(** A name that is no path. *)
Definition slash_free (k : string) : Prop := every (fun c => c <> "/"%char) k.
(** The headers and the columns of a file have plain names. *)
Definition plain_names (L : logs) : Prop :=
  (forall k a, In (k, a) (lg_meta L) -> k <> "dataset" /\ slash_free k) /\ (forall c l, In (c, l) (lg_data L) -> c <> "attrs" /\ c <> "dataset" /\ slash_free c).
(** Logs as SPICE files give them: headers are texts but for those the reader makes itself; headers and columns have plain names. *)
Definition plain_logs (L : logs) : Prop :=
  (forall k a, In (k, a) (lg_meta L) -> k <> "dataset" /\ slash_free k /\ ((exists t, a = AMeta (MStr t)) \/ In k ["norm_vals"; "norm_channels"; "labels"; "Error Messages"; "Others"])) /\
  (forall c l, In (c, l) (lg_data L) -> c <> "attrs" /\ c <> "dataset" /\ slash_free c).
(** The configuration files give texts, numbers and truth values; only the matrix and the vectors of the sample are lists of numbers. *)
Definition single (v : pv) : Prop := match v with PStr _ | PNum _ | PBool _ | PNone => True | _ => False end.
Definition numbers (v : pv) : Prop := match v with PList _ | PArr _ => True | _ => False end.
Definition simple_config (i : option config) (s : option (dict string pv)) : Prop :=
  (forall c part d k v, i = Some c -> sget part c = Some d -> In (k, v) d -> single v) /\
  (forall d k v, s = Some d -> In (k, v) d -> single v \/ numbers v /\ In k ["ub_matrix"; "plane_normal"; "in_plane_ref"]).
(** Names used in an entry for something that is no column, or for several things. *)
Definition other_names : list string :=
  ["attrs"; "dataset"; "instrument"; "SPICElogs"; "DASlogs"; "sample"; "user"; "data"; "definition"; "title"; "start_time"; "end_time";
   "source"; "monochromator"; "collimator"; "analyser"; "slits"; "flipper"; "goniometer"; "name"; "type"; "sense"].
(** A quantity that can be plotted. *)
Definition plain_axis (i : option config) (s : option (dict string pv)) (d : string) : Prop := ~ In d other_names /\ ~ config_key i s d.
(** The file says what to plot. *)
Definition says_axes (L : logs) (i : option config) (s : option (dict string pv)) : Prop :=
  exists x y t, header L "def_x" = Some x /\ header L "def_y" = Some y /\ axis_name x t /\ plain_axis i s t /\ plain_axis i s y.

(** What is read from the data file at [p]. *)
Section Logs.
  Variable float_of : string -> option R.
  Variable int_of : string -> option Z.
  Variable genfromtxt : list string -> result (list (list num)).
  Variable xml_matrix : string -> option (option string).
  Definition logs_at (fs : files) (p : path) (L : logs) : Prop := exists sl, create_spicelogs float_of int_of genfromtxt xml_matrix fs p = Ok sl /\ logs_of sl = Ok L.
  (** The name of the data set: proposal, instrument and experiment of the first file. *)
  Definition data_set (fs : files) (folder : path) (listing : list string) (name : string) : Prop :=
    exists first instrument exp scan sf, first_file listing None first /\ pieces "_"%char first [instrument; exp; scan] /\
      read_spice_datafile float_of genfromtxt fs ((folder ++ ["Datafiles"]) ++ [first]) = Ok sf /\
      name = ("IPTS" ++ match mget "proposal" (sf_metadata sf) with Some (MStr p) => p | Some _ => "" | None => "UNKNOWN" end ++ "_" ++ instrument ++ "_" ++ exp)%string.
End Logs.
(** Where the files go: into the folder given, or into one named like the data set, beside the folder of the SPICE files. *)
Inductive target (spice : string) (given : option string) (name : string) : string -> Prop :=
| T_given : forall g, given = Some g -> target spice given name g
| T_beside : forall parent last, given = None -> spice = (parent ++ "/" ++ last)%string -> slash_free last -> target spice given name (parent ++ "/" ++ name ++ "/")
| T_here : given = None -> slash_free spice -> target spice given name (name ++ "/").
(** Fields that are read from the file as they were: all but those that are lists. *)
Definition kept_name (L : logs) (k : string) : Prop :=
  ~ In k ["instrument"; "collimator"; "divergence_x"; "divergence_y"; "user"; "name"; "countfile"] /\ (k = "monitor" -> ~ by_countfile L).
