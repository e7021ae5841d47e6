(** Model of the two ways of making a sample from something written: src/tavi/sample.py:99-171, with set_shape and set_mosaic (173-192). *)
From Coq Require Import Reals List String.
From Verif Require Import Base LinAlg M_Utilities M_Lattice M_UB M_Sample M_Nexus M_ScanInfo.
Import ListNotations.
Open Scope string_scope.
Open Scope list_scope.

(** What json.load gives for a member of the file: null, a number (true and false count as 1 and 0), a text, a list of numbers, a list of lists of numbers, an
    object. Lists of other things are not modelled, nor NaN and Infinity. *)
Inductive jval := JNull | JNum (x : R) | JText (s : string) | JNums (l : list R) | JRows (l : list (list R)) | JObject.
(** The parsed file, sample.py:103-104: an object with some members. *)
Definition json := string -> option jval.
(** dict.get(key) *)
Definition jget (d : json) (k : string) : jval := match d k with Some v => v | None => JNull end.
(** dict[key] *)
Definition jitem (d : json) (k : string) : result jval := match d k with Some v => Ok v | None => Err KeyError end.

(** The attributes of a sample, sample.py:71-88; the ones not used by the geometry keep whatever value they are given. [json_dict] stays None (line 115 is a comment). *)
Record sample_object := SampleObject {
  so_type : string;
  so_lattice : lattice;
  so_shape : jval; so_width : jval; so_height : jval; so_depth : jval;
  so_mosaic_h : jval; so_mosaic_v : jval;
  so_ub_conf : option ubconf }.

(** sample.py:65-89, for lattice parameters accepted by update_lattice_parameters *)
Definition object_of (p : lattice) : sample_object :=
  SampleObject "crystal" p (JText "cuboid") (JNum 1) (JNum 1) (JNum 1) (JNum 30) (JNum 30) None.
(** sample.py:173-185; an argument left out has its default *)
Definition set_shape (shape width height depth : option jval) (s : sample_object) : sample_object :=
  let or o d := match o with Some v => v | None => d end in
  SampleObject (so_type s) (so_lattice s) (or shape (JText "cuboid")) (or width (JNum 1)) (or height (JNum 1)) (or depth (JNum 1)) (so_mosaic_h s) (so_mosaic_v s) (so_ub_conf s).
(** sample.py:187-192 *)
Definition set_mosaic (h v : option jval) (s : sample_object) : sample_object :=
  let or o d := match o with Some v => v | None => d end in
  SampleObject (so_type s) (so_lattice s) (so_shape s) (so_width s) (so_height s) (so_depth s) (or h (JNum 30)) (or v (JNum 30)) (so_ub_conf s).
(** sample.ub_conf = ... *)
Definition with_ub (u : ubconf) (s : sample_object) : sample_object :=
  SampleObject (so_type s) (so_lattice s) (so_shape s) (so_width s) (so_height s) (so_depth s) (so_mosaic_h s) (so_mosaic_v s) (Some u).
(** sample.py:194-202 _mosaic_h and _mosaic_v: only a number can be divided by 60 (an array of mosaics is not modelled). *)
Definition mosaic_rad (j : jval) : result R := match j with JNum x => Ok (deg2rad (x / 60)) | _ => Err TypeError end.
(** What geometry and resolution see of the sample, when its mosaics are numbers. *)
Definition seen (s : sample_object) : result sample :=
  match so_mosaic_h s, so_mosaic_v s with JNum h, JNum v => Ok (Sample (so_lattice s) (so_ub_conf s) h v) | _, _ => Err TypeError end.

(** sample.py:214-221, on values that need not be numbers: comparing anything else with a number raises TypeError *)
Definition length_ok (j : jval) : result R := match j with JNum x => if Rle_dec x 0 then Err ValueError else Ok x | _ => Err TypeError end.
Definition angle_ok (j : jval) : result R := match j with JNum x => if Rlt_dec x 0 then Err ValueError else if Rlt_dec 180 x then Err ValueError else Ok x | _ => Err TypeError end.

(** np.array(value).reshape(3, 3), sample.py:133 *)
Definition matrix_of (j : jval) : result mat :=
  let nine_of l := match l with [a; b; c; d; e; f; g; h; i] => Ok (M a b c d e f g h i) | _ => Err ValueError end in
  match j with
  | JNums l => nine_of l
  | JRows [] => Err ValueError
  | JRows (r :: rs) => if forallb (fun r' => Nat.eqb (List.length r') (List.length r)) rs then nine_of (List.concat (r :: rs)) else Err ValueError
  | _ => Err ValueError
  end.
(** sample.py:134-137 with ub_algorithm.py:47-51 and 63-71: np.array(value) is multiplied by a matrix of three rows and columns in the convention of SPICE (lines 15-17),
    so that a list which has not three numbers raises ValueError and the product with a text or an object TypeError; in the convention of Mantid it is kept as it is.
    Err NotImplemented stands for the values which this model cannot hold: lists of lists, in the convention of SPICE a single number (the product is a matrix), and
    in the convention of Mantid what is not three numbers. *)
Definition give_vector (set : ubconf -> vec -> result ubconf) (j : jval) (u : ubconf) : result ubconf :=
  match j with
  | JNull => Ok u
  | JNums [a; b; c] => set u (V a b c)
  | _ => if String.eqb (convention u) "Spice" then match j with JNums _ => Err ValueError | JText _ | JObject => Err TypeError | _ => Err NotImplemented end
         else if String.eqb (convention u) "Mantid" then Err NotImplemented else Err ValueError
  end.
(** sample.py:139; a convention that is not a text raises TypeError as soon as something is stored (ub_algorithm.py:71: text + number); here it is refused at once *)
Definition convention_of (j : jval) : result (option string) := match j with JNull => Ok None | JText t => Ok (Some t) | _ => Err TypeError end.

Definition is_null (j : jval) : bool := match j with JNull => true | _ => false end.

(** sample.py:99-148 from_json, from the parsed file on *)
Definition from_json (d : json) : result sample_object :=
  do a <- jitem d "a"; do b <- jitem d "b"; do c <- jitem d "c"; do al <- jitem d "alpha"; do be <- jitem d "beta"; do ga <- jitem d "gamma";
  do a <- length_ok a; do b <- length_ok b; do c <- length_ok c; do al <- angle_ok al; do be <- angle_ok be; do ga <- angle_ok ga;
  let s := object_of (Lattice a b c al be ga) in
  let shape := jget d "shape" in let width := jget d "width" in let height := jget d "height" in let depth := jget d "depth" in
  let s := if existsb is_null [shape; width; height; depth] then s else set_shape (Some shape) (Some width) (Some height) (Some depth) s in
  let mh := jget d "mosaic_h" in let mv := jget d "mosaic_v" in
  let s := if existsb is_null [mh; mv] then s else set_mosaic (Some mh) (Some mv) s in
  do m <- (match jget d "ub_matrix" with JNull => Ok None | j => do m <- matrix_of j; Ok (Some m) end);
  do conv <- convention_of (jget d "convention");
  do u <- new_ubconf conv (match m with Some m => [KW_ub_mat m] | None => [] end);
  do u <- give_vector set_plane_normal (jget d "plane_normal") u;
  do u <- give_vector set_in_plane_ref (jget d "in_plane_ref") u;
  Ok (with_ub u s).

(** sample.py:210-211 on what a scan holds as unit cell: unpacking None or a number is a TypeError, unpacking a wrong number of items is printed and then the names are
    unbound, and six texts cannot be compared with numbers. *)
Definition cell_ok (o : option val) : result lattice :=
  let texts n := if Nat.eqb n 6 then Err TypeError else Err UnboundLocalError in
  match o with
  | Some (Leaf (LArr l)) | Some (Leaf (LList l)) => check_lattice l
  | Some (Leaf (LStr s)) => texts (String.length s)
  | Some (Leaf (LStrs l)) => texts (List.length l)
  | Some (Dict l) => texts (List.length l)
  | Some (Leaf (LNum _)) | None => Err TypeError
  end.
(** the value stored for a mosaic: only a number can be used later *)
Definition mosaic_of (o : option val) : jval :=
  match o with None => JNull | Some (Leaf (LNum x)) => JNum x | Some (Leaf (LStr s)) => JText s | Some (Leaf (LArr l)) | Some (Leaf (LList l)) => JNums l | Some _ => JObject end.
(** np.array(info.plane_normal), sample.py:160, multiplied by the matrix of ub_algorithm.py:15-17. np.array(None) is not None: it is an array without dimensions, and
    the product of a number with None raises TypeError, as does that with a text. An array that has not three items raises ValueError. Err NotImplemented stands for a
    single number (the product is a matrix) and for three texts. *)
Definition normal_of (o : option val) : result vec :=
  match o with
  | Some (Leaf (LArr [a; b; c])) | Some (Leaf (LList [a; b; c])) => Ok (V a b c)
  | Some (Leaf (LNum _)) | Some (Leaf (LStrs [_; _; _])) => Err NotImplemented
  | Some (Leaf (LArr _)) | Some (Leaf (LList _)) | Some (Leaf (LStrs _)) => Err ValueError
  | Some (Leaf (LStr _)) | Some (Dict _) | None => Err TypeError
  end.
(** sample.py:150-171 from_scan. SampleUBInfo has no attribute in_plane_ref (scan.py:36-51), so the except branch is always taken. *)
Definition from_scan (c : scan) : result sample_object :=
  do inf <- sample_ub_info c;
  do p <- cell_ok (sa_cell inf);
  let s := set_mosaic (Some (mosaic_of (sa_mosaic inf))) (Some (mosaic_of (sa_mosaic inf))) (object_of p) in
  do n <- normal_of (sa_normal inf);
  do u <- new_ubconf None [KW_ub_mat (sa_ub inf); KW_plane_normal n];
  Ok (with_ub u s).
