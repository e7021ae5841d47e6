(** Model of src/tavi/data/scan.py (get_data) and src/tavi/data/scan_group.py (combine_data): which columns are read, how they
    are normalised and rebinned. Labels and titles are not part of the result, but the exceptions raised while making them are. *)
From Coq Require Import Reals List ZArith Bool String Ascii.
From Verif Require Import Base PyStr M_ScanData.
Import ListNotations.
Open Scope R_scope.

(** int(s) of a piece of a column name: decimal digits with an optional sign. Simplification: surrounding blanks and inner
    underscores, which int() tolerates, count as ValueError. *)
Definition digit (c : ascii) : option Z :=
  let n := Z.of_nat (nat_of_ascii c) in if ((48 <=? n) && (n <=? 57))%Z then Some (n - 48)%Z else None.
Fixpoint digits (acc : Z) (s : string) : result Z :=
  match s with
  | EmptyString => Ok acc
  | String c s' => match digit c with Some k => digits (10 * acc + k)%Z s' | None => Err ValueError end
  end.
Definition py_int (s : string) : result Z :=
  match s with
  | EmptyString => Err ValueError
  | String "-" EmptyString | String "+" EmptyString => Err ValueError
  | String "-" s' => rmap Z.opp (digits 0 s')
  | String "+" s' => digits 0 s'
  | _ => digits 0 s
  end%char.

(** l[i] with Python's negative indices *)
Definition py_index {A} (l : list A) (i : Z) : result A :=
  let j := (if (i <? 0)%Z then i + Z.of_nat (List.length l) else i)%Z in
  if (j <? 0)%Z then Err IndexError
  else match nth_error l (Z.to_nat j) with Some a => Ok a | None => Err IndexError end.

(** What a caller may pass as rebin parameters: a number (nan is [None]), a tuple of numbers and Nones, or any other object,
    of which only the truth value matters. Infinities, and tuples of other objects, are not modelled. *)
Inductive pparam := PNum (v : num) | PTup (l : list (option num)) | POther (truthy : bool).

Definition nge (a b : num) : bool :=
  match a, b with Some x, Some y => if Rle_dec y x then true else false | _, _ => false end.
Definition nlt0 (a : num) : bool := match a with Some x => if Rlt_dec x 0 then true else false | None => false end.

(** scan.py:199-221 *)
Definition format_rebin_params (p : pparam) : result (option num * option num * option num) :=
  do (pmin, pmax, step) <-
    (match p with
     | PTup [a; b; c] => Ok (a, b, c)
     | PTup [a; b] => Ok (a, b, None)
     | PTup _ => Err ValueError
     | PNum v => Ok (None, None, Some v)
     | POther _ => Err ValueError
     end);
  if match pmin, pmax with Some a, Some b => nge a b | _, _ => false end then Err ValueError
  else if match step with Some s => nlt0 s | None => false end then Err ValueError
  else Ok (pmin, pmax, step).

(** scan_data.py:125-129 and its copies, seen from the caller: a missing step makes [rebin_step / 100] raise TypeError, a nan
    anywhere makes [math.floor] raise ValueError. *)
Definition to_params (xs : list num) (p : option num * option num * option num) : result (option R * option R * R) :=
  let '(pmin, pmax, step) := p in
  do lo <- (match pmin with None => amin xs | Some v => Ok v end);
  do hi <- (match pmax with None => amax xs | Some v => Ok v end);
  match step with
  | None => Err TypeError
  | Some None => Err ValueError
  | Some (Some s) =>
      match pmin, pmax with
      | Some None, _ | _, Some None => if Req_EM_T s 0 then Err ZeroDivisionError else Err ValueError
      | a, b => Ok (match a with Some v => v | None => None end, match b with Some v => v | None => None end, s)
      end
  end.

(** bool(rebin_params) *)
Definition truthy (p : pparam) : bool :=
  match p with
  | PNum (Some v) => if Req_EM_T v 0 then false else true
  | PNum None => true
  | PTup l => match l with [] => false | _ => true end
  | POther b => b
  end.

(** scan.py:113-145: how the scan was counted; for any other preset type the attribute lookups fail with UnboundLocalError *)
Inductive preset := Normal (channel : string) (value : R) | Countfile (labels : list string) | Unknown.
Record scan := Scan { s_def_x : string; s_def_y : string; s_preset : preset; s_data : dict string (list num) }.

Definition scan_info (s : scan) : result preset := match s_preset s with Unknown => Err UnboundLocalError | p => Ok p end.
(** self.data[name] *)
Definition column (s : scan) (name : string) : result (list num) :=
  match dget String.eqb name (s_data s) with Some c => Ok c | None => Err KeyError end.

(** scan.py:289-292: the label of a column called "name_k" is entry k-1 of the labels of the count file; a scan without a
    count file has the empty string, of which no index is valid *)
Definition label (p : preset) (y_str : string) : result unit :=
  let pieces := split_on "_" y_str in
  if (1 <? List.length pieces)%nat
  then do k <- py_int (last pieces EmptyString);
       do _ <- py_index (match p with Countfile l => l | _ => [] end) (k - 1); Ok tt
  else match p with Countfile _ => Err TypeError | _ => Ok tt end.
(** scan_data.py:30-48: a list of channels cannot be appended to the axis label *)
Definition make_labels (norm_to : option (R * string)) (p : preset) : result unit :=
  match norm_to, p with None, Countfile _ => Err TypeError | _, _ => Ok tt end.

(** scan.py:295-298, scan_group.py:81-84: "grid" is looked at first *)
Inductive rebin_type := TGrid | TTol.
Definition select (grid tol : option pparam) : rebin_type * option pparam :=
  match grid with Some p => (TGrid, Some p) | None => (TTol, tol) end.

(** scan.py:261-341. [del_q] stands for Scan._get_del_q (scan.py:223-259). How the scan was counted is looked up first, also when both axes
    are given; of two mistakes at once (an unknown preset and a missing column) the code can meet the other one first. *)
Definition get_data (del_q : string -> result (list num)) (s : scan) (axes : option string * option string)
  (norm_to : option (R * string)) (grid tol : option pparam) : result data1d :=
  do p <- scan_info s;
  let x_str := match fst axes with None => s_def_x s | Some a => a end in
  let y_str := match snd axes with None => s_def_y s | Some a => a end in
  do x <- (if contains "del_q" x_str then del_q x_str else column s x_str);
  do y <- column s y_str;
  let d := new_data1d x y None in
  do _ <- label p y_str;
  let '(t, params) := select grid tol in
  if negb (match params with Some q => truthy q | None => false end) then
    do d' <- (match norm_to with
              | Some (v, ch) => do c <- column s ch; renorm d (Some (map (fun w => ndiv w (Some v)) c)) 1
              | None => Ok d
              end);
    do _ <- make_labels norm_to p;
    Ok d'
  else
    do q <- format_rebin_params (match params with Some q => q | None => POther false end);
    do d' <- (match t, norm_to with
              | TTol, None =>
                  do c <- (match p with Normal ch _ => column s ch | _ => Err TypeError end);
                  do ps <- to_params x q; rebin_tol d ps (Some c)
              | TTol, Some (v, ch) => do c <- column s ch; do ps <- to_params x q; rebin_tol_renorm d ps (Some c) v
              | TGrid, None => do ps <- to_params x q; rebin_grid d ps
              | TGrid, Some (v, ch) => do c <- column s ch; do ps <- to_params x q; rebin_grid_renorm d ps (Some c) v
              end);
    do _ <- make_labels norm_to p;
    Ok d'.

(** ** scan_group.py *)
(** scan_group.py:38-52: all presets must agree; lists (count files) cannot be put in a set *)
Definition default_renorm (scans : list scan) : result (R * string) :=
  do ps <- mapM scan_info scans;
  do cs <- mapM (fun p => match p with Normal ch v => Ok (v, ch) | _ => Err TypeError end) ps;
  match cs with
  | [] => Err ValueError
  | (v, ch) :: rest =>
      if forallb (fun q => (if Req_EM_T (fst q) v then true else false) && String.eqb (snd q) ch) rest then Ok (v, ch) else Err ValueError
  end.

(** scan_group.py:54-58 and 68-77 *)
Definition gather (scans : list scan) (name : string) : result (list num) :=
  do cs <- mapM (fun s => column s name) scans; Ok (List.concat cs).

(** scan_group.py:60-123 *)
Definition combine_1d (scans : list scan) (axes : string * string) (norm_to : option (R * string)) (grid tol : option pparam) : result data1d :=
  do xys <- mapM (fun s => do a <- column s (fst axes); do b <- column s (snd axes); do _ <- scan_info s; Ok (a, b)) scans;
  let x := List.concat (map fst xys) in
  let y := List.concat (map snd xys) in
  let d := new_data1d x y None in
  let '(t, params) := select grid tol in
  if negb (match params with Some q => truthy q | None => false end) then
    match norm_to with
    | Some (v, ch) => do c <- gather scans ch; renorm d (Some c) v
    | None => do _ <- default_renorm scans; Ok d
    end
  else
    do q <- format_rebin_params (match params with Some q => q | None => POther false end);
    match t, norm_to with
    | TTol, None =>
        do (v, ch) <- default_renorm scans; do c <- gather scans ch; do ps <- to_params x q; rebin_tol d ps (Some c)
    | TTol, Some (v, ch) => do c <- gather scans ch; do ps <- to_params x q; rebin_tol_renorm d ps (Some c) v
    | TGrid, None => do _ <- default_renorm scans; do ps <- to_params x q; rebin_grid d ps
    | TGrid, Some (v, ch) => do c <- gather scans ch; do ps <- to_params x q; rebin_grid_renorm d ps (Some c) v
    end.

(** scan_group.py:225-246: without axes the default ones of all scans must agree *)
Definition default_axes (scans : list scan) : result (string * string) :=
  do _ <- mapM scan_info scans;
  match scans with
  | [] => Err ValueError
  | s :: rest =>
      if forallb (fun s' => String.eqb (s_def_x s') (s_def_x s) && String.eqb (s_def_y s') (s_def_y s)) rest
      then Ok (s_def_x s, s_def_y s) else Err ValueError
  end.

(** scan_group.py:154-161: an array slice takes as many values, or a single one *)
Definition fill (n : nat) (l : list num) : result (list num) :=
  if Nat.eqb (List.length l) n then Ok l else match l with [v] => Ok (repeat v n) | _ => Err ValueError end.
(** a.reshape((n, m)) *)
Fixpoint rows (n m : nat) (l : list num) : list (list num) :=
  match n with O => [] | S n' => firstn m l :: rows n' m (skipn m l) end.
Definition reshape (n m : nat) (l : list num) : result (list (list num)) :=
  if Nat.eqb (List.length l) (n * m) then Ok (rows n m l) else Err ValueError.

(** scan_group.py:125-204; [grid] is the pair of parameters, or None. *)
Definition combine_2d (scans : list scan) (axes : string * string * string) (norm_to : option (R * string)) (grid : option (pparam * pparam)) : result grid2d :=
  let '(ax, ay, az) := axes in
  do _ <- mapM (fun s => column s ax) scans;
  do cols <- mapM (fun s => do x <- column s ax; do y <- column s ay; do y' <- fill (List.length x) y;
                            do z <- column s az; do z' <- fill (List.length x) z; do _ <- scan_info s; Ok (x, y', z')) scans;
  let x := List.concat (map (fun c => fst (fst c)) cols) in
  let y := List.concat (map (fun c => snd (fst c)) cols) in
  let z := List.concat (map snd cols) in
  let d := new_data2d x y z None in
  match grid with
  | None =>
      match scans with
      | [] => Err UnboundLocalError
      | s0 :: _ =>
          let s := last scans s0 in
          if String.eqb (s_def_x s) ax || String.eqb (s_def_x s) ay then
            let n := List.length scans in let m := (List.length x / n)%nat in
            do d' <- (match norm_to with
                      | Some (v, ch) => do c <- gather scans ch; renorm2d d (Some c) v
                      | None => do _ <- default_renorm scans; Ok d
                      end);
            do gx <- reshape n m (ex2 d'); do gy <- reshape n m (ey2 d'); do gz <- reshape n m (ez2 d'); do ge <- reshape n m (eerr2 d');
            Ok (Grid2D gx gy gz ge None)
          else Err ValueError
      end
  | Some (px, py) =>
      do qx <- format_rebin_params px; do qy <- format_rebin_params py;
      match norm_to with
      | None => do _ <- default_renorm scans; do p1 <- to_params x qx; do p2 <- to_params y qy; rebin_grid2d d p1 p2
      | Some (v, ch) => do c <- gather scans ch; do p1 <- to_params x qx; do p2 <- to_params y qy; rebin_grid_renorm2d d p1 p2 (Some c) v
      end
  end.
