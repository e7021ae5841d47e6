(** Model of Scan.plot (src/tavi/data/scan.py:343-367) and of the labels made by Scan.get_data (scan.py:295-301) and ScanData1D.make_labels (scan_data.py:30-48). *)
From Coq Require Import Reals List ZArith Bool String Ascii.
From Verif Require Import Base PyStr M_Project M_ScanData M_Scan.
Import ListNotations.
Open Scope string_scope.
Open Scope list_scope.

(** What a scan says about its counting (scan.py:112-132): one preset, or the rows of a count file (channel, value and label); anything else raises. *)
Inductive counting := OnePreset (channel : string) (value : R) | Rows (rows : list (string * R * string)) | NoPreset.
Definition short (c : counting) : preset :=
  match c with OnePreset ch v => Normal ch v | Rows rs => Countfile (map snd rs) | NoPreset => Unknown end.
(** A scan as it is plotted: the columns and default axes, how it was counted, its number and title *)
Record pscan := PScan { ps_x : string; ps_y : string; ps_counting : counting; ps_data : dict string (list num); ps_num : Z; ps_title : string }.
Definition plain_scan (s : pscan) : scan := Scan (ps_x s) (ps_y s) (short (ps_counting s)) (ps_data s).
(** A curve with its labels *)
Record labelled := Labelled { lb_data : data1d; lb_xlabel : string; lb_ylabel : string; lb_label : string; lb_title : string }.

Section Plot.
  (** f"{x}" of a number, and Scan._get_del_q *)
  Variable show : R -> string.
  Variable del_q : pscan -> string -> result (list num).

  (** scan_data.py:34-41 *)
  Definition y_label (y_str : string) (v : R) (channel : string) : string :=
    let unit := if String.eqb channel "time" then "seconds" else channel in
    if Req_EM_T v 1 then (y_str ++ "/ " ++ unit)%string else (y_str ++ " / " ++ show v ++ " " ++ unit)%string.
  (** scan.py:296-300 *)
  Definition curve_label (s : pscan) (y_str : string) : string :=
    ("#" ++ str_of (ps_num s) ++ " " ++
      match ps_counting s with
      | Rows rs => match py_int (last (split_on "_"%char y_str) "") with Ok k => match py_index (map snd rs) (k - 1) with Ok l => l | Err _ => "" end | Err _ => "" end
      | _ => ""
      end)%string.
  (** scan.py:261-341: the data and, when there is no exception, the labels *)
  Definition get_labelled (s : pscan) (axes : option string * option string) (norm_to : option (R * string)) (grid tol : option pparam) : result labelled :=
    do d <- get_data (del_q s) (plain_scan s) axes norm_to grid tol;
    let x_str := match fst axes with None => ps_x s | Some a => a end in
    let y_str := match snd axes with None => ps_y s | Some a => a end in
    do (v, ch) <- (match norm_to, ps_counting s with Some n, _ => Ok n | None, OnePreset ch v => Ok (v, ch) | None, _ => Err TypeError end);
    Ok (Labelled d x_str (y_label y_str v ch) (curve_label s y_str) (ps_title s)).
  (** scan.py:354-360 for the rows [rs], of which the first has the number [i] *)
  Fixpoint channel_curves (s : pscan) (i : Z) (rs : list (string * R * string)) (grid tol : option pparam) : result (list labelled) :=
    match rs with
    | [] => Ok []
    | (ch, v, _) :: rs' =>
        do c <- get_labelled s (None, Some ("detector_" ++ str_of (i + 1))%string) (Some (v, ch)) grid tol;
        do cs <- channel_curves s (i + 1) rs' grid tol;
        Ok (c :: cs)
    end.
  (** scan.py:343-366: the curves put on the plot, in this order *)
  Definition scan_plot (s : pscan) (axes : option string * option string) (norm_to : option (R * string)) (grid tol : option pparam) : result (list labelled) :=
    match snd axes with
    | Some _ => do c <- get_labelled s axes norm_to grid tol; Ok [c]
    | None =>
        match ps_counting s with
        | NoPreset => Err UnboundLocalError
        | Rows rs => channel_curves s 0 rs grid tol
        | OnePreset _ _ => do c <- get_labelled s axes norm_to grid tol; Ok [c]
        end
    end.
End Plot.
