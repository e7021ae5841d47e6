(** Model of src/tavi/tavi_model/filter.py. *)
From Coq Require Import Reals List String Bool.
From Verif Require Import Base PyStr PySort.
Import ListNotations.
Open Scope R_scope.

(** filter.py:8-18. The operations on text (metadata) and those on numbers (data). *)
Inductive text_op := CONTAINS | NOTCONTAIN | IS | ISNOT.
Inductive num_op := EQUAL | NOTEQUAL | LESS | LESSEQUAL | GREATER | GREATEREQUAL.
(** filter.py:21-23; the argument may also be missing or something else *)
Inductive logic := AND | OR | BadLogic.
(** A condition (keyword, operation, value). For operations on numbers the value is float(value), None if that raises
    ValueError. *)
Inductive condition := Text (keyword : string) (op : text_op) (value : string) | Numeric (keyword : string) (op : num_op) (value : option R).

(** tavi_class_factory.py:5-27: named columns, text metadata and UB configuration (None when there is none). Simplification:
    metadata values are text, data columns hold numbers only. *)
Record fscan := FScan { f_data : dict string (list R); f_meta : dict string string; f_ub : option (dict string string) }.

(** max and min of a sequence: ValueError if it is empty *)
Definition pmax (l : list R) : result R := match l with [] => Err ValueError | a :: l' => Ok (fold_left Rmax l' a) end.
Definition pmin (l : list R) : result R := match l with [] => Err ValueError | a :: l' => Ok (fold_left Rmin l' a) end.
Definition leb (a b : R) : bool := if Rle_dec a b then true else false.
Definition ltb (a b : R) : bool := if Rlt_dec a b then true else false.

(** filter.py:80-98. [logger.log("...", keyword)] with a string for the level raises TypeError. *)
Definition eval_text (s : fscan) (kw : string) (op : text_op) (v : string) : result bool :=
  do a <- (match dget String.eqb kw (f_meta s) with
           | Some a => Ok a
           | None => match f_ub s with
                     | Some u => match dget String.eqb kw u with Some a => Ok a | None => Err TypeError end
                     | None => Err TypeError
                     end
           end);
  Ok (match op with
      | CONTAINS => contains v a
      | NOTCONTAIN => negb (contains v a)
      | IS => String.eqb v a
      | ISNOT => negb (String.eqb v a)
      end).

(** filter.py:100-128 *)
Definition eval_num (tol : R) (s : fscan) (kw : string) (op : num_op) (v : R) : result bool :=
  match dget String.eqb kw (f_data s) with
  | None => Err TypeError
  | Some c =>
      match op with
      | EQUAL => do M <- pmax c; if leb M (v + tol) then do m <- pmin c; Ok (leb (v - tol) m) else Ok false
      | NOTEQUAL => do m <- pmin c; if ltb (v + tol) m then Ok true else do M <- pmax c; Ok (ltb M (v - tol))
      | GREATER => do m <- pmin c; Ok (ltb v m)
      | GREATEREQUAL => do m <- pmin c; Ok (leb v m)
      | LESS => do M <- pmax c; Ok (ltb M v)
      | LESSEQUAL => do m <- pmin c; Ok (leb m v)
      end
  end.

(** filter.py:73-129: the set of names of the matching scans *)
Fixpoint matching (eval : fscan -> result bool) (scans : dict string fscan) (acc : list string) : result (list string) :=
  match scans with
  | [] => Ok acc
  | (name, s) :: rest => do b <- eval s; matching eval rest (if b : bool then sadd name acc else acc)
  end.
Definition condition_factory (tol : R) (scans : dict string fscan) (c : condition) : result (list string) :=
  match c with
  | Text kw op v => matching (fun s => eval_text s kw op v) scans []
  | Numeric kw op None => Err ValueError
  | Numeric kw op (Some v) => matching (fun s => eval_num tol s kw op v) scans []
  end.

(** filter.py:39-51: the object; [output] starts empty *)
Record filter_obj := Filter { fl_scans : dict string fscan; fl_conds : list condition; fl_logic : logic; fl_tol : R; fl_output : list (list string) }.
Definition new_filter (scans : dict string fscan) (conds : list condition) (l : logic) (tol : R) : filter_obj := Filter scans conds l tol [].

(** filter.py:58-63: every condition's result is appended to [output], which is never cleared *)
Fixpoint run (f : filter_obj) (conds : list condition) (out : list (list string)) : list (list string) * result unit :=
  match conds with
  | [] => (out, Ok tt)
  | c :: cs => match condition_factory (fl_tol f) (fl_scans f) c with
               | Ok s => run f cs (out ++ [s])%list
               | Err e => (out, Err e)
               end
  end.

(** filter.py:53-71: the object afterwards and the value ([None] when there are no conditions or the logic is not accepted) *)
Definition filter_data (f : filter_obj) : filter_obj * result (option (list string)) :=
  match fl_conds f with
  | [] => (f, Ok None)
  | conds =>
      let '(out, r) := run f conds (fl_output f) in
      let f' := Filter (fl_scans f) (fl_conds f) (fl_logic f) (fl_tol f) out in
      (f', do _ <- r;
           match fl_logic f with
           | OR => Ok (Some (sort (fold_left union out [])))
           | AND => match out with
                    | [] => Err TypeError
                    | a :: rest => Ok (Some (sort (fold_left inter rest a)))
                    end
           | BadLogic => Ok None
           end)
  end.
