(** Model of src/tavi/tavi_model/combine_data.py: combining scans point by point into bins. *)
From Coq Require Import Reals List String Bool.
From Verif Require Import Base.
Import ListNotations.
Open Scope R_scope.
Open Scope list_scope.

Section Combine.
  (** numpy.argsort, and scipy.stats.binned_statistic(x, y, statistic="sum", bins=10, range=range): sums, edges and numbers of the bins *)
  Variable argsort : list R -> list nat.
  Variable binned : list R -> list R -> option (R * R) -> result (list R * list R * list nat).
  (** a value of Python as far as it can be called: the argument [range] hides the built-in function of that name *)
  Inductive callable := Builtin | NotCallable.
  Definition name_range (argument : bool) : callable := if argument then NotCallable else Builtin.
  (** [range(1, n)] *)
  Definition call_range (c : callable) (n : nat) : result (list nat) := match c with Builtin => Ok (seq 1 (n - 1)) | NotCallable => Err TypeError end.

  (** combine_data.py:17-21: getattr(scan.data, axis) for every scan in turn, one after the other *)
  Fixpoint gather (targets : list (dict string (list R))) (xa ya : string) : result (list R * list R) :=
    match targets with
    | [] => Ok ([], [])
    | s :: rest =>
        do x <- (match dget String.eqb xa s with Some c => Ok c | None => Err AttributeError end);
        do y <- (match dget String.eqb ya s with Some c => Ok c | None => Err AttributeError end);
        do r <- gather rest xa ya;
        Ok (x ++ fst r, y ++ snd r)
    end.
  (** new_y[ind] *)
  Definition take (l : list R) (ind : list nat) : result (list R) := mapM (fun i => match nth_error l i with Some v => Ok v | None => Err IndexError end) ind.
  (** combine_data.py:14-37. [hidden] tells that the name range is the argument (always so in the code). The background is never used, and
      neither are [step] (but for the division) and the errors. *)
  Definition combine_body (hidden : bool) (targets : list (dict string (list R))) (xa ya : string) (step : R) (rng : option (R * R))
      : result (list R * list R * list nat * list R * list R * list R) :=
    do xy <- gather targets xa ya;
    let ind := argsort (fst xy) in
    do ny <- take (snd xy) ind;
    do nx <- take (fst xy) ind;
    do _ <- (match rng with Some (a, b) => if Req_EM_T step 0 then Err ZeroDivisionError else Ok tt | None => Ok tt end);
    do s <- binned nx ny rng;
    let '(sums, edges, numbers) := s in
    do is <- call_range (name_range hidden) (List.length edges);
    Ok (sums, edges, numbers, map (fun i => (nth (i - 1) edges 0 + nth i edges 0) / 2) is, nx, ny).
  Definition combine_1d := combine_body true.
End Combine.
