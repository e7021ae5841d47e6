(** Model of src/tavi/data/scan_group.py:206-378: combine_data and combine_data_hkle. *)
From Coq Require Import Reals List ZArith Bool String Arith.
From Verif Require Import Base LinAlg M_ScanData M_Scan M_Labels M_Ellipsoid M_Reso.
Import ListNotations.
Open Scope R_scope.

(** scan_group.py:230-246. What is returned is one- or two-dimensional; [grid] and [tol] are the keyword arguments, [grid2] the
    keyword argument "grid" as the two-dimensional case reads it. *)
Inductive combined := One_d (d : data1d) | Two_d (g : grid2d).
Definition combine_data (scans : list scan) (axes : option (list string)) (norm_to : option (R * string)) (grid tol : option pparam)
  (grid2 : option (pparam * pparam)) : result combined :=
  match axes with
  | Some [x; y] => rmap One_d (combine_1d scans (x, y) norm_to grid tol)
  | Some [x; y; z] => rmap Two_d (combine_2d scans (x, y, z) norm_to grid2)
  | Some _ => Err ValueError
  | None => do a <- default_axes scans; rmap One_d (combine_1d scans a norm_to grid tol)
  end.

(** isinstance(grid[i], tuple) and len(grid[i]) == 2 (line 260, 278) *)
Definition is_window (p : pparam) : bool := match p with PTup [_; _] => true | _ => false end.
(** lines 258-261, 275-279: the axes among the first four that have no window *)
Definition axes_to_plot (grid : list pparam) : result (list nat) :=
  do ws <- mapM (fun i => match nth_error grid i with Some p => Ok (is_window p) | None => Err IndexError end) [0; 1; 2; 3]%nat;
  Ok (filter (fun i => negb (nth i ws true)) [0; 1; 2; 3]%nat).
(** l.pop(i) leaves *)
Definition pop_at {A} (i : nat) (l : list A) : list A := firstn i l ++ skipn (S i) l.

(** a row of [w_mat_inv @ np.vstack(...)] *)
Definition ndot (r : vec) (h k l : num) : num := nadd (nadd (nmul (Some (vx r)) h) (nmul (Some (vy r)) k)) (nmul (Some (vz r)) l).
(** arr[mask] *)
Definition masked {A} (mask : list bool) (l : list A) : list A := map snd (filter fst (combine mask l)).
(** lines 330-334: one axis with a window *)
Definition in_window (q : option num * option num * option num) (arr : list num) : result (list bool) :=
  let '(a, b, _) := q in
  match a, b with
  | Some a, Some b => Ok (map (fun x => ngt x a && ngt b x) arr)
  | _, _ => Err TypeError
  end.
Definition and_mask (a b : list bool) : list bool := zipw andb a b.
Fixpoint mask_loop (plot : list nat) (gp : list (option num * option num * option num)) (arrs : list (list num)) (i : nat) (mask : list bool) : result (list bool) :=
  match arrs with
  | [] => Ok mask
  | arr :: arrs' =>
      if existsb (Nat.eqb i) plot then mask_loop plot gp arrs' (S i) mask
      else do q <- (match nth_error gp i with Some q => Ok q | None => Err IndexError end);
           do w <- in_window q arr;
           mask_loop plot gp arrs' (S i) (and_mask mask w)
  end.
(** lines 342-353: np.min and np.max of an empty array raise ValueError. The range found is the one the rebinning finds itself
    (scan_data.py:309-325), so it is not stored. *)
Definition ranges (arr : list num) (q : option num * option num * option num) : result unit :=
  let '(a, b, _) := q in
  do _ <- (match a with None => amin arr | Some v => Ok v end);
  do _ <- (match b with None => amax arr | Some v => Ok v end);
  Ok tt.

Section Hkle.
  Variable fmt3 : R -> string.
  (** scan_group.py:248-378. [axes] are the first four items of the argument, [z_axis] the last. Simplification: each item is a
      triple of numbers or "en"; the title and labels only matter for the exceptions of labels_from_projection. *)
  Definition combine_data_hkle (scans : list scan) (grid : list pparam) (axes : list axis) (z_axis : string) (norm_to : option (R * string)) : result grid2d :=
    do plot0 <- axes_to_plot grid;
    do en_idx <- en_index axes;
    do need_swap <- (match plot0 with [] => Err IndexError | i :: _ => Ok (Nat.eqb en_idx i) end);
    do en_grid <- (match nth_error grid en_idx with Some g => Ok g | None => Err IndexError end);
    let axes' := pop_at en_idx axes ++ [En] in
    let grid' := pop_at en_idx grid ++ [en_grid] in
    do plot1 <- axes_to_plot grid';
    let plot := if need_swap then rev plot1 else plot1 in
    match plot with
    | [ix; iy] =>
        do _ <- mapM (fun s => column s z_axis) scans;
        do (v, ch) <- (match norm_to with None => default_renorm scans | Some n => Ok n end);
        do cols <- mapM (fun s => do z <- column s z_axis; let n := List.length z in
                                  do h <- column s "qh"; do h <- fill n h; do k <- column s "qk"; do k <- fill n k; do l <- column s "ql"; do l <- fill n l;
                                  do e <- column s "en"; do e <- fill n e; do m <- column s ch; do m <- fill n m; Ok (h, k, l, e, z, m)) scans;
        let cat {A} (f : _ -> list A) := List.concat (map f cols) in
        let h := cat (fun c => fst (fst (fst (fst (fst c))))) in
        let k := cat (fun c => snd (fst (fst (fst (fst c))))) in
        let l := cat (fun c => snd (fst (fst (fst c)))) in
        let e := cat (fun c => snd (fst (fst c))) in
        let z := cat (fun c => snd (fst c)) in
        let m := cat (fun c => snd c) in
        do wi <- (match keep_some vec_of axes' with
                  | [p1; p2; p3] => match minv (of_cols p1 p2 p3) with Ok i => Ok i | Err _ => Err ValueError end
                  | _ => Err ValueError
                  end);
        let coord r := zipw (fun hk l0 => ndot r (fst hk) (snd hk) l0) (combine h k) l in
        let qe := [coord (row0 wi); coord (row1 wi); coord (row2 wi); e] in
        do gp <- mapM format_rebin_params grid';
        do mask <- mask_loop plot gp qe 0 (map (fun _ => true) e);
        let qe := map (masked mask) qe in
        let z := masked mask z in
        let m := masked mask m in
        let arr i := nth i qe [] in
        do qx <- (match nth_error gp ix with Some q => Ok q | None => Err IndexError end);
        do qy <- (match nth_error gp iy with Some q => Ok q | None => Err IndexError end);
        do _ <- ranges (arr ix) qx;
        do _ <- ranges (arr iy) qy;
        do _ <- labels_from_projection fmt3 (Some axes');
        do p1 <- to_params (arr ix) qx;
        do p2 <- to_params (arr iy) qy;
        rebin_grid_renorm2d (new_data2d (arr ix) (arr iy) z (Some m)) p1 p2 None v
    | _ => Err ValueError
    end.
End Hkle.
