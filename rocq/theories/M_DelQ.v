(** Model of Scan._get_del_q (src/tavi/data/scan.py:223-259): the distance in Q from the middle point of a scan, used as an x-axis. *)
From Coq Require Import Reals List ZArith Bool String Ascii.
From Verif Require Import Base PyStr LinAlg M_Utilities M_Spice M_ScanData M_Scan.
Import ListNotations.
Open Scope R_scope.

(** scan.py:252-253: re.match(r"(.+)\((.+)\)", s).groups()[1]. Both groups take as much as they can: the last "(" that has a ")" behind it,
    with something between them, and then the last ")". Simplification: names of axes have no line breaks, which "." would not match. *)
Fixpoint to_last_close (s : string) : option string :=
  match s with
  | EmptyString => None
  | String c s' => match to_last_close s' with Some u => Some (String c u) | None => if Ascii.eqb c ")" then Some EmptyString else None end
  end.
Definition group2 (s : string) : option string := match to_last_close s with Some EmptyString => None | o => o end.
Fixpoint last_open (s : string) : option string :=
  match s with
  | EmptyString => None
  | String c s' => match last_open s' with Some u => Some u | None => if Ascii.eqb c "(" then group2 s' else None end
  end.
Definition axis_groups (s : string) : option string := match s with EmptyString => None | String _ s' => last_open s' end.

(** utilities.py:82-87 and 112-116 on entries of arrays; nan passes the checks *)
Definition en2q_num (e : num) : result num := match e with Some x => rmap Some (en2q x) | None => Ok None end.
Definition short (a : num) : bool := match a with Some x => if Rlt_dec (Rabs x) tri_zero then true else false | None => false end.
Definition side_num (a b angle : num) : result num :=
  if short a then Err ValueError else if short b then Err ValueError
  else match a, b, angle with Some x, Some y, Some t => rmap Some (get_side_from_triangle x y t) | _, _, _ => Ok None end.
(** zip stops with the shortest list *)
Fixpoint zip3 {A B C} (a : list A) (b : list B) (c : list C) : list (A * B * C) :=
  match a, b, c with x :: a', y :: b', z :: c' => (x, y, z) :: zip3 a' b' c' | _, _, _ => [] end.

(** scan.py:225-243; a column that is missing is None, over which nothing can be iterated *)
Definition get (s : scan) (name : string) : option (list num) := dget String.eqb name (s_data s).
Definition some (o : option (list num)) : result (list num) := match o with Some l => Ok l | None => Err TypeError end.
Definition scan_qs (s : scan) : result (list num) :=
  match get s "q" with
  | Some qs => Ok qs
  | None =>
      let eis := get s "ei" in
      do efs <- (match get s "ef" with
                 | Some l => Ok (Some l)
                 | None => match get s "en" with Some en => do e <- some eis; do d <- bcast nsub e en; Ok (Some d) | None => Ok None end
                 end);
      let two_thetas := match get s "s2" with Some l => Some l | None => get s "2theta" end in
      do ei <- some eis; do kis <- mapM en2q_num ei;
      do ef <- some efs; do kfs <- mapM en2q_num ef;
      do angles <- some two_thetas;
      mapM (fun '(ki, kf, t) => side_num ki kf (option_map deg2rad t)) (zip3 kis kfs angles)
  end.
(** np.mean of an array that is not empty *)
Definition nmean (l : list num) : num := ndiv (fold_left nadd l (Some 0)) (Some (INR (List.length l))).
(** scan.py:223-259. The list of the groups but the last always has one element, so the branch for "s1" (255-256) is never taken. *)
Definition get_del_q (s : scan) (ax_str : string) : result (list num) :=
  do qs <- scan_qs s;
  do hi <- amax qs; do lo <- amin qs;
  let mid_idx := ((List.length qs - 1) / 2)%nat in
  if ngt (nsub hi lo) (Some (11 / 100000)) then Ok (map (fun q => nsub q (nth mid_idx qs None)) qs)
  else
    match axis_groups ax_str with
    | None => Err AttributeError
    | Some angle_str =>
        do angles <- column s (strip_ws angle_str);
        match nth_error angles mid_idx with
        | None => Err IndexError
        | Some mid => Ok (map (fun a => nmul (option_map deg2rad (nsub a mid)) (nmean qs)) angles)
        end
    end.
(** scan.py:261-341 *)
Definition scan_get_data (s : scan) := get_data (get_del_q s) s.
(** scan_group.py:379-391 ScanGroup.get_data *)
Definition group_get_data (scans : list scan) (axes : option string * option string) (norm_to : option (R * string)) (grid tol : option pparam) : result (list data1d) :=
  mapM (fun s => scan_get_data s axes norm_to grid tol) scans.
