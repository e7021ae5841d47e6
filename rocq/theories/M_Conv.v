(** Model of src/tavi/instrument/resolution/convolution.py. quadric_proj (lines 10-31) is in M_Mat. *)
From Coq Require Import Reals List ZArith Bool Arith.
From Verif Require Import Base LinAlg M_Mat M_ScanData.
Import ListNotations.
Open Scope R_scope.

(** 1 / np.sqrt(np.abs(elem)): infinite for zero *)
Definition inv_root (elem : R) : result R := if Req_EM_T elem 0 then Err NotANumber else Ok (1 / sqrt (Rabs elem)).
(** convolution.py:34-39 *)
Definition incoh_sigma_en (mat : fmat) : result R :=
  do a <- quadric_proj 4 mat 2; do b <- quadric_proj 3 a 1; do c <- quadric_proj 2 b 0; inv_root (c 0%nat 0%nat).
(** convolution.py:42-50; the matrix is 3 x 3 *)
Definition incoh_sigma_qs (mat : fmat) : result (R * R * R) :=
  do m2 <- quadric_proj 3 mat 2;
  do e1 <- quadric_proj 2 m2 1;
  do e2 <- quadric_proj 2 m2 0;
  do m1 <- quadric_proj 3 mat 1;
  do e3 <- quadric_proj 2 m1 0;
  do s1 <- inv_root (e1 0%nat 0%nat); do s2 <- inv_root (e2 0%nat 0%nat); do s3 <- inv_root (e3 0%nat 0%nat);
  Ok (s1, s2, s3).
(** convolution.py:53-57; the axis is 0, ..., 3 *)
Definition coh_sigma (mat : fmat) (axis : nat) : result R := inv_root (mat axis axis).

(** the components of a displacement in (h, k, l), and in (h, k, l, E) *)
Definition at3 (v : vec) : nat -> R := fun k => match k with 0 => vx v | 1 => vy v | _ => vz v end%nat.
Definition at4 (v : vec) (e : R) : nat -> R := fun k => match k with 0 => vx v | 1 => vy v | 2 => vz v | _ => e end%nat.
(** convolution.py:60-75, for one band and one point: the two loops over the four indices *)
Definition weight (mat : fmat) (v : vec) (e : R) : R := sum 4 (fun k => sum 4 (fun l => at4 v e k * mat k l * at4 v e l)).

(** np.linspace(-3, 3, n + 1)[i] (convolution.py:81-83) *)
Definition tick (n i : nat) : R := -3 + 6 * INR i / INR n.
(** convolution.py:78-84, 90-91: the point (i, j, k) of the mesh *)
Definition node (s : R * R * R) (n : nat * nat * nat) (ijk : nat * nat * nat) : vec :=
  let '(s1, s2, s3) := s in let '(n1, n2, n3) := n in let '(i, j, k) := ijk in
  V (tick n1 i * s1) (tick n2 j * s2) (tick n3 k * s3).
Definition indices (n : nat * nat * nat) : list (nat * nat * nat) :=
  let '(n1, n2, n3) := n in
  flat_map (fun i => flat_map (fun j => map (fun k => (i, j, k)) (seq 0 (S n3))) (seq 0 (S n2))) (seq 0 (S n1)).
(** convolution.py:93-95: r_sq < 3 ** 2 *)
Definition inside (mat_hkl : fmat) (v : vec) : bool :=
  if Rlt_dec (sum 3 (fun k => sum 3 (fun l => at3 v k * mat_hkl k l * at3 v l))) 9 then true else false.
(** convolution.py:87-97: the points of the mesh inside the ellipsoid *)
Definition generate_pts (s : R * R * R) (mat_hkl : fmat) (n : nat * nat * nat) : list vec :=
  filter (inside mat_hkl) (map (node s n) (indices n)).

(** np.nanmean and np.nanmax of a list; nan for an empty one *)
Definition present (l : list num) : list R := flat_map (fun x : num => match x with Some r => [r] | None => [] end) l.
Definition nanmean (l : list num) : num :=
  match present l with [] => None | r => Some (fold_left Rplus r 0 / INR (length r)) end.
Definition nanmax (l : list num) : num := match present l with [] => None | r :: rest => Some (fold_left Rmax rest r) end.
(** np.abs(np.diff(...)) of the values at 0, ..., n *)
Definition steps (n : nat) (f : nat -> num) : list num :=
  map (fun i => match f (S i), f i with Some b, Some a => Some (Rabs (b - a)) | _, _ => None end) (seq 0 n).
(** convolution.py:101-109 for an array of shape (bands, n1 + 1, n2 + 1, n3 + 1) *)
Definition get_max_step (bands : nat) (n : nat * nat * nat) (arr : nat -> nat * nat * nat -> num) (axis : nat) : R :=
  let '(n1, n2, n3) := n in
  let lines :=
    match axis with
    | 0 => flat_map (fun b => flat_map (fun j => map (fun k => steps n1 (fun i => arr b (i, j, k))) (seq 0 (S n3))) (seq 0 (S n2))) (seq 0 bands)
    | 1 => flat_map (fun b => flat_map (fun i => map (fun k => steps n2 (fun j => arr b (i, j, k))) (seq 0 (S n3))) (seq 0 (S n1))) (seq 0 bands)
    | _ => flat_map (fun b => flat_map (fun i => map (fun j => steps n3 (fun k => arr b (i, j, k))) (seq 0 (S n2))) (seq 0 (S n1))) (seq 0 bands)
    end%nat in
  match nanmax (map nanmean lines) with Some r => r | None => 0 end.

Section Convolution.
  (** np.linalg.eigvalsh of a 3 x 3 matrix *)
  Variable eigvalsh : fmat -> R * R * R.
  (** The model of the caller. Simplification: it is evaluated point by point, one energy and one intensity for each band. *)
  Variable disp : vec -> list R.
  Variable inten : vec -> list R.

  (** the weights of all bands at a point (convolution.py:158-163, 202-207) *)
  Definition weights (mat : fmat) (q : vec) (en : R) (v : vec) : list R := map (fun w => weight mat v (w - en)) (disp (vadd v q)).
  (** convolution.py:181-184: the number of steps along an axis *)
  Definition refine (en_rez max_step step : R) : nat := if Rlt_dec en_rez step then Z.to_nat (Int_part (Rmin (10 * (step / en_rez)) max_step)) else 10.

  (** convolution.py:112-214. None is nan; a matrix for which a root or a quotient does not exist is an error here. *)
  Definition convolution (rez_factor max_step : R) (params : option (vec * R * R * fmat)) : result num :=
    match params with
    | None => Ok None
    | Some (q, en, r0, mat) =>
        do mat_hkl <- quadric_proj 4 mat 3;
        do s <- incoh_sigma_qs mat_hkl;
        do s_en <- incoh_sigma_en mat;
        let min_en := en - 3 * s_en in
        let max_en := en + 3 * s_en in
        do s_coh <- coh_sigma mat 3;
        let en_rez := s_coh * rez_factor in
        do vol <- (let '(a, b, c) := eigvalsh mat_hkl in
                   if Rlt_dec 0 a then if Rlt_dec 0 b then if Rlt_dec 0 c then Ok (1 / sqrt a * (1 / sqrt b) * (1 / sqrt c) * (2 * 3) ^ 3)
                   else Err NotANumber else Err NotANumber else Err NotANumber);
        let pts := generate_pts s mat_hkl (10, 10, 10)%nat in
        match flat_map (fun v => disp (vadd v q)) pts with
        | [] => Err ValueError
        | d :: ds =>
            if Rlt_dec (fold_left Rmax ds d) min_en then Ok (Some 0)
            else if Rlt_dec max_en (fold_left Rmin ds d) then Ok (Some 0)
            else
              match flat_map (weights mat q en) pts with
              | [] => Err ValueError
              | w :: ws =>
                  if Rlt_dec (5 ^ 3) (fold_left Rmin ws w) then Ok (Some 0)
                  else
                    let bands := length (disp q) in
                    let arr b ijk : num :=
                      let v := node s (10, 10, 10)%nat ijk in
                      if inside mat_hkl v then nth_error (disp (vadd v q)) b else None in
                    let size axis := refine en_rez max_step (get_max_step bands (10, 10, 10)%nat arr axis) in
                    let n := (size 0, size 1, size 2)%nat in
                    let keep v := existsb (fun x => if Rlt_dec x (5 ^ 3) then true else false) (weights mat q en v) in
                    let kept := filter keep (generate_pts s mat_hkl n) in
                    let at_point v := fold_left Rplus (zipw (fun i x => i * exp (- x / 2)) (inten (vadd v q)) (weights mat q en v)) 0 in
                    let total := fold_left Rplus (map at_point kept) 0 in
                    let size := (INR (fst (fst n)) * INR (snd (fst n)) * INR (snd n)) in
                    if Req_EM_T size 0 then Err NotANumber
                    else
                      let inten_sum := total * (vol / size) in
                      let det := determinant 4 mat in
                      if Rlt_dec det 0 then Err NotANumber
                      else Ok (Some (r0 * inten_sum * sqrt det / (2 * PI) ^ 2))
              end
        end
    end.

  (** convolution.py:217-223. Simplification: the processes of the pool are not modelled; Executor.map yields the results in
      the order of its argument and raises the first exception; a pool needs a worker. *)
  Definition calculate (reso_params : list (option (vec * R * R * fmat))) (num_worker : nat) : result (list num) :=
    match num_worker with O => Err ValueError | S _ => mapM (convolution (1 / 5) 100) reso_params end.
End Convolution.
