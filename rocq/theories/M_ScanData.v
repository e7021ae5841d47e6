(** Model of src/tavi/data/scan_data.py: one- and two-dimensional scan data, renormalisation and rebinning. *)
From Coq Require Import Reals List ZArith Bool.
From Verif Require Import Base.
Import ListNotations.
Open Scope R_scope.

(** An entry of a numpy array. [None] stands for nan or an infinity (numpy warns but does not raise); arithmetic on it
    stays [None]. Simplification: nan and the infinities are not told apart. *)
Definition num := option R.
Definition nbin (f : R -> R -> R) (a b : num) : num :=
  match a, b with Some x, Some y => Some (f x y) | _, _ => None end.
Definition nadd := nbin Rplus.
Definition nsub := nbin Rminus.
Definition nmul := nbin Rmult.
Definition ndiv (a b : num) : num :=
  match a, b with Some x, Some y => if Req_EM_T y 0 then None else Some (x / y) | _, _ => None end.
(** np.sqrt: nan below zero *)
Definition nsqrt (a : num) : num :=
  match a with Some x => if Rlt_dec x 0 then None else Some (sqrt x) | None => None end.
(** [a > b]; every comparison with nan is False *)
Definition ngt (a b : num) : bool :=
  match a, b with Some x, Some y => if Rlt_dec y x then true else false | _, _ => false end.

(** scan_data.py:12-28 (attributes) *)
Record data1d := Data1D { dx : list num; dy : list num; dnorm : option (list num); derr : list num }.

(** scan_data.py:12-28 *)
Definition new_data1d (x y : list num) (nrm : option (list num)) : data1d := Data1D x y nrm (map nsqrt y).

Fixpoint zipw {A B C} (f : A -> B -> C) (l : list A) (m : list B) : list C :=
  match l, m with a :: l', b :: m' => f a b :: zipw f l' m' | _, _ => [] end.

(** numpy's elementwise binary operation on one-dimensional arrays, with broadcasting of arrays of length one *)
Definition bcast (f : num -> num -> num) (a b : list num) : result (list num) :=
  if Nat.eqb (length a) (length b) then Ok (zipw f a b)
  else match a, b with
       | _, [y] => Ok (map (fun x => f x y) a)
       | [x], _ => Ok (map (f x) b)
       | _, _ => Err ValueError
       end.

(** scan_data.py:105-110, 118-123, 154-159, 213-218, 295-300, 348-353: the argument, else the attribute *)
Definition pick_norm (arg own : option (list num)) : result (list num) :=
  match arg, own with Some c, _ => Ok c | None, Some c => Ok c | None, None => Err ValueError end.

(** scan_data.py:102-113 *)
Definition renorm (d : data1d) (norm_col : option (list num)) (norm_val : R) : result data1d :=
  do c <- pick_norm norm_col (dnorm d);
  do y <- bcast ndiv (dy d) c;
  do e <- bcast ndiv (derr d) c;
  let k := fun v => nmul v (Some norm_val) in
  Ok (Data1D (dx d) (map k y) (dnorm d) (map k e)).

(** ** Bins *)
(** np.min / np.max: ValueError on an empty array, nan if one entry is *)
Fixpoint reduce (f : R -> R -> R) (a : num) (l : list num) : num :=
  match l with [] => a | b :: l' => reduce f (nbin f a b) l' end.
Definition amin (l : list num) : result num := match l with [] => Err ValueError | a :: l' => Ok (reduce Rmin a l') end.
Definition amax (l : list num) : result num := match l with [] => Err ValueError | a :: l' => Ok (reduce Rmax a l') end.

(** np.linspace(a, b, n) *)
Definition linspace (a b : R) (n : Z) : result (list R) :=
  if (n <? 0)%Z then Err ValueError
  else Ok (match Z.to_nat n with
           | O => []
           | S O => [a]
           | S (S m as k) => map (fun i => a + INR i * ((b - a) / INR k)) (seq 0 (S k))
           end).

(** scan_data.py:125-132 (the same lines in 161-168, 187-194, 220-227, 309-325, 356-371): lower end, number of bins,
    tolerance and bin edges. [math.floor] of nan raises ValueError. A zero step raises ZeroDivisionError (with numpy scalars
    the floor of an infinity raises OverflowError instead: the kind of exception is a simplification). *)
Definition rebin_setup (xs : list num) (p : option R * option R * R) : result (R * Z * R * list R) :=
  let '(pmin, pmax, step) := p in
  do lo <- (match pmin with None => amin xs | Some v => Ok (Some v) end);
  do hi <- (match pmax with None => amax xs | Some v => Ok (Some v) end);
  match lo, hi with
  | Some lo, Some hi =>
      if Req_EM_T step 0 then Err ZeroDivisionError
      else
        let zero := step / 100 in
        let n := (Int_part ((hi + zero - lo) / step) + 1)%Z in
        do b <- linspace (lo - step / 2) (lo + step * (IZR n - 1 / 2)) (n + 1);
        Ok (lo, n, zero, b)
  | _, _ => Err ValueError
  end.

(** index of the first [true], 0 if there is none: np.nanargmax of a boolean array, which raises ValueError on an empty
    array *)
Fixpoint first_true (l : list bool) : option nat :=
  match l with [] => None | true :: _ => Some O | false :: l' => option_map S (first_true l') end.
Definition nanargmax (l : list bool) : result nat :=
  match l with [] => Err ValueError | _ => Ok (match first_true l with Some i => i | None => O end) end.

(** scan_data.py:139-141: the bin of a point, [None] if it is ignored *)
Definition locate (b : list R) (zero : R) (x0 : num) : result (option nat) :=
  do i <- nanargmax (map (fun e => ngt (Some (e - zero)) x0) b);
  Ok (match i with O => None | S k => Some k end).

Definition get (l : list num) (i : nat) : result num :=
  match nth_error l i with Some v => Ok v | None => Err IndexError end.

(** [a[i] += v] *)
Fixpoint bump (i : nat) (v : num) (a : list num) : list num :=
  match a, i with
  | [], _ => []
  | x :: a', O => nadd x v :: a'
  | x :: a', S k => x :: bump k v a'
  end.

(** The loops of scan_data.py:138-145, 173-179, 199-204, 235-240, 332-341, 380-389: for each point, find its cell and,
    unless it is ignored, add one contribution to each of the arrays [arrs] there. *)
Fixpoint accumulate {A I : Type} (bumpf : I -> num -> A -> A) (cell : nat -> result (option I)) (contrib : nat -> result (list num))
  (points : list nat) (arrs : list A) : result (list A) :=
  match points with
  | [] => Ok arrs
  | p :: ps =>
      do c <- cell p;
      match c with
      | None => accumulate bumpf cell contrib ps arrs
      | Some i => do vs <- contrib p; accumulate bumpf cell contrib ps (zipw (fun v a => bumpf i v a) vs arrs)
      end
  end.

Definition zeros (n : nat) : list num := repeat (Some 0) n.

(** the loop on a one-dimensional data set with [k] arrays of [nb] bins *)
Definition loop1d (d : data1d) (b : list R) (zero : R) (nb k : nat) (contrib : nat -> result (list num)) : result (list (list num)) :=
  accumulate bump (fun i => do x0 <- get (dx d) i; locate b zero x0) contrib (seq 0 (length (dx d))) (repeat (zeros nb) k).

(** scan_data.py:115-149 *)
Definition rebin_tol (d : data1d) (p : option R * option R * R) (weight_col : option (list num)) : result data1d :=
  do c <- pick_norm weight_col (dnorm d);
  do (lo, n, zero, b) <- rebin_setup (dx d) p;
  do arrs <- loop1d d b zero (pred (length b)) 4
    (fun i => do yi <- get (dy d) i; do xi <- get (dx d) i; do wi <- get c i; Ok [yi; nmul xi wi; wi; Some 1]);
  match arrs with
  | [y; x; w; counts] =>
      Ok (Data1D (zipw ndiv x w) (zipw ndiv y counts) (dnorm d) (zipw ndiv (map nsqrt y) counts))
  | _ => Err NotImplemented
  end.

(** scan_data.py:151-183 *)
Definition rebin_tol_renorm (d : data1d) (p : option R * option R * R) (norm_col : option (list num)) (norm_val : R) : result data1d :=
  do c <- pick_norm norm_col (dnorm d);
  do (lo, n, zero, b) <- rebin_setup (dx d) p;
  do arrs <- loop1d d b zero (pred (length b)) 3
    (fun i => do yi <- get (dy d) i; do xi <- get (dx d) i; do wi <- get c i; Ok [yi; nmul xi wi; wi]);
  let k := fun v => nmul v (Some norm_val) in
  match arrs with
  | [y; x; w] =>
      Ok (Data1D (zipw ndiv x w) (map k (zipw ndiv y w)) (dnorm d) (map k (zipw ndiv (map nsqrt y) w)))
  | _ => Err NotImplemented
  end.

(** scan_data.py:185-208 *)
Definition rebin_grid (d : data1d) (p : option R * option R * R) : result data1d :=
  do (lo, n, zero, b) <- rebin_setup (dx d) p;
  do x <- linspace lo (lo + snd p * (IZR n - 1)) n;
  do arrs <- loop1d d b zero (length x) 2 (fun i => do yi <- get (dy d) i; Ok [yi; Some 1]);
  match arrs with
  | [y; counts] => Ok (Data1D (map Some x) (zipw ndiv y counts) (dnorm d) (zipw ndiv (map nsqrt y) counts))
  | _ => Err NotImplemented
  end.

(** scan_data.py:210-243 *)
Definition rebin_grid_renorm (d : data1d) (p : option R * option R * R) (norm_col : option (list num)) (norm_val : R) : result data1d :=
  do c <- pick_norm norm_col (dnorm d);
  do (lo, n, zero, b) <- rebin_setup (dx d) p;
  do x <- linspace lo (lo + snd p * (IZR n - 1)) n;
  do arrs <- loop1d d b zero (length x) 2 (fun i => do yi <- get (dy d) i; do wi <- get c i; Ok [yi; wi]);
  let k := fun v => nmul v (Some norm_val) in
  match arrs with
  | [y; counts] => Ok (Data1D (map Some x) (map k (zipw ndiv y counts)) (dnorm d) (map k (zipw ndiv (map nsqrt y) counts)))
  | _ => Err NotImplemented
  end.

(** ** Subtraction *)
(** np.diff *)
Fixpoint diff (l : list num) : list num :=
  match l with a :: ((b :: _) as l') => nsub b a :: diff l' | _ => [] end.
Definition last_num (l : list num) : result num := get l (pred (length l)).

(** scan_data.py:75-100: the other operand afterwards, and the value. In the rebinning branch the class has no attribute
    [ZERO], so the first point that is not skipped raises AttributeError. *)
Definition sub_data (d o : data1d) : data1d * result data1d :=
  let finish o' :=
    (do y <- bcast nsub (dy d) (dy o');
     do e2 <- bcast (fun a b => nadd (nmul a a) (nmul b b)) (derr d) (derr o');
     Ok (Data1D (dx d) y None (map nsqrt e2))) in
  if Nat.eqb (length (dx d)) (length (dx o)) then (o, finish o)
  else
    match (do iv <- (do l <- last_num (diff (dx d)); Ok (diff (dx d) ++ [l])%list);
           do x0 <- get (dx d) 0; do i0 <- get iv 0;
           do xl <- last_num (dx d); do il <- last_num iv;
           let half v := ndiv v (Some 2) in
           let x_min := nsub x0 (half i0) in let x_max := nadd xl (half il) in
           if forallb (fun x => ngt x x_max || ngt x_min x) (dx o) then Ok tt else Err AttributeError) with
    | Err e => (o, Err e)
    | Ok _ =>
        let z := zeros (length (dx d)) in
        let o' := Data1D (dx o) (zipw ndiv z z) (dnorm o) (zipw ndiv z z) in
        (o', finish o')
    end.

(** ** Two dimensions *)
(** scan_data.py:249-269: attributes; flat lists before rebinning, then [xv], [yv], [z] and [err] of shape (nx, ny) *)
Record data2d := Data2D { ex2 : list num; ey2 : list num; ez2 : list num; enorm2 : option (list num); eerr2 : list num }.
Record grid2d := Grid2D { gx : list (list num); gy : list (list num); gz : list (list num); gerr : list (list num); gnorm : option (list num) }.
Definition new_data2d (x y z : list num) (nrm : option (list num)) : data2d := Data2D x y z nrm (map nsqrt z).

(** scan_data.py:294-303 *)
Definition renorm2d (d : data2d) (norm_col : option (list num)) (norm_val : R) : result data2d :=
  do c <- pick_norm norm_col (enorm2 d);
  do z <- bcast ndiv (ez2 d) c;
  do e <- bcast ndiv (eerr2 d) c;
  let k := fun v => nmul v (Some norm_val) in
  Ok (Data2D (ex2 d) (ey2 d) (map k z) (enorm2 d) (map k e)).

(** [a[i, j] += v] *)
Fixpoint bump2 (ij : nat * nat) (v : num) (a : list (list num)) : list (list num) :=
  match a, ij with
  | [], _ => []
  | r :: a', (O, j) => bump j v r :: a'
  | r :: a', (S k, j) => r :: bump2 (k, j) v a'
  end.

(** np.meshgrid(x, y, indexing="ij") *)
Definition mesh_x (xs ys : list R) : list (list num) := map (fun x => map (fun _ => Some x) ys) xs.
Definition mesh_y (xs ys : list R) : list (list num) := map (fun _ => map Some ys) xs.

(** scan_data.py:332-341, 380-389 *)
Definition loop2d (d : data2d) (bx : list R) (zx : R) (by_ : list R) (zy : R) (nx ny k : nat) (contrib : nat -> result (list num))
  : result (list (list (list num))) :=
  accumulate bump2
    (fun i => do x0 <- get (ex2 d) i; do y0 <- get (ey2 d) i;
              do ix <- locate bx zx x0; do iy <- locate by_ zy y0;
              Ok (match ix, iy with Some a, Some b => Some (a, b) | _, _ => None end))
    contrib (seq 0 (length (ex2 d))) (repeat (repeat (zeros ny) nx) k).

(** scan_data.py:305-345 *)
Definition rebin_grid2d (d : data2d) (px py : option R * option R * R) : result grid2d :=
  do (lox, nx, zx, bx) <- rebin_setup (ex2 d) px;
  do (loy, ny, zy, by_) <- rebin_setup (ey2 d) py;
  do xs <- linspace lox (lox + snd px * (IZR nx - 1)) nx;
  do ys <- linspace loy (loy + snd py * (IZR ny - 1)) ny;
  do arrs <- loop2d d bx zx by_ zy (length xs) (length ys) 2 (fun i => do zi <- get (ez2 d) i; Ok [zi; Some 1]);
  match arrs with
  | [z; counts] =>
      Ok (Grid2D (mesh_x xs ys) (mesh_y xs ys) (zipw (zipw ndiv) z counts) (zipw (zipw ndiv) (map (map nsqrt) z) counts) (enorm2 d))
  | _ => Err NotImplemented
  end.

(** scan_data.py:347-393 *)
Definition rebin_grid_renorm2d (d : data2d) (px py : option R * option R * R) (norm_col : option (list num)) (norm_val : R) : result grid2d :=
  do c <- pick_norm norm_col (enorm2 d);
  do (lox, nx, zx, bx) <- rebin_setup (ex2 d) px;
  do (loy, ny, zy, by_) <- rebin_setup (ey2 d) py;
  do xs <- linspace lox (lox + snd px * (IZR nx - 1)) nx;
  do ys <- linspace loy (loy + snd py * (IZR ny - 1)) ny;
  do arrs <- loop2d d bx zx by_ zy (length xs) (length ys) 2 (fun i => do zi <- get (ez2 d) i; do wi <- get c i; Ok [zi; wi]);
  let k := fun v => nmul v (Some norm_val) in
  match arrs with
  | [z; counts] =>
      Ok (Grid2D (mesh_x xs ys) (mesh_y xs ys) (map (map k) (zipw (zipw ndiv) z counts))
            (map (map k) (zipw (zipw ndiv) (map (map nsqrt) z) counts)) (enorm2 d))
  | _ => Err NotImplemented
  end.
