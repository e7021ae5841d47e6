(** Property C29: rebinning two-dimensional scan data. *)
From Coq Require Import Reals Lra Psatz List ZArith Lia Bool Permutation.
From Verif Require Import Base M_ScanData S_ScanData L_ScanData L_ScanData2 P_ScanData.
Import ListNotations.
Open Scope R_scope.

Inductive kind2 := Grid2 | GridRenorm2 (norm_val : R).
Definition rebin2 (k : kind2) (d : data2d) (p q : option R * option R * R) (arg : option (list num)) : result grid2d :=
  match k with Grid2 => rebin_grid2d d p q | GridRenorm2 v => rebin_grid_renorm2d d p q arg v end.
Definition suits2 (k : kind2) (d : data2d) (arg : option (list num)) (pts : list point2) : Prop :=
  match k with Grid2 => True | GridRenorm2 _ => normalised2 d arg pts end.
Definition denom2 (k : kind2) (l : list point2) : R := match k with Grid2 => INR (length l) | GridRenorm2 _ => total qw l end.
Definition factor2 (k : kind2) : R := match k with Grid2 => 1 | GridRenorm2 v => v end.
Definition value2 (m : list (list num)) (i j : nat) : R := match entry m i j with Some (Some v) => v | _ => 0 end.
Definition inside2 (lox sx : R) (nx : nat) (loy sy : R) (ny : nat) (pts : list point2) : list point2 :=
  filter (fun p => decb (covered_dec lox sx nx (qx p)) && decb (covered_dec loy sy ny (qy p))) pts.
Definition arrays2 (r : result grid2d) := rmap (fun g => (gx g, gy g, gz g, gerr g)) r.

(** A point is in cell (i, j) exactly when its x is in x-bin i and its y in y-bin j; cells do not overlap, and together they
    are the covered rectangle. *)
Theorem C29_one_cell : forall lox sx nx loy sy ny p, 0 < sx -> 0 < sy ->
  (forall i j, In p (cell lox sx loy sy i j [p]) <-> in_bin lox sx i (qx p) /\ in_bin loy sy j (qy p)) /\
  (forall i j i' j', In p (cell lox sx loy sy i j [p]) -> In p (cell lox sx loy sy i' j' [p]) -> i = i' /\ j = j') /\
  ((covered lox sx nx (qx p) /\ covered loy sy ny (qy p)) <->
   exists i j, (i < nx)%nat /\ (j < ny)%nat /\ In p (cell lox sx loy sy i j [p])).
Proof.
  intros lox sx nx loy sy ny p SX SY.
  assert (A : forall i j, In p (cell lox sx loy sy i j [p]) <-> in_bin lox sx i (qx p) /\ in_bin loy sy j (qy p)).
  { intros i j. unfold cell. rewrite filter_In, andb_true_iff. unfold decb.
    destruct (in_bin_dec lox sx i (qx p)), (in_bin_dec loy sy j (qy p)); split; intuition (try discriminate); left; auto. }
  destruct (C22_one_bin lox sx nx (qx p) SX) as (UX & CX). destruct (C22_one_bin loy sy ny (qy p) SY) as (UY & CY).
  split; [exact A|split].
  - intros i j i' j' H1 H2. apply A in H1, H2. split; [apply UX|apply UY]; tauto.
  - rewrite CX, CY. split.
    + intros ((i & I & X) & (j & J & Y)). exists i, j. rewrite A. auto.
    + intros (i & j & I & J & H). apply A in H. split; [exists i|exists j]; tauto.
Qed.
Print Assumptions C29_one_cell.

Lemma rebin2_closed : forall k d arg pts lox hix sx nx loy hiy sy ny, holds2 d pts -> suits2 k d arg pts ->
  0 < sx -> lox <= hix -> bin_count lox hix sx nx -> 0 < sy -> loy <= hiy -> bin_count loy hiy sy ny ->
  rebin2 k d (Some lox, Some hix, sx) (Some loy, Some hiy, sy) arg = Ok (Grid2D
      (mat nx ny (fun i j => Some (lox + INR i * sx))) (mat nx ny (fun i j => Some (loy + INR j * sy)))
      (mat nx ny (fun i j => nmul (ndiv (Some (total qz (cell lox sx loy sy i j pts))) (Some (denom2 k (cell lox sx loy sy i j pts)))) (Some (factor2 k))))
      (mat nx ny (fun i j => nmul (ndiv (nsqrt (Some (total qz (cell lox sx loy sy i j pts)))) (Some (denom2 k (cell lox sx loy sy i j pts)))) (Some (factor2 k)))) (enorm2 d)).
Proof.
  assert (M1 : forall a, nmul a (Some 1) = a). { intros [a|]; cbn; auto. f_equal. ring. }
  intros k d arg pts lox hix sx nx loy hiy sy ny H SU SX LX NX SY LY NY. destruct k; cbn [rebin2 suits2 denom2 factor2] in *.
  - rewrite (rebin_grid2d_eq d pts lox hix sx loy hiy sy nx ny) by auto. do 2 f_equal.
    + unfold mat. apply map_ext. intros i. apply map_ext. intros j. rewrite total_1, M1. auto.
    + unfold mat. apply map_ext. intros i. apply map_ext. intros j. rewrite total_1, M1. auto.
  - rewrite (rebin_grid_renorm2d_eq d pts lox hix sx loy hiy sy nx ny) by auto. auto.
Qed.

(** What each cell contains. *)
Theorem C29_cells : forall k d arg pts lox hix sx nx loy hiy sy ny, holds2 d pts -> suits2 k d arg pts ->
  0 < sx -> lox <= hix -> bin_count lox hix sx nx -> 0 < sy -> loy <= hiy -> bin_count loy hiy sy ny ->
  exists g, rebin2 k d (Some lox, Some hix, sx) (Some loy, Some hiy, sy) arg = Ok g /\
    (forall m, In m [gx g; gy g; gz g; gerr g] -> map (@length num) m = repeat ny nx) /\
    forall i j, (i < nx)%nat -> (j < ny)%nat -> let C := cell lox sx loy sy i j pts in
      entry (gx g) i j = Some (Some (lox + INR i * sx)) /\ entry (gy g) i j = Some (Some (loy + INR j * sy)) /\
      (denom2 k C <> 0 -> entry (gz g) i j = Some (Some (total qz C / denom2 k C * factor2 k)) /\
        (0 <= total qz C -> entry (gerr g) i j = Some (Some (sqrt (total qz C) / denom2 k C * factor2 k)))) /\
      (denom2 k C = 0 -> entry (gz g) i j = Some None /\ entry (gerr g) i j = Some None).
Proof.
  intros k d arg pts lox hix sx nx loy hiy sy ny H SU SX LX NX SY LY NY.
  eexists. split; [apply (rebin2_closed k d arg pts lox hix sx nx loy hiy sy ny); auto|]. split.
  { intros m M. cbn [gx gy gz gerr] in M. destruct M as [<-|[<-|[<-|[<-|[]]]]]; apply shape_mat. }
  intros i j I J C. cbn [gx gy gz gerr]. rewrite !entry_mat. rewrite (proj2 (Nat.ltb_lt _ _) I), (proj2 (Nat.ltb_lt _ _) J). cbn [andb]. fold C.
  split; [auto|split; [auto|split]].
  - intros Z. unfold ndiv. destruct (Req_EM_T (denom2 k C) 0) as [|_]; [lra|]. split; auto.
    intros P. unfold nsqrt. destruct (Rlt_dec (total qz C) 0); [lra|]. auto.
  - intros Z. unfold ndiv. destruct (Req_EM_T (denom2 k C) 0) as [_|]; [|lra]. split; auto. unfold nsqrt. destruct (Rlt_dec (total qz C) 0); auto.
Qed.
Print Assumptions C29_cells.

Lemma sum_bins : forall lo step n x v, 0 < step ->
  total (fun i => if decb (in_bin_dec lo step i x) then v else 0) (seq 0 n) = if decb (covered_dec lo step n x) then v else 0.
Proof.
  intros lo step n x v S. pose proof (total_bins (fun _ => v) lo step n [Point x 0 0] S) as T. cbn [filter px] in T.
  rewrite (total_ext _ _ (fun i => if decb (in_bin_dec lo step i x) then v else 0)) in T.
  - rewrite T. destruct (covered_dec lo step n x); cbn [decb total]; ring.
  - intros i _. unfold bin. cbn [filter px]. destruct (in_bin_dec lo step i x); cbn [decb total]; ring.
Qed.

Lemma total_cells : forall f lox sx nx loy sy ny pts, 0 < sx -> 0 < sy ->
  total (fun i => total (fun j => total f (cell lox sx loy sy i j pts)) (seq 0 ny)) (seq 0 nx) = total f (inside2 lox sx nx loy sy ny pts).
Proof.
  intros f lox sx nx loy sy ny pts SX SY. unfold cell, inside2. rewrite total_filter.
  transitivity (total (fun i => total (fun p => if decb (in_bin_dec lox sx i (qx p)) then if decb (covered_dec loy sy ny (qy p)) then f p else 0 else 0) pts) (seq 0 nx)).
  - apply total_ext. intros i _.
    rewrite (total_ext _ _ (fun j => total (fun p => if decb (in_bin_dec loy sy j (qy p)) then if decb (in_bin_dec lox sx i (qx p)) then f p else 0 else 0) pts)).
    + rewrite total_swap. apply total_ext. intros p _. rewrite sum_bins by auto. destruct (decb (covered_dec loy sy ny (qy p))), (decb (in_bin_dec lox sx i (qx p))); auto.
    + intros j _. rewrite total_filter. apply total_ext. intros p _. destruct (decb (in_bin_dec lox sx i (qx p))), (decb (in_bin_dec loy sy j (qy p))); auto.
  - rewrite total_swap. apply total_ext. intros p _. rewrite sum_bins by auto. destruct (decb (covered_dec lox sx nx (qx p))), (decb (covered_dec loy sy ny (qy p))); auto.
Qed.

(** Summed over the cells, value times denominator gives back all counts in the covered rectangle. *)
Theorem C29_counts_conserved : forall k d arg pts lox hix sx nx loy hiy sy ny g, holds2 d pts -> suits2 k d arg pts ->
  0 < sx -> lox <= hix -> bin_count lox hix sx nx -> 0 < sy -> loy <= hiy -> bin_count loy hiy sy ny ->
  (forall p, In p pts -> 0 < qw p) ->
  rebin2 k d (Some lox, Some hix, sx) (Some loy, Some hiy, sy) arg = Ok g ->
  let C i j := cell lox sx loy sy i j pts in
  let cells (h : nat -> nat -> R) := total (fun i => total (fun j => h i j) (seq 0 ny)) (seq 0 nx) in
  cells (fun i j => value2 (gz g) i j * denom2 k (C i j)) = factor2 k * total qz (inside2 lox sx nx loy sy ny pts) /\
  cells (fun i j => denom2 k (C i j)) = denom2 k (inside2 lox sx nx loy sy ny pts) /\
  cells (fun i j => INR (length (C i j))) = INR (length (inside2 lox sx nx loy sy ny pts)).
Proof.
  intros k d arg pts lox hix sx nx loy hiy sy ny g H SU SX LX NX SY LY NY W E C cells.
  rewrite (rebin2_closed k d arg pts lox hix sx nx loy hiy sy ny) in E by auto. apply Ok_inj in E. subst g. cbn [gz].
  assert (CNT : cells (fun i j => INR (length (C i j))) = INR (length (inside2 lox sx nx loy sy ny pts))).
  { rewrite <- total_1. rewrite <- total_cells by auto. unfold cells. apply total_ext. intros i _. apply total_ext. intros j _. rewrite total_1. auto. }
  split; [|split; [|exact CNT]].
  - rewrite <- (total_cells qz lox sx nx loy sy ny pts SX SY), <- total_scale. unfold cells. apply total_ext. intros i I.
    rewrite <- total_scale. apply total_ext. intros j J. apply in_seq in I, J.
    unfold value2. rewrite entry_mat. rewrite (proj2 (Nat.ltb_lt i nx)), (proj2 (Nat.ltb_lt j ny)) by lia. cbn [andb]. fold (C i j).
    set (B := C i j). unfold ndiv. destruct (Req_EM_T (denom2 k B) 0) as [Z|Z].
    + cbn [nmul nbin]. rewrite Z. assert (BE : B = []).
      { destruct B as [|p B'] eqn:BB; auto. exfalso. assert (PB : forall q, In q (p :: B') -> 0 < qw q).
        { intros q Q. rewrite <- BB in Q. unfold B, C, cell in Q. apply filter_In in Q. apply W, Q. }
        assert (0 < total qw (p :: B')) by (apply total_pos; auto; discriminate).
        assert (0 < INR (length (p :: B'))) by (apply lt_0_INR; cbn; lia).
        destruct k; cbn [denom2] in Z; lra. }
      rewrite BE. cbn [total]. ring.
    + cbn [nmul nbin]. field. auto.
  - destruct k; cbn [denom2]; auto; unfold cells, C; apply total_cells; auto.
Qed.
Print Assumptions C29_counts_conserved.

(** The order of the points does not matter, for any ranges, default or explicit, and any steps. *)
Lemma setup2_perm : forall f pts1 pts2 p, Permutation pts1 pts2 -> rebin_setup (col2 f pts1) p = rebin_setup (col2 f pts2) p.
Proof.
  intros f pts1 pts2 p P. replace (col2 f pts1) with (col px (map (fun q => Point (f q) 0 0) pts1)) by (unfold col, col2; rewrite map_map; auto).
  replace (col2 f pts2) with (col px (map (fun q => Point (f q) 0 0) pts2)) by (unfold col, col2; rewrite map_map; auto).
  apply setup_perm. apply Permutation_map. auto.
Qed.

Lemma loop2d_perm : forall d1 d2 pts1 pts2 bx zx by_ zy nx ny c1 c2 (g : list (point2 -> R)), Permutation pts1 pts2 ->
  ex2 d1 = col2 qx pts1 -> ex2 d2 = col2 qx pts2 -> ey2 d1 = col2 qy pts1 -> ey2 d2 = col2 qy pts2 ->
  (forall i, (i < length pts1)%nat -> c1 i = Ok (map (fun f => Some (f (nth i pts1 (Point2 0 0 0 0)))) g)) ->
  (forall i, (i < length pts2)%nat -> c2 i = Ok (map (fun f => Some (f (nth i pts2 (Point2 0 0 0 0)))) g)) ->
  loop2d d1 bx zx by_ zy nx ny (length g) c1 = loop2d d2 bx zx by_ zy nx ny (length g) c2.
Proof.
  intros d1 d2 pts1 pts2 bx zx by_ zy nx ny c1 c2 g P X1 X2 Y1 Y2 C1 C2.
  destruct pts1 as [|p pts1].
  { apply Permutation_nil in P. subst pts2. unfold loop2d. rewrite X1, X2. reflexivity. }
  destruct pts2 as [|q pts2]; [apply Permutation_sym, Permutation_nil_cons in P; contradiction|].
  destruct bx as [|e bx].
  { unfold loop2d. rewrite X1, X2, Y1, Y2. reflexivity. }
  destruct by_ as [|e' by_].
  { unfold loop2d. rewrite X1, X2, Y1, Y2. cbn [length col2 map seq accumulate get nth_error bind].
    destruct (locate_total (e :: bx) zx (Some (qx p))) as (c & E); [discriminate|]. destruct (locate_total (e :: bx) zx (Some (qx q))) as (c' & E'); [discriminate|].
    rewrite E, E'. reflexivity. }
  rewrite (loop2d_gen d1 (p :: pts1)), (loop2d_gen d2 (q :: pts2)); auto; try discriminate. f_equal. apply map_ext. intros f. unfold mat. apply map_ext. intros i. apply map_ext. intros j.
  f_equal. apply total_perm, perm_filter. auto.
Qed.

Theorem C29_order_independent : forall k d1 d2 arg1 arg2 pts1 pts2 p q, Permutation pts1 pts2 ->
  holds2 d1 pts1 -> suits2 k d1 arg1 pts1 -> holds2 d2 pts2 -> suits2 k d2 arg2 pts2 ->
  arrays2 (rebin2 k d1 p q arg1) = arrays2 (rebin2 k d2 p q arg2).
Proof.
  intros k d1 d2 arg1 arg2 pts1 pts2 p q P (X1 & Y1 & Z1) S1 (X2 & Y2 & Z2) S2. unfold arrays2.
  assert (E : rebin_setup (ex2 d1) p = rebin_setup (ex2 d2) p) by (rewrite X1, X2; apply setup2_perm; auto).
  assert (E' : rebin_setup (ey2 d1) q = rebin_setup (ey2 d2) q) by (rewrite Y1, Y2; apply setup2_perm; auto).
  destruct k; cbn [rebin2 suits2] in *; unfold rebin_grid2d, rebin_grid_renorm2d.
  - rewrite E, E'. destruct (rebin_setup (ex2 d2) p) as [[[[lo n] zero] b]|]; cbn [bind]; auto.
    destruct (rebin_setup (ey2 d2) q) as [[[[lo' n'] zero'] b']|]; cbn [bind]; auto.
    destruct (linspace lo (lo + snd p * (IZR n - 1)) n) as [x|]; cbn [bind]; auto.
    destruct (linspace lo' (lo' + snd q * (IZR n' - 1)) n') as [y|]; cbn [bind]; auto.
    change 2%nat with (length [qz; (fun _ => 1)]).
    match goal with |- rmap _ (bind ?l _) = rmap _ (bind ?m _) =>
      assert (LE : l = m); [apply (loop2d_perm d1 d2 pts1 pts2); auto; [contrib2_tac Z1|contrib2_tac Z2]|];
      rewrite LE; destruct m as [[|a1 [|a2 [|]]]|]; auto end.
  - assert (P1 : pick_norm arg1 (enorm2 d1) = Ok (col2 qw pts1)) by (destruct S1 as [->|(-> & ->)]; auto).
    assert (P2 : pick_norm arg2 (enorm2 d2) = Ok (col2 qw pts2)) by (destruct S2 as [->|(-> & ->)]; auto).
    rewrite P1, P2, E, E'. cbn [bind]. destruct (rebin_setup (ex2 d2) p) as [[[[lo n] zero] b]|]; cbn [bind]; auto.
    destruct (rebin_setup (ey2 d2) q) as [[[[lo' n'] zero'] b']|]; cbn [bind]; auto.
    destruct (linspace lo (lo + snd p * (IZR n - 1)) n) as [x|]; cbn [bind]; auto.
    destruct (linspace lo' (lo' + snd q * (IZR n' - 1)) n') as [y|]; cbn [bind]; auto.
    change 2%nat with (length [qz; qw]).
    match goal with |- rmap _ (bind ?l _) = rmap _ (bind ?m _) =>
      assert (LE : l = m); [apply (loop2d_perm d1 d2 pts1 pts2); auto; [contrib2_tac Z1|contrib2_tac Z2]|];
      rewrite LE; destruct m as [[|a1 [|a2 [|]]]|]; auto end.
Qed.
Print Assumptions C29_order_independent.

(** The hypotheses can be met: three points, two by two cells. *)
Lemma bin_count_two : bin_count 0 1 1 2.
Proof.
  intros i. split.
  - intros H. destruct i as [|[|i]]; [cbn; lra|cbn; lra|lia].
  - intros H. destruct i as [|[|i]]; [lia|lia|]. exfalso. rewrite !S_INR in H. pose proof (pos_INR i). lra.
Qed.
Example C29_example : let pts := [Point2 0 0 4 2; Point2 (1/10) (-1/10) 5 1; Point2 1 1 9 3] in
  let d := new_data2d (col2 qx pts) (col2 qy pts) (col2 qz pts) None in
  holds2 d pts /\ suits2 (GridRenorm2 2) d (Some (col2 qw pts)) pts /\ bin_count 0 1 1 2 /\
  cell 0 1 0 1 0 0 pts = [Point2 0 0 4 2; Point2 (1/10) (-1/10) 5 1] /\ cell 0 1 0 1 1 1 pts = [Point2 1 1 9 3].
Proof.
  intros pts d. split; [split; [auto|split; auto]|split; [left; auto|split; [apply bin_count_two|]]].
  unfold cell, pts. cbn [filter qx qy].
  repeat match goal with |- context [in_bin_dec ?a ?b ?c ?x] =>
    let n := fresh "n" in
    destruct (in_bin_dec a b c x) as [n|n]; [try (exfalso; unfold in_bin in n; cbn [INR] in n; lra)|try (exfalso; apply n; unfold in_bin; cbn [INR]; lra)] end;
  cbn [decb andb]; auto.
Qed.
