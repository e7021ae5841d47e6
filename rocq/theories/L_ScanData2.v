(** Closed form of the two-dimensional rebinning loop. *)
From Coq Require Import Reals Lra Psatz List ZArith Lia Bool Permutation.
From Verif Require Import Base M_ScanData S_ScanData L_ScanData.
Import ListNotations.
Open Scope R_scope.

Lemma matrix_ext : forall a b : list (list num), map (@length num) a = map (@length num) b -> (forall i j, entry a i j = entry b i j) -> a = b.
Proof.
  induction a as [|r a]; intros [|s b] L H; try discriminate; auto. injection L as L1 L2. f_equal.
  - apply nth_error_ext'. intros j. apply (H 0%nat j). - apply IHa; auto. intros i j. apply (H (S i) j).
Qed.

Definition mat (nx ny : nat) (h : nat -> nat -> num) : list (list num) := map (fun i => map (h i) (seq 0 ny)) (seq 0 nx).

Lemma entry_mat : forall nx ny h i j, entry (mat nx ny h) i j = if (i <? nx)%nat && (j <? ny)%nat then Some (h i j) else None.
Proof.
  intros nx ny h i j. unfold entry, mat. rewrite nth_error_map. destruct (Nat.ltb_spec i nx) as [I|I]; cbn [andb].
  - rewrite (nth_error_nth' _ 0%nat) by (rewrite seq_length; auto). rewrite seq_nth by auto. cbn [option_map plus]. rewrite nth_error_map.
    destruct (Nat.ltb_spec j ny) as [J|J].
    + rewrite (nth_error_nth' _ 0%nat) by (rewrite seq_length; auto). rewrite seq_nth by auto. reflexivity.
    + rewrite (proj2 (nth_error_None _ _)) by (rewrite seq_length; auto). reflexivity.
  - rewrite (proj2 (nth_error_None _ _)) by (rewrite seq_length; auto). reflexivity.
Qed.
Lemma shape_mat : forall nx ny h, map (@length num) (mat nx ny h) = repeat ny nx.
Proof.
  intros. unfold mat. rewrite map_map. rewrite (map_ext _ (fun _ => ny)) by (intros; rewrite map_length, seq_length; auto).
  generalize 0%nat. induction nx; intros; cbn; f_equal; auto.
Qed.
Lemma zeros_mat : forall nx ny, repeat (zeros ny) nx = mat nx ny (fun _ _ => Some 0).
Proof.
  intros. apply matrix_ext.
  - rewrite shape_mat. unfold zeros. induction nx; cbn [repeat map]; auto. rewrite IHnx, repeat_length. auto.
  - intros i j. rewrite entry_mat. unfold entry. destruct (Nat.ltb_spec i nx) as [I|I]; cbn [andb].
    + rewrite nth_error_repeat by auto. unfold zeros. destruct (Nat.ltb_spec j ny) as [J|J].
      * rewrite nth_error_repeat by auto. auto. * apply nth_error_None. rewrite repeat_length. auto.
    + rewrite (proj2 (nth_error_None _ _)) by (rewrite repeat_length; auto). auto.
Qed.
Lemma zipw_mat : forall f nx ny h k, zipw (zipw f) (mat nx ny h) (mat nx ny k) = mat nx ny (fun i j => f (h i j) (k i j)).
Proof. intros. unfold mat. rewrite zipw_map. apply map_ext. intros i. apply zipw_map. Qed.
Lemma map_mat : forall f nx ny h, map (map f) (mat nx ny h) = mat nx ny (fun i j => f (h i j)).
Proof. intros. unfold mat. rewrite map_map. apply map_ext. intros i. rewrite map_map. auto. Qed.

Lemma get_col2 : forall f pts i, (i < length pts)%nat -> get (col2 f pts) i = Ok (Some (f (nth i pts (Point2 0 0 0 0)))).
Proof.
  intros f pts i L. unfold get, col2. rewrite nth_error_map, (nth_error_nth' pts (Point2 0 0 0 0)) by auto. reflexivity.
Qed.
Definition pair_dec : forall a b : nat * nat, {a = b} + {a <> b}.
Proof. intros [a b] [c e]. destruct (Nat.eq_dec a c), (Nat.eq_dec b e); [left; congruence|right; congruence..]. Defined.

Lemma loop2d_gen : forall d pts bx zx by_ zy nx ny contrib (g : list (point2 -> R)), bx <> [] -> by_ <> [] ->
  ex2 d = col2 qx pts -> ey2 d = col2 qy pts ->
  (forall i, (i < length pts)%nat -> contrib i = Ok (map (fun f => Some (f (nth i pts (Point2 0 0 0 0)))) g)) ->
  loop2d d bx zx by_ zy nx ny (length g) contrib =
  Ok (map (fun f => mat nx ny (fun i j => Some (total f (filter (fun p => lands bx zx i (qx p) && lands by_ zy j (qy p)) pts)))) g).
Proof.
  intros d pts bx zx by_ zy nx ny contrib g BX BY DX DY HC. unfold loop2d. rewrite DX, DY. unfold col2 at 3. rewrite map_length.
  set (pt := fun i => nth i pts (Point2 0 0 0 0)).
  set (c := fun i => match locate bx zx (Some (qx (pt i))), locate by_ zy (Some (qy (pt i))) with Ok (Some a), Ok (Some b) => Some (a, b) | _, _ => None end).
  assert (CS : forall i, (do ix <- locate bx zx (Some (qx (pt i))); do iy <- locate by_ zy (Some (qy (pt i)));
              Ok (match ix, iy with Some a, Some b => Some (a, b) | _, _ => None end)) = Ok (c i)).
  { intros i. unfold c. destruct (locate_total bx zx (Some (qx (pt i))) BX) as (c1 & E1), (locate_total by_ zy (Some (qy (pt i))) BY) as (c2 & E2).
    rewrite E1, E2. cbn [bind]. destruct c1, c2; auto. }
  destruct (accumulate_spec bump2 (fun ij a => entry a (fst ij) (snd ij)) (map (@length num)) pair_dec) with
    (cell := fun i => do x0 <- get (col2 qx pts) i; do y0 <- get (col2 qy pts) i;
              do ix <- locate bx zx x0; do iy <- locate by_ zy y0;
              Ok (match ix, iy with Some a, Some b => Some (a, b) | _, _ => None end)) (contrib := contrib) (c := c)
    (v := fun i => map (fun f => Some (f (pt i))) g) (ps := seq 0 (length pts)) (arrs := repeat (repeat (zeros ny) nx) (length g)) as (arrs' & HA & HL & HM).
  - intros [i1 i2] v a [j1 j2]. rewrite entry_bump2. cbn [fst snd]. destruct (Nat.eq_dec i1 j1), (Nat.eq_dec i2 j2), (pair_dec (i1, i2) (j1, j2)); auto; congruence.
  - intros i v a. apply shape_bump2.
  - intros p P. apply in_seq in P. rewrite !get_col2 by lia. cbn [bind]. apply CS.
  - intros p P _. apply in_seq in P. rewrite HC by lia. rewrite map_length, repeat_length. auto.
  - rewrite HA. f_equal. apply nth_error_ext'. intros m.
    rewrite nth_error_map. destruct (nth_error g m) as [f|] eqn:G; cbn [option_map].
    2:{ apply nth_error_None. apply nth_error_None in G. rewrite repeat_length in HL. unfold num in *. lia. }
    assert (LM : (m < length g)%nat) by (apply nth_error_Some; congruence).
    destruct (HM m (repeat (zeros ny) nx)) as (a' & N' & S' & K'). { apply nth_error_repeat; auto. } rewrite N'. f_equal.
    rewrite zeros_mat in S', K'. rewrite shape_mat in S'. apply matrix_ext; [rewrite shape_mat; auto|].
    intros i j. specialize (K' (i, j)). cbn [fst snd] in K'. rewrite K', !entry_mat. destruct ((i <? nx)%nat && (j <? ny)%nat); [|auto].
    cbn [option_map]. f_equal.
    assert (NM : forall p, nth m (map (fun h => Some (h (pt p))) g) None = Some (f (pt p))).
    { intros p. apply nth_error_nth. rewrite nth_error_map, G. auto. }
    rewrite (map_ext _ _ NM).
    assert (FE : filter (hits pair_dec c (i, j)) (seq 0 (length pts)) =
                 filter (fun k => lands bx zx i (qx (pt k)) && lands by_ zy j (qy (pt k))) (seq 0 (length pts))).
    { apply filter_ext. intros k. unfold hits, lands, c. destruct (locate bx zx (Some (qx (pt k)))) as [[a|]|]; auto.
      destruct (locate by_ zy (Some (qy (pt k)))) as [[b|]|]; rewrite ?andb_false_r; auto.
      destruct (pair_dec (a, b) (i, j)), (Nat.eq_dec a i), (Nat.eq_dec b j); cbn; auto; congruence. }
    rewrite FE. unfold pt. rewrite <- (map_map (fun k => f (nth k pts (Point2 0 0 0 0))) (@Some R)).
    rewrite (map_filter_nth _ _ (Point2 0 0 0 0) f (fun p => lands bx zx i (qx p) && lands by_ zy j (qy p))).
    rewrite map_map, fold_nadd. f_equal. lra.
Qed.

Lemma loop2d_spec : forall d pts lox sx nx loy sy ny contrib (g : list (point2 -> R)), 0 < sx -> 0 < sy ->
  ex2 d = col2 qx pts -> ey2 d = col2 qy pts ->
  (forall i, (i < length pts)%nat -> contrib i = Ok (map (fun f => Some (f (nth i pts (Point2 0 0 0 0)))) g)) ->
  loop2d d (edges lox sx nx) (sx / 100) (edges loy sy ny) (sy / 100) nx ny (length g) contrib =
  Ok (map (fun f => mat nx ny (fun i j => Some (total f (cell lox sx loy sy i j pts)))) g).
Proof.
  intros d pts lox sx nx loy sy ny contrib g SX SY DX DY HC.
  rewrite (loop2d_gen d pts _ _ _ _ nx ny contrib g); auto; [|unfold edges; cbn; discriminate..].
  f_equal. apply map_ext. intros f. unfold mat. apply map_ext_in. intros i I. apply map_ext_in. intros j J. apply in_seq in I, J.
  do 2 f_equal. unfold cell. apply filter_ext. intros p. rewrite !lands_in_bin by (auto; lia). auto.
Qed.

Ltac contrib2_tac HZ := let i := fresh "i" in let L := fresh "L" in intros i L; cbn [map]; rewrite ?HZ, ?get_col2 by auto; cbn [bind nmul nbin]; reflexivity.

Section Closed2.
  Context (d : data2d) (pts : list point2) (lox hix sx loy hiy sy : R) (nx ny : nat).
  Hypothesis (H : holds2 d pts) (SX : 0 < sx) (LX : lox <= hix) (NX : bin_count lox hix sx nx) (SY : 0 < sy) (LY : loy <= hiy) (NY : bin_count loy hiy sy ny).
  Let T f i j := Some (total f (cell lox sx loy sy i j pts)).

  Lemma setup2 : rebin_setup (ex2 d) (Some lox, Some hix, sx) = Ok (lox, Z.of_nat nx, sx / 100, edges lox sx nx) /\
    rebin_setup (ey2 d) (Some loy, Some hiy, sy) = Ok (loy, Z.of_nat ny, sy / 100, edges loy sy ny) /\
    linspace lox (lox + sx * (IZR (Z.of_nat nx) - 1)) (Z.of_nat nx) = Ok (map (fun i => lox + INR i * sx) (seq 0 nx)) /\
    linspace loy (loy + sy * (IZR (Z.of_nat ny) - 1)) (Z.of_nat ny) = Ok (map (fun i => loy + INR i * sy) (seq 0 ny)).
  Proof.
    destruct (setup_spec (ex2 d) lox hix sx SX LX) as (m & M & _ & E & X). rewrite (bin_count_unique _ _ _ _ _ NX M).
    destruct (setup_spec (ey2 d) loy hiy sy SY LY) as (m2 & M2 & _ & E2 & X2). rewrite (bin_count_unique _ _ _ _ _ NY M2). auto.
  Qed.
  Lemma meshes : mesh_x (map (fun i => lox + INR i * sx) (seq 0 nx)) (map (fun i => loy + INR i * sy) (seq 0 ny)) = mat nx ny (fun i j => Some (lox + INR i * sx)) /\
    mesh_y (map (fun i => lox + INR i * sx) (seq 0 nx)) (map (fun i => loy + INR i * sy) (seq 0 ny)) = mat nx ny (fun i j => Some (loy + INR j * sy)).
  Proof. split; unfold mesh_x, mesh_y, mat. - rewrite map_map. apply map_ext. intros i. rewrite map_map. auto. - rewrite map_map. apply map_ext. intros i. rewrite map_map. auto. Qed.

  Lemma rebin_grid2d_eq : rebin_grid2d d (Some lox, Some hix, sx) (Some loy, Some hiy, sy) = Ok (Grid2D
      (mat nx ny (fun i j => Some (lox + INR i * sx))) (mat nx ny (fun i j => Some (loy + INR j * sy)))
      (mat nx ny (fun i j => ndiv (T qz i j) (T (fun _ => 1) i j))) (mat nx ny (fun i j => ndiv (nsqrt (T qz i j)) (T (fun _ => 1) i j))) (enorm2 d)).
  Proof.
    destruct H as (HX & HY & HZ). destruct setup2 as (E1 & E2 & E3 & E4). destruct meshes as (M1 & M2). unfold rebin_grid2d.
    rewrite E1. cbn [bind]. rewrite E2. cbn [bind snd]. rewrite E3. cbn [bind]. rewrite E4. cbn [bind]. rewrite !map_length, !seq_length.
    change 2%nat with (length [qz; (fun _ => 1)]). rewrite (loop2d_spec d pts); auto. 2:{ contrib2_tac HZ. }
    cbn [bind map]. rewrite M1, M2, map_mat, !zipw_mat. reflexivity.
  Qed.

  Lemma rebin_grid_renorm2d_eq : forall arg nv, normalised2 d arg pts ->
    rebin_grid_renorm2d d (Some lox, Some hix, sx) (Some loy, Some hiy, sy) arg nv = Ok (Grid2D
      (mat nx ny (fun i j => Some (lox + INR i * sx))) (mat nx ny (fun i j => Some (loy + INR j * sy)))
      (mat nx ny (fun i j => nmul (ndiv (T qz i j) (T qw i j)) (Some nv))) (mat nx ny (fun i j => nmul (ndiv (nsqrt (T qz i j)) (T qw i j)) (Some nv))) (enorm2 d)).
  Proof.
    intros arg nv HA. destruct H as (HX & HY & HZ). destruct setup2 as (E1 & E2 & E3 & E4). destruct meshes as (M1 & M2). unfold rebin_grid_renorm2d.
    assert (P : pick_norm arg (enorm2 d) = Ok (col2 qw pts)) by (destruct HA as [->|(-> & ->)]; auto). rewrite P. cbn [bind].
    rewrite E1. cbn [bind]. rewrite E2. cbn [bind snd]. rewrite E3. cbn [bind]. rewrite E4. cbn [bind]. rewrite !map_length, !seq_length.
    change 2%nat with (length [qz; qw]). rewrite (loop2d_spec d pts); auto. 2:{ contrib2_tac HZ. }
    cbn [bind map]. rewrite M1, M2, !map_mat, !zipw_mat, !map_mat. reflexivity.
  Qed.
End Closed2.
