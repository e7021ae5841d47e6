(** C69: scans combined along axes of reciprocal space and energy. *)
From Coq Require Import Reals List ZArith Bool String Arith Lra Lia Permutation.
From Verif Require Import Base LinAlg L_LinAlg M_ScanData M_Scan M_Labels M_Ellipsoid M_Reso M_Hkle P_Labels S_Grid S_Frame S_ScanData S_Hkle L_ScanData P_ScanData P_ScanData2 P_Scan.
Import ListNotations.
Open Scope R_scope.

Lemma masked_map : forall A B (f : A -> B) (q : A -> bool) l, masked (map q l) (map f l) = map f (filter q l).
Proof. intros. unfold masked. induction l as [|a l IH]; cbn; auto. destruct (q a); cbn; [f_equal|]; auto. Qed.
Lemma and_mask_map : forall A (p q : A -> bool) l, and_mask (map p l) (map q l) = map (fun a => p a && q a) l.
Proof. intros. unfold and_mask. induction l as [|a l IH]; cbn; auto. f_equal. auto. Qed.

Definition between (a b x : R) : bool := ngt (Some x) (Some a) && ngt (Some b) (Some x).
Lemma between_true : forall a b x, between a b x = true <-> a < x < b.
Proof. intros. unfold between, ngt. destruct (Rlt_dec a x), (Rlt_dec x b); cbn; split; auto; try discriminate; try tauto. Qed.

Lemma mask_loop_map : forall A plot (gp : list (option num * option num * option num)) (f : nat -> A -> R) (pts : list A) lo hi n i (q : A -> bool),
  (forall j, (i <= j < i + n)%nat -> existsb (Nat.eqb j) plot = false -> nth_error gp j = Some (Some (Some (lo j)), Some (Some (hi j)), None)) ->
  mask_loop plot gp (map (fun j => map (fun p => Some (f j p)) pts) (seq i n)) i (map q pts) =
  Ok (map (fun p => q p && forallb (fun j => existsb (Nat.eqb j) plot || between (lo j) (hi j) (f j p)) (seq i n)) pts).
Proof.
  intros A plot gp f pts lo hi n. induction n as [|n IH]; intros i q H.
  - cbn. f_equal. apply map_ext. intros. rewrite andb_true_r. auto.
  - cbn [seq map mask_loop]. destruct (existsb (Nat.eqb i) plot) eqn:E.
    + rewrite IH by (intros; apply H; auto; lia). f_equal. apply map_ext. intros. cbn [forallb]. rewrite E. auto.
    + rewrite (H i) by (auto; lia). cbn [bind in_window]. rewrite map_map. rewrite and_mask_map.
      rewrite IH by (intros; apply H; auto; lia). f_equal. apply map_ext. intros. cbn [forallb]. rewrite E. cbn [orb]. unfold between. rewrite !andb_assoc. reflexivity.
Qed.

(** The order in which the code holds the axes: the vectors, then the energy *)
Definition order (k : nat) (j : nat) : nat :=
  nth j (match k with 0 => [1; 2; 3; 0] | 1 => [0; 2; 3; 1] | 2 => [0; 1; 3; 2] | _ => [0; 1; 2; 3] end)%nat 0%nat.

Lemma good_coordinates : forall k a b c x, (k < 4)%nat -> is_vec a -> is_vec b -> is_vec c ->
  hkl_change (placed k En a b c) x = combination (x (order k 0)) (x (order k 1)) (x (order k 2)) (direction a) (direction b) (direction c) /\
  energy_change (placed k En a b c) x = x (order k 3).
Proof.
  intros k a b c x K A B C. destruct a, b, c; try contradiction. destruct k as [|[|[|[|k]]]]; [| | | |lia];
  cbn; unfold combination, vadd, vscale, vzero; cbn; split; try ring; f_equal; ring.
Qed.

Lemma triple_det : forall p1 p2 p3, det (of_cols p1 p2 p3) = dot p1 (cross p2 p3).
Proof. intros [] [] []. unfold det, of_cols, dot, cross. cbn. ring. Qed.
Lemma inverse_coords : forall p1 p2 p3 wi u v w, minv (of_cols p1 p2 p3) = Ok wi ->
  mv wi (combination u v w p1 p2 p3) = V u v w.
Proof.
  intros p1 p2 p3 wi u v w H. destruct (minv_spec _ _ H) as [_ [L _]].
  replace (combination u v w p1 p2 p3) with (mv (of_cols p1 p2 p3) (V u v w)).
  - rewrite <- mv_mm, L. apply mv_id.
  - destruct p1, p2, p3. unfold mv, of_cols, combination, dot, row0, row1, row2. cbn. f_equal; ring.
Qed.
Lemma coords_map : forall A r (h k l : A -> R) pts,
  zipw (fun hk l0 => ndot r (fst hk) (snd hk) l0) (combine (map (fun p => Some (h p)) pts) (map (fun p => Some (k p)) pts)) (map (fun p => Some (l p)) pts) =
  map (fun p => Some (dot r (V (h p) (k p) (l p)))) pts.
Proof. intros. induction pts as [|p pts IH]; cbn [map combine zipw]; auto. f_equal; auto. Qed.

(** Each point has exactly one set of coordinates along good axes. *)
Theorem C69_coordinates : forall axes p, good_axes axes -> exists c, coordinates axes c p /\
  forall c', coordinates axes c' p -> forall i, (i < 4)%nat -> c' i = c i.
Proof.
  intros axes p (k & a & b & d & K & A & B & D & -> & N).
  assert (M : exists wi, minv (of_cols (direction a) (direction b) (direction d)) = Ok wi).
  { rewrite minv_ok by (rewrite triple_det; auto). eauto. }
  destruct M as (wi & M). set (u := mv wi (p_hkl p)).
  set (c := fun i => if Nat.eqb i (order k 0) then vx u else if Nat.eqb i (order k 1) then vy u else if Nat.eqb i (order k 2) then vz u else p_en p).
  assert (C0 : c (order k 0) = vx u /\ c (order k 1) = vy u /\ c (order k 2) = vz u /\ c (order k 3) = p_en p).
  { unfold c. destruct k as [|[|[|[|k]]]]; [| | | |lia]; cbn; auto. }
  destruct C0 as (C0 & C1 & C2 & C3). clearbody c. exists c. split.
  - destruct (good_coordinates k a b d c K A B D) as [E1 E2]. unfold coordinates. rewrite E1, E2, C0, C1, C2, C3. split; auto.
    destruct (minv_spec _ _ M) as [_ [_ Rr]]. transitivity (mv (of_cols (direction a) (direction b) (direction d)) u).
    + destruct u, (direction a), (direction b), (direction d). unfold mv, of_cols, combination, dot, row0, row1, row2. cbn. f_equal; ring.
    + unfold u. rewrite <- mv_mm, Rr. apply mv_id.
  - intros c' [H1 H2] i I. destruct (good_coordinates k a b d c' K A B D) as [E1 E2]. rewrite E1 in H1. rewrite E2 in H2.
    pose proof (inverse_coords _ _ _ _ (c' (order k 0)) (c' (order k 1)) (c' (order k 2)) M) as X. rewrite H1 in X. fold u in X. clearbody u.
    assert (Y : u = V (vx u) (vy u) (vz u)) by (destruct u; auto). rewrite Y in X. injection X as X0 X1 X2.
    destruct k as [|[|[|[|k]]]]; [| | | |lia]; cbn [order nth] in *; destruct i as [|[|[|[|i]]]]; try lia; congruence.
Qed.
Print Assumptions C69_coordinates.

(** The grid as the code holds it, and the two axes that span the result *)
Lemma plotted : forall k (grid : list pparam) ix iy, (k < 4)%nat -> List.length grid = 4%nat -> (ix < iy < 4)%nat ->
  (forall i, (i < 4)%nat -> exists g, nth_error grid i = Some g /\ is_window g = negb (Nat.eqb i ix || Nat.eqb i iy)) ->
  exists plot0 i0 ge plot1 jx jy, axes_to_plot grid = Ok plot0 /\ hd_error plot0 = Some i0 /\ nth_error grid k = Some ge /\
    axes_to_plot (pop_at k grid ++ [ge]) = Ok plot1 /\ (if Nat.eqb k i0 then rev plot1 else plot1) = [jx; jy] /\
    (jx < 4)%nat /\ (jy < 4)%nat /\ order k jx = ix /\ order k jy = iy /\
    (forall j, (j < 4)%nat -> nth_error (pop_at k grid ++ [ge]) j = nth_error grid (order k j)) /\
    (forall j, (j < 4)%nat -> existsb (Nat.eqb j) [jx; jy] = (Nat.eqb (order k j) ix || Nat.eqb (order k j) iy)) /\
    List.length (pop_at k grid ++ [ge]) = 4%nat.
Proof.
  intros k grid ix iy K L I W. destruct grid as [|g0 [|g1 [|g2 [|g3 [|]]]]]; try discriminate.
  destruct (W 0%nat) as (x0 & E0 & W0); [lia|]. destruct (W 1%nat) as (x1 & E1 & W1); [lia|]. destruct (W 2%nat) as (x2 & E2 & W2); [lia|]. destruct (W 3%nat) as (x3 & E3 & W3); [lia|].
  cbn in E0, E1, E2, E3. injection E0 as <-. injection E1 as <-. injection E2 as <-. injection E3 as <-. clear W.
  unfold axes_to_plot. cbn [mapM nth_error bind]. rewrite W0, W1, W2, W3. clear L.
  destruct k as [|[|[|[|k]]]]; [| | | |lia]; (destruct ix as [|[|[|ix]]]; [| | |lia]); (destruct iy as [|[|[|[|iy]]]]; [| | | |lia]); try lia;
    cbn in W0, W1, W2, W3; cbn -[order]; do 6 eexists; (split; [reflexivity|]); (split; [reflexivity|]); (split; [reflexivity|]);
    cbn -[order]; rewrite ?W0, ?W1, ?W2, ?W3; cbn -[order]; (split; [reflexivity|]); cbn -[order]; (split; [reflexivity|]);
    (split; [lia|]); (split; [lia|]); (split; [reflexivity|]); (split; [reflexivity|]);
    (split; [intros j J; destruct j as [|[|[|[|j]]]]; [reflexivity|reflexivity|reflexivity|reflexivity|lia]|]);
    (split; [intros j J; destruct j as [|[|[|[|j]]]]; [reflexivity|reflexivity|reflexivity|reflexivity|lia]|]); reflexivity.
Qed.

Lemma axes_moved : forall k a b c, (k < 4)%nat -> is_vec a -> is_vec b -> is_vec c ->
  en_index (placed k En a b c) = Ok k /\ pop_at k (placed k En a b c) ++ [En] = [a; b; c; En].
Proof. intros k a b c K A B C. destruct a, b, c; try contradiction. destruct k as [|[|[|[|k]]]]; [| | | |lia]; auto. Qed.
Lemma vec_of_direction : forall a, is_vec a -> vec_of a = Some (direction a).
Proof. intros [|] H; [contradiction|reflexivity]. Qed.
Lemma fill_map : forall A (f g : A -> num) l, fill (List.length (map f l)) (map g l) = Ok (map g l).
Proof. intros. unfold fill. rewrite !map_length, Nat.eqb_refl. auto. Qed.
Lemma axes_labels : forall fmt3 a b c, is_vec a -> is_vec b -> is_vec c -> dot (direction a) (cross (direction b) (direction c)) <> 0 ->
  exists ls, labels_from_projection fmt3 (Some [a; b; c; En]) = Ok ls.
Proof.
  intros fmt3 a b c A B C N. destruct (C51_labels fmt3 [a; b; c; En]) as (ls & E & _); [|destruct a, b, c; try contradiction; cbn; lia|eauto].
  destruct a as [|a1 a2 a3], b as [|b1 b2 b3], c as [|c1 c2 c3]; try contradiction. cbn in N.
  assert (Z : forall x y z : comp, ~ (comp_val x = 0 /\ comp_val y = 0 /\ comp_val z = 0) -> nonzero (Vec x y z)).
  { intros x y z H. cbn. destruct (Req_EM_T (comp_val x) 0); [|auto]. destruct (Req_EM_T (comp_val y) 0); [|auto]. destruct (Req_EM_T (comp_val z) 0); [tauto|auto]. }
  unfold dot, cross in N. cbn in N.
  apply Forall_cons; [|apply Forall_cons; [|apply Forall_cons; [|apply Forall_cons; [exact I|constructor]]]]; apply Z; intros (X & Y & W); apply N; rewrite X, Y, W; ring.
Qed.

Lemma window_ok : forall lo hi, lo < hi -> format_rebin_params (PTup [Some (Some lo); Some (Some hi)]) = Ok (Some (Some lo), Some (Some hi), None).
Proof. intros. apply C28_accepts. split; [right; left; auto|]. split; [intros u w [= <-] [= <-]; auto|intros w; discriminate]. Qed.
Lemma filter_of_map : forall A B (q : B -> bool) (g : A -> B) l, filter q (map g l) = map g (filter (fun a => q (g a)) l).
Proof. intros. induction l as [|a l IH]; cbn; auto. destruct (q (g a)); cbn; rewrite IH; auto. Qed.
Lemma filter_twice : forall A (q r : A -> bool) l, filter q (filter r l) = filter (fun a => r a && q a) l.
Proof. intros. induction l as [|a l IH]; cbn; auto. destruct (r a); cbn; rewrite ?IH; auto. Qed.

Lemma amin_least : forall A (f : A -> R) l x, least None (map f l) x -> amin (map (fun p => Some (f p)) l) = Ok (Some x).
Proof.
  intros A f l x [I M]. destruct l as [|a l]; [contradiction|]. cbn [map amin]. f_equal. rewrite <- (map_map f Some).
  destruct (reduce_some Rmin (map f l) (f a)) as (v & V). rewrite V. f_equal. apply reduce_min in V. destruct V as (V1 & V2).
  apply Rle_antisym; [apply V2; exact I|apply M; exact V1].
Qed.
Lemma amax_greatest : forall A (f : A -> R) l x, greatest None (map f l) x -> amax (map (fun p => Some (f p)) l) = Ok (Some x).
Proof.
  intros A f l x [I M]. destruct l as [|a l]; [contradiction|]. cbn [map amax]. f_equal. rewrite <- (map_map f Some).
  destruct (reduce_some Rmax (map f l) (f a)) as (v & V). rewrite V. f_equal. apply reduce_max in V. destruct V as (V1 & V2).
  apply Rle_antisym; [apply M; exact V1|apply V2; exact I].
Qed.
Lemma asks_ok : forall g i a b st, asks g i a b st -> exists q, nth_error g i = Some q /\ is_window q = false /\ (forall x, within (Some q) x) /\ format_rebin_params q = Ok (option_map Some a, option_map Some b, Some (Some st)).
Proof.
  intros g i a b st ([E|(E & -> & ->)] & S & L).
  - exists (PTup [option_map Some a; option_map Some b; Some (Some st)]). split; [auto|]. split; [reflexivity|]. split; [intros x; destruct a, b; exact I|].
    apply C28_accepts. split; [left; auto|]. split; [|intros w [= <-]; exact (Rlt_le _ _ S)]. intros u w U W. destruct a; [|discriminate]. destruct b; [|discriminate]. injection U as <-. injection W as <-. apply L; auto.
  - exists (PNum (Some st)). split; [auto|]. split; [reflexivity|]. split; [intros x; exact I|]. apply C28_accepts. split; [right; right; exists (Some st); auto|]. split; [intros u w; discriminate|intros w [= <-]; exact (Rlt_le _ _ S)].
Qed.
Lemma ranges_ok : forall A (f : A -> R) l a b st x y, least a (map f l) x -> greatest b (map f l) y ->
  ranges (map (fun p => Some (f p)) l) (option_map Some a, option_map Some b, Some (Some st)) = Ok tt /\
  to_params (map (fun p => Some (f p)) l) (option_map Some a, option_map Some b, Some (Some st)) = Ok (a, b, st) /\
  rebin_setup (map (fun p => Some (f p)) l) (a, b, st) = rebin_setup (map (fun p => Some (f p)) l) (Some x, Some y, st).
Proof.
  intros A f l a b st x y LX LY.
  destruct a as [a|]; [cbn in LX; subst x|apply amin_least in LX]; (destruct b as [b|]; [cbn in LY; subst y|apply amax_greatest in LY]);
    unfold ranges, to_params, rebin_setup; cbn [option_map]; rewrite ?LX, ?LY; auto.
Qed.

(** What is left of the call once the scans are read and the pairs of the grid have been applied *)
Lemma hkle_core : forall fmt3 scans pts grid axes z ch v ix iy ax bx sx ay by_ sy coord,
  (forall s, In s scans -> holds4 s z ch (pts s)) -> good_axes axes -> List.length grid = 4%nat -> (ix < iy < 4)%nat ->
  asks grid ix ax bx sx -> asks grid iy ay by_ sy -> (forall i, (i < 4)%nat -> i <> ix -> i <> iy -> window grid i) ->
  let all := List.concat (map pts scans) in
  (forall p, In p all -> coordinates axes (coord p) p) ->
  let K := filter (fun p => kept grid (coord p)) all in
  let xs := map (fun p => Some (coord p ix)) K in let ys := map (fun p => Some (coord p iy)) K in
  let qx := (option_map Some ax, option_map Some bx, Some (Some sx)) in let qy := (option_map Some ay, option_map Some by_, Some (Some sy)) in
  combine_data_hkle fmt3 scans grid axes z (Some (v, ch)) =
  do _ <- ranges xs qx; do _ <- ranges ys qy; do p1 <- to_params xs qx; do p2 <- to_params ys qy;
  rebin2 (GridRenorm2 v) (new_data2d xs ys (map (fun p => Some (p_counts p)) K) (Some (map (fun p => Some (p_mon p)) K))) p1 p2 None.
Proof.
  intros fmt3 scans pts grid axes z ch v ix iy ax bx sx ay by_ sy coord H (k & a & b & c & K & A & B & C & EA & N) L I RX RY W all CO KK xs ys qx qy.
  destruct (asks_ok _ _ _ _ _ RX) as (gx0 & RX' & RX1 & RX2 & RX3). destruct (asks_ok _ _ _ _ _ RY) as (gy0 & RY' & RY1 & RY2 & RY3). clear RX RY. rename RX' into RX. rename RY' into RY.
  assert (WI : forall i, (i < 4)%nat -> exists g, nth_error grid i = Some g /\ is_window g = negb (Nat.eqb i ix || Nat.eqb i iy)).
  { intros i I4. destruct (Nat.eqb_spec i ix) as [->|NX']; [rewrite RX; eexists; split; [reflexivity|exact RX1]|]. destruct (Nat.eqb_spec i iy) as [->|NY']; [rewrite RY; eexists; split; [reflexivity|rewrite orb_true_r; exact RY1]|].
    destruct (W i I4 NX' NY') as (lo & hi & E & _). rewrite E. eexists; split; reflexivity. }
  destruct (plotted k grid ix iy K L I WI) as (plot0 & i0 & ge & plot1 & jx & jy & P0 & HD & GE & P1 & PL & JX & JY & OX & OY & GN & EX & LN).
  destruct (axes_moved k a b c K A B C) as [EN PA]. destruct (axes_labels fmt3 a b c A B C N) as (ls & LB).
  assert (M : exists wi, minv (of_cols (direction a) (direction b) (direction c)) = Ok wi) by (rewrite minv_ok by (rewrite triple_det; auto); eauto).
  destruct M as (wi & M).
  unfold combine_data_hkle. rewrite P0. cbn [bind]. rewrite EA, EN. cbn [bind]. destruct plot0 as [|i0' plot0]; [discriminate|]. cbn in HD. injection HD as ->. cbn [bind]. rewrite GE. cbn [bind]. rewrite P1, PA. cbn [bind]. rewrite PL.
  rewrite (mapM_map _ _ _ (fun s => map (fun p => Some (p_counts p)) (pts s))) by (intros s Is; apply (H s Is)). cbn [bind].
  set (row := fun (ps : list point4) => (map (fun p => Some (vx (p_hkl p))) ps, map (fun p => Some (vy (p_hkl p))) ps, map (fun p => Some (vz (p_hkl p))) ps, map (fun p => Some (p_en p)) ps,
    map (fun p => Some (p_counts p)) ps, map (fun p => Some (p_mon p)) ps)).
  rewrite (mapM_map _ _ _ (fun s => row (pts s))).
  2:{ intros s Is. destruct (H s Is) as (H1 & H2 & H3 & H4 & H5 & H6). cbv zeta in *. rewrite H1, H2, H3, H4, H5, H6. cbn [bind]. repeat (rewrite fill_map; cbn [bind]). reflexivity. }
  cbn [bind]. cbv zeta. rewrite !map_map. unfold row. cbn [fst snd].
  assert (CM : forall f : point4 -> num, List.concat (map (fun s => map f (pts s)) scans) = map f all).
  { intros f. unfold all. rewrite concat_map, map_map. reflexivity. }
  rewrite !CM.
  cbn [keep_some]. rewrite (vec_of_direction a A), (vec_of_direction b B), (vec_of_direction c C). cbn [vec_of]. rewrite M. cbn [bind].
  rewrite !(coords_map point4).
  set (f := fun j p => coord p (order k j)).
  match goal with |- context [mask_loop _ _ ?q 0 _] => assert (QE : q = map (fun j => map (fun p => Some (f j p)) all) (seq 0 4)) end.
  { assert (X : forall p, In p all -> mv wi (p_hkl p) = V (f 0%nat p) (f 1%nat p) (f 2%nat p) /\ p_en p = f 3%nat p).
    { intros p Ip. destruct (CO p Ip) as [C1 C2]. rewrite EA in C1, C2. destruct (good_coordinates k a b c (coord p) K A B C) as [E1 E2]. rewrite E1 in C1. rewrite E2 in C2.
      rewrite <- C1, <- C2. split; [apply inverse_coords; auto|reflexivity]. }
    assert (Y : forall p, V (vx (p_hkl p)) (vy (p_hkl p)) (vz (p_hkl p)) = p_hkl p) by (intros p; destruct (p_hkl p); auto).
    cbn [seq map]. f_equal; [|f_equal; [|f_equal; [|f_equal]]]; apply map_ext_in; intros p Ip; destruct (X p Ip) as [X1 X2]; rewrite ?Y, ?X2; auto; f_equal; unfold mv in X1; injection X1; auto. }
  rewrite !QE. clear QE.
  set (grid' := pop_at k grid ++ [ge]) in *.
  set (fp := fun q => match format_rebin_params q with Ok r => r | Err _ => (None, None, None) end).
  assert (FP : forall j q, (j < 4)%nat -> nth_error grid' j = Some q -> exists r, format_rebin_params q = Ok r).
  { intros j q J E. rewrite GN in E by auto. set (w := order k j) in *. assert (W4 : (w < 4)%nat) by (unfold w; destruct k as [|[|[|[|]]]]; destruct j as [|[|[|[|]]]]; cbn; lia).
    destruct (Nat.eq_dec w ix) as [->|D1]; [rewrite RX in E; injection E as <-; eauto|].
    destruct (Nat.eq_dec w iy) as [->|D2]; [rewrite RY in E; injection E as <-; eauto|].
    destruct (W w W4 D1 D2) as (lo & hi & E' & LH). rewrite E' in E. injection E as <-. rewrite window_ok by auto. eauto. }
  rewrite (mapM_map _ _ _ fp).
  2:{ intros q Iq. apply In_nth_error in Iq. destruct Iq as (j & E). assert (J : (j < 4)%nat) by (rewrite <- LN; apply nth_error_Some; congruence). destruct (FP j q J E) as (r & Er). unfold fp. rewrite Er. auto. }
  cbn [bind].
  set (lo := fun j => match nth_error grid (order k j) with Some (PTup [Some (Some x); Some (Some y)]) => x | _ => 0 end).
  set (hi := fun j => match nth_error grid (order k j) with Some (PTup [Some (Some x); Some (Some y)]) => y | _ => 0 end).
  assert (O4 : forall j, (j < 4)%nat -> (order k j < 4)%nat) by (intros j J; destruct k as [|[|[|[|]]]]; destruct j as [|[|[|[|]]]]; cbn; lia).
  assert (WJ : forall j, (j < 4)%nat -> existsb (Nat.eqb j) [jx; jy] = false -> nth_error grid (order k j) = Some (PTup [Some (Some (lo j)); Some (Some (hi j))]) /\ lo j < hi j).
  { intros j J E. rewrite EX in E by auto. apply orb_false_elim in E. destruct E as [E1 E2]. apply Nat.eqb_neq in E1, E2. destruct (W _ (O4 j J) E1 E2) as (l & h & E & LH). unfold lo, hi. rewrite E. auto. }
  change (map (fun _ : num => true) (map (fun p => Some (p_en p)) all)) with (map (fun _ : num => true) (map (fun p => Some (p_en p)) all)). rewrite map_map.
  rewrite (mask_loop_map _ [jx; jy] _ f all lo hi 4 0 (fun _ => true)).
  2:{ intros j J E. destruct (WJ j) as [E1 E2]; [lia|auto|]. rewrite nth_error_map, GN, E1 by lia. cbn [option_map]. unfold fp. rewrite window_ok by auto. auto. }
  cbn [bind].
  set (used := fun p => true && forallb (fun j => existsb (Nat.eqb j) [jx; jy] || between (lo j) (hi j) (f j p)) (seq 0 4)).
  assert (US : forall p, used p = kept grid (coord p)).
  { intros p. set (T := fun w => decb (within_dec (nth_error grid w) (coord p w))).
    assert (TI : forall w, T w = true <-> within (nth_error grid w) (coord p w)).
    { intros w. unfold T. destruct (within_dec (nth_error grid w) (coord p w)) as [Q|Q]; cbn [decb]; split; auto; try discriminate; try contradiction. }
    assert (TJ : forall j, (j < 4)%nat -> existsb (Nat.eqb j) [jx; jy] || between (lo j) (hi j) (f j p) = T (order k j)).
    { intros j J. destruct (existsb (Nat.eqb j) [jx; jy]) eqn:E.
      - rewrite EX in E by auto. cbn [orb]. symmetry. apply TI. apply orb_true_iff in E. destruct E as [E|E]; apply Nat.eqb_eq in E; rewrite E; [rewrite RX; apply RX2|rewrite RY; apply RY2].
      - destruct (WJ j J E) as [E1 E2]. cbn [orb]. apply eq_true_iff_eq. rewrite TI, between_true, E1. reflexivity. }
    unfold used, kept. fold T. change (seq 0 4) with [0; 1; 2; 3]%nat. cbn [forallb]. rewrite !TJ by lia. fold (T 0%nat) (T 1%nat) (T 2%nat) (T 3%nat).
    clear. destruct k as [|[|[|[|k]]]]; cbn [order nth]; destruct (T 0%nat), (T 1%nat), (T 2%nat), (T 3%nat); reflexivity. }
  fold used. change (fun p : point4 => true && forallb (fun j => existsb (Nat.eqb j) [jx; jy] || between (lo j) (hi j) (f j p)) (seq 0 4)) with used.
  match goal with |- context [nth jx ?x []] => assert (MK : x = map (fun j => map (fun p => Some (f j p)) (filter used all)) (seq 0 4)) end.
  { rewrite map_map. apply map_ext. intros j. apply (masked_map point4 num (fun p => Some (f j p))). }
  rewrite !MK, !(masked_map point4 num).
  assert (NT : forall j, (j < 4)%nat -> nth j (map (fun j => map (fun p => Some (f j p)) (filter used all)) (seq 0 4)) [] = map (fun p => Some (f j p)) (filter used all)).
  { intros j J. destruct j as [|[|[|[|j]]]]; [reflexivity|reflexivity|reflexivity|reflexivity|lia]. }
  rewrite !NT by auto. rewrite !nth_error_map, !GN by auto. rewrite OX, OY, RX, RY. cbn [option_map]. unfold fp. rewrite RX3, RY3. cbn [bind].
  assert (FK : filter used all = KK) by (apply filter_ext; exact US). rewrite !FK.
  assert (FX : forall p, f jx p = coord p ix) by (intros p; unfold f; rewrite OX; auto). assert (FY : forall p, f jy p = coord p iy) by (intros p; unfold f; rewrite OY; auto).
  rewrite !(map_ext (fun p => Some (f jx p)) (fun p => Some (coord p ix)) (fun p => f_equal Some (FX p))), !(map_ext (fun p => Some (f jy p)) (fun p => Some (coord p iy)) (fun p => f_equal Some (FY p))).
  fold xs ys qx qy. destruct (ranges xs qx); cbn [bind]; [|reflexivity]. destruct (ranges ys qy); cbn [bind]; [|reflexivity]. rewrite LB. reflexivity.
Qed.
(** The call is the rebinning, onto the two ranges, of the points that all pairs of the grid keep. *)
Lemma hkle_eq : forall fmt3 scans pts grid axes z ch v ix iy ax bx sx lox hix ay by_ sy loy hiy coord,
  (forall s, In s scans -> holds4 s z ch (pts s)) -> good_axes axes -> List.length grid = 4%nat -> (ix < iy < 4)%nat ->
  asks grid ix ax bx sx -> asks grid iy ay by_ sy -> (forall i, (i < 4)%nat -> i <> ix -> i <> iy -> window grid i) ->
  let all := List.concat (map pts scans) in
  (forall p, In p all -> coordinates axes (coord p) p) ->
  let K := filter (fun p => kept grid (coord p)) all in
  least ax (map (fun p => coord p ix) K) lox -> greatest bx (map (fun p => coord p ix) K) hix ->
  least ay (map (fun p => coord p iy) K) loy -> greatest by_ (map (fun p => coord p iy) K) hiy ->
  combine_data_hkle fmt3 scans grid axes z (Some (v, ch)) =
  rebin2 (GridRenorm2 v) (new_data2d (map (fun p => Some (coord p ix)) K) (map (fun p => Some (coord p iy)) K) (map (fun p => Some (p_counts p)) K) (Some (map (fun p => Some (p_mon p)) K)))
    (Some lox, Some hix, sx) (Some loy, Some hiy, sy) None.
Proof.
  intros fmt3 scans pts grid axes z ch v ix iy ax bx sx lox hix ay by_ sy loy hiy coord H GA L I RX RY W all CO K LX HX LY HY.
  rewrite (hkle_core fmt3 scans pts grid axes z ch v ix iy ax bx sx ay by_ sy coord) by assumption. fold all. fold K. cbv zeta.
  destruct (ranges_ok point4 (fun p => coord p ix) K ax bx sx lox hix LX HX) as (R1 & R2 & R3).
  destruct (ranges_ok point4 (fun p => coord p iy) K ay by_ sy loy hiy LY HY) as (R4 & R5 & R6).
  rewrite R1, R4. cbn [bind]. rewrite R2, R5. cbn [bind rebin2]. unfold rebin_grid_renorm2d. cbn [ex2 ey2 new_data2d]. rewrite R3, R6. reflexivity.
Qed.

(** The result has a cell for each pair of centres on the two ranges; it holds the counts per monitor of the points whose
    coordinates on the first and the second range are in the cell and whose other two are strictly inside the pairs. A missing
    end of a range is the least or the greatest coordinate of the points kept. *)
Theorem C69_cells : forall fmt3 scans pts grid axes z ch v ix iy ax bx sx lox hix nx ay by_ sy loy hiy ny coord,
  (forall s, In s scans -> holds4 s z ch (pts s)) -> good_axes axes -> List.length grid = 4%nat -> (ix < iy < 4)%nat ->
  asks grid ix ax bx sx -> asks grid iy ay by_ sy -> (forall i, (i < 4)%nat -> i <> ix -> i <> iy -> window grid i) ->
  let all := List.concat (map pts scans) in
  (forall p, In p all -> coordinates axes (coord p) p) ->
  let K := filter (fun p => kept grid (coord p)) all in
  least ax (map (fun p => coord p ix) K) lox -> greatest bx (map (fun p => coord p ix) K) hix -> lox <= hix -> bin_count lox hix sx nx ->
  least ay (map (fun p => coord p iy) K) loy -> greatest by_ (map (fun p => coord p iy) K) hiy -> loy <= hiy -> bin_count loy hiy sy ny ->
  exists g, combine_data_hkle fmt3 scans grid axes z (Some (v, ch)) = Ok g /\
    (forall m, In m [gx g; gy g; gz g; gerr g] -> map (@List.length num) m = repeat ny nx) /\
    forall i j, (i < nx)%nat -> (j < ny)%nat ->
      let C := filter (fun p => decb (in_bin_dec lox sx i (coord p ix)) && decb (in_bin_dec loy sy j (coord p iy))) K in
      entry (gx g) i j = Some (Some (lox + INR i * sx)) /\ entry (gy g) i j = Some (Some (loy + INR j * sy)) /\
      (total p_mon C <> 0 -> entry (gz g) i j = Some (Some (total p_counts C / total p_mon C * v)) /\
        (0 <= total p_counts C -> entry (gerr g) i j = Some (Some (sqrt (total p_counts C) / total p_mon C * v)))) /\
      (total p_mon C = 0 -> entry (gz g) i j = Some None /\ entry (gerr g) i j = Some None).
Proof.
  intros fmt3 scans pts grid axes z ch v ix iy ax bx sx lox hix nx ay by_ sy loy hiy ny coord H GA L I RX RY W all CO K LX HX RLX NX LY HY RLY NY.
  rewrite (hkle_eq fmt3 scans pts grid axes z ch v ix iy ax bx sx lox hix ay by_ sy loy hiy coord) by assumption. fold all. fold K.
  set (mk := fun p => Point2 (coord p ix) (coord p iy) (p_counts p) (p_mon p)).
  destruct (C29_cells (GridRenorm2 v) (new_data2d (map (fun p => Some (coord p ix)) K) (map (fun p => Some (coord p iy)) K) (map (fun p => Some (p_counts p)) K) (Some (map (fun p => Some (p_mon p)) K))) None (map mk K)
     lox hix sx nx loy hiy sy ny) as (g & E & SH & CE); auto; try (destruct RX as (_ & ? & _); lra); try (destruct RY as (_ & ? & _); lra).
  { unfold holds2, col2. cbn. rewrite !map_map. auto. }
  { right. split; auto. unfold col2. cbn. rewrite map_map. auto. }
  exists g. split; [exact E|]. split; [exact SH|]. intros i j Ii Ij C. specialize (CE i j Ii Ij). cbv zeta in CE.
  assert (CC : cell lox sx loy sy i j (map mk K) = map mk C) by (unfold cell; rewrite filter_of_map; reflexivity).
  rewrite CC in CE. cbn [denom2 factor2] in CE. rewrite !total_map in CE. cbn [mk qz qw] in CE. exact CE.
Qed.
Print Assumptions C69_cells.

(** Scans can be given in any order. *)
Theorem C69_order_independent : forall fmt3 scans scans' pts grid axes z ch v ix iy ax bx sx lox hix ay by_ sy loy hiy coord,
  Permutation scans scans' ->
  (forall s, In s scans -> holds4 s z ch (pts s)) -> good_axes axes -> List.length grid = 4%nat -> (ix < iy < 4)%nat ->
  asks grid ix ax bx sx -> asks grid iy ay by_ sy -> (forall i, (i < 4)%nat -> i <> ix -> i <> iy -> window grid i) ->
  let all := List.concat (map pts scans) in
  (forall p, In p all -> coordinates axes (coord p) p) ->
  let K := filter (fun p => kept grid (coord p)) all in
  least ax (map (fun p => coord p ix) K) lox -> greatest bx (map (fun p => coord p ix) K) hix ->
  least ay (map (fun p => coord p iy) K) loy -> greatest by_ (map (fun p => coord p iy) K) hiy ->
  arrays2 (combine_data_hkle fmt3 scans grid axes z (Some (v, ch))) = arrays2 (combine_data_hkle fmt3 scans' grid axes z (Some (v, ch))).
Proof.
  intros fmt3 scans scans' pts grid axes z ch v ix iy ax bx sx lox hix ay by_ sy loy hiy coord P H GA L I RX RY W all CO K LX HX LY HY.
  set (all' := List.concat (map pts scans')). assert (PA : Permutation all all').
  { unfold all, all'. rewrite <- !flat_map_concat_map. apply Permutation_flat_map. exact P. }
  set (K' := filter (fun p => kept grid (coord p)) all').
  assert (PK : Permutation K K') by (apply perm_filter; exact PA).
  assert (LE : forall a f x, least a (map f K) x -> least a (map f K') x).
  { intros [a|] f x; cbn; auto. intros [A B]. split; [eapply Permutation_in; [apply Permutation_map; exact PK|auto]|]. intros y Y. apply B. eapply Permutation_in; [apply Permutation_map; apply Permutation_sym; exact PK|auto]. }
  assert (GR : forall a f x, greatest a (map f K) x -> greatest a (map f K') x).
  { intros [a|] f x; cbn; auto. intros [A B]. split; [eapply Permutation_in; [apply Permutation_map; exact PK|auto]|]. intros y Y. apply B. eapply Permutation_in; [apply Permutation_map; apply Permutation_sym; exact PK|auto]. }
  rewrite (hkle_eq fmt3 scans pts grid axes z ch v ix iy ax bx sx lox hix ay by_ sy loy hiy coord) by assumption.
  rewrite (hkle_eq fmt3 scans' pts grid axes z ch v ix iy ax bx sx lox hix ay by_ sy loy hiy coord); try assumption; try (apply LE; assumption); try (apply GR; assumption).
  2:{ intros s Is. apply H. eapply Permutation_in; [apply Permutation_sym; exact P|exact Is]. }
  2:{ intros p Ip. apply CO. eapply Permutation_in; [apply Permutation_sym; exact PA|exact Ip]. }
  fold all all' K K'. set (mk := fun p => Point2 (coord p ix) (coord p iy) (p_counts p) (p_mon p)).
  apply (C29_order_independent (GridRenorm2 v) _ _ None None (map mk K) (map mk K')); [apply Permutation_map; exact PK| | | |];
    try (unfold holds2, col2; cbn; rewrite !map_map; auto); right; (split; [auto|]); unfold col2; cbn; rewrite map_map; auto.
Qed.
Print Assumptions C69_order_independent.

(** Without any point kept a missing end of a range cannot be found. *)
Theorem C69_nothing_kept : forall fmt3 scans pts grid axes z ch v ix iy ax bx sx ay by_ sy coord,
  (forall s, In s scans -> holds4 s z ch (pts s)) -> good_axes axes -> List.length grid = 4%nat -> (ix < iy < 4)%nat ->
  asks grid ix ax bx sx -> asks grid iy ay by_ sy -> (forall i, (i < 4)%nat -> i <> ix -> i <> iy -> window grid i) ->
  let all := List.concat (map pts scans) in
  (forall p, In p all -> coordinates axes (coord p) p) ->
  (forall p, In p all -> kept grid (coord p) = false) ->
  (ax = None \/ bx = None \/ ay = None \/ by_ = None) ->
  combine_data_hkle fmt3 scans grid axes z (Some (v, ch)) = Err ValueError.
Proof.
  intros fmt3 scans pts grid axes z ch v ix iy ax bx sx ay by_ sy coord H GA L I RX RY W all CO NK NO.
  rewrite (hkle_core fmt3 scans pts grid axes z ch v ix iy ax bx sx ay by_ sy coord) by assumption. fold all.
  assert (E : filter (fun p => kept grid (coord p)) all = []).
  { clear -NK. revert NK. clearbody all. intros NK. induction all as [|p l IH]; cbn [filter]; auto. rewrite NK by (left; auto). apply IH. intros q Q. apply NK. right; auto. }
  rewrite E. cbn [map]. destruct NO as [N|[N|[N|N]]]; rewrite N; destruct ax, bx, ay, by_; try discriminate; reflexivity.
Qed.
Print Assumptions C69_nothing_kept.

(** Exactly two of the four elements of the grid may be something else than a pair. Without any the error is another one. *)
Theorem C69_two_ranges : forall fmt3 scans grid axes z norm_to, good_axes axes -> List.length grid = 4%nat ->
  let n := List.length (filter (fun g => negb (is_pair g)) grid) in
  (n = 0%nat -> combine_data_hkle fmt3 scans grid axes z norm_to = Err IndexError) /\
  (n = 1%nat \/ n = 3%nat \/ n = 4%nat -> combine_data_hkle fmt3 scans grid axes z norm_to = Err ValueError).
Proof.
  intros fmt3 scans grid axes z norm_to (k & a & b & c & K & A & B & C & EA & N) L n.
  destruct grid as [|g0 [|g1 [|g2 [|g3 [|]]]]]; try discriminate. clear L.
  assert (P : forall g, is_window g = is_pair g) by (intros [| [|? [|? [|]]] |]; reflexivity).
  destruct (axes_moved k a b c K A B C) as [EN PA]. unfold combine_data_hkle. rewrite EA, EN.
  subst n. unfold axes_to_plot. cbn [mapM nth_error bind nth filter List.length]. rewrite !P.
  destruct k as [|[|[|[|k]]]]; [| | | |lia]; cbn [pop_at firstn skipn List.app mapM nth_error bind]; rewrite !P;
    destruct (is_pair g0), (is_pair g1), (is_pair g2), (is_pair g3); cbn [negb nth filter bind Nat.eqb rev List.app List.length];
    (split; [intros E; try discriminate; reflexivity|intros [E|[E|E]]; try discriminate; reflexivity]).
Qed.
Print Assumptions C69_two_ranges.

(** Three coplanar axes are refused. *)
Theorem C69_coplanar : forall fmt3 scans pts grid k a b c z ch v ix iy,
  (forall s, In s scans -> holds4 s z ch (pts s)) -> (k < 4)%nat -> is_vec a -> is_vec b -> is_vec c ->
  dot (direction a) (cross (direction b) (direction c)) = 0 -> List.length grid = 4%nat -> (ix < iy < 4)%nat ->
  (forall i g, nth_error grid i = Some g -> is_pair g = negb (Nat.eqb i ix || Nat.eqb i iy)) ->
  combine_data_hkle fmt3 scans grid (placed k En a b c) z (Some (v, ch)) = Err ValueError.
Proof.
  intros fmt3 scans pts grid k a b c z ch v ix iy H K A B C N L I W.
  assert (WI : forall i, (i < 4)%nat -> exists g, nth_error grid i = Some g /\ is_window g = negb (Nat.eqb i ix || Nat.eqb i iy)).
  { intros i I4. destruct (nth_error grid i) as [g|] eqn:E; [|apply nth_error_None in E; lia]. exists g. split; auto. rewrite <- (W i g E). destruct g as [| [|? [|? [|]]] |]; reflexivity. }
  destruct (plotted k grid ix iy K L I WI) as (plot0 & i0 & ge & plot1 & jx & jy & P0 & HD & GE & P1 & PL & JX & JY & OX & OY & GN & EX & LN).
  destruct (axes_moved k a b c K A B C) as [EN PA].
  assert (M : minv (of_cols (direction a) (direction b) (direction c)) = Err LinAlgError).
  { destruct (minv (of_cols (direction a) (direction b) (direction c))) as [wi|e] eqn:E; [|apply minv_err in E; destruct E as [_ ->]; auto].
    apply minv_spec in E. destruct E as [E _]. exfalso. apply E. rewrite triple_det; auto. }
  unfold combine_data_hkle. rewrite P0. cbn [bind]. rewrite EN. cbn [bind]. destruct plot0 as [|i0' plot0]; [discriminate|]. cbn in HD. injection HD as ->. cbn [bind]. rewrite GE. cbn [bind]. rewrite P1, PA. cbn [bind]. rewrite PL.
  rewrite (mapM_map _ _ _ (fun s => map (fun p => Some (p_counts p)) (pts s))) by (intros s Is; apply (H s Is)). cbn [bind].
  set (row := fun (ps : list point4) => (map (fun p => Some (vx (p_hkl p))) ps, map (fun p => Some (vy (p_hkl p))) ps, map (fun p => Some (vz (p_hkl p))) ps, map (fun p => Some (p_en p)) ps,
    map (fun p => Some (p_counts p)) ps, map (fun p => Some (p_mon p)) ps)).
  rewrite (mapM_map _ _ _ (fun s => row (pts s))).
  2:{ intros s Is. destruct (H s Is) as (H1 & H2 & H3 & H4 & H5 & H6). cbv zeta in *. rewrite H1, H2, H3, H4, H5, H6. cbn [bind]. repeat (rewrite fill_map; cbn [bind]). reflexivity. }
  cbn [bind]. cbv zeta. cbn [keep_some]. rewrite (vec_of_direction a A), (vec_of_direction b B), (vec_of_direction c C). cbn [vec_of]. rewrite M. reflexivity.
Qed.
Print Assumptions C69_coplanar.

(** Without a normalisation the common preset of the scans is used. *)
Theorem C69_default_normalisation : forall fmt3 scans grid axes z ch v, scans <> [] -> (forall s, In s scans -> s_preset s = Normal ch v) ->
  combine_data_hkle fmt3 scans grid axes z None = combine_data_hkle fmt3 scans grid axes z (Some (v, ch)).
Proof. intros fmt3 scans grid axes z ch v NE PN. unfold combine_data_hkle. rewrite (default_eq ch scans v NE PN). reflexivity. Qed.
Print Assumptions C69_default_normalisation.

(** Two scans, the second with a point the pairs exclude; energy from 0 to 2 against the extent along (1, 1, 0) *)
Example C69_example :
  let pts1 := [Point4 (V 1 1 0) 0 40 2; Point4 (V 2 2 0) 1 50 2] in let pts2 := [Point4 (V 1 1 1) 0 70 2] in
  let col f ps := map (fun p => Some (f p)) ps in
  let mk ps := Scan "en" "detector" (Normal "monitor" 2) [("qh", col (fun p => vx (p_hkl p)) ps); ("qk", col (fun p => vy (p_hkl p)) ps); ("ql", col (fun p => vz (p_hkl p)) ps);
    ("en", col p_en ps); ("detector", col p_counts ps); ("monitor", col p_mon ps)]%string in
  let pts s := match dget String.eqb "detector"%string (s_data s) with Some [_; _] => pts1 | _ => pts2 end in
  let axes := [En; Vec (CInt 1) (CInt 1) (CInt 0); Vec (CInt 1) (CInt (-1)) (CInt 0); Vec (CInt 0) (CInt 0) (CInt 1)] in
  let pair := PTup [Some (Some (-1/10)); Some (Some (1/10))] in
  let grid := [PTup [Some (Some 0); Some (Some 2); Some (Some 1)]; PNum (Some 1); pair; pair] in
  let coord p := fun i : nat => match i with 0%nat => p_en p | 1%nat => (vx (p_hkl p) + vy (p_hkl p)) / 2 | 2%nat => (vx (p_hkl p) - vy (p_hkl p)) / 2 | _ => vz (p_hkl p) end in
  let scans := [mk pts1; mk pts2] in let all := List.concat (map pts scans) in let K := filter (fun p => kept grid (coord p)) all in
  (forall s, In s scans -> holds4 s "detector" "monitor" (pts s)) /\ good_axes axes /\ asks grid 0 (Some 0) (Some 2) 1 /\ asks grid 1 None None 1 /\
  (forall i, (i < 4)%nat -> i <> 0%nat -> i <> 1%nat -> window grid i) /\ (forall p, In p all -> coordinates axes (coord p) p) /\
  K = pts1 /\ least None (map (fun p => coord p 1%nat) K) 1 /\ greatest None (map (fun p => coord p 1%nat) K) 2.
Proof.
  intros pts1 pts2 col mk pts axes pair grid coord scans all K.
  assert (EK : K = pts1).
  { unfold K. change all with [Point4 (V 1 1 0) 0 40 2; Point4 (V 2 2 0) 1 50 2; Point4 (V 1 1 1) 0 70 2]. cbn [filter].
    assert (Y : forall p, within (nth_error grid 2) (coord p 2%nat) -> within (nth_error grid 3) (coord p 3%nat) -> kept grid (coord p) = true).
    { intros p Y2 Y3. unfold kept. change (seq 0 4) with [0; 1; 2; 3]%nat. cbn [forallb].
      repeat match goal with |- context [within_dec ?a ?b] => destruct (within_dec a b) as [?|n]; [|exfalso; apply n; first [exact Logic.I|assumption]] end. reflexivity. }
    rewrite !Y by (cbn; lra).
    assert (Z : kept grid (coord (Point4 (V 1 1 1) 0 70 2)) = false).
    { unfold kept. change (seq 0 4) with [0; 1; 2; 3]%nat. cbn [forallb]. destruct (within_dec (nth_error grid 3) (coord (Point4 (V 1 1 1) 0 70 2) 3%nat)) as [Q|Q]; [cbn in Q; lra|]. cbn [decb]. rewrite !andb_false_r. reflexivity. }
    rewrite Z. reflexivity. }
  split; [intros s [<-|[<-|[]]]; repeat split|]. split.
  { exists 0%nat, (Vec (CInt 1) (CInt 1) (CInt 0)), (Vec (CInt 1) (CInt (-1)) (CInt 0)), (Vec (CInt 0) (CInt 0) (CInt 1)). repeat split; [lia|]. unfold dot, cross. cbn. replace (IZR (-1)) with (-1) by reflexivity. lra. }
  split; [split; [left; reflexivity|split; [lra|intros u v [= <-] [= <-]; lra]]|]. split; [split; [right; auto|split; [lra|intros u v; discriminate]]|].
  split; [intros i I4 N0 N1; destruct i as [|[|[|[|i]]]]; [lia|lia| | |lia]; (exists (-1/10), (1/10); split; [reflexivity|lra])|].
  split; [intros p _; destruct p as [[h k l] e c m]; split; [unfold axes, coord; cbn; unfold vadd, vscale, vzero; cbn; f_equal; lra|cbn; lra]|].
  split; [exact EK|]. rewrite EK. unfold pts1, coord. cbn. split; (split; [|intros y [<-|[<-|[]]]; lra]); [left; lra|right; left; lra].
Qed.
