(** Properties C22-C27: rebinning, renormalising and subtracting one-dimensional scan data. *)
From Coq Require Import Reals Lra Psatz List ZArith Lia Bool Permutation.
From Verif Require Import Base M_ScanData S_ScanData L_ScanData.
Import ListNotations.
Open Scope R_scope.

(** * C22 *)
(** The bins do not overlap, and together they are exactly the covered interval. *)
Theorem C22_one_bin : forall lo step n x, 0 < step ->
  (forall i j, in_bin lo step i x -> in_bin lo step j x -> i = j) /\
  (covered lo step n x <-> exists i, (i < n)%nat /\ in_bin lo step i x).
Proof.
  intros lo step n x S. split.
  - unfold in_bin. intros i j A B. destruct (Nat.lt_trichotomy i j) as [C|[C|C]]; auto; exfalso; apply le_INR in C; rewrite S_INR in C.
    + assert (0 <= (INR j - INR i - 1) * step) by (apply Rmult_le_pos; lra). lra.
    + assert (0 <= (INR i - INR j - 1) * step) by (apply Rmult_le_pos; lra). lra.
  - induction n as [|n IH].
    + unfold covered. cbn [INR]. split; [lra|]. intros (i & I & _). lia.
    + transitivity (covered lo step n x \/ in_bin lo step n x).
      * unfold covered, in_bin. rewrite S_INR. pose proof (pos_INR n) as P. assert (0 <= INR n * step) by (apply Rmult_le_pos; lra).
        destruct (Rlt_dec x (lo + (INR n - 1 / 2) * step - step / 100)); split; intros; lra.
      * rewrite IH. split. { intros [(i & I & X)|X]; [exists i; split; [lia|auto]|exists n; auto]. }
        intros (i & I & X). destruct (Nat.eq_dec i n) as [->|E]; [auto|]. left. exists i. split; [lia|auto].
Qed.
Print Assumptions C22_one_bin.

Lemma rebin_closed : forall k d arg pts lo hi step n, holds d pts -> suits k d arg pts -> 0 < step -> lo <= hi -> bin_count lo hi step n ->
  exists xs, rebin k d (Some lo, Some hi, step) arg = Ok (Data1D xs
    (map (fun i => nmul (ndiv (Some (total py (bin lo step i pts))) (Some (denom k (bin lo step i pts)))) (Some (factor k))) (seq 0 n)) (dnorm d)
    (map (fun i => nmul (ndiv (nsqrt (Some (total py (bin lo step i pts)))) (Some (denom k (bin lo step i pts)))) (Some (factor k))) (seq 0 n))) /\
  xs = map (fun i => if on_grid k then Some (lo + INR i * step)
       else ndiv (Some (total (fun p => px p * pw p) (bin lo step i pts))) (Some (total pw (bin lo step i pts)))) (seq 0 n).
Proof.
  assert (M1 : forall a, nmul a (Some 1) = a). { intros [a|]; cbn; auto. f_equal. ring. }
  intros k d arg pts lo hi step n H SU S L N. destruct k; cbn [rebin suits on_grid denom factor] in *.
  - eexists. rewrite (rebin_tol_eq d pts lo hi step n H S L N arg SU). split; [|reflexivity]. do 2 f_equal.
    + apply map_ext. intros i. rewrite total_1, M1. auto. + apply map_ext. intros i. rewrite total_1, M1. auto.
  - eexists. rewrite (rebin_tol_renorm_eq d pts lo hi step n H S L N arg norm_val SU). split; reflexivity.
  - eexists. rewrite (rebin_grid_eq d pts lo hi step n H S L N). split; [|reflexivity]. do 2 f_equal.
    + apply map_ext. intros i. rewrite total_1, M1. auto. + apply map_ext. intros i. rewrite total_1, M1. auto.
  - eexists. rewrite (rebin_grid_renorm_eq d pts lo hi step n H S L N arg norm_val SU). split; reflexivity.
Qed.

(** What comes out at bin [i] is decided by the points of that bin alone. *)
Theorem C22_bin_decides : forall k d1 d2 arg1 arg2 pts1 pts2 lo hi step d1' d2' i,
  holds d1 pts1 -> suits k d1 arg1 pts1 -> holds d2 pts2 -> suits k d2 arg2 pts2 -> 0 < step -> lo <= hi ->
  rebin k d1 (Some lo, Some hi, step) arg1 = Ok d1' -> rebin k d2 (Some lo, Some hi, step) arg2 = Ok d2' ->
  bin lo step i pts1 = bin lo step i pts2 ->
  nth_error (dx d1') i = nth_error (dx d2') i /\ nth_error (dy d1') i = nth_error (dy d2') i /\ nth_error (derr d1') i = nth_error (derr d2') i.
Proof.
  intros k d1 d2 arg1 arg2 pts1 pts2 lo hi step d1' d2' i H1 S1 H2 S2 S L E1 E2 BE.
  destruct (setup_spec [] lo hi step S L) as (n & N & _).
  destruct (rebin_closed k d1 arg1 pts1 lo hi step n H1 S1 S L N) as (x1 & R1 & X1).
  destruct (rebin_closed k d2 arg2 pts2 lo hi step n H2 S2 S L N) as (x2 & R2 & X2).
  rewrite R1 in E1. rewrite R2 in E2. apply Ok_inj in E1, E2. subst d1' d2' x1 x2. cbn [dx dy derr].
  rewrite !nth_error_map. destruct (nth_error (seq 0 n) i) as [j|] eqn:J; [|auto]. cbn [option_map].
  assert (j = i).
  { assert (IL : (i < length (seq 0 n))%nat) by (apply nth_error_Some; congruence). rewrite seq_length in IL.
    rewrite (nth_error_nth' _ 0%nat) in J by (rewrite seq_length; auto). rewrite seq_nth in J by auto. injection J as <-. auto. }
  subst j. rewrite BE. auto.
Qed.
Print Assumptions C22_bin_decides.

(** Points outside the covered interval do not matter at all. *)
Theorem C22_outside_ignored : forall k d1 d2 arg1 arg2 pts lo hi step n,
  0 < step -> lo <= hi -> bin_count lo hi step n ->
  let inside := filter (fun p => decb (covered_dec lo step n (px p))) pts in
  holds d1 pts -> suits k d1 arg1 pts -> holds d2 inside -> suits k d2 arg2 inside ->
  arrays (rebin k d1 (Some lo, Some hi, step) arg1) = arrays (rebin k d2 (Some lo, Some hi, step) arg2).
Proof.
  intros k d1 d2 arg1 arg2 pts lo hi step n S L N inside H1 S1 H2 S2.
  destruct (rebin_closed k d1 arg1 pts lo hi step n H1 S1 S L N) as (x1 & R1 & X1).
  destruct (rebin_closed k d2 arg2 inside lo hi step n H2 S2 S L N) as (x2 & R2 & X2).
  rewrite R1, R2. unfold arrays. cbn [rmap dx dy derr]. subst x1 x2.
  assert (BE : forall i, In i (seq 0 n) -> bin lo step i inside = bin lo step i pts).
  { intros i I. apply in_seq in I. unfold inside, bin. clear - S I. induction pts as [|p pts]; auto. cbn [filter].
    destruct (covered_dec lo step n (px p)) as [C|C]; cbn [decb]; [|].
    - cbn [filter]. rewrite IHpts. auto.
    - rewrite IHpts. destruct (in_bin_dec lo step i (px p)) as [X|X]; auto. exfalso. apply C.
      apply (proj2 (C22_one_bin lo step n (px p) S)). exists i. split; [lia|auto]. }
  f_equal. f_equal; [f_equal|]; apply map_ext_in; intros i I; rewrite (BE i I); auto.
Qed.
Print Assumptions C22_outside_ignored.

(** Without an explicit end the smallest or largest abscissa is used. *)
Lemma reduce_some : forall f l a, exists v, reduce f (Some a) (map Some l) = Some v.
Proof. induction l; intros; cbn; eauto. Qed.
Lemma reduce_min : forall l a v, reduce Rmin (Some a) (map Some l) = Some v -> In v (a :: l) /\ forall x, In x (a :: l) -> v <= x.
Proof.
  induction l as [|b l]; intros a v H; cbn [map reduce] in H.
  - injection H as <-. split; [left; auto|]. intros x [->|[]]. lra.
  - cbn [nbin] in H. apply IHl in H. destruct H as (A & B). split.
    + destruct A as [A|A]; [|right; right; auto]. unfold Rmin in A. destruct (Rle_dec a b); [left|right; left]; auto.
    + intros x [->|[->|X]]. * apply Rle_trans with (Rmin x b); [apply B; left; auto|apply Rmin_l].
      * apply Rle_trans with (Rmin a x); [apply B; left; auto|apply Rmin_r]. * apply B. right; auto.
Qed.
Lemma reduce_max : forall l a v, reduce Rmax (Some a) (map Some l) = Some v -> In v (a :: l) /\ forall x, In x (a :: l) -> x <= v.
Proof.
  induction l as [|b l]; intros a v H; cbn [map reduce] in H.
  - injection H as <-. split; [left; auto|]. intros x [->|[]]. lra.
  - cbn [nbin] in H. apply IHl in H. destruct H as (A & B). split.
    + destruct A as [A|A]; [|right; right; auto]. unfold Rmax in A. destruct (Rle_dec a b); [right; left|left]; auto.
    + intros x [->|[->|X]]. * apply Rle_trans with (Rmax x b); [apply Rmax_l|apply B; left; auto].
      * apply Rle_trans with (Rmax a x); [apply Rmax_r|apply B; left; auto]. * apply B. right; auto.
Qed.

Theorem C22_default_range : forall k d arg pts lo hi step, holds d pts -> pts <> [] ->
  (forall p, In p pts -> lo <= px p) -> (exists p, In p pts /\ px p = lo) ->
  (forall p, In p pts -> px p <= hi) -> (exists p, In p pts /\ px p = hi) ->
  forall q, rebin k d (None, q, step) arg = rebin k d (Some lo, q, step) arg /\
            rebin k d (q, None, step) arg = rebin k d (q, Some hi, step) arg.
Proof.
  intros k d arg pts lo hi step (HX & HY) NE L1 (p1 & P1 & Q1) L2 (p2 & P2 & Q2) q.
  assert (A : amin (dx d) = Ok (Some lo)).
  { rewrite HX. destruct pts as [|p pts]; [congruence|]. unfold col, amin. cbn [map]. f_equal.
    rewrite <- (map_map px Some). destruct (reduce_some Rmin (map px pts) (px p)) as (v & V). rewrite V. f_equal.
    apply reduce_min in V. change (px p :: map px pts) with (map px (p :: pts)) in V. destruct V as (V1 & V2).
    apply in_map_iff in V1. destruct V1 as (p' & <- & P'). apply Rle_antisym; [|apply L1; auto]. rewrite <- Q1. apply V2. apply in_map; auto. }
  assert (B : amax (dx d) = Ok (Some hi)).
  { rewrite HX. destruct pts as [|p pts]; [congruence|]. unfold col, amax. cbn [map]. f_equal.
    rewrite <- (map_map px Some). destruct (reduce_some Rmax (map px pts) (px p)) as (v & V). rewrite V. f_equal.
    apply reduce_max in V. change (px p :: map px pts) with (map px (p :: pts)) in V. destruct V as (V1 & V2).
    apply in_map_iff in V1. destruct V1 as (p' & <- & P'). apply Rle_antisym; [apply L2; auto|]. rewrite <- Q2. apply V2. apply in_map; auto. }
  assert (E1 : rebin_setup (dx d) (None, q, step) = rebin_setup (dx d) (Some lo, q, step)) by (unfold rebin_setup; rewrite A; auto).
  assert (E2 : rebin_setup (dx d) (q, None, step) = rebin_setup (dx d) (q, Some hi, step)) by (unfold rebin_setup; rewrite B; auto).
  destruct k; cbn [rebin]; unfold rebin_tol, rebin_tol_renorm, rebin_grid, rebin_grid_renorm; rewrite E1, E2; cbn [snd]; auto.
Qed.
Print Assumptions C22_default_range.

(** * C23 *)
Lemma total_bins : forall f lo step n pts, 0 < step ->
  total (fun i => total f (bin lo step i pts)) (seq 0 n) = total f (filter (fun p => decb (covered_dec lo step n (px p))) pts).
Proof.
  intros f lo step n pts S. unfold bin.
  rewrite (total_ext _ (fun i => total f (filter (fun p => decb (in_bin_dec lo step i (px p))) pts))
    (fun i => total (fun p => if decb (in_bin_dec lo step i (px p)) then f p else 0) pts)) by (intros; apply total_filter).
  rewrite total_swap, total_filter. apply total_ext. intros p _.
  induction n as [|n IH].
  - cbn [seq total]. destruct (covered_dec lo step 0 (px p)) as [C|C]; auto. exfalso. unfold covered in C. cbn [INR] in C. lra.
  - rewrite seq_S, total_app, IH. cbn [total plus]. unfold decb.
    pose proof (C22_one_bin lo step n (px p) S) as (U & C1). pose proof (C22_one_bin lo step (Datatypes.S n) (px p) S) as (_ & C2).
    destruct (covered_dec lo step n (px p)) as [A|A], (in_bin_dec lo step n (px p)) as [B|B], (covered_dec lo step (Datatypes.S n) (px p)) as [D|D]; try lra; exfalso.
    + destruct (proj1 C1 A) as (i & I & A'). specialize (U i n A' B). lia.
    + destruct (proj1 C1 A) as (i & I & A'). specialize (U i n A' B). lia.
    + apply D. apply (proj2 C2). destruct (proj1 C1 A) as (i & I & A'). exists i. split; [lia|auto].
    + apply D. apply (proj2 C2). exists n. split; [lia|auto].
    + destruct (proj1 C2 D) as (i & I & D'). destruct (Nat.eq_dec i n) as [->|E]; auto. apply A. apply (proj2 C1). exists i. split; [lia|auto].
Qed.

(** Summed over the bins, value times denominator gives back all the counts inside the covered interval (times the
    normalisation value), the denominators add up to the normalisation (or number of points) inside it, and no point is
    lost or counted twice. *)
Theorem C23_counts_conserved : forall k d arg pts lo hi step n d',
  holds d pts -> suits k d arg pts -> 0 < step -> lo <= hi -> bin_count lo hi step n ->
  (forall p, In p pts -> 0 < pw p) ->
  rebin k d (Some lo, Some hi, step) arg = Ok d' ->
  let inside := filter (fun p => decb (covered_dec lo step n (px p))) pts in
  total (fun i => value (dy d') i * denom k (bin lo step i pts)) (seq 0 n) = factor k * total py inside /\
  total (fun i => denom k (bin lo step i pts)) (seq 0 n) = denom k inside /\
  total (fun i => INR (length (bin lo step i pts))) (seq 0 n) = INR (length inside).
Proof.
  intros k d arg pts lo hi step n d' H SU S L N W E inside.
  destruct (rebin_closed k d arg pts lo hi step n H SU S L N) as (xs & R1 & _). rewrite R1 in E. apply Ok_inj in E. subst d'. cbn [dy].
  assert (CNT : total (fun i => INR (length (bin lo step i pts))) (seq 0 n) = INR (length inside)).
  { rewrite <- total_1. unfold inside. rewrite <- total_bins by auto. apply total_ext. intros i _. rewrite total_1. auto. }
  split; [|split; auto].
  - unfold inside. rewrite <- (total_bins py lo step n pts S), <- total_scale. apply total_ext. intros i I. apply in_seq in I.
    unfold value. rewrite nth_error_map, (nth_error_nth' _ 0%nat) by (rewrite seq_length; lia). rewrite seq_nth by lia. cbn [option_map plus].
    set (B := bin lo step i pts). unfold ndiv. destruct (Req_EM_T (denom k B) 0) as [Z|Z].
    + cbn [nmul nbin]. rewrite Z. assert (BE : B = []).
      { destruct B as [|p B'] eqn:BB; auto. exfalso. assert (PB : forall q, In q (p :: B') -> 0 < pw q).
        { intros q Q. rewrite <- BB in Q. unfold B, bin in Q. apply filter_In in Q. apply W, Q. }
        assert (0 < total pw (p :: B')) by (apply total_pos; auto; discriminate).
        assert (0 < INR (length (p :: B'))) by (apply lt_0_INR; cbn; lia).
        destruct k; cbn [denom] in Z; lra. }
      rewrite BE. cbn [total]. ring.
    + cbn [nmul nbin]. field. auto.
  - destruct k; cbn [denom]; auto; unfold inside; apply total_bins; auto.
Qed.
Print Assumptions C23_counts_conserved.

(** * C24 *)
Theorem C24_bins : forall k d arg pts lo hi step n, holds d pts -> suits k d arg pts -> 0 < step -> lo <= hi -> bin_count lo hi step n ->
  exists d', rebin k d (Some lo, Some hi, step) arg = Ok d' /\
    length (dx d') = n /\ length (dy d') = n /\ length (derr d') = n /\ dnorm d' = dnorm d /\
    forall i, (i < n)%nat -> let B := bin lo step i pts in
      (denom k B <> 0 -> nth_error (dy d') i = Some (Some (total py B / denom k B * factor k)) /\
        (0 <= total py B -> nth_error (derr d') i = Some (Some (sqrt (total py B) / denom k B * factor k)))) /\
      (denom k B = 0 -> nth_error (dy d') i = Some None /\ nth_error (derr d') i = Some None) /\
      (on_grid k = true -> nth_error (dx d') i = Some (Some (lo + INR i * step))) /\
      (on_grid k = false -> total pw B <> 0 -> nth_error (dx d') i = Some (Some (total (fun p => px p * pw p) B / total pw B))).
Proof.
  intros k d arg pts lo hi step n H SU S L N. destruct (rebin_closed k d arg pts lo hi step n H SU S L N) as (xs & R1 & X).
  eexists. split; [exact R1|]. subst xs. cbn [dx dy derr dnorm]. rewrite !map_length, !seq_length. do 4 (split; [reflexivity|]).
  intros i I. set (B := bin lo step i pts). rewrite !nth_error_map, (nth_error_nth' _ 0%nat) by (rewrite seq_length; lia). rewrite seq_nth by lia. cbn [option_map plus]. fold B.
  split; [|split; [|split]].
  - intros Z. unfold ndiv. destruct (Req_EM_T (denom k B) 0) as [|_]; [lra|]. split; auto.
    intros P. unfold nsqrt. destruct (Rlt_dec (total py B) 0); [lra|]. auto.
  - intros Z. unfold ndiv. destruct (Req_EM_T (denom k B) 0) as [_|]; [|lra]. split; auto. unfold nsqrt. destruct (Rlt_dec (total py B) 0); auto.
  - intros ->. auto.
  - intros -> Z. unfold ndiv. destruct (Req_EM_T (total pw B) 0); [lra|]. auto.
Qed.
Print Assumptions C24_bins.

(** With tolerance the abscissa of a populated bin lies in the bin, for positive weights. *)
Theorem C24_x_inside_bin : forall k d arg pts lo hi step n d' i, holds d pts -> suits k d arg pts -> 0 < step -> lo <= hi ->
  bin_count lo hi step n -> on_grid k = false -> rebin k d (Some lo, Some hi, step) arg = Ok d' -> (i < n)%nat ->
  bin lo step i pts <> [] -> (forall p, In p pts -> 0 < pw p) ->
  exists x, nth_error (dx d') i = Some (Some x) /\ in_bin lo step i x.
Proof.
  intros k d arg pts lo hi step n d' i H SU S L N G E I NE W.
  destruct (C24_bins k d arg pts lo hi step n H SU S L N) as (d2 & E2 & _ & _ & _ & _ & F). rewrite E in E2. apply Ok_inj in E2. subst d2.
  destruct (F i I) as (_ & _ & _ & X). set (B := bin lo step i pts) in *.
  assert (PB : forall q, In q B -> 0 < pw q /\ in_bin lo step i (px q)).
  { intros q Q. unfold B, bin in Q. apply filter_In in Q. destruct Q as (Q1 & Q2). split; [auto|]. unfold decb in Q2. destruct (in_bin_dec lo step i (px q)); [auto|discriminate]. }
  assert (WP : 0 < total pw B) by (apply total_pos; auto; intros q Q; apply PB; auto).
  eexists. split; [apply X; auto; lra|]. unfold in_bin.
  set (a := lo + (INR i - 1 / 2) * step - step / 100). set (b := lo + (INR i + 1 / 2) * step - step / 100).
  assert (P1 : 0 <= total (fun p => (px p - a) * pw p) B).
  { apply total_nonneg. intros q Q. destruct (PB q Q) as (W1 & I1). unfold in_bin in I1. fold a b in I1. apply Rmult_le_pos; lra. }
  assert (P2 : 0 < total (fun p => (b - px p) * pw p) B).
  { apply total_pos; auto. intros q Q. destruct (PB q Q) as (W1 & I1). unfold in_bin in I1. fold a b in I1. apply Rmult_lt_0_compat; lra. }
  assert (Q1 : total (fun p => (px p - a) * pw p) B = total (fun p => px p * pw p) B - a * total pw B).
  { rewrite <- total_scale. clear. clearbody a. induction B; cbn [total]; [lra|]. rewrite IHB. lra. }
  assert (Q2 : total (fun p => (b - px p) * pw p) B = b * total pw B - total (fun p => px p * pw p) B).
  { rewrite <- total_scale. clear. clearbody b. induction B; cbn [total]; [lra|]. rewrite IHB. lra. }
  rewrite Q1 in P1. rewrite Q2 in P2. split.
  - apply (Rmult_le_reg_r (total pw B)); auto. unfold Rdiv. rewrite Rmult_assoc, Rinv_l, Rmult_1_r by lra. lra.
  - apply (Rmult_lt_reg_r (total pw B)); auto. unfold Rdiv. rewrite Rmult_assoc, Rinv_l, Rmult_1_r by lra. lra.
Qed.
Print Assumptions C24_x_inside_bin.

(** With no normalisation at all, the calls that need one raise ValueError. *)
Theorem C24_needs_normalisation : forall k d p, k <> Grid -> dnorm d = None -> rebin k d p None = Err ValueError.
Proof.
  intros k d p K D. destruct k; try congruence; cbn [rebin]; unfold rebin_tol, rebin_tol_renorm, rebin_grid_renorm; rewrite D; reflexivity.
Qed.
Print Assumptions C24_needs_normalisation.

(** * C25 *)
Lemma perm_filter : forall A (h : A -> bool) l m, Permutation l m -> Permutation (filter h l) (filter h m).
Proof.
  intros A h l m P. induction P; cbn; auto.
  - destruct (h x); auto. - destruct (h x), (h y); auto. apply perm_swap. - eapply perm_trans; eauto.
Qed.

Lemma reduce_perm : forall (f : R -> R -> R), (forall a b, f a b = f b a) -> (forall a b c, f a (f b c) = f (f a b) c) ->
  forall l m, Permutation l m ->
  match l, m with a :: l', b :: m' => reduce f (Some a) (map Some l') = reduce f (Some b) (map Some m') | [], [] => True | _, _ => False end.
Proof.
  intros f C A. assert (RF : forall l a, reduce f (Some a) (map Some l) = Some (fold_left f l a)).
  { induction l; intros; cbn; auto. }
  assert (FP : forall l m, Permutation l m -> forall a, fold_left f l a = fold_left f m a).
  { intros l m P. induction P; intros a; cbn; auto. - f_equal. rewrite <- A, (C y x), A. auto. - rewrite IHP1; auto. }
  assert (HD : forall l a b, fold_left f (b :: l) a = fold_left f (a :: l) b) by (intros; cbn; rewrite C; auto).
  intros l m P. induction P.
  - auto.
  - destruct l as [|a l], l' as [|b l']; auto.
    + apply Permutation_nil_cons in P. contradiction. + apply Permutation_sym, Permutation_nil_cons in P. contradiction.
    + rewrite !RF. f_equal. apply FP. auto.
  - rewrite !RF. f_equal. apply HD.
  - destruct l as [|a l], l' as [|b l'], l'' as [|c l'']; auto; try contradiction. congruence.
Qed.

Lemma col_perm : forall f l m, Permutation l m -> Permutation (col f l) (col f m).
Proof. intros. unfold col. apply Permutation_map. auto. Qed.

Lemma setup_perm : forall pts1 pts2 p, Permutation pts1 pts2 -> rebin_setup (col px pts1) p = rebin_setup (col px pts2) p.
Proof.
  intros pts1 pts2 [[pmin pmax] step] P. pose proof (Permutation_map px P) as PX.
  assert (A : amin (col px pts1) = amin (col px pts2)).
  { pose proof (reduce_perm Rmin Rmin_comm Rmin_assoc _ _ PX) as Q. unfold amin, col. rewrite <- !(map_map px Some).
    destruct (map px pts1), (map px pts2); try contradiction; cbn [map]; congruence. }
  assert (B : amax (col px pts1) = amax (col px pts2)).
  { pose proof (reduce_perm Rmax Rmax_comm Rmax_assoc _ _ PX) as Q. unfold amax, col. rewrite <- !(map_map px Some).
    destruct (map px pts1), (map px pts2); try contradiction; cbn [map]; congruence. }
  unfold rebin_setup. rewrite A, B. auto.
Qed.

Lemma loop1d_perm : forall d1 d2 pts1 pts2 b zero n c1 c2 (g : list (point -> R)), Permutation pts1 pts2 ->
  dx d1 = col px pts1 -> dx d2 = col px pts2 ->
  (forall i, (i < length pts1)%nat -> c1 i = Ok (map (fun f => Some (f (nth i pts1 (Point 0 0 0)))) g)) ->
  (forall i, (i < length pts2)%nat -> c2 i = Ok (map (fun f => Some (f (nth i pts2 (Point 0 0 0)))) g)) ->
  loop1d d1 b zero n (length g) c1 = loop1d d2 b zero n (length g) c2.
Proof.
  intros d1 d2 pts1 pts2 b zero n c1 c2 g P X1 X2 C1 C2. destruct b as [|e b].
  - unfold loop1d. rewrite X1, X2. unfold col at 2 4. rewrite !map_length. rewrite <- (Permutation_length P).
    destruct pts1 as [|p pts1]; auto. destruct pts2 as [|q pts2]; [apply Permutation_sym, Permutation_nil_cons in P; contradiction|].
    reflexivity.
  - rewrite (loop1d_gen d1 pts1), (loop1d_gen d2 pts2); auto; try discriminate. f_equal. apply map_ext. intros f. apply map_ext. intros i.
    f_equal. apply total_perm, perm_filter. auto.
Qed.

Ltac perm_step d1 d2 pts1 pts2 X1 Y1 X2 Y2 :=
  match goal with |- rmap _ (bind ?l _) = rmap _ (bind ?m _) =>
    let LE := fresh "LE" in
    assert (LE : l = m); [apply (loop1d_perm d1 d2 pts1 pts2); auto; [contrib_tac X1 Y1|contrib_tac X2 Y2]|];
    rewrite LE; destruct m as [[|a1 [|a2 [|a3 [|a4 [|]]]]]|]; auto end.

(** For every range (explicit or default) and every step, permuting the points changes nothing, not even the exception. *)
Theorem C25_order_independent : forall k d1 d2 arg1 arg2 pts1 pts2 p, Permutation pts1 pts2 ->
  holds d1 pts1 -> suits k d1 arg1 pts1 -> holds d2 pts2 -> suits k d2 arg2 pts2 ->
  arrays (rebin k d1 p arg1) = arrays (rebin k d2 p arg2).
Proof.
  intros k d1 d2 arg1 arg2 pts1 pts2 p P (X1 & Y1) S1 (X2 & Y2) S2. unfold arrays.
  assert (E : rebin_setup (dx d1) p = rebin_setup (dx d2) p) by (rewrite X1, X2; apply setup_perm; auto).
  destruct k; cbn [rebin suits] in *; unfold rebin_tol, rebin_tol_renorm, rebin_grid, rebin_grid_renorm.
  - rewrite (pick_normalised _ _ _ S1), (pick_normalised _ _ _ S2), E. cbn [bind]. destruct (rebin_setup (dx d2) p) as [[[[lo n] zero] b]|]; cbn [bind]; auto.
    change 4%nat with (length [py; (fun p => px p * pw p); pw; (fun _ => 1)]).
    perm_step d1 d2 pts1 pts2 X1 Y1 X2 Y2.
  - rewrite (pick_normalised _ _ _ S1), (pick_normalised _ _ _ S2), E. cbn [bind]. destruct (rebin_setup (dx d2) p) as [[[[lo n] zero] b]|]; cbn [bind]; auto.
    change 3%nat with (length [py; (fun p => px p * pw p); pw]).
    perm_step d1 d2 pts1 pts2 X1 Y1 X2 Y2.
  - rewrite E. cbn [bind]. destruct (rebin_setup (dx d2) p) as [[[[lo n] zero] b]|]; cbn [bind]; auto.
    destruct (linspace lo (lo + snd p * (IZR n - 1)) n) as [x|]; cbn [bind]; auto.
    change 2%nat with (length [py; (fun _ => 1)]).
    perm_step d1 d2 pts1 pts2 X1 Y1 X2 Y2.
  - rewrite (pick_normalised _ _ _ S1), (pick_normalised _ _ _ S2), E. cbn [bind]. destruct (rebin_setup (dx d2) p) as [[[[lo n] zero] b]|]; cbn [bind]; auto.
    destruct (linspace lo (lo + snd p * (IZR n - 1)) n) as [x|]; cbn [bind]; auto.
    change 2%nat with (length [py; pw]).
    perm_step d1 d2 pts1 pts2 X1 Y1 X2 Y2.
Qed.
Print Assumptions C25_order_independent.

(** * C26 *)
Lemma zipw_nth : forall A B C (f : A -> B -> C) l m i a b, nth_error l i = Some a -> nth_error m i = Some b -> nth_error (zipw f l m) i = Some (f a b).
Proof. induction l as [|x l]; intros [|y m] [|i] a b; cbn; try discriminate; [congruence|apply IHl]. Qed.
Lemma zipw_length : forall A B C (f : A -> B -> C) l m, length l = length m -> length (zipw f l m) = length l.
Proof. induction l; intros [|y m] H; cbn in *; try discriminate; auto. Qed.

(** [renorm] multiplies every value and every error by norm_val/norm and leaves the abscissae alone. *)
Theorem C26_scales : forall d arg c nv,
  (arg = Some c \/ (arg = None /\ dnorm d = Some c)) -> length c = length (dy d) -> length (derr d) = length (dy d) ->
  exists d', renorm d arg nv = Ok d' /\ dx d' = dx d /\ length (dy d') = length (dy d) /\ length (derr d') = length (dy d) /\
    forall i y e w, nth_error (dy d) i = Some (Some y) -> nth_error (derr d) i = Some (Some e) -> nth_error c i = Some (Some w) ->
      w <> 0 ->
      exists y' e', nth_error (dy d') i = Some (Some y') /\ nth_error (derr d') i = Some (Some e') /\
        y' = y * (nv / w) /\ e' = e * (nv / w) /\
        (y <> 0 -> nv <> 0 -> e' / y' = e / y).
Proof.
  intros d arg c nv A L1 L2. unfold renorm. assert (P : pick_norm arg (dnorm d) = Ok c) by (destruct A as [->|(-> & ->)]; auto).
  rewrite P. cbn [bind]. unfold bcast. rewrite L2, L1, Nat.eqb_refl. cbn [bind].
  eexists. split; [reflexivity|]. cbn [dx dy derr]. rewrite !map_length, !zipw_length by (unfold num in *; congruence).
  split; [auto|split; [auto|split; [auto|]]].
  intros i y e w Y E W NZ. exists (y * (nv / w)), (e * (nv / w)).
  rewrite !nth_error_map, (zipw_nth _ _ _ _ _ _ _ _ _ Y W), (zipw_nth _ _ _ _ _ _ _ _ _ E W). cbn [option_map ndiv].
  destruct (Req_EM_T w 0); [lra|]. cbn [nmul nbin]. split; [|split; [|split; [|split]]]; auto.
  - do 2 f_equal. field; auto. - do 2 f_equal. field; auto. - intros. field. auto.
Qed.
Print Assumptions C26_scales.

(** ... and raises ValueError exactly when there is no normalisation. *)
Theorem C26_raises : forall d arg nv,
  (forall c, arg = Some c -> length c = length (dy d)) -> (forall c, dnorm d = Some c -> length c = length (dy d)) -> length (derr d) = length (dy d) ->
  (forall e, renorm d arg nv = Err e <-> e = ValueError /\ arg = None /\ dnorm d = None).
Proof.
  intros d arg nv LA LD LE e. split.
  - destruct arg as [c|], (dnorm d) as [c'|] eqn:D; intros H.
    + destruct (C26_scales d (Some c) c nv) as (d' & E & _); auto. congruence.
    + destruct (C26_scales d (Some c) c nv) as (d' & E & _); auto. congruence.
    + destruct (C26_scales d None c' nv) as (d' & E & _); auto. congruence.
    + unfold renorm in H. rewrite D in H. cbn in H. split; [congruence|auto].
  - intros (-> & -> & D). unfold renorm. rewrite D. reflexivity.
Qed.
Print Assumptions C26_raises.

(** Renormalising with [norm] to [nv] and then with [nv/norm] to 1 restores all finite data. *)
Theorem C26_restores : forall d c nv d1, nv <> 0 -> length c = length (dy d) -> length (derr d) = length (dy d) ->
  (forall w, In w c -> exists r, w = Some r /\ r <> 0) ->
  renorm d (Some c) nv = Ok d1 ->
  renorm d1 (Some (map (fun w => ndiv (Some nv) w) c)) 1 = Ok d.
Proof.
  intros d c nv d1 NV L1 L2 W H.
  assert (G : forall l, length l = length c -> map (fun v => nmul v (Some 1)) (zipw ndiv (map (fun v => nmul v (Some nv)) (zipw ndiv l c)) (map (fun w => ndiv (Some nv) w) c)) = l).
  { clear - NV W. induction c as [|w c]; intros [|a l] L; cbn in L; try discriminate; auto. cbn [zipw map].
    rewrite IHc; [|intros; apply W; right; auto|congruence]. f_equal.
    destruct (W w (or_introl eq_refl)) as (r & -> & R). destruct a as [a|]; [|reflexivity]. cbn [ndiv].
    destruct (Req_EM_T r 0); [lra|]. cbn [nmul nbin ndiv]. destruct (Req_EM_T (nv / r) 0) as [Z|Z].
    { exfalso. apply NV. replace nv with (nv / r * r) by (field; auto). rewrite Z. ring. }
    cbn. f_equal. field. auto. }
  assert (BC : forall l m : list num, length l = length m -> bcast ndiv l m = Ok (zipw ndiv l m)).
  { intros l m E. unfold bcast. rewrite E, Nat.eqb_refl. reflexivity. }
  assert (L3 : length (derr d) = length c) by (unfold num in *; congruence).
  unfold renorm in *. cbn [pick_norm bind] in *. rewrite !BC in H by (unfold num in *; congruence). cbn [bind] in H.
  apply Ok_inj in H. subst d1. cbn [dx dy derr dnorm].
  rewrite !BC by (rewrite !map_length, zipw_length; unfold num in *; congruence).
  cbn [bind]. rewrite !G by (unfold num in *; congruence). destruct d; reflexivity.
Qed.
Print Assumptions C26_restores.

(** * C27 *)
(** On data of equal length, [d - o] keeps the abscissae of [d], subtracts the values and adds the errors in quadrature,
    and leaves [o] alone. *)
Theorem C27_same_length : forall d o, length (dx d) = length (dx o) ->
  length (dy d) = length (dx d) -> length (derr d) = length (dx d) -> length (dy o) = length (dx o) -> length (derr o) = length (dx o) ->
  exists r, sub_data d o = (o, Ok r) /\ dx r = dx d /\ length (dy r) = length (dx d) /\ length (derr r) = length (dx d) /\
    forall i y1 e1 y2 e2, nth_error (dy d) i = Some (Some y1) -> nth_error (derr d) i = Some (Some e1) ->
      nth_error (dy o) i = Some (Some y2) -> nth_error (derr o) i = Some (Some e2) ->
      nth_error (dy r) i = Some (Some (y1 - y2)) /\ nth_error (derr r) i = Some (Some (sqrt (e1 * e1 + e2 * e2))).
Proof.
  intros d o L L1 L2 L3 L4. unfold sub_data. rewrite (proj2 (Nat.eqb_eq _ _) L).
  assert (BC : forall f (l m : list num), length l = length m -> bcast f l m = Ok (zipw f l m)).
  { intros f l m E. unfold bcast. rewrite E, Nat.eqb_refl. reflexivity. }
  rewrite !BC by (unfold num in *; congruence). cbn [bind].
  eexists. split; [reflexivity|]. cbn [dx dy derr]. rewrite ?map_length, !zipw_length by (unfold num in *; congruence).
  split; [auto|split; [auto|split; [auto|]]].
  intros i y1 e1 y2 e2 Y1 E1 Y2 E2. split. { rewrite (zipw_nth _ _ _ nsub _ _ _ _ _ Y1 Y2); reflexivity. }
  rewrite nth_error_map, (zipw_nth _ _ _ _ _ _ _ _ _ E1 E2). cbn [option_map nadd nmul nbin nsqrt].
  destruct (Rlt_dec (e1 * e1 + e2 * e2) 0) as [B|B]; auto. exfalso. pose proof (Rle_0_sqr e1). pose proof (Rle_0_sqr e2). unfold Rsqr in *. lra.
Qed.
Print Assumptions C27_same_length.

(** On data of different lengths no number ever comes out: the call raises, or every value is nan. *)
Theorem C27_different_lengths : forall d o o' r, length (dx d) <> length (dx o) -> length (dy d) = length (dx d) ->
  sub_data d o = (o', Ok r) -> Forall (fun v : num => v = None) (dy r) /\ Forall (fun v : num => v = None) (derr r).
Proof.
  assert (NN : forall n, zipw ndiv (zeros n) (zeros n) = repeat (None : num) n).
  { unfold zeros. induction n; auto. cbn [repeat zipw]. rewrite IHn. f_equal. cbn. destruct (Req_EM_T 0 0); [auto|lra]. }
  assert (Z : forall (f : num -> num -> num) n (l : list num) m, (forall a, f a None = None) -> bcast f l (repeat (None : num) n) = Ok m -> Forall (fun v : num => v = None) m).
  { intros f n l m F H. assert (ZZ : forall a b, Forall (fun v : num => v = None) b -> Forall (fun v : num => v = None) (zipw f a b)).
    { induction a; intros [|b0 b] B; cbn; auto. inversion B; subst. constructor; auto. }
    assert (RN : forall k, Forall (fun v : num => v = None) (repeat (None : num) k)) by (induction k; cbn; constructor; auto).
    unfold bcast in H. destruct (Nat.eqb (length l) (length (repeat (None : num) n))).
    - apply Ok_inj in H. subst m. apply ZZ, RN.
    - specialize (RN n). destruct (repeat (None : num) n) as [|b [|b2 bs]] eqn:E.
      + destruct l as [|x [|]]; try discriminate. apply Ok_inj in H. subst m. constructor.
      + inversion RN; subst. assert (H' : m = map (fun x => f x None) l) by (destruct l as [|x [|]]; cbn in H; apply Ok_inj in H; auto).
        subst m. apply Forall_forall. intros v V. apply in_map_iff in V. destruct V as (x & <- & _). apply F.
      + destruct l as [|x [|]]; try discriminate. apply Ok_inj in H. subst m. apply Forall_forall. intros v V. apply in_map_iff in V.
        destruct V as (y & <- & Y). rewrite Forall_forall in RN. rewrite (RN y Y). apply F. }
  intros d o o' r L LY H. unfold sub_data in H. destruct (Nat.eqb_spec (length (dx d)) (length (dx o))) as [E|_]; [contradiction|].
  match goal with H : match ?m with _ => _ end = _ |- _ => destruct m end; [|injection H; intros; discriminate].
  injection H as _ H. cbn [dy derr] in H. rewrite NN in H.
  destruct (bcast nsub (dy d) (repeat (None : num) (length (dx d)))) as [y|] eqn:Y; [|discriminate].
  destruct (bcast (fun a b => nadd (nmul a a) (nmul b b)) (derr d) (repeat (None : num) (length (dx d)))) as [e2|] eqn:E2; cbn [bind] in H; [|discriminate].
  apply Ok_inj in H. subst r. cbn [dy derr]. split.
  - eapply Z; [|exact Y]. intros [q|]; reflexivity.
  - apply Z in E2. 2:{ intros [q|]; reflexivity. }
    apply Forall_forall. intros v V. apply in_map_iff in V. destruct V as (w & <- & W). rewrite Forall_forall in E2. rewrite (E2 w W). reflexivity.
Qed.
Print Assumptions C27_different_lengths.

(** Worse, the call can overwrite the counts of its right operand with nan (a subtraction should leave its operands alone). *)
Theorem C27_operand_destroyed_refuted :
  exists d o o' r, sub_data d o = (o', Ok r) /\ dy o = [Some 7] /\ dy o' = [None; None].
Proof.
  exists (new_data1d [Some 0; Some 1] [Some 4; Some 9] None), (new_data1d [Some 5] [Some 7] None). unfold sub_data, new_data1d. cbn.
  destruct (Req_EM_T 2 0); [lra|]. cbn. destruct (Rlt_dec (1 + (1 - 0) / 2) 5); [|lra]. cbn.
  destruct (Req_EM_T 0 0); [|lra]. cbn. eexists _, _. split; [reflexivity|]. auto.
Qed.
Print Assumptions C27_operand_destroyed_refuted.

(** A point of the right operand inside the range of the left one stops the call with AttributeError. *)
Theorem C27_different_lengths_raises : forall a b (l : list num) y e nrm o x,
  length (dx o) <> S (S (length l)) ->
  In (Some x) (dx o) -> a - (b - a) / 2 <= x -> (exists c, last ((Some b : num) :: l) None = Some c /\ x <= c) -> Forall (fun v => exists r, v = Some r) l ->
  (forall i u v, nth_error ((Some a : num) :: (Some b : num) :: l) i = Some (Some u) -> nth_error ((Some a : num) :: (Some b : num) :: l) (S i) = Some (Some v) -> u <= v) ->
  sub_data (Data1D (Some a :: Some b :: l) y nrm e) o = (o, Err AttributeError).
Proof.
  intros a b l y e nrm o x L IN LO (c & LC & HI) FN INC. unfold sub_data. cbn [dx]. destruct (Nat.eqb_spec (@length num (Some a :: Some b :: l)) (length (dx o))) as [E|_].
  { exfalso. cbn in E. unfold num in *. lia. }
  set (xs := (Some a : num) :: (Some b : num) :: l) in *.
  assert (LD : length (diff xs) = S (length l)).
  { unfold xs. clear. generalize (Some a). generalize (Some b). induction l as [|q l]; intros u v; auto. cbn [diff length]. f_equal. apply (IHl q u). }
  assert (ND : forall i u v, nth_error xs i = Some u -> nth_error xs (S i) = Some v -> nth_error (diff xs) i = Some (nsub v u)).
  { generalize xs. clear. induction xs as [|p [|q xs]]; intros i u v; [destruct i; discriminate|destruct i as [|[|]]; discriminate|].
    destruct i; [cbn; congruence|]. intros A B. cbn [diff]. apply (IHxs i u v A B). }
  assert (LAST : @nth_error num xs (S (length l)) = Some (Some c)).
  { unfold xs. clear - LC. revert LC. cbn [nth_error]. generalize (Some b). induction l as [|q l]; intros u LC; [cbn in *; unfold num in *; congruence|]. cbn [length nth_error].
    change (last (u :: q :: l) None) with (last (q :: l) None) in LC. apply IHl in LC. auto. }
  assert (exists u, @nth_error num xs (length l) = Some (Some u)) as (u & U).
  { destruct (nth_error xs (length l)) as [w|] eqn:W.
    - destruct (nth_error_In _ _ W) as [<-|[<-|IW]]; [eauto|eauto|]. rewrite Forall_forall in FN. destruct (FN w IW) as (r & ->). eauto.
    - apply nth_error_None in W. unfold xs in W. cbn in W. lia. }
  pose proof (ND _ _ _ U LAST) as LASTD. cbn [nsub nbin] in LASTD.
  assert (D0 : @nth_error num (diff xs) 0 = Some (Some (b - a))) by (apply (ND 0%nat (Some a) (Some b)); reflexivity).
  pose proof (INC _ _ _ U LAST) as UC.
  assert (G1 : last_num (diff xs) = Ok (Some (c - u))) by (unfold last_num, get; rewrite LD; cbn [pred]; rewrite LASTD; auto).
  assert (G2 : get xs 0 = Ok (Some a)) by reflexivity.
  assert (G3 : get (diff xs ++ @cons num (Some (c - u)) nil)%list 0 = Ok (Some (b - a))) by (unfold get; rewrite nth_error_app1 by (rewrite LD; lia); rewrite D0; auto).
  assert (G4 : last_num xs = Ok (Some c)) by (unfold last_num, get; change (pred (length xs)) with (S (length l)); rewrite LAST; auto).
  assert (G5 : last_num (diff xs ++ @cons num (Some (c - u)) nil)%list = Ok (Some (c - u))).
  { unfold last_num, get. rewrite app_length, LD. cbn [length]. rewrite nth_error_app2 by (rewrite LD; lia).
    replace (pred (S (length l) + 1) - length (diff xs))%nat with 0%nat by lia. auto. }
  change (@cons (option R) (Some a) (@cons (option R) (Some b) l)) with xs. cbv beta zeta.
  rewrite G1. cbn [bind]. rewrite G2. cbn [bind]. rewrite G3. cbn [bind]. rewrite G4. cbn [bind]. rewrite G5. cbn [bind ndiv].
  destruct (Req_EM_T 2 0); [lra|]. cbn [nsub nadd nbin].
  destruct (forallb _ (dx o)) eqn:F; auto. exfalso. rewrite forallb_forall in F. specialize (F _ IN). apply orb_true_iff in F.
  unfold ngt in F. destruct F as [F|F].
  - destruct (Rlt_dec (c + (c - u) / 2) x); [lra|discriminate].
  - destruct (Rlt_dec x (a - (b - a) / 2)); [lra|discriminate].
Qed.
Print Assumptions C27_different_lengths_raises.

(** The hypotheses of C22-C25 can be met: three points in two bins. *)
Example C22_example : let pts := [Point 0 4 2; Point (1/10) 5 1; Point 1 9 3] in
  let d := new_data1d (col px pts) (col py pts) None in
  holds d pts /\ suits (TolRenorm 2) d (Some (col pw pts)) pts /\ bin_count 0 1 1 2 /\ (forall p, In p pts -> 0 < pw p) /\
  bin 0 1 0 pts = [Point 0 4 2; Point (1/10) 5 1] /\ bin 0 1 1 pts = [Point 1 9 3].
Proof.
  intros pts d. split; [split; auto|split; [left; auto|split; [|split]]].
  - intros i. split.
    + intros H. destruct i as [|[|i]]; [cbn; lra|cbn; lra|lia].
    + intros H. destruct i as [|[|i]]; [lia|lia|]. exfalso. rewrite !S_INR in H. pose proof (pos_INR i). lra.
  - intros p [<-|[<-|[<-|[]]]]; cbn [pw]; lra.
  - unfold bin, pts. cbn [filter px].
    repeat match goal with |- context [in_bin_dec ?a ?b ?c ?x] =>
      let n := fresh "n" in
      destruct (in_bin_dec a b c x) as [n|n]; [try (exfalso; unfold in_bin in n; cbn [INR] in n; lra)|try (exfalso; apply n; unfold in_bin; cbn [INR]; lra)] end;
    cbn [decb]; auto.
Qed.

(** The counts of [C22_example], rebinned: what C23 and C24 say of them. *)
Example C23_ex : let pts := [Point 0 4 2; Point (1/10) 5 1; Point 1 9 3; Point 7 100 5] in
  let d := new_data1d (col px pts) (col py pts) None in
  exists d', rebin (TolRenorm 2) d (Some 0, Some 1, 1) (Some (col pw pts)) = Ok d' /\
    holds d pts /\ suits (TolRenorm 2) d (Some (col pw pts)) pts /\ bin_count 0 1 1 2 /\
    filter (fun p => decb (covered_dec 0 1 2 (px p))) pts = [Point 0 4 2; Point (1/10) 5 1; Point 1 9 3] /\ bin 0 1 0 pts <> [].
Proof.
  intros pts d. assert (H : holds d pts) by (split; auto). assert (S : suits (TolRenorm 2) d (Some (col pw pts)) pts) by (left; auto).
  assert (N : bin_count 0 1 1 2).
  { intros i. split.
    + intros K. destruct i as [|[|i]]; [cbn; lra|cbn; lra|lia].
    + intros K. destruct i as [|[|i]]; [lia|lia|]. exfalso. rewrite !S_INR in K. pose proof (pos_INR i). lra. }
  destruct (C24_bins _ _ _ _ 0 1 1 2 H S ltac:(lra) ltac:(lra) N) as (d' & D & _). exists d'. repeat (split; [now auto|]). split.
  - unfold pts. cbn [filter px].
    repeat match goal with |- context [covered_dec ?a ?b ?c ?x] => let n := fresh "n" in
      destruct (covered_dec a b c x) as [n|n]; [try (exfalso; unfold covered in n; cbn [INR] in n; lra)|try (exfalso; apply n; unfold covered; cbn [INR]; lra)] end;
    cbn [decb]; auto.
  - unfold bin, pts. cbn [filter px]. destruct (in_bin_dec 0 1 0 0) as [n|n]; [discriminate|]. exfalso. apply n. unfold in_bin. cbn [INR]. lra.
Qed.
(** The same points in another order, with the normalisation in the data set once and as an argument once. *)
Example C25_ex : let pts1 := [Point 0 4 2; Point (1/10) 5 1; Point 1 9 3] in let pts2 := [Point 1 9 3; Point 0 4 2; Point (1/10) 5 1] in
  let d1 := new_data1d (col px pts1) (col py pts1) (Some (col pw pts1)) in let d2 := new_data1d (col px pts2) (col py pts2) None in
  Permutation pts1 pts2 /\ holds d1 pts1 /\ suits Tol d1 None pts1 /\ holds d2 pts2 /\ suits Tol d2 (Some (col pw pts2)) pts2.
Proof.
  intros pts1 pts2 d1 d2. split; [apply (Permutation_trans (l' := [Point 0 4 2; Point 1 9 3; Point (1/10) 5 1])); [apply perm_skip, perm_swap|apply perm_swap]|].
  repeat split; auto; [right; auto|left; auto].
Qed.
Example C26_ex : let d := new_data1d [Some 0; Some 1] [Some 4; Some 9] None in let c := [Some 2; Some 3] in
  List.length c = List.length (dy d) /\ List.length (derr d) = List.length (dy d) /\ (forall w : num, In w c -> exists r, w = Some r /\ r <> 0) /\
  exists d1, renorm d (Some c) 10 = Ok d1 /\ renorm d None 10 = Err ValueError.
Proof.
  intros d c. assert (L : List.length (derr d) = List.length (dy d)) by reflexivity. repeat (split; [reflexivity|]).
  split; [intros w [<-|[<-|[]]]; eexists; split; [reflexivity|lra|reflexivity|lra]|].
  destruct (C26_scales d (Some c) c 10 (or_introl eq_refl) eq_refl L) as (d1 & D & _). exists d1. split; auto.
Qed.
Example C27_ex : let d := new_data1d [Some 0; Some 1] [Some 4; Some 9] None in let o := new_data1d [Some 0; Some 1] [Some 1; Some 4] None in
  let o' := new_data1d [Some 0; Some (1/2); Some 1] [Some 1; Some 4; Some 4] None in
  exists r, sub_data d o = (o, Ok r) /\ dx r = dx d /\ List.length (dx d) = List.length (dy d) /\ List.length (dx d) <> List.length (dx o') /\ sub_data d o' = (o', Err AttributeError).
Proof.
  intros d o o'. destruct (C27_same_length d o eq_refl eq_refl eq_refl eq_refl eq_refl) as (r & R & X & _). exists r. split; auto. split; auto. split; auto. split; [discriminate|].
  apply (C27_different_lengths_raises 0 1 [] _ _ _ o' (1/2)).
  - discriminate.
  - right. left. auto.
  - lra.
  - exists 1. split; [reflexivity|lra].
  - constructor.
  - intros i u v. destruct i as [|[|i]]; cbn; [intros [= <-] [= <-]; lra|discriminate|]. destruct i; discriminate.
Qed.
