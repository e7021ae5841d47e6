(** Lemmas on rebinning. *)
From Coq Require Import Reals Lra Psatz List ZArith Lia Bool Permutation.
From Verif Require Import Base M_ScanData S_ScanData.
Import ListNotations.
Open Scope R_scope.

Lemma total_app : forall A (f : A -> R) l m, total f (l ++ m) = total f l + total f m.
Proof. induction l; intros; cbn; [lra|]. rewrite IHl. lra. Qed.
Lemma total_perm : forall A (f : A -> R) l m, Permutation l m -> total f l = total f m.
Proof. intros A f l m H. induction H; cbn; lra. Qed.
Lemma total_ext : forall A (f g : A -> R) l, (forall a, In a l -> f a = g a) -> total f l = total g l.
Proof. induction l; cbn; intros; auto. rewrite H, IHl; auto. Qed.
Lemma total_1 : forall A (l : list A), total (fun _ => 1) l = INR (length l).
Proof. induction l; cbn [total length]; auto. rewrite S_INR, IHl. lra. Qed.
Lemma total_map : forall A B (f : B -> R) (g : A -> B) l, total f (map g l) = total (fun a => f (g a)) l.
Proof. induction l; cbn; auto. rewrite IHl. auto. Qed.
Lemma total_scale : forall A (f : A -> R) k l, total (fun a => k * f a) l = k * total f l.
Proof. induction l; cbn; [lra|]. rewrite IHl. lra. Qed.
Lemma total_plus : forall A (f g : A -> R) l, total (fun a => f a + g a) l = total f l + total g l.
Proof. induction l; cbn; [lra|]. rewrite IHl. lra. Qed.
Lemma total_zero : forall A (l : list A), total (fun _ => 0) l = 0.
Proof. induction l; cbn; lra. Qed.
Lemma total_nonneg : forall A (f : A -> R) l, (forall a, In a l -> 0 <= f a) -> 0 <= total f l.
Proof. induction l; cbn; intros; [lra|]. assert (0 <= f a) by auto. assert (0 <= total f l) by auto. lra. Qed.
Lemma total_pos : forall A (f : A -> R) l, l <> [] -> (forall a, In a l -> 0 < f a) -> 0 < total f l.
Proof.
  intros A f l N H. destruct l as [|a l]; [congruence|]. cbn. assert (0 < f a) by (apply H; left; auto).
  assert (0 <= total f l). { apply total_nonneg. intros b B. left. apply H. right; auto. } lra.
Qed.
Lemma total_filter : forall A (f : A -> R) (h : A -> bool) l, total f (filter h l) = total (fun a => if h a then f a else 0) l.
Proof. induction l; cbn; auto. destruct (h a); cbn; rewrite IHl; lra. Qed.
Lemma total_swap : forall A B (f : A -> B -> R) l m, total (fun a => total (f a) m) l = total (fun b => total (fun a => f a b) l) m.
Proof. induction l; intros; cbn. - rewrite total_zero. auto. - rewrite IHl, total_plus. auto. Qed.

Lemma zipw_map : forall A B C D (f : B -> C -> D) (g : A -> B) (h : A -> C) l, zipw f (map g l) (map h l) = map (fun a => f (g a) (h a)) l.
Proof. induction l; cbn; auto. rewrite IHl. auto. Qed.

(** ** accumulate *)
Lemma nth_error_bump : forall a i v j,
  nth_error (bump i v a) j = if Nat.eq_dec i j then option_map (fun x => nadd x v) (nth_error a j) else nth_error a j.
Proof.
  induction a as [|x a]; intros i v j.
  - destruct (Nat.eq_dec i j); destruct i, j; reflexivity.
  - destruct i, j; cbn [bump nth_error].
    + destruct (Nat.eq_dec 0 0); [auto|lia].
    + destruct (Nat.eq_dec 0 (S j)); [lia|auto].
    + destruct (Nat.eq_dec (S i) 0); [lia|auto].
    + rewrite IHa. destruct (Nat.eq_dec i j), (Nat.eq_dec (S i) (S j)); try lia; auto.
Qed.
Lemma length_bump : forall a i v, length (bump i v a) = length a.
Proof. induction a; intros; destruct i; cbn; auto. Qed.

Lemma entry_bump2 : forall a ij v i j,
  entry (bump2 ij v a) i j =
  if Nat.eq_dec (fst ij) i then if Nat.eq_dec (snd ij) j then option_map (fun x => nadd x v) (entry a i j) else entry a i j else entry a i j.
Proof.
  induction a as [|r a]; intros [k l] v i j.
  - destruct k; unfold entry; cbn [bump2 fst snd]; destruct (Nat.eq_dec l j); match goal with |- context [Nat.eq_dec ?a ?b] => destruct (Nat.eq_dec a b) end; destruct i; reflexivity.
  - destruct k as [|k]; cbn [bump2 fst snd].
    + destruct i; unfold entry; cbn [nth_error]. * rewrite nth_error_bump. destruct (Nat.eq_dec l j), (Nat.eq_dec 0 0); auto; lia.
      * destruct (Nat.eq_dec 0 (S i)); [lia|auto].
    + destruct i; unfold entry; cbn [nth_error]. * destruct (Nat.eq_dec (S k) 0); [lia|auto].
      * fold (entry (bump2 (k, l) v a) i j). fold (entry a i j). rewrite IHa. cbn [fst snd].
        destruct (Nat.eq_dec k i), (Nat.eq_dec (S k) (S i)); try lia; auto.
Qed.
Lemma shape_bump2 : forall a ij v, map (@length num) (bump2 ij v a) = map (@length num) a.
Proof. induction a as [|r a]; intros [k l] v; [destruct k; auto|]. destruct k; cbn; [rewrite length_bump|rewrite IHa]; auto. Qed.

Section Accumulate.
  Context {A I S : Type} (bumpf : I -> num -> A -> A) (look : I -> A -> option num) (shape : A -> S).
  Context (ieq : forall i j : I, {i = j} + {i <> j}).
  Hypothesis look_bump : forall i v a j, look j (bumpf i v a) = if ieq i j then option_map (fun x => nadd x v) (look j a) else look j a.
  Hypothesis shape_bump : forall i v a, shape (bumpf i v a) = shape a.
  Context (cell : nat -> result (option I)) (contrib : nat -> result (list num)) (c : nat -> option I) (v : nat -> list num).

  Definition hits (j : I) (p : nat) : bool := match c p with Some i => if ieq i j then true else false | None => false end.

  Lemma accumulate_spec : forall ps arrs,
    (forall p, In p ps -> cell p = Ok (c p)) ->
    (forall p, In p ps -> c p <> None -> contrib p = Ok (v p) /\ length (v p) = length arrs) ->
    exists arrs', accumulate bumpf cell contrib ps arrs = Ok arrs' /\ length arrs' = length arrs /\
      forall m a, nth_error arrs m = Some a -> exists a', nth_error arrs' m = Some a' /\ shape a' = shape a /\
        forall j, look j a' = option_map (fun x => fold_left nadd (map (fun p => nth m (v p) None) (filter (hits j) ps)) x) (look j a).
  Proof.
    induction ps as [|p ps]; intros arrs HC HV.
    - exists arrs. split; auto. split; auto. intros m a H. exists a. split; auto. split; auto. intros j. cbn. destruct (look j a); auto.
    - cbn [accumulate]. rewrite (HC p (or_introl eq_refl)). cbn [bind]. destruct (c p) as [i|] eqn:E.
      + destruct (HV p (or_introl eq_refl)) as (Cp & Lp); [congruence|]. rewrite Cp. cbn [bind].
        assert (LZ : forall (vs : list num) (l : list A), length vs = length l -> length (zipw (fun w a => bumpf i w a) vs l) = length l).
        { induction vs; destruct l; cbn; intros; auto; try lia. }
        assert (NZ : forall (vs : list num) (l : list A) m a, length vs = length l -> nth_error l m = Some a ->
          nth_error (zipw (fun w a => bumpf i w a) vs l) m = Some (bumpf i (nth m vs None) a)).
        { induction vs; destruct l; intros m a' L H; try discriminate. - destruct m; discriminate.
          - destruct m; cbn in *. + congruence. + apply IHvs; auto. }
        destruct (IHps (zipw (fun w a => bumpf i w a) (v p) arrs)) as (arrs' & HA & HL & HM).
        { intros q Q. apply HC. right; auto. }
        { intros q Q N. rewrite LZ by auto. apply HV; auto. right; auto. }
        exists arrs'. split; auto. split; [rewrite HL; apply LZ; auto|]. intros m a H.
        destruct (HM m _ (NZ _ _ _ _ Lp H)) as (a' & N' & S' & K'). exists a'. split; auto. split; [rewrite S'; apply shape_bump|].
        intros j. rewrite K', look_bump. cbn [filter]. unfold hits at 2. rewrite E. destruct (ieq i j).
        * cbn [map fold_left]. destruct (look j a); auto.
        * auto.
      + destruct (IHps arrs) as (arrs' & HA & HL & HM). { intros q Q. apply HC. right; auto. } { intros q Q N. apply HV; auto. right; auto. }
        exists arrs'. split; auto. split; auto. intros m a H. destruct (HM m a H) as (a' & N' & S' & K'). exists a'. split; auto. split; auto.
        intros j. rewrite K'. cbn [filter]. unfold hits at 2. rewrite E. auto.
  Qed.
End Accumulate.

Lemma fold_nadd : forall A (f : A -> R) l x, fold_left nadd (map (fun a => Some (f a)) l) (Some x) = Some (x + total f l).
Proof. induction l; intros; cbn. - f_equal. lra. - rewrite IHl. f_equal. lra. Qed.

(** From indices to the points they index. *)
Lemma map_filter_nth : forall A B (d : A) (g : A -> B) (h : A -> bool) l,
  map (fun i => g (nth i l d)) (filter (fun i => h (nth i l d)) (seq 0 (length l))) = map g (filter h l).
Proof.
  intros A B d g h. induction l as [|a l]; auto. cbn [length seq filter]. change (nth 0 (a :: l) d) with a.
  rewrite <- seq_shift. 
  assert (F : forall s, filter (fun i => h (nth i (a :: l) d)) (map S s) = map S (filter (fun i => h (nth i l d)) s)).
  { induction s as [|k s IHs]; auto. cbn [map filter]. rewrite IHs. change (nth (S k) (a :: l) d) with (nth k l d). destruct (h (nth k l d)); auto. }
  destruct (h a); cbn [map]; [change (nth 0 (a :: l) d) with a|]; rewrite F, map_map; cbn [nth]; rewrite IHl; auto.
Qed.

(** ** The edges *)
Lemma first_true_some : forall l i, first_true l = Some i <-> nth_error l i = Some true /\ forall j, (j < i)%nat -> nth_error l j = Some false.
Proof.
  induction l as [|b l]; intros i.
  - cbn. split; [discriminate|]. intros [H _]. destruct i; discriminate.
  - destruct b; cbn [first_true].
    + split. * intros E. injection E as <-. split; auto. intros; lia.
      * intros [H1 H2]. destruct i; auto. specialize (H2 0%nat ltac:(lia)). discriminate.
    + destruct i.
      * split. { destruct (first_true l); discriminate. } intros [H _]. discriminate.
      * split. { intros E. destruct (first_true l) as [k|] eqn:F; [|discriminate]. injection E as ->.
                 destruct (proj1 (IHl i) eq_refl) as (F1 & F2). split; auto. intros j J. destruct j; auto. apply F2. lia. }
        intros [H1 H2]. assert (F : first_true l = Some i). { apply IHl. split; auto. intros j J. apply (H2 (S j)). lia. } rewrite F. auto.
Qed.
Lemma first_true_none : forall l, first_true l = None <-> forall j b, nth_error l j = Some b -> b = false.
Proof.
  induction l as [|b l]; cbn.
  - split; auto. intros _ j b H. destruct j; discriminate.
  - destruct b. + split; [discriminate|]. intros H. specialize (H 0%nat true eq_refl). discriminate.
    + destruct (first_true l) eqn:F; cbn. * split; [discriminate|]. intros H. exfalso.
        assert (X : Some n = None). { apply (proj2 IHl). intros j b J. apply (H (S j) b). auto. } discriminate.
      * split; auto. intros _ j b H. destruct j; [cbn in H; congruence|]. apply (proj1 IHl eq_refl j). auto.
Qed.

Definition edges (lo step : R) (n : nat) : list R := map (fun i => lo - step / 2 + INR i * step) (seq 0 (S n)).

Lemma nth_error_seq_map : forall B (f : nat -> B) n i b, nth_error (map f (seq 0 n)) i = Some b <-> (i < n)%nat /\ b = f i.
Proof.
  intros. destruct (Nat.lt_ge_cases i n) as [L|L].
  - rewrite nth_error_map. rewrite (nth_error_nth' (seq 0 n) 0%nat) by (rewrite seq_length; auto). rewrite seq_nth by auto. cbn.
    split; [intros E; injection E as <-; auto|intros [_ ->]; auto].
  - assert (X : nth_error (map f (seq 0 n)) i = None) by (apply nth_error_None; rewrite map_length, seq_length; auto).
    rewrite X. split; [discriminate|lia].
Qed.

Lemma locate_spec : forall lo step n x, 0 < step ->
  exists c, locate (edges lo step n) (step / 100) (Some x) = Ok c /\ forall k, c = Some k <-> (k < n)%nat /\ in_bin lo step k x.
Proof.
  intros lo step n x S. unfold locate, nanargmax.
  set (l := map (fun e => ngt (Some (e - step / 100)) (Some x)) (edges lo step n)).
  assert (L : l = map (fun i => decb (Rlt_dec x (lo - step / 2 + INR i * step - step / 100))) (seq 0 (Datatypes.S n))).
  { unfold l, edges. rewrite map_map. reflexivity. }
  assert (NE : exists a t, l = a :: t) by (rewrite L; cbn; eauto). destruct NE as (a & t & NE). rewrite NE. rewrite <- NE. clear a t NE.
  cbn [bind].
  assert (T : forall i, nth_error l i = Some true <-> (i <= n)%nat /\ x < lo - step / 2 + INR i * step - step / 100).
  { intros i. rewrite L, nth_error_seq_map. unfold decb. destruct (Rlt_dec _ _); split; intros [P Q]; try (split; [lia|auto]); try discriminate; lra. }
  assert (F : forall i, nth_error l i = Some false <-> (i <= n)%nat /\ lo - step / 2 + INR i * step - step / 100 <= x).
  { intros i. rewrite L, nth_error_seq_map. unfold decb. destruct (Rlt_dec _ _); split; intros [P Q]; try (split; [lia|auto]); try discriminate; lra. }
  eexists. split; [reflexivity|]. intros k. unfold in_bin.
  destruct (first_true l) as [i|] eqn:E.
  - apply first_true_some in E. destruct E as (E1 & E2). apply T in E1. destruct E1 as (E0 & E1). destruct i as [|i].
    + split; [discriminate|]. intros [K1 [K2 K3]]. exfalso. cbn in E1. pose proof (pos_INR k).
      assert (0 <= INR k * step) by (apply Rmult_le_pos; lra). lra.
    + assert (E3 : nth_error l i = Some false) by (apply E2; lia). apply F in E3. destruct E3 as (_ & E3).
      rewrite S_INR in E1. split.
      * intros K. injection K as <-. split; [lia|]. lra.
      * intros [K1 [K2 K3]]. f_equal. destruct (Nat.lt_trichotomy i k) as [C|[C|C]]; auto; exfalso; apply le_INR in C; rewrite S_INR in C.
        -- assert (0 <= (INR k - INR i - 1) * step) by (apply Rmult_le_pos; lra). lra.
        -- assert (0 <= (INR i - INR k - 1) * step) by (apply Rmult_le_pos; lra). lra.
  - split; [discriminate|]. intros [K1 [K2 K3]]. exfalso. pose proof (proj1 (first_true_none l) E) as N.
    assert (X : nth_error l (Datatypes.S k) = Some true). { apply T. split; [lia|]. rewrite S_INR. lra. }
    apply N in X. discriminate.
Qed.

Lemma floor_le : forall r (z : Z), (z <= Int_part r)%Z <-> IZR z <= r.
Proof.
  intros r z. destruct (base_Int_part r) as (A & B). split; intros H.
  - apply IZR_le in H. lra.
  - apply Z.lt_succ_r. apply lt_IZR. rewrite succ_IZR. lra.
Qed.

Lemma linspace_steps : forall a step n, (1 <= n)%nat -> linspace a (a + step * INR n) (Z.of_nat n + 1) = Ok (map (fun i => a + INR i * step) (seq 0 (S n))).
Proof.
  intros a step n N. unfold linspace. destruct (Z.ltb_spec (Z.of_nat n + 1) 0); [lia|].
  replace (Z.to_nat (Z.of_nat n + 1)) with (S n) by lia. destruct n as [|n]; [lia|]. f_equal. apply map_ext. intros i.
  replace (a + step * INR (S n) - a) with (step * INR (S n)) by ring. replace (step * INR (S n) / INR (S n)) with step; auto.
  field. apply not_0_INR. lia.
Qed.

Lemma setup_spec : forall xs lo hi step, 0 < step -> lo <= hi ->
  exists n, bin_count lo hi step n /\ (1 <= n)%nat /\
    rebin_setup xs (Some lo, Some hi, step) = Ok (lo, Z.of_nat n, step / 100, edges lo step n) /\
    linspace lo (lo + step * (IZR (Z.of_nat n) - 1)) (Z.of_nat n) = Ok (map (fun i => lo + INR i * step) (seq 0 n)).
Proof.
  intros xs lo hi step S L. set (q := (hi + step / 100 - lo) / step).
  assert (Q : forall r, r <= q <-> lo + r * step <= hi + step / 100).
  { intros r. unfold q. split; intros H.
    - apply (Rmult_le_compat_r step) in H; [|lra]. unfold Rdiv in H. rewrite Rmult_assoc, Rinv_l, Rmult_1_r in H by lra. unfold Rdiv in *. lra.
    - apply (Rmult_le_reg_r step); [lra|]. unfold Rdiv at 1. rewrite Rmult_assoc, Rinv_l, Rmult_1_r by lra. lra. }
  assert (Z0 : (0 <= Int_part q)%Z) by (apply floor_le; apply Q; lra).
  exists (Z.to_nat (Int_part q + 1)). split; [|split; [lia|split]].
  - intros i. rewrite <- Q. rewrite INR_IZR_INZ, <- floor_le. lia.
  - unfold rebin_setup. cbn [bind]. destruct (Req_EM_T step 0) as [?|_]; [lra|]. fold q. cbv zeta.
    set (n := Z.to_nat (Int_part q + 1)). replace (Int_part q + 1)%Z with (Z.of_nat n) by lia.
    replace (lo + step * (IZR (Z.of_nat n) - 1 / 2)) with (lo - step / 2 + step * INR n) by (rewrite INR_IZR_INZ; lra).
    rewrite linspace_steps by lia. reflexivity.
  - set (n := Z.to_nat (Int_part q + 1)). assert (N : (1 <= n)%nat) by lia. clearbody n. destruct n as [|n]; [lia|].
    destruct n as [|n]. + unfold linspace. cbn. replace (lo + 0 * step) with lo by ring. reflexivity.
    + replace (IZR (Z.of_nat (Datatypes.S (Datatypes.S n))) - 1) with (INR (Datatypes.S n)) by (rewrite INR_IZR_INZ, !Nat2Z.inj_succ, !succ_IZR; lra).
      replace (Z.of_nat (Datatypes.S (Datatypes.S n))) with (Z.of_nat (Datatypes.S n) + 1)%Z by lia. apply linspace_steps. lia.
Qed.

(** The loop of the one-dimensional methods. *)
Lemma nth_error_ext' : forall A (l m : list A), (forall i, nth_error l i = nth_error m i) -> l = m.
Proof.
  induction l as [|a l]; destruct m as [|b m]; intros H; auto.
  - specialize (H 0%nat). discriminate. - specialize (H 0%nat). discriminate.
  - f_equal. + specialize (H 0%nat). cbn in H. congruence. + apply IHl. intros i. apply (H (S i)).
Qed.

Lemma get_col : forall f pts i, (i < length pts)%nat -> get (col f pts) i = Ok (Some (f (nth i pts (Point 0 0 0)))).
Proof.
  intros f pts i L. unfold get, col. rewrite nth_error_map, (nth_error_nth' pts (Point 0 0 0)) by auto. reflexivity.
Qed.

(** The points that land in bin [j], whatever the edges. *)
Definition lands (b : list R) (zero : R) (j : nat) (x : R) : bool :=
  match locate b zero (Some x) with Ok (Some k) => if Nat.eq_dec k j then true else false | _ => false end.

Lemma locate_total : forall b zero x, b <> [] -> exists c, locate b zero x = Ok c.
Proof.
  intros b zero x B. unfold locate, nanargmax. destruct b as [|e b]; [congruence|]. cbn [map]. cbn [bind]. eauto.
Qed.

Lemma loop1d_gen : forall d pts b zero n contrib (g : list (point -> R)), b <> [] -> dx d = col px pts ->
  (forall i, (i < length pts)%nat -> contrib i = Ok (map (fun f => Some (f (nth i pts (Point 0 0 0)))) g)) ->
  loop1d d b zero n (length g) contrib =
  Ok (map (fun f => map (fun i => Some (total f (filter (fun p => lands b zero i (px p)) pts))) (seq 0 n)) g).
Proof.
  intros d pts b zero n contrib g BN DX HC. unfold loop1d. rewrite DX. unfold col at 2. rewrite map_length.
  set (pt := fun i => nth i pts (Point 0 0 0)).
  set (c := fun i => match locate b zero (Some (px (pt i))) with Ok c => c | Err _ => None end).
  assert (CS : forall i, locate b zero (Some (px (pt i))) = Ok (c i)).
  { intros i. unfold c. destruct (locate_total b zero (Some (px (pt i))) BN) as (c' & E). rewrite E. auto. }
  destruct (accumulate_spec bump (fun j a => nth_error a j) (@length num) Nat.eq_dec) with
    (cell := fun i => do x0 <- get (col px pts) i; locate b zero x0) (contrib := contrib) (c := c)
    (v := fun i => map (fun f => Some (f (pt i))) g) (ps := seq 0 (length pts)) (arrs := repeat (zeros n) (length g)) as (arrs' & HA & HL & HM).
  - intros i v a j. apply nth_error_bump.
  - intros i v a. apply length_bump.
  - intros p P. apply in_seq in P. rewrite get_col by lia. cbn [bind]. apply CS.
  - intros p P _. apply in_seq in P. rewrite HC by lia. rewrite map_length, repeat_length. auto.
  - unfold zeros at 1 in HA. unfold zeros at 1. rewrite HA. f_equal. apply nth_error_ext'. intros m.
    rewrite nth_error_map. destruct (nth_error g m) as [f|] eqn:G; cbn [option_map].
    2:{ apply nth_error_None. apply nth_error_None in G. rewrite repeat_length in HL. change (length arrs' <= m)%nat. unfold num in *. lia. }
    assert (LM : (m < length g)%nat) by (apply nth_error_Some; congruence).
    destruct (HM m (zeros n)) as (a' & N' & S' & K'). { apply nth_error_repeat; auto. } rewrite N'. f_equal.
    apply nth_error_ext'. intros j. rewrite K'.
    destruct (Nat.lt_ge_cases j n) as [J|J].
    2:{ assert (X1 : nth_error (zeros n) j = None) by (apply nth_error_None; unfold zeros; rewrite repeat_length; auto).
        rewrite X1. symmetry. apply nth_error_None. rewrite map_length, seq_length. auto. }
    unfold zeros. rewrite nth_error_repeat by auto. cbn [option_map]. symmetry. apply nth_error_seq_map. split; auto.
    assert (NM : forall p, nth m (map (fun h => Some (h (pt p))) g) None = Some (f (pt p))).
    { intros p. apply nth_error_nth. rewrite nth_error_map, G. auto. }
    rewrite (map_ext _ _ NM).
    assert (FE : filter (hits Nat.eq_dec c j) (seq 0 (length pts)) =
                 filter (fun i => lands b zero j (px (pt i))) (seq 0 (length pts))).
    { apply filter_ext. intros i. unfold hits, lands. rewrite CS. auto. }
    rewrite FE. unfold pt. rewrite <- (map_map (fun i => f (nth i pts (Point 0 0 0))) (@Some R)).
    rewrite (map_filter_nth _ _ (Point 0 0 0) f (fun p => lands b zero j (px p))).
    rewrite map_map, fold_nadd. f_equal. lra.
Qed.

Lemma lands_in_bin : forall lo step n j x, 0 < step -> (j < n)%nat -> lands (edges lo step n) (step / 100) j x = decb (in_bin_dec lo step j x).
Proof.
  intros lo step n j x S J. unfold lands, decb. destruct (locate_spec lo step n x S) as (c & E & H). rewrite E.
  destruct (in_bin_dec lo step j x) as [B|B].
  - assert (X : c = Some j) by (apply H; auto). rewrite X. destruct (Nat.eq_dec j j); [auto|lia].
  - destruct c as [k|]; auto. destruct (Nat.eq_dec k j); auto. subst k. exfalso. apply B. apply H; auto.
Qed.

Lemma loop1d_spec : forall d pts lo step n contrib (g : list (point -> R)), 0 < step -> dx d = col px pts ->
  (forall i, (i < length pts)%nat -> contrib i = Ok (map (fun f => Some (f (nth i pts (Point 0 0 0)))) g)) ->
  loop1d d (edges lo step n) (step / 100) n (length g) contrib =
  Ok (map (fun f => map (fun i => Some (total f (bin lo step i pts))) (seq 0 n)) g).
Proof.
  intros d pts lo step n contrib g S DX HC. rewrite (loop1d_gen d pts _ _ n contrib g); auto. 2:{ unfold edges. cbn. discriminate. }
  f_equal. apply map_ext. intros f. apply map_ext_in. intros i I. apply in_seq in I. do 2 f_equal. apply filter_ext. intros p.
  apply lands_in_bin; auto. lia.
Qed.

Lemma bin_count_unique : forall lo hi step n m, bin_count lo hi step n -> bin_count lo hi step m -> n = m.
Proof.
  intros lo hi step n m A B. destruct (Nat.lt_trichotomy n m) as [C|[C|C]]; auto; exfalso.
  - apply B in C. apply A in C. lia. - apply A in C. apply B in C. lia.
Qed.

Lemma pick_normalised : forall d arg pts, normalised d arg pts -> pick_norm arg (dnorm d) = Ok (col pw pts).
Proof. intros d arg pts [->|[-> ->]]; reflexivity. Qed.

Lemma edges_length : forall lo step n, length (edges lo step n) = S n.
Proof. intros. unfold edges. rewrite map_length, seq_length. auto. Qed.

Ltac contrib_tac HX HY := let i := fresh "i" in let L := fresh "L" in intros i L; cbn [map]; rewrite ?HX, ?HY, ?get_col by auto; cbn [bind nmul nbin]; reflexivity.

Section Closed.
  Context (d : data1d) (pts : list point) (lo hi step : R) (n : nat).
  Hypothesis (H : holds d pts) (S0 : 0 < step) (L : lo <= hi) (N : bin_count lo hi step n).
  Let B i := bin lo step i pts.
  Let T f i := Some (total f (B i)).

  Lemma setup_n : rebin_setup (dx d) (Some lo, Some hi, step) = Ok (lo, Z.of_nat n, step / 100, edges lo step n) /\
    linspace lo (lo + step * (IZR (Z.of_nat n) - 1)) (Z.of_nat n) = Ok (map (fun i => lo + INR i * step) (seq 0 n)).
  Proof.
    destruct (setup_spec (dx d) lo hi step S0 L) as (m & M & _ & E & X). rewrite (bin_count_unique _ _ _ _ _ N M). auto.
  Qed.

  Lemma rebin_tol_eq : forall arg, normalised d arg pts ->
    rebin_tol d (Some lo, Some hi, step) arg = Ok (Data1D
      (map (fun i => ndiv (T (fun p => px p * pw p) i) (T pw i)) (seq 0 n))
      (map (fun i => ndiv (T py i) (T (fun _ => 1) i)) (seq 0 n)) (dnorm d)
      (map (fun i => ndiv (nsqrt (T py i)) (T (fun _ => 1) i)) (seq 0 n))).
  Proof.
    intros arg HA. destruct H as (HX & HY). unfold rebin_tol. rewrite (pick_normalised _ _ _ HA). cbn [bind].
    rewrite (proj1 setup_n). cbn [bind]. rewrite edges_length. cbn [pred].
    change 4%nat with (length [py; (fun p => px p * pw p); pw; (fun _ => 1)]). rewrite (loop1d_spec d pts); auto.
    2:{ contrib_tac HX HY. }
    cbn [bind map]. rewrite map_map, !zipw_map. reflexivity.
  Qed.

  Lemma rebin_tol_renorm_eq : forall arg nv, normalised d arg pts ->
    rebin_tol_renorm d (Some lo, Some hi, step) arg nv = Ok (Data1D
      (map (fun i => ndiv (T (fun p => px p * pw p) i) (T pw i)) (seq 0 n))
      (map (fun i => nmul (ndiv (T py i) (T pw i)) (Some nv)) (seq 0 n)) (dnorm d)
      (map (fun i => nmul (ndiv (nsqrt (T py i)) (T pw i)) (Some nv)) (seq 0 n))).
  Proof.
    intros arg nv HA. destruct H as (HX & HY). unfold rebin_tol_renorm. rewrite (pick_normalised _ _ _ HA). cbn [bind].
    rewrite (proj1 setup_n). cbn [bind]. rewrite edges_length. cbn [pred].
    change 3%nat with (length [py; (fun p => px p * pw p); pw]). rewrite (loop1d_spec d pts); auto.
    2:{ contrib_tac HX HY. }
    cbn [bind map]. rewrite (map_map _ nsqrt), !zipw_map, !map_map. reflexivity.
  Qed.

  Lemma rebin_grid_eq :
    rebin_grid d (Some lo, Some hi, step) = Ok (Data1D
      (map (fun i => Some (lo + INR i * step)) (seq 0 n))
      (map (fun i => ndiv (T py i) (T (fun _ => 1) i)) (seq 0 n)) (dnorm d)
      (map (fun i => ndiv (nsqrt (T py i)) (T (fun _ => 1) i)) (seq 0 n))).
  Proof.
    destruct H as (HX & HY). unfold rebin_grid.
    rewrite (proj1 setup_n). cbn [bind snd]. rewrite (proj2 setup_n). cbn [bind]. rewrite map_length, seq_length.
    change 2%nat with (length [py; (fun _ => 1)]). rewrite (loop1d_spec d pts); auto.
    2:{ contrib_tac HX HY. }
    cbn [bind map]. rewrite (map_map _ nsqrt), !zipw_map, map_map. reflexivity.
  Qed.

  Lemma rebin_grid_renorm_eq : forall arg nv, normalised d arg pts ->
    rebin_grid_renorm d (Some lo, Some hi, step) arg nv = Ok (Data1D
      (map (fun i => Some (lo + INR i * step)) (seq 0 n))
      (map (fun i => nmul (ndiv (T py i) (T pw i)) (Some nv)) (seq 0 n)) (dnorm d)
      (map (fun i => nmul (ndiv (nsqrt (T py i)) (T pw i)) (Some nv)) (seq 0 n))).
  Proof.
    intros arg nv HA. destruct H as (HX & HY). unfold rebin_grid_renorm. rewrite (pick_normalised _ _ _ HA). cbn [bind].
    rewrite (proj1 setup_n). cbn [bind snd]. rewrite (proj2 setup_n). cbn [bind]. rewrite map_length, seq_length.
    change 2%nat with (length [py; pw]). rewrite (loop1d_spec d pts); auto.
    2:{ contrib_tac HX HY. }
    cbn [bind map]. rewrite (map_map _ nsqrt), !zipw_map, !map_map. reflexivity.
  Qed.
End Closed.
