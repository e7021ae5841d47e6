(** Properties C50, C52, C62: fitting range, components, weights; oblique axes. *)
From Coq Require Import Reals Lra Psatz List ZArith String Bool Lia.
From Verif Require Import Base M_ScanData M_Project P_Tavi M_Fit.
Import ListNotations.
Open Scope string_scope.
Open Scope list_scope.
Open Scope R_scope.

(** * Specification *)
(** The points of a data set: x, y and error together. *)
Fixpoint points (x y e : list num) : list (num * num * num) :=
  match x, y, e with a :: x', b :: y', c :: e' => (a, b, c) :: points x' y' e' | _, _, _ => [] end.
Definition fit_points (f : fit1d) : list (num * num * num) :=
  points (f_x f) (f_y f) (match f_err f with Some e => e | None => map (fun _ => None) (f_x f) end).
(** x, y and (if there are any) errors have the same length. *)
Definition aligned (f : fit1d) : Prop :=
  List.length (f_y f) = List.length (f_x f) /\
  match f_err f with Some e => List.length e = List.length (f_x f) | None => True end.
(** The point lies in the closed interval. *)
Definition inside (r : R * R) (p : num * num * num) : Prop := exists v, fst (fst p) = Some v /\ fst r <= v <= snd r.
(** [l'] is the sublist of [l] of the elements satisfying [P], in order. *)
Inductive selects {A} (P : A -> Prop) : list A -> list A -> Prop :=
| sel_nil : selects P [] []
| sel_keep : forall a l l', P a -> selects P l l' -> selects P (a :: l) (a :: l')
| sel_drop : forall a l l', ~ P a -> selects P l l' -> selects P (a :: l) l'.

(** * Auxiliary *)
Lemma in_range_true : forall lo hi x y e, in_range lo hi x = true <-> inside (lo, hi) (x, y, e).
Proof.
  intros lo hi [v|] y e; unfold in_range, inside; cbn.
  - destruct (Rle_dec lo v), (Rle_dec v hi); cbn; split; intros H; try discriminate; auto;
      try (exists v; split; auto; lra); destruct H as (v' & E & ? & ?); injection E as <-; lra.
  - split; [discriminate|]. intros (v & E & _). discriminate.
Qed.

Lemma keep_length : forall A B m (l : list A) (l' : list B), List.length l = List.length l' -> List.length (keep m l) = List.length (keep m l').
Proof. induction m as [|b m IH]; intros [|a l] [|a' l'] H; cbn in *; auto; try lia. destruct b; cbn; rewrite (IH l l'); auto. Qed.

Lemma keep_points : forall r x y e, List.length y = List.length x -> List.length e = List.length x ->
  let m := map (in_range (fst r) (snd r)) x in selects (inside r) (points x y e) (points (keep m x) (keep m y) (keep m e)).
Proof.
  intros [lo hi]. induction x as [|a x IH]; intros [|b y] [|c e] Hy He; cbn in *; try lia; [constructor|].
  destruct (in_range lo hi a) eqn:Q.
  - cbn. constructor; [apply in_range_true; auto|]. apply IH; lia.
  - constructor; [|apply IH; lia]. intros K. apply in_range_true in K. congruence.
Qed.

Lemma keep_map : forall A B (g : A -> B) m l, keep m (map g l) = map g (keep m l).
Proof. induction m as [|b m IH]; intros [|a l]; cbn; auto. destruct b; cbn; rewrite IH; auto. Qed.

(** * C50 *)
Theorem C50_range_keeps_points : forall f r, aligned f ->
  let (f', err) := set_range r f in
  err = None /\ aligned f' /\ selects (inside r) (fit_points f) (fit_points f') /\
  (f_err f = None <-> f_err f' = None) /\ components f' = components f.
Proof.
  intros f [lo hi] [Ly Le]. unfold set_range. set (mask := map (in_range lo hi) (f_x f)).
  assert (LM : List.length mask = List.length (f_x f)) by (apply map_length).
  unfold index_mask. rewrite Ly, LM, Nat.eqb_refl. destruct (f_err f) as [e|] eqn:E.
  - rewrite Le, Nat.eqb_refl. split; auto. split; [|split; [|split]].
    + split; cbn; apply keep_length; auto.
    + unfold fit_points. rewrite E. cbn. apply (keep_points (lo, hi)); auto.
    + cbn; split; discriminate.
    + reflexivity.
  - split; auto. split; [|split; [|split]].
    + split; cbn; [apply keep_length; auto|]. rewrite ?E. auto.
    + unfold fit_points. rewrite E. cbn. rewrite <- keep_map. apply (keep_points (lo, hi)); auto. apply map_length.
    + cbn; tauto.
    + reflexivity.
Qed.
Print Assumptions C50_range_keeps_points.

(** Narrowing the range in two steps is narrowing it at once. *)
Lemma keep_twice : forall A r1 r2 (x : list num) (l : list A), fst r1 <= fst r2 -> snd r2 <= snd r1 -> List.length l = List.length x ->
  let m1 := map (in_range (fst r1) (snd r1)) x in
  keep (map (in_range (fst r2) (snd r2)) (keep m1 x)) (keep m1 l) = keep (map (in_range (fst r2) (snd r2)) x) l.
Proof.
  intros A [a b] [c d] x l H K. cbn [fst snd] in *. revert l.
  induction x as [|v x IH]; intros [|w l] E; cbn in *; auto; try lia.
  destruct (in_range a b v) eqn:Q.
  - cbn. destruct (in_range c d v); rewrite IH by lia; auto.
  - assert (X : in_range c d v = false).
    { destruct v as [v|]; cbn in *; auto. destruct (Rle_dec a v), (Rle_dec v b), (Rle_dec c v), (Rle_dec v d); cbn in *; auto; try discriminate; lra. }
    rewrite X. apply IH; lia.
Qed.

Theorem C50_nested_ranges : forall f r1 r2, aligned f -> fst r1 <= fst r2 -> snd r2 <= snd r1 ->
  fst (set_range r2 (fst (set_range r1 f))) = fst (set_range r2 f).
Proof.
  intros f [a b] [c d] [Ly Le] H K. unfold set_range.
  set (m1 := map (in_range a b) (f_x f)). set (m2 := map (in_range c d) (f_x f)).
  assert (L1 : List.length m1 = List.length (f_x f)) by apply map_length.
  assert (L2 : List.length m2 = List.length (f_x f)) by apply map_length.
  assert (KY : List.length (map (in_range c d) (keep m1 (f_x f))) = List.length (keep m1 (f_y f))).
  { rewrite map_length. apply keep_length; auto. }
  pose proof (keep_twice num (a, b) (c, d) (f_x f)) as T. cbn [fst snd] in T. fold m1 m2 in T.
  unfold index_mask. rewrite Ly, L1, L2, Nat.eqb_refl. destruct (f_err f) as [e|] eqn:E.
  - rewrite Le, Nat.eqb_refl. cbn [fst f_x f_y f_err f_signals f_backgrounds f_nsig f_nbkg].
    rewrite KY, Nat.eqb_refl.
    assert (KE : List.length (keep m1 (f_y f)) = List.length (keep m1 e)) by (apply keep_length; congruence).
    rewrite KE, Nat.eqb_refl. cbn [fst]. rewrite !T by auto. reflexivity.
  - cbn [fst f_x f_y f_err f_signals f_backgrounds f_nsig f_nbkg]. rewrite KY, Nat.eqb_refl. cbn [fst]. rewrite !T by auto. reflexivity.
Qed.
Print Assumptions C50_nested_ranges.

(** Every history of ranges and added components leaves the components with pairwise different prefixes. *)
Definition prefixes_ok (f : fit1d) : Prop :=
  (0 <= f_nsig f)%Z /\ (0 <= f_nbkg f)%Z /\
  (forall p m, In (p, m) (f_signals f) -> exists n, (0 < n <= f_nsig f)%Z /\ p = ("s" ++ str_of n ++ "_")%string) /\
  (forall p m, In (p, m) (f_backgrounds f) -> exists n, (0 < n <= f_nbkg f)%Z /\ p = ("b" ++ str_of n ++ "_")%string) /\
  NoDup (map fst (components f)).

Lemma prefix_inj : forall c n m, (0 <= n)%Z -> (0 <= m)%Z -> (c ++ str_of n ++ "_" = c ++ str_of m ++ "_")%string -> n = m.
Proof.
  intros c n m N M H. apply append_inj_l in H. apply str_of_inj; auto.
  revert H. generalize (str_of n) (str_of m). induction s as [|a s IH]; intros [|b t] H; cbn in H; auto.
  - injection H as <- H. destruct t; discriminate.
  - injection H as -> H. destruct s; discriminate.
  - injection H as -> H. f_equal; auto.
Qed.

Lemma NoDup_snoc : forall A (l : list A) a, NoDup l -> ~ In a l -> NoDup (l ++ [a]).
Proof. intros A l a N I. apply NoDup_rev in N. rewrite <- (rev_involutive (l ++ [a])). apply NoDup_rev. rewrite rev_unit. constructor; auto. rewrite <- in_rev. auto. Qed.
Lemma NoDup_mid : forall A (l1 l2 : list A) a, NoDup (l1 ++ l2) -> ~ In a (l1 ++ l2) -> NoDup ((l1 ++ [a]) ++ l2).
Proof. intros A l1 l2 a N I. rewrite <- app_assoc. cbn. apply NoDup_Add with (a := a) (l := l1 ++ l2); [apply Add_app|]. split; auto. Qed.

Lemma set_range_components : forall r f, f_signals (fst (set_range r f)) = f_signals f /\ f_backgrounds (fst (set_range r f)) = f_backgrounds f
  /\ f_nsig (fst (set_range r f)) = f_nsig f /\ f_nbkg (fst (set_range r f)) = f_nbkg f.
Proof. intros [lo hi] f. unfold set_range. destruct (index_mask _ (f_y f)); cbn; auto. destruct (f_err f); cbn; auto. destruct (index_mask _ l); cbn; auto. Qed.

Lemma fit_step_ok : forall f o, prefixes_ok f -> prefixes_ok (fit_step f o).
Proof.
  intros f o (N & M & S & B & D). destruct o as [r|m|m]; unfold fit_step.
  - destruct (set_range_components r f) as (E1 & E2 & E3 & E4). unfold prefixes_ok, components. rewrite E1, E2, E3, E4. repeat split; auto.
  - unfold add_signal. destruct (build_model m); unfold prefixes_ok, components in *; cbn [fst f_nsig f_nbkg f_signals f_backgrounds].
    + repeat split; auto; try lia. intros p q I. destruct (S _ _ I) as (n & ? & ->). exists n. split; auto; lia.
    + repeat split; auto; try lia.
      * intros p q I. apply in_app_or in I as [I|[I|[]]]. { destruct (S _ _ I) as (n & ? & ->). exists n. split; auto; lia. }
        injection I as <- <-. exists (f_nsig f + 1)%Z. split; auto; lia.
      * rewrite !map_app in *. cbn [map fst]. apply NoDup_mid; auto. intros I. apply in_app_or in I as [I|I]; apply in_map_iff in I as ([p q] & E & I); cbn in E; subst p.
        -- destruct (S _ _ I) as (n & R & E). change (("s" ++ str_of (f_nsig f + 1) ++ "_")%string = ("s" ++ str_of n ++ "_")%string) in E. apply prefix_inj in E; lia.
        -- destruct (B _ _ I) as (n & R & E). discriminate.
  - unfold add_background. destruct (build_model m); unfold prefixes_ok, components in *; cbn [fst f_nsig f_nbkg f_signals f_backgrounds].
    + repeat split; auto; try lia. intros p q I. destruct (B _ _ I) as (n & ? & ->). exists n. split; auto; lia.
    + repeat split; auto; try lia.
      * intros p q I. apply in_app_or in I as [I|[I|[]]]. { destruct (B _ _ I) as (n & ? & ->). exists n. split; auto; lia. }
        injection I as <- <-. exists (f_nbkg f + 1)%Z. split; auto; lia.
      * rewrite app_assoc, map_app. cbn [map fst]. apply NoDup_snoc; auto. rewrite map_app. intros I. apply in_app_or in I as [I|I]; apply in_map_iff in I as ([p q] & E & I); cbn in E; subst p.
        -- destruct (S _ _ I) as (n & R & E). discriminate.
        -- destruct (B _ _ I) as (n & R & E). change (("b" ++ str_of (f_nbkg f + 1) ++ "_")%string = ("b" ++ str_of n ++ "_")%string) in E. apply prefix_inj in E; lia.
Qed.

Theorem C50_distinct_prefixes : forall d ops, NoDup (map fst (components (fold_left fit_step ops (new_fit d)))).
Proof.
  intros d ops. assert (G : forall f, prefixes_ok f -> prefixes_ok (fold_left fit_step ops f)).
  { induction ops as [|o ops IH]; intros f H; cbn; auto. apply IH, fit_step_ok; auto. }
  apply G. unfold prefixes_ok; cbn. repeat split; try lia; try contradiction. constructor.
Qed.
Print Assumptions C50_distinct_prefixes.

(** Each successful addition adds exactly one component, of the model asked for; a failed one adds none. *)
Theorem C50_one_component_each : forall f m,
  match add_signal m f with
  | (f', None) => exists p, f_signals f' = f_signals f ++ [(p, m)] /\ f_backgrounds f' = f_backgrounds f
  | (f', Some _) => components f' = components f
  end /\
  match add_background m f with
  | (f', None) => exists p, f_backgrounds f' = f_backgrounds f ++ [(p, m)] /\ f_signals f' = f_signals f
  | (f', Some _) => components f' = components f
  end.
Proof. intros f m. unfold add_signal, add_background. destruct (build_model m); cbn; split; auto; eauto. Qed.
Print Assumptions C50_one_component_each.

Example C50_ex : let f := fold_left fit_step [AddSignal "Gaussian"; AddBackground "Constant"; AddSignal "Spam"; AddSignal "Voigt"]
    (new_fit (new_data1d [Some 0; Some 1; Some 2] [Some 4; Some 9; Some 16] None)) in
  components f = [("s1_", "Gaussian"); ("s3_", "Voigt"); ("b1_", "Constant")] /\ aligned f /\
  fit_points (fst (set_range (1, 2) f)) = [(Some 1, Some 9, nsqrt (Some 9)); (Some 2, Some 16, nsqrt (Some 16))].
Proof.
  cbv zeta. split; [reflexivity|]. split; [split; reflexivity|].
  unfold set_range. cbn. destruct (Rle_dec 1 0); [lra|]. destruct (Rle_dec 1 1); [|lra]. destruct (Rle_dec 1 2); [|lra].
  destruct (Rle_dec 2 2); [|lra]. cbn. reflexivity.
Qed.

(** * C62: weights *)
(** What error bars mean: the sum of squared deviations, each in units of its error. *)
Fixpoint chi_square (err y m : list R) : R :=
  match err, y, m with
  | a :: w', b :: y', c :: m' => ((c - b) / a) * ((c - b) / a) + chi_square w' y' m'
  | _, _, _ => 0
  end.

(** The error bars themselves are handed over as weights, so of two curves the fit may prefer the one that is worse by the error bars: errors 1 and 2, both values 0, and the
    curves (2, 0) and (0, 2). *)
Theorem C62_refuted : exists err y m1 m2,
  fit_weights (Fit1D [Some 0; Some 1] (map Some y) (Some (map Some err)) [] [] 0 0) true = Some (map Some err) /\
  objective err y m1 < objective err y m2 /\ chi_square err y m2 < chi_square err y m1.
Proof. exists [1; 2], [0; 0], [2; 0], [0; 2]. split; [reflexivity|]. cbn. lra. Qed.
Print Assumptions C62_refuted.

(** With equal error bars both orders agree. *)
Theorem C62_equal_errors_partial : forall e y m1 m2, 0 < e ->
  let err := map (fun _ => e) y in
  (objective err y m1 <= objective err y m2 <-> chi_square err y m1 <= chi_square err y m2).
Proof.
  intros e y m1 m2 He. cbv zeta.
  assert (A : forall y m, objective (map (fun _ => e) y) y m = (e * e) * (e * e) * chi_square (map (fun _ => e) y) y m).
  { clear y m1 m2. induction y as [|b y IH]; intros [|c m]; cbn; try ring. rewrite IH. field. lra. }
  rewrite !A. assert (0 < e * e * (e * e)) by (apply Rmult_lt_0_compat; apply Rmult_lt_0_compat; auto).
  split; intros H0; [eapply Rmult_le_reg_l; eauto | apply Rmult_le_compat_l; lra].
Qed.
Print Assumptions C62_equal_errors_partial.

(** What the fit minimises: the sum of squared deviations as if every error bar were its inverse. *)
Theorem C62_inverted : forall err y m, (forall e, In e err -> 0 < e) -> objective err y m = chi_square (map Rinv err) y m.
Proof.
  induction err as [|e err IH]; intros [|b y] [|c m] P; cbn; auto. rewrite IH by (intros; apply P; right; auto). assert (0 < e) by (apply P; left; auto). field. lra.
Qed.
Print Assumptions C62_inverted.

Fixpoint bump (i : nat) (y : list R) : list R :=
  match y, i with [], _ => [] | b :: y, O => (b + 1) :: y | b :: y, S i => b :: bump i y end.
Lemma bump_length : forall y i, List.length (bump i y) = List.length y.
Proof. induction y as [|b y IH]; intros [|i]; cbn; auto. Qed.
Lemma bump_values : forall err y i e, List.length err = List.length y -> nth_error err i = Some e ->
  objective err y (bump i y) = e * e /\ chi_square err y (bump i y) = / e * / e.
Proof.
  assert (Z : forall err y, objective err y y = 0 /\ chi_square err y y = 0).
  { induction err as [|e err IH]; intros [|b y]; cbn; auto. destruct (IH y) as [-> ->]. unfold Rdiv. split; ring. }
  induction err as [|a err IH]; intros [|b y] [|i] e L N; cbn in *; try discriminate.
  - injection N as ->. destruct (Z err y) as [-> ->]. unfold Rdiv. split; ring.
  - destruct (IH y i e) as [-> ->]; auto. unfold Rdiv. split; ring.
Qed.
(** C62 holds of exactly the data whose error bars are all equal. *)
Theorem C62_exactly_equal_partial : forall err y, List.length err = List.length y -> (forall e, In e err -> 0 < e) ->
  ((forall m1 m2, List.length m1 = List.length y -> List.length m2 = List.length y ->
     (objective err y m1 <= objective err y m2 <-> chi_square err y m1 <= chi_square err y m2)) <->
   forall e e', In e err -> In e' err -> e = e').
Proof.
  intros err y L P. split.
  - intros H. assert (W : forall e e', In e err -> In e' err -> ~ e < e').
    { intros e e' I I' LT. apply In_nth_error in I, I'. destruct I as [i I], I' as [j I']. destruct (bump_values err y i e L I) as [O1 X1]. destruct (bump_values err y j e' L I') as [O2 X2].
      pose proof (P e (nth_error_In _ _ I)) as E0. destruct (H (bump i y) (bump j y)) as [H1 _]; try apply bump_length. rewrite O1, O2, X1, X2 in H1.
      assert (A : e * e <= e' * e') by (apply Rmult_le_compat; lra). specialize (H1 A). assert (B : / e' < / e) by (apply Rinv_lt_contravar; auto; apply Rmult_lt_0_compat; lra).
      assert (C : 0 < / e') by (apply Rinv_0_lt_compat; lra). assert (/ e' * / e' < / e * / e) by (apply Rmult_gt_0_lt_compat; lra). lra. }
    intros e e' I I'. destruct (Rtotal_order e e') as [T|[T|T]]; auto; exfalso; eapply W; [| |exact T| | |exact T]; auto.
  - intros E m1 m2 _ _. destruct err as [|e err]; [destruct y, m1, m2; cbn; lra|].
    assert (Q : e :: err = map (fun _ => e) y).
    { assert (G : forall l, (forall x, In x l -> x = e) -> forall y : list R, List.length l = List.length y -> l = map (fun _ => e) y).
      { clear. induction l as [|x l IH]; intros A [|b y] L; cbn in *; try discriminate; auto. rewrite (A x) by auto. f_equal. apply IH; auto. }
      apply G; auto. intros x I. apply E; auto. left; auto. }
    rewrite Q. apply (C62_equal_errors_partial e y m1 m2). apply P. left; auto.
Qed.
Print Assumptions C62_exactly_equal_partial.

(** * C52 *)
(** The drawing position of the point with coordinates (x, y) when the second axis makes [angle] degrees with the
    first: [x] along (1,0) plus [y / sin] along (cos, sin), [y] being the height. *)
Definition oblique (x y angle : R) : R * R :=
  let a := angle * PI / 180 in let s := y / sin a in (x * 1 + s * cos a, x * 0 + s * sin a).

Lemma sin_deg_pos : forall angle, 0 < angle < 180 -> 0 < sin (angle / 180 * PI).
Proof. intros a H. pose proof PI_RGT_0. apply sin_gt_0; nra. Qed.

Theorem C52_inverse : forall x y angle, 0 < angle < 180 ->
  exists x', tr x y angle = (Some x', y) /\ inv_tr x' y angle = (Some x, y).
Proof.
  intros x y a H. pose proof (sin_deg_pos a H) as S. unfold tr, inv_tr, over_tan. destruct (Req_EM_T _ 0); [lra|].
  eexists; cbn; split; [reflexivity|]. do 2 f_equal. ring.
Qed.
Print Assumptions C52_inverse.

Theorem C52_inverse_back : forall x y angle, 0 < angle < 180 ->
  exists x', inv_tr x y angle = (Some x', y) /\ tr x' y angle = (Some x, y).
Proof.
  intros x y a H. pose proof (sin_deg_pos a H) as S. unfold tr, inv_tr, over_tan. destruct (Req_EM_T _ 0); [lra|].
  eexists; cbn; split; [reflexivity|]. do 2 f_equal. ring.
Qed.
Print Assumptions C52_inverse_back.

Theorem C52_oblique : forall x y angle, 0 < angle < 180 ->
  tr x y angle = (Some (fst (oblique x y angle)), snd (oblique x y angle)).
Proof.
  intros x y a H. pose proof (sin_deg_pos a H) as S. unfold tr, over_tan, oblique. destruct (Req_EM_T _ 0); [lra|].
  replace (a * PI / 180) with (a / 180 * PI) by field. cbn. f_equal; [f_equal|]; field; lra.
Qed.
Print Assumptions C52_oblique.

Example C52_ex : tr 1 2 90 = (Some 1, 2) /\ tr 1 2 45 = (Some 3, 2).
Proof.
  split; unfold tr, over_tan.
  - replace (90 / 180 * PI) with (PI / 2) by field. rewrite sin_PI2, cos_PI2. destruct (Req_EM_T 1 0); [lra|]. cbn. do 2 f_equal. field.
  - replace (45 / 180 * PI) with (PI / 4) by field. rewrite sin_PI4, cos_PI4. assert (0 < sqrt 2) by (apply sqrt_lt_R0; lra).
    assert (0 < 1 / sqrt 2) by (apply Rdiv_lt_0_compat; lra). destruct (Req_EM_T _ 0); [lra|]. cbn. do 2 f_equal. field. lra.
Qed.
Example C62_ex : let y := [1; 2; 4] in let err := map (fun _ => 1/2) y in objective err y [1; 2; 3] <= objective err y [0; 0; 0] /\ chi_square err y [1; 2; 3] <= chi_square err y [0; 0; 0].
Proof.
  intros y err. assert (C : chi_square err y [1; 2; 3] <= chi_square err y [0; 0; 0]) by (unfold chi_square; cbn; lra).
  split; auto. apply (C62_equal_errors_partial (1/2) y); auto. lra.
Qed.
