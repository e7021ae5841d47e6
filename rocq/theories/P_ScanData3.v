(** Properties C23 and C24, further: data taken together, and where the rebinned points lie. *)
From Coq Require Import Reals Lra Psatz List ZArith Lia Bool.
From Verif Require Import Base M_ScanData S_ScanData L_ScanData P_ScanData.
Import ListNotations.
Open Scope R_scope.

Lemma bin_app : forall lo step i l m, bin lo step i (l ++ m) = (bin lo step i l ++ bin lo step i m)%list.
Proof. intros. unfold bin. apply filter_app. Qed.
Lemma denom_app : forall k l m, denom k (l ++ m) = denom k l + denom k m.
Proof. intros [| | |] l m; cbn [denom]; try apply total_app; rewrite app_length; apply plus_INR. Qed.
Lemma bin_is_in : forall lo step i pts p, In p (bin lo step i pts) -> In p pts /\ in_bin lo step i (px p).
Proof. unfold bin. intros lo step i pts p H. apply filter_In in H. destruct H as (A & B). split; auto. destruct (in_bin_dec lo step i (px p)); [auto|discriminate]. Qed.
Lemma denom_pos : forall k l, l <> [] -> (forall p, In p l -> 0 < pw p) -> 0 < denom k l.
Proof.
  assert (T : forall l, l <> [] -> (forall p, In p l -> 0 < pw p) -> 0 < total pw l).
  { induction l as [|p l]; intros H P; [congruence|]. cbn [total]. pose proof (P p (or_introl eq_refl)). destruct l as [|q l]; [cbn [total]; lra|].
    assert (0 < total pw (q :: l)); [|lra]. apply IHl; [discriminate|]. intros r R. apply P. right; auto. }
  intros [| | |] l H P; cbn [denom]; auto; destruct l; try congruence; cbn [length]; rewrite S_INR; pose proof (pos_INR (length l)); lra.
Qed.

(** Two measurements rebinned together: in every bin that both fill, the value is the mean of the two values, weighted with
    what each was divided by; in a bin that only one fills it is that one's value. *)
Theorem C23_together : forall k d1 d2 d arg1 arg2 arg pts1 pts2 lo hi step d1' d2' d' i,
  holds d1 pts1 -> suits k d1 arg1 pts1 -> holds d2 pts2 -> suits k d2 arg2 pts2 -> holds d (pts1 ++ pts2) -> suits k d arg (pts1 ++ pts2) ->
  0 < step -> lo <= hi -> (forall p, In p (pts1 ++ pts2) -> 0 < pw p) ->
  rebin k d1 (Some lo, Some hi, step) arg1 = Ok d1' -> rebin k d2 (Some lo, Some hi, step) arg2 = Ok d2' -> rebin k d (Some lo, Some hi, step) arg = Ok d' ->
  let w1 := denom k (bin lo step i pts1) in let w2 := denom k (bin lo step i pts2) in
  value (dy d') i * (w1 + w2) = value (dy d1') i * w1 + value (dy d2') i * w2.
Proof.
  intros k d1 d2 d arg1 arg2 arg pts1 pts2 lo hi step d1' d2' d' i H1 S1 H2 S2 H S0 ST L W E1 E2 E w1 w2.
  destruct (setup_spec [] lo hi step ST L) as (n & N & _).
  assert (V : forall d arg pts d', holds d pts -> suits k d arg pts -> (forall p, In p pts -> 0 < pw p) -> rebin k d (Some lo, Some hi, step) arg = Ok d' ->
    (i < n)%nat -> value (dy d') i * denom k (bin lo step i pts) = factor k * total py (bin lo step i pts)).
  { intros d0 a0 p0 r0 HH SS WW EE I. destruct (C24_bins k d0 a0 p0 lo hi step n HH SS ST L N) as (r & R & _ & _ & _ & _ & B). rewrite R in EE. apply Ok_inj in EE. subst r0.
    destruct (B i I) as (B1 & _). destruct (bin lo step i p0) as [|q l] eqn:Q.
    - replace (denom k []) with 0 by (destruct k; reflexivity). cbn [total]. lra.
    - assert (D : 0 < denom k (q :: l)). { apply denom_pos; [discriminate|]. intros p P. rewrite <- Q in P. apply WW. eapply bin_is_in; eauto. }
      destruct (B1 ltac:(lra)) as (Y & _). unfold value. rewrite Y. field. lra. }
  assert (Z : forall d arg pts d', holds d pts -> suits k d arg pts -> rebin k d (Some lo, Some hi, step) arg = Ok d' -> ~ (i < n)%nat -> value (dy d') i = 0).
  { intros d0 a0 p0 r0 HH SS EE I. destruct (C24_bins k d0 a0 p0 lo hi step n HH SS ST L N) as (r & R & _ & LY & _). rewrite R in EE. apply Ok_inj in EE. subst r0.
    unfold value. rewrite (proj2 (nth_error_None (dy r) i)); auto. lia. }
  destruct (lt_dec i n) as [I|I].
  - pose proof (V d1 arg1 pts1 d1' H1 S1 (fun p P => W p (in_or_app _ _ _ (or_introl P))) E1 I) as V1.
    pose proof (V d2 arg2 pts2 d2' H2 S2 (fun p P => W p (in_or_app _ _ _ (or_intror P))) E2 I) as V2.
    pose proof (V d arg _ d' H S0 W E I) as V0. rewrite bin_app, denom_app, total_app in V0. unfold w1, w2. rewrite V1, V2. lra.
  - rewrite (Z _ _ _ _ H1 S1 E1 I), (Z _ _ _ _ H2 S2 E2 I), (Z _ _ _ _ H S0 E I). ring.
Qed.
Print Assumptions C23_together.

(** Without renormalisation the value of a bin lies between the smallest and the largest count of its points. *)
Theorem C24_y_between : forall k d arg pts lo hi step n d' i a b, holds d pts -> suits k d arg pts -> 0 < step -> lo <= hi ->
  bin_count lo hi step n -> k = Tol \/ k = Grid -> rebin k d (Some lo, Some hi, step) arg = Ok d' -> (i < n)%nat -> bin lo step i pts <> [] ->
  (forall p, In p (bin lo step i pts) -> a <= py p <= b) -> exists y, nth_error (dy d') i = Some (Some y) /\ a <= y <= b.
Proof.
  intros k d arg pts lo hi step n d' i a b H S ST L N K E I NE B.
  destruct (C24_bins k d arg pts lo hi step n H S ST L N) as (r & R & _ & _ & _ & _ & X). rewrite R in E. apply Ok_inj in E. subst d'.
  destruct (X i I) as (Y & _). set (l := bin lo step i pts) in *.
  assert (D : denom k l = INR (length l)) by (destruct K as [->| ->]; reflexivity). assert (F : factor k = 1) by (destruct K as [->| ->]; reflexivity).
  rewrite D, F in Y. assert (P : 0 < INR (length l)). { destruct l; [congruence|]. cbn [length]. rewrite S_INR. pose proof (pos_INR (length l)). lra. }
  assert (T : a * INR (length l) <= total py l <= b * INR (length l)).
  { clear - B. induction l as [|p l]; [cbn; lra|]. cbn [total length]. rewrite S_INR. pose proof (B p (or_introl eq_refl)).
    destruct IHl; [intros q Q; apply B; right; auto|]. lra. }
  destruct (Y ltac:(lra)) as (Y1 & _). eexists. split; [exact Y1|].
  split; apply (Rmult_le_reg_r (INR (length l))); auto; replace (total py l / INR (length l) * 1 * INR (length l)) with (total py l) by (field; lra); lra.
Qed.
Print Assumptions C24_y_between.

(** The rebinned points come in order of x, for all four calls. *)
Theorem C24_x_in_order : forall k d arg pts lo hi step n d' i j, holds d pts -> suits k d arg pts -> 0 < step -> lo <= hi ->
  bin_count lo hi step n -> rebin k d (Some lo, Some hi, step) arg = Ok d' -> (i < j < n)%nat ->
  bin lo step i pts <> [] -> bin lo step j pts <> [] -> (forall p, In p pts -> 0 < pw p) ->
  exists x y, nth_error (dx d') i = Some (Some x) /\ nth_error (dx d') j = Some (Some y) /\ x < y.
Proof.
  intros k d arg pts lo hi step n d' i j H S ST L N E (I & J) BI BJ W.
  assert (IJ : INR i + 1 <= INR j) by (rewrite <- S_INR; apply le_INR; lia).
  destruct (on_grid k) eqn:G.
  - destruct (C24_bins k d arg pts lo hi step n H S ST L N) as (r & R & _ & _ & _ & _ & X). rewrite R in E. apply Ok_inj in E. subst d'.
    destruct (X i ltac:(lia)) as (_ & _ & X1 & _), (X j J) as (_ & _ & X2 & _). rewrite (X1 G), (X2 G).
    eexists _, _. split; [reflexivity|split; [reflexivity|]]. assert (step <= (INR j - INR i) * step) by nra. lra.
  - destruct (C24_x_inside_bin k d arg pts lo hi step n d' i H S ST L N G E ltac:(lia) BI W) as (x & X & XB).
    destruct (C24_x_inside_bin k d arg pts lo hi step n d' j H S ST L N G E J BJ W) as (y & Y & YB).
    exists x, y. split; auto. split; auto. unfold in_bin in *. assert ((INR i + 1) * step <= INR j * step) by nra. lra.
Qed.
Print Assumptions C24_x_in_order.

(** Two measurements, one of them with a point in the second bin as well. *)
Example C23_ex_together : let pts1 := [Point 0 4 2; Point 1 9 3] in let pts2 := [Point (1/10) 6 1] in
  let data pts := new_data1d (col px pts) (col py pts) None in
  holds (data pts1) pts1 /\ holds (data pts2) pts2 /\ holds (data (pts1 ++ pts2)%list) (pts1 ++ pts2) /\
  (forall p, In p (pts1 ++ pts2) -> 0 < pw p) /\ bin_count 0 1 1 2 /\
  bin 0 1 0 (pts1 ++ pts2) = [Point 0 4 2; Point (1/10) 6 1] /\ bin 0 1 1 (pts1 ++ pts2) = [Point 1 9 3] /\
  exists d', rebin Grid (data (pts1 ++ pts2)%list) (Some 0, Some 1, 1) None = Ok d' /\ nth_error (dy d') 0 = Some (Some 5).
Proof.
  intros pts1 pts2 data. assert (H : holds (data (pts1 ++ pts2)%list) (pts1 ++ pts2)) by (split; auto).
  assert (N : bin_count 0 1 1 2).
  { intros i. split.
    + intros K. destruct i as [|[|i]]; [cbn; lra|cbn; lra|lia].
    + intros K. destruct i as [|[|i]]; [lia|lia|]. exfalso. rewrite !S_INR in K. pose proof (pos_INR i). lra. }
  assert (B : forall i, bin 0 1 i (pts1 ++ pts2) = bin 0 1 i [Point 0 4 2; Point 1 9 3; Point (1/10) 6 1]) by reflexivity.
  assert (B0 : bin 0 1 0 (pts1 ++ pts2) = [Point 0 4 2; Point (1/10) 6 1]).
  { rewrite B. unfold bin. cbn [filter px].
    repeat match goal with |- context [in_bin_dec ?a ?b ?c ?x] => let n := fresh "n" in
      destruct (in_bin_dec a b c x) as [n|n]; [try (exfalso; unfold in_bin in n; cbn [INR] in n; lra)|try (exfalso; apply n; unfold in_bin; cbn [INR]; lra)] end;
    cbn [decb]; auto. }
  assert (B1 : bin 0 1 1 (pts1 ++ pts2) = [Point 1 9 3]).
  { rewrite B. unfold bin. cbn [filter px].
    repeat match goal with |- context [in_bin_dec ?a ?b ?c ?x] => let n := fresh "n" in
      destruct (in_bin_dec a b c x) as [n|n]; [try (exfalso; unfold in_bin in n; cbn [INR] in n; lra)|try (exfalso; apply n; unfold in_bin; cbn [INR]; lra)] end;
    cbn [decb]; auto. }
  split; [split; auto|]. split; [split; auto|]. split; auto. split; [intros p [<-|[<-|[<-|[]]]]; cbn [pw]; lra|]. split; auto. split; auto. split; auto.
  destruct (C24_bins Grid _ None _ 0 1 1 2 H I ltac:(lra) ltac:(lra) N) as (d' & D & _ & _ & _ & _ & X). exists d'. split; auto.
  destruct (X 0%nat ltac:(lia)) as (Y & _). rewrite B0 in Y. cbn [denom length INR] in Y. destruct (Y ltac:(lra)) as (Y1 & _). rewrite Y1. do 2 f_equal. cbn [total py factor]. lra.
Qed.
