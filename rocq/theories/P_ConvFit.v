(** C71: fits of a curve convolved with the resolution. *)
From Coq Require Import Reals List ZArith String Bool Arith Lra Lia Psatz Permutation.
From Verif Require Import Base M_Utilities M_ScanData M_Project M_Tavi M_Fit M_ConvFit S_ConvFit.
From Verif Require P_Tavi.
Import ListNotations.
Open Scope string_scope.
Open Scope list_scope.
Open Scope R_scope.

Definition total (l : list R) : R := fold_right Rplus 0 l.
Lemma fold_left_total : forall l a, fold_left Rplus l a = a + total l.
Proof. unfold total. induction l as [|x l IH]; intros a; cbn; [ring|]. rewrite IH. ring. Qed.
Lemma total_scale : forall (A : Type) (f g : A -> R) c l, (forall a, In a l -> f a = c * g a) -> total (map f l) = c * total (map g l).
Proof. intros A f g c l. induction l as [|a l IH]; intros H; cbn; [ring|]. change (f a + total (map f l) = c * (g a + total (map g l))). rewrite (H a) by (left; auto). rewrite IH by (intros; apply H; right; auto). ring. Qed.
Lemma total_add : forall (A : Type) (f g : A -> R) l, total (map (fun a => f a + g a) l) = total (map f l) + total (map g l).
Proof. intros A f g l. induction l as [|a l IH]; cbn; [ring|]. change (f a + g a + total (map (fun a => f a + g a) l) = f a + total (map f l) + (g a + total (map g l))). rewrite IH. ring. Qed.
Lemma total_pos : forall l, Forall (fun r => 0 <= r) l -> 0 <= total l.
Proof. induction 1; cbn; [lra|]. unfold total in *. lra. Qed.
Lemma root_pos : 0 < sqrt (2 * PI).
Proof. apply sqrt_lt_R0. pose proof PI_RGT_0. lra. Qed.
Lemma phi_pos : forall t, 0 < phi t.
Proof. intros t. unfold phi. apply Rdiv_lt_0_compat; [apply exp_pos|apply root_pos]. Qed.
Lemma gaussian_peak : forall x a c s, s <> 0 -> gaussian x a c s = peak a c s x.
Proof.
  intros x a c s S. unfold gaussian, peak, phi. replace (- ((x - c) / s * ((x - c) / s)) / 2) with (- (x - c) ^ 2 / (2 * s ^ 2)) by (field; auto).
  set (e := exp _). pose proof root_pos. field. split; lra.
Qed.
Lemma pts_real : INR NUM_PTS = 10000 /\ INR (NUM_PTS - 1) = 9999.
Proof. unfold NUM_PTS. rewrite minus_INR by lia. rewrite INR_IZR_INZ, Z2Nat.id by lia. split; cbn [INR]; lra. Qed.
Lemma deviation_nonzero : forall w, w <> 0 -> deviation w <> 0.
Proof.
  intros w W. unfold deviation. assert (0 < sqrt (2 * ln 2)). { apply sqrt_lt_R0. pose proof ln_lt_2. lra. }
  intros E. apply W. apply (Rmult_eq_reg_r (/ (2 * sqrt (2 * ln 2)))); [|apply Rinv_neq_0_compat; lra]. unfold Rdiv in E. rewrite E. ring.
Qed.
Lemma point_smeared : forall f rez x, snd rez <> 0 -> conv_point NUM_PTS f rez x = smeared f rez x.
Proof.
  intros f [r0 w] x W. cbn [snd] in W. unfold conv_point, smeared. cbn [fst snd]. pose proof (deviation_nonzero w W) as D. fold (deviation w). set (s := deviation w) in *. clearbody s.
  rewrite fold_left_total, Rplus_0_l. change (fold_right Rplus 0) with total. unfold nodes. rewrite map_map. change (Z.to_nat 10000) with NUM_PTS.
  assert (LS : forall k, linspace_at (- 5 * s) (5 * s) NUM_PTS k = (-5 + 10 * INR k / 9999) * s). { intros k. unfold linspace_at. destruct pts_real as [_ ->]. field. }
  destruct pts_real as [-> _]. generalize (seq 0 NUM_PTS). intros l.
  rewrite (total_scale _ (fun k => gaussian (linspace_at (-5 * s) (5 * s) NUM_PTS k) r0 0 s * f (x - linspace_at (-5 * s) (5 * s) NUM_PTS k))
    (fun k => phi (-5 + 10 * INR k / 9999) * f (x - (-5 + 10 * INR k / 9999) * s) * (1 / 1000)) (1000 * r0 / s)).
  - set (T := total _). field. auto.
  - intros k _. rewrite LS. set (t := -5 + 10 * INR k / 9999). rewrite gaussian_peak by auto. unfold peak. replace ((t * s - 0) / s) with t by (field; auto). field. auto.
Qed.

(** At every point the curve is seen through the resolution at the same position of the list. *)
Theorem C71_value : forall xs f rez, (List.length xs <= List.length rez)%nat -> Forall (fun p => snd p <> 0) rez ->
  exists ys, conv_1d xs f rez = Ok ys /\ List.length ys = List.length xs /\
    (forall i x p, xs @ i is Some x -> rez @ i is p -> ys @ i is Some (smeared f p x)) /\ (forall i, xs @ i is None -> ys @ i is None).
Proof.
  unfold conv_1d. intros xs f rez L F. revert xs L. induction F as [|p rez P F IH]; intros [|x xs] L; cbn [conv_loop]; try (cbn in L; lia).
  - exists []. split; auto. split; auto. split; intros [|]; discriminate.
  - exists []. split; auto. split; auto. split; intros [|]; discriminate.
  - destruct (IH xs ltac:(cbn in L; lia)) as (ys & E & N & H1 & H2). destruct (Req_EM_T (snd p) 0); [contradiction|]. rewrite E. cbn [bind]. eexists. split; [reflexivity|]. split; [cbn; lia|]. split.
    + intros [|i] u q; cbn [nth_error]; [|eauto]. intros X Q. injection X as ->. injection Q as ->. rewrite point_smeared; auto.
    + intros [|i]; cbn [nth_error]; [|eauto]. intros X. injection X as ->. auto.
Qed.
Print Assumptions C71_value.
(** More points than resolutions are refused. *)
Theorem C71_too_many : forall xs f rez, (List.length rez < List.length xs)%nat -> Forall (fun p => snd p <> 0) rez -> conv_1d xs f rez = Err IndexError.
Proof.
  unfold conv_1d. intros xs f rez L F. revert xs L. induction F as [|p rez P F IH]; intros [|x xs] L; cbn [conv_loop]; try (cbn in L; lia); auto.
  destruct (Req_EM_T (snd p) 0); [contradiction|]. rewrite IH by (cbn in L; lia). auto.
Qed.
Print Assumptions C71_too_many.

(** ** Properties of the sum *)
Lemma smeared_add : forall f g p x, smeared (fun u => f u + g u) p x = smeared f p x + smeared g p x.
Proof.
  intros. unfold smeared. change (fold_right Rplus 0) with total. rewrite <- Rmult_plus_distr_l. f_equal. rewrite <- total_add. f_equal. apply map_ext. intros. ring.
Qed.
Lemma smeared_ext : forall f g p x, (forall u, f u = g u) -> smeared f p x = smeared g p x.
Proof. intros f g p x H. unfold smeared. f_equal. f_equal. apply map_ext. intros. rewrite H. auto. Qed.
Theorem C71_linear : forall f g a b p x, smeared (fun u => a * f u + b * g u) p x = a * smeared f p x + b * smeared g p x.
Proof.
  intros. rewrite smeared_add. assert (S : forall c h, smeared (fun u => c * h u) p x = c * smeared h p x).
  { intros c h. unfold smeared. change (fold_right Rplus 0) with total. rewrite (total_scale _ (fun t => phi t * (c * h (x - t * deviation (snd p))) * (1 / 1000)) (fun t => phi t * h (x - t * deviation (snd p)) * (1 / 1000)) c); [ring|]. intros. ring. }
  rewrite !S. auto.
Qed.
Print Assumptions C71_linear.
(** A constant stays a constant: r0 times a number that depends neither on the point nor on the width. *)
Theorem C71_constant : forall c p x, smeared (fun _ => c) p x = c * fst p * weight_sum.
Proof.
  intros c p x. unfold smeared, weight_sum. change (fold_right Rplus 0) with total. rewrite (total_scale _ (fun t => phi t * c * (1 / 1000)) (fun t => phi t * (1 / 1000)) c); [ring|]. intros. ring.
Qed.
Print Assumptions C71_constant.
Lemma nodes_nonempty : In (-5) nodes.
Proof. unfold nodes. apply in_map_iff. exists 0%nat. split; [cbn [INR]; field|]. apply in_seq. lia. Qed.
Theorem C71_constant_positive : 0 < weight_sum.
Proof.
  unfold weight_sum. change (fold_right Rplus 0) with total. pose proof nodes_nonempty as N. destruct nodes as [|t l]; [destruct N|]. cbn [map]. change (0 < phi t * (1 / 1000) + total (map (fun t => phi t * (1 / 1000)) l)).
  pose proof (phi_pos t). assert (0 <= total (map (fun t => phi t * (1 / 1000)) l)); [|lra]. apply total_pos. apply Forall_forall. intros r R. apply in_map_iff in R. destruct R as (u & <- & _). pose proof (phi_pos u). lra.
Qed.
Print Assumptions C71_constant_positive.
(** A shifted curve gives the shifted result, and a curve that is larger everywhere the larger result. *)
Theorem C71_shift : forall f p x d, smeared (fun u => f (u - d)) p (x + d) = smeared f p x.
Proof. intros. unfold smeared. f_equal. f_equal. apply map_ext. intros t. do 3 f_equal. ring. Qed.
Print Assumptions C71_shift.
Theorem C71_monotone : forall f g p x, 0 <= fst p -> (forall u, f u <= g u) -> smeared f p x <= smeared g p x.
Proof.
  intros f g p x R H. unfold smeared. apply Rmult_le_compat_l; auto. induction nodes as [|t l IH]; cbn; [lra|]. apply Rplus_le_compat; auto. apply Rmult_le_compat_r; [lra|]. apply Rmult_le_compat_l; [left; apply phi_pos|auto].
Qed.
Print Assumptions C71_monotone.
(** The result for a curve that is symmetric about [c] is symmetric about [c]: the resolution shifts no peak. *)
Lemma rev_seq_map : forall (g : nat -> R) n, rev (map g (seq 0 n)) = map (fun k => g (n - 1 - k)%nat) (seq 0 n).
Proof.
  intros g n. induction n as [|n IH]; auto. transitivity (g n :: rev (map g (seq 0 n))). { rewrite seq_S, map_app, rev_app_distr. reflexivity. } rewrite IH.
  replace (seq 0 (S n)) with (0%nat :: map S (seq 0 n)) by (cbn [seq]; rewrite seq_shift; reflexivity). cbn [map]. apply f_equal2; [f_equal; lia|]. rewrite map_map. apply map_ext_in. intros k K. apply in_seq in K. f_equal. lia.
Qed.
Lemma total_rev : forall l, total (rev l) = total l.
Proof.
  intros l. assert (P : forall l m, Permutation l m -> total l = total m) by (unfold total; induction 1; cbn; lra). apply P. symmetry. apply Permutation_rev.
Qed.
Lemma nodes_sym : forall g : R -> R, total (map g nodes) = total (map (fun t => g (- t)) nodes).
Proof.
  intros g. unfold nodes. rewrite !map_map. rewrite <- (total_rev (map (fun k => g (-5 + 10 * INR k / 9999)) _)). rewrite (rev_seq_map (fun k => g (-5 + 10 * INR k / 9999))). f_equal. apply map_ext_in. intros k K. apply in_seq in K. f_equal.
  set (n := Z.to_nat 10000) in *. assert (N : INR n = 10000) by (unfold n; rewrite INR_IZR_INZ, Z2Nat.id by lia; reflexivity). assert (1 <= n)%nat by (unfold n; lia). clearbody n.
  rewrite minus_INR by lia. rewrite minus_INR by lia. rewrite N. cbn [INR]. field.
Qed.
Theorem C71_symmetric : forall f p c d, (forall u, f (c + u) = f (c - u)) -> smeared f p (c + d) = smeared f p (c - d).
Proof.
  intros f p c d H. unfold smeared. f_equal. change (fold_right Rplus 0) with total. rewrite nodes_sym. f_equal. apply map_ext. intros t. set (s := deviation (snd p)). unfold phi. replace (- t * - t) with (t * t) by ring.
  replace (c + d - - t * s) with (c + (d + t * s)) by ring. rewrite H. do 3 f_equal. ring.
Qed.
Print Assumptions C71_symmetric.

(** ** The class *)
(** The curve of a component for the parameters [p]: a peak, or a constant *)
Definition shape_of (p : pars) (bp : bool * string) (g : R -> R) : Prop :=
  if fst bp then exists a c s, sget (snd bp ++ "amplitude")%string p = Some a /\ sget (snd bp ++ "center")%string p = Some c /\ sget (snd bp ++ "sigma")%string p = Some s /\ s <> 0 /\ g = peak a c s
  else exists c, sget (snd bp ++ "c")%string p = Some c /\ g = fun _ => c.
Definition seen (xs : list num) (rez : list (R * R)) (g : R -> R) (ys : list num) : Prop :=
  List.length ys = List.length xs /\ (forall i x q, xs @ i is Some x -> rez @ i is q -> ys @ i is Some (smeared g q x)).
Lemma eval_component : forall p rez xs bp g, shape_of p bp g -> (List.length xs <= List.length rez)%nat -> Forall (fun q => snd q <> 0) rez ->
  exists ys, (if fst bp then eval_signal p rez xs (snd bp) else eval_background p rez xs (snd bp)) = Ok ys /\ seen xs rez g ys.
Proof.
  intros p rez xs [b pre] g S L F. unfold shape_of in S. cbn [fst snd] in *. destruct b.
  - destruct S as (a & c & s & A & C & D & S & ->). unfold eval_signal, pget. rewrite A. cbn [bind]. rewrite C. cbn [bind]. rewrite D. cbn [bind]. destruct (Req_EM_T s 0); [contradiction|].
    destruct (C71_value xs (fun x => gaussian x a c s) rez L F) as (ys & E & N & H & _). exists ys. split; [exact E|]. split; auto. intros i x q X Q. rewrite (H i x q X Q). do 2 f_equal. apply smeared_ext. intros u. apply gaussian_peak. auto.
  - destruct S as (c & C & ->). unfold eval_background, pget. rewrite C. cbn [bind]. destruct (C71_value xs (fun x => constant x c) rez L F) as (ys & E & N & H & _). exists ys. split; [exact E|]. split; auto.
    intros i x q X Q. rewrite (H i x q X Q). do 2 f_equal. apply smeared_ext. intros u. unfold constant. ring.
Qed.
Lemma zip_nth : forall (a b : list num) i u v, a @ i is Some u -> b @ i is Some v -> zipw nadd a b @ i is Some (u + v).
Proof. induction a as [|x a IH]; intros [|y b] [|i] u v A B; cbn in *; try discriminate; [injection A as ->; injection B as ->; auto|]. eauto. Qed.
Lemma zip_length : forall (a b : list num), List.length a = List.length b -> List.length (zipw nadd a b) = List.length a.
Proof. induction a as [|x a IH]; intros [|y b] E; cbn in *; try discriminate; auto. Qed.
(** The model is the sum of its components, seen through the resolution. *)
Theorem C71_sum : forall f p xs comps shapes, composite f = Ok comps -> Forall2 (shape_of p) comps shapes ->
  (List.length xs <= List.length (c_rez f))%nat -> Forall (fun q => snd q <> 0) (c_rez f) ->
  exists ys, conv_eval f p xs = Ok ys /\ List.length ys = List.length xs /\
    forall i x q, xs @ i is Some x -> c_rez f @ i is q -> ys @ i is Some (smeared (fun u => fold_right Rplus 0 (map (fun g => g u) shapes)) q x).
Proof.
  intros f p xs comps shapes C S L F.
  assert (NE : comps <> []). { unfold composite in C. destruct (_ ++ _) as [|[b [m|m]] l]; try discriminate. cbn [mapM] in C. cbn [bind] in C. destruct (mapM _ l); [|discriminate]. cbn [bind] in C. apply Ok_inj in C. subst. discriminate. }
  unfold conv_eval. rewrite C. cbn [bind]. set (ev := fun bp : bool * string => if fst bp then eval_signal p (c_rez f) xs (snd bp) else eval_background p (c_rez f) xs (snd bp)).
  assert (M : exists yss, mapM ev comps = Ok yss /\ Forall2 (seen xs (c_rez f)) shapes yss).
  { clear C NE. induction S as [|bp g comps shapes S1 S IH]; [exists []; split; [reflexivity|constructor]|]. destruct IH as (yss & E & H). destruct (eval_component p (c_rez f) xs bp g S1 L F) as (ys & E1 & H1).
    exists (ys :: yss). split; [|constructor; auto]. cbn [mapM]. unfold ev at 1. rewrite E1. cbn [bind]. rewrite E. reflexivity. }
  destruct M as (yss & E & H). rewrite E. cbn [bind]. destruct H as [|g ys shapes yss H1 H]. { inversion S. subst. congruence. }
  eexists. split; [reflexivity|]. clear S C NE E ev. revert g ys H1. induction H as [|g' ys' shapes yss H2 H IH]; intros g ys H1; cbn [fold_left].
  - split; [apply H1|]. intros i x q X Q. destruct H1 as [_ H1]. rewrite (H1 i x q X Q). do 2 f_equal. apply smeared_ext. intros u. cbn. ring.
  - destruct (IH (fun u => g u + g' u) (zipw nadd ys ys')) as [N K].
    { destruct H1 as [N1 H1]. destruct H2 as [N2 H2]. split; [rewrite zip_length; lia|]. intros i x q X Q. rewrite smeared_add. apply zip_nth; eauto. }
    split; auto. intros i x q X Q. rewrite (K i x q X Q). do 2 f_equal. apply smeared_ext. intros u. cbn [map fold_right]. ring.
Qed.
Print Assumptions C71_sum.

(** *** Histories *)
Definition good_op (o : conv_op) : Prop := match o with CSetRange _ => True | CAddSignal m => m = "Gaussian" | CAddBackground m => m = "Constant" end.
Definition is_signal (o : conv_op) : bool := match o with CAddSignal _ => true | _ => false end.
Definition is_background (o : conv_op) : bool := match o with CAddBackground _ => true | _ => false end.
Definition numbered (s : string) (n : nat) : list string := map (fun k => (s ++ str_of (Z.of_nat k) ++ "_")%string) (seq 1 n).
Definition started (d : data1d) (rez : list (R * R)) : convfit := fst (new_conv d rez None).
Lemma range_keeps : forall r g, f_nsig (fst (set_range r g)) = f_nsig g /\ f_nbkg (fst (set_range r g)) = f_nbkg g.
Proof.
  intros [lo hi] g. unfold set_range. destruct (index_mask _ (f_y g)); [|auto]. destruct (f_err g) as [e|]; [|auto]. destruct (index_mask _ e); auto.
Qed.
Lemma conv_set_range_fst : forall r f, fst (conv_set_range r f) = with_fit (fst (set_range r (c_fit f))) f.
Proof. intros r f. unfold conv_set_range. destruct (set_range r (c_fit f)). auto. Qed.
Lemma count_cons : forall (P : conv_op -> bool) o ops, List.length (filter P (o :: ops)) = ((if P o then 1 else 0) + List.length (filter P ops))%nat.
Proof. intros P o ops. cbn [filter]. destruct (P o); auto. Qed.
Lemma numbered_S : forall s n, numbered s (S n) = numbered s n ++ [(s ++ str_of (Z.of_nat n + 1) ++ "_")%string].
Proof. intros s n. unfold numbered. rewrite seq_S, map_app. cbn [map Nat.add]. do 5 f_equal. lia. Qed.
Lemma history : forall rez ops, Forall good_op ops -> forall f a b,
  f_nsig (c_fit f) = Z.of_nat a -> f_nbkg (c_fit f) = Z.of_nat b -> c_sig f = map AModel (numbered "s" a) -> c_bkg f = map AModel (numbered "b" b) -> c_intr f = numbered "s" a -> c_rez f = rez ->
  let f' := fold_left conv_step ops f in
  let a' := (a + List.length (filter is_signal ops))%nat in
  let b' := (b + List.length (filter is_background ops))%nat in
  f_nsig (c_fit f') = Z.of_nat a' /\ f_nbkg (c_fit f') = Z.of_nat b' /\ c_sig f' = map AModel (numbered "s" a') /\ c_bkg f' = map AModel (numbered "b" b') /\ c_intr f' = numbered "s" a' /\ c_rez f' = rez.
Proof.
  intros rez ops G. induction G as [|o ops O G IH]; intros f a b H1 H2 H3 H4 H5 H6.
  - cbn. rewrite !Nat.add_0_r. auto 10.
  - cbn [fold_left]. rewrite !count_cons. destruct o as [r|m|m]; cbn [is_signal is_background] in *.
    + rewrite !Nat.add_0_l. apply IH; cbn [conv_step]; rewrite conv_set_range_fst; unfold with_fit; cbn [c_fit c_sig c_bkg c_intr c_rez]; auto; destruct (range_keeps r (c_fit f)); congruence.
    + cbn in O. subst m. rewrite Nat.add_0_l. replace (a + (1 + List.length (filter is_signal ops)))%nat with (S a + List.length (filter is_signal ops))%nat by lia.
      apply IH; cbn [conv_step conv_add_signal String.eqb Ascii.eqb Bool.eqb fst c_fit c_sig c_bkg c_intr c_rez with_counts f_nsig f_nbkg]; auto; rewrite ?H1, ?numbered_S, ?map_app, ?H3, ?H5; auto; lia.
    + cbn in O. subst m. rewrite Nat.add_0_l. replace (b + (1 + List.length (filter is_background ops)))%nat with (S b + List.length (filter is_background ops))%nat by lia.
      apply IH; cbn [conv_step conv_add_background String.eqb Ascii.eqb Bool.eqb fst c_fit c_sig c_bkg c_intr c_rez with_counts f_nsig f_nbkg]; auto; rewrite ?H2, ?numbered_S, ?map_app, ?H4; auto; lia.
Qed.
Lemma composite_models : forall f a b, c_sig f = map AModel a -> c_bkg f = map AModel b -> a ++ b <> [] -> composite f = Ok (map (pair true) a ++ map (pair false) b).
Proof.
  intros f a b A B NE. unfold composite. rewrite A, B, !map_map.
  assert (M : forall l : list (bool * string), mapM (fun bi => match bi with (b, AModel p) => Ok (b, p) | (_, AName _) => Err ValueError end) (map (fun bp => (fst bp, AModel (snd bp))) l) = Ok l).
  { induction l as [|[u v] l IH]; auto. cbn [map mapM bind]. cbn [fst snd bind]. rewrite IH. auto. }
  replace (map (fun x => (true, AModel x)) a ++ map (fun x => (false, AModel x)) b) with (map (fun bp : bool * string => (fst bp, AModel (snd bp))) (map (pair true) a ++ map (pair false) b)).
  - set (l := map (pair true) a ++ map (pair false) b). assert (L : l <> []). { unfold l. destruct a; [destruct b; [contradiction|discriminate]|discriminate]. } specialize (M l). destruct l as [|[u v] l]; [congruence|]. cbn [map fst snd] in *. exact M.
  - rewrite map_app, !map_map. auto.
Qed.
(** The components are the signals s1_, s2_, ... and the backgrounds b1_, b2_, ..., in the order in which they were added; the resolutions never change. *)
Theorem C71_components : forall d rez ops, Forall good_op ops ->
  let f := fold_left conv_step ops (started d rez) in
  c_rez f = rez /\
  (List.filter is_signal ops ++ List.filter is_background ops <> [] ->
   composite f = Ok (map (pair true) (numbered "s" (List.length (filter is_signal ops))) ++ map (pair false) (numbered "b" (List.length (filter is_background ops))))).
Proof.
  intros d rez ops G f. destruct (history rez ops G (started d rez) 0 0 eq_refl eq_refl eq_refl eq_refl eq_refl eq_refl) as (_ & _ & S & B & _ & Z). fold f in S, B, Z. split; auto. intros NE.
  apply composite_models; auto. destruct (filter is_signal ops) as [|x l]; [|cbn; discriminate]. destruct (filter is_background ops) as [|y l']; [contradiction|cbn; discriminate].
Qed.
Print Assumptions C71_components.
(** Without a range every data point is seen through its own resolution. *)
Theorem C71_own_resolution : forall d rez ops p shapes, Forall good_op ops -> Forall (fun o => match o with CSetRange _ => False | _ => True end) ops ->
  List.length (dx d) = List.length rez -> Forall (fun q => snd q <> 0) rez ->
  let f := fold_left conv_step ops (started d rez) in
  Forall2 (shape_of p) (map (pair true) (numbered "s" (List.length (filter is_signal ops))) ++ map (pair false) (numbered "b" (List.length (filter is_background ops)))) shapes -> shapes <> [] ->
  f_x (c_fit f) = dx d /\
  exists ys, conv_eval f p (f_x (c_fit f)) = Ok ys /\ List.length ys = List.length (dx d) /\
    forall i x q, dx d @ i is Some x -> rez @ i is q -> ys @ i is Some (smeared (fun u => fold_right Rplus 0 (map (fun g => g u) shapes)) q x).
Proof.
  intros d rez ops p shapes G NR L F f S NE. assert (X : f_x (c_fit f) = dx d).
  { unfold f. assert (A : forall g, f_x (c_fit (fold_left conv_step ops g)) = f_x (c_fit g)).
    { clear -NR. induction NR as [|o ops O NR IH]; intros g; auto. cbn [fold_left]. rewrite IH. destruct o; [destruct O| |]; cbn [conv_step]; [|reflexivity]. unfold conv_add_signal. destruct (String.eqb m "Gaussian"); reflexivity. }
    rewrite A. reflexivity. }
  split; auto. destruct (C71_components d rez ops G) as [Z C]. fold f in Z, C. rewrite X, <- Z in *.
  assert (NO : List.filter is_signal ops ++ List.filter is_background ops <> []).
  { clear -S NE. intros E. apply app_eq_nil in E. destruct E as [E1 E2]. rewrite E1, E2 in S. cbn in S. inversion S. congruence. }
  apply (C71_sum f p (dx d) _ shapes (C NO)); auto. lia.
Qed.
Print Assumptions C71_own_resolution.

(** ** Ranges *)
(** After any history the i-th point that is left is seen through the i-th resolution of the whole list; that is its own one if the points
    left are the first ones. *)
Theorem C71_range_prefix : forall d rez ops p shapes k, Forall good_op ops -> List.length (dx d) = List.length rez -> Forall (fun q => snd q <> 0) rez ->
  let f := fold_left conv_step ops (started d rez) in
  Forall2 (shape_of p) (map (pair true) (numbered "s" (List.length (filter is_signal ops))) ++ map (pair false) (numbered "b" (List.length (filter is_background ops)))) shapes -> shapes <> [] ->
  f_x (c_fit f) = firstn k (dx d) ->
  exists ys, conv_eval f p (f_x (c_fit f)) = Ok ys /\
    forall i x q, (i < k)%nat -> dx d @ i is Some x -> rez @ i is q -> ys @ i is Some (smeared (fun u => fold_right Rplus 0 (map (fun g => g u) shapes)) q x).
Proof.
  intros d rez ops p shapes k G L F f S NE X. destruct (C71_components d rez ops G) as [Z C]. fold f in Z, C.
  assert (NO : List.filter is_signal ops ++ List.filter is_background ops <> []).
  { clear -S NE. intros E. apply app_eq_nil in E. destruct E as [E1 E2]. rewrite E1, E2 in S. cbn in S. inversion S. congruence. }
  destruct (C71_sum f p (f_x (c_fit f)) _ shapes (C NO) S) as (ys & E & _ & H). { rewrite X, Z, firstn_length. lia. } { rewrite Z. auto. }
  exists ys. split; auto. intros i x q I Xi Q. apply H; [|rewrite Z; auto]. rewrite X. rewrite <- Xi. revert I. clear. revert i. generalize (dx d). induction k as [|k IH]; intros l i I; [lia|]. destruct l as [|a l]; [destruct i; auto|]. destruct i as [|i]; [auto|]. cbn. apply IH. lia.
Qed.
Print Assumptions C71_range_prefix.
(** One expects every point in the range to be seen through its own resolution. The resolutions are not cut with the points: with the first
    point outside the range, the second one is seen through the resolution of the first. *)
Theorem C71_range_refuted : exists d rez r x q p ys,
  List.length (dx d) = List.length rez /\ Forall (fun q => 0 < snd q) rez /\
  let f := conv_add_background "Constant" (fst (new_conv d rez (Some r))) in
  snd (new_conv d rez (Some r)) = None /\ dx d @ 1 is Some x /\ rez @ 1 is q /\ f_x (c_fit f) = [Some x] /\
  shape_of p (false, "b1_") (fun _ => 1) /\ conv_eval f p (f_x (c_fit f)) = Ok ys /\ ys <> [Some (smeared (fun _ => 1) q x)].
Proof.
  exists (Data1D [Some 0; Some 1] [Some 5; Some 6] None [Some 1; Some 1]), [(1, 1); (2, 1)], (1 / 2, 3 / 2), 1, (2, 1), [("b1_c", 1)], [Some (smeared (fun _ => 1) (1, 1) 1)].
  split; [reflexivity|]. split; [repeat constructor; cbn; lra|]. cbv zeta.
  set (f := conv_add_background "Constant" _).
  assert (FX : snd (new_conv (Data1D [Some 0; Some 1] [Some 5; Some 6] None [Some 1; Some 1]) [(1, 1); (2, 1)] (Some (1 / 2, 3 / 2))) = None /\ f_x (c_fit f) = [Some 1] /\ c_rez f = [(1, 1); (2, 1)] /\ composite f = Ok [(false, "b1_")]).
  { unfold f, new_conv, conv_set_range, set_range. cbn [c_fit new_fit f_x f_y f_err dx dy derr map]. unfold in_range. destruct (Rle_dec (1 / 2) 0); [lra|]. destruct (Rle_dec (1 / 2) 1); [|lra]. destruct (Rle_dec 1 (3 / 2)); [|lra]. repeat split. }
  destruct FX as (E0 & FX & FR & FC). split; [exact E0|]. split; [reflexivity|]. split; [reflexivity|]. split; [exact FX|].
  assert (SH : shape_of [("b1_c", 1)] (false, "b1_") (fun _ => 1)) by (exists 1; split; reflexivity). split; [exact SH|]. split.
  - destruct (C71_sum f [("b1_c", 1)] [Some 1] [(false, "b1_")] [fun _ => 1] FC ltac:(constructor; [exact SH|constructor])) as (ys & E & N & H). { rewrite FR. cbn. lia. } { rewrite FR. repeat constructor; cbn; lra. }
    rewrite FX, E. f_equal. destruct ys as [|y [|]]; try discriminate. specialize (H 0%nat 1 (1, 1) eq_refl). rewrite FR in H. specialize (H eq_refl). cbn in H. injection H as ->. do 2 f_equal. apply smeared_ext. intros. cbn. ring.
  - rewrite !C71_constant. cbn [fst]. intros E. assert (E' : 1 * 1 * weight_sum = 1 * 2 * weight_sum) by congruence. pose proof C71_constant_positive. lra.
Qed.
Print Assumptions C71_range_refuted.
(** One expects to be able to draw the curve at x_to_plot(). With fewer than 100 points it is refused. *)
Theorem C71_plot_refuted : forall f p comps shapes, composite f = Ok comps -> Forall2 (shape_of p) comps shapes -> Forall (fun q => snd q <> 0) (c_rez f) ->
  (List.length (c_rez f) < 100)%nat -> f_x (c_fit f) <> [] ->
  exists xs, conv_x_to_plot f None None 100 = Ok xs /\ List.length xs = 100%nat /\ conv_eval f p xs = Err IndexError.
Proof.
  intros f p comps shapes C S F L X. unfold conv_x_to_plot, fit_x_to_plot. destruct (f_x (c_fit f)) as [|x0 l]; [congruence|]. cbn [bind]. eexists. split; [reflexivity|].
  set (xs := map _ (seq 0 100)). assert (LX : List.length xs = 100%nat) by (unfold xs; rewrite map_length, seq_length; auto). split; auto. clearbody xs.
  assert (NE : exists bp rest, comps = bp :: rest). { unfold composite in C. destruct (_ ++ _) as [|[b [m|m]] l']; try discriminate. cbn [mapM] in C. cbn [bind] in C. destruct (mapM _ l'); [|discriminate]. cbn [bind] in C. apply Ok_inj in C. subst. eauto. }
  destruct NE as (bp & rest & ->). unfold conv_eval. rewrite C. cbn [bind mapM]. inversion S as [|? g ? ? S1 S2]; subst. destruct bp as [b pre]. unfold shape_of in S1. cbn [fst snd] in *. destruct b.
  - destruct S1 as (a & c & s & A & B & D & N & _). unfold eval_signal at 1, pget. rewrite A. cbn [bind]. rewrite B. cbn [bind]. rewrite D. cbn [bind]. destruct (Req_EM_T s 0); [contradiction|]. assert (TM : forall h, conv_1d xs h (c_rez f) = Err IndexError) by (intros h; apply C71_too_many; [assert (LX2 : @List.length num xs = 100%nat) by exact LX; rewrite LX2; exact L|exact F]). rewrite TM. reflexivity.
  - destruct S1 as (c & A & _). unfold eval_background at 1, pget. rewrite A. cbn [bind]. assert (TM : forall h, conv_1d xs h (c_rez f) = Err IndexError) by (intros h; apply C71_too_many; [assert (LX2 : @List.length num xs = 100%nat) by exact LX; rewrite LX2; exact L|exact F]). rewrite TM. reflexivity.
Qed.
Print Assumptions C71_plot_refuted.

(** ** Guesses *)
Lemma guess_get : forall lm f k, (forall pre, In pre (c_intr f) -> k <> (pre ++ "amplitude")%string /\ k <> (pre ++ "center")%string /\ k <> (pre ++ "sigma")%string) -> sget k (conv_guess lm f) = None.
Proof.
  intros lm f k. unfold conv_guess. assert (G : forall l p, (forall pre, In pre l -> k <> (pre ++ "amplitude")%string /\ k <> (pre ++ "center")%string /\ k <> (pre ++ "sigma")%string) -> sget k p = None ->
    sget k (fold_left (fun p prefix => let '(a, c, s) := lm (f_y (c_fit f)) (f_x (c_fit f)) prefix in sset (prefix ++ "sigma")%string s (sset (prefix ++ "center")%string c (sset (prefix ++ "amplitude")%string a p))) l p) = None).
  { induction l as [|pre l IH]; intros p H P; auto. cbn [fold_left]. apply IH; [intros q Q; apply H; right; auto|]. destruct (lm _ _ pre) as [[a c] s]. destruct (H pre ltac:(left; auto)) as (H1 & H2 & H3).
    rewrite !P_Tavi.sget_sset. destruct (String.eqb_spec k (pre ++ "sigma")%string); [congruence|]. destruct (String.eqb_spec k (pre ++ "center")%string); [congruence|]. destruct (String.eqb_spec k (pre ++ "amplitude")%string); [congruence|]. auto. }
  intros H. apply G; auto.
Qed.
Lemma guess_has : forall lm f pre, In pre (c_intr f) -> forall s, In s ["amplitude"; "center"; "sigma"] -> dmem String.eqb (pre ++ s)%string (conv_guess lm f) = true.
Proof.
  intros lm f pre I s S. unfold conv_guess, dmem.
  set (stp := fun (p : pars) prefix => let '(a, c, s) := lm (f_y (c_fit f)) (f_x (c_fit f)) prefix in sset (prefix ++ "sigma")%string s (sset (prefix ++ "center")%string c (sset (prefix ++ "amplitude")%string a p))).
  assert (K : forall q p k, sget k p <> None -> sget k (stp p q) <> None).
  { intros q p k H. unfold stp. destruct (lm _ _ q) as [[a c] s']. rewrite !P_Tavi.sget_sset. destruct (String.eqb k _); [discriminate|]. destruct (String.eqb k _); [discriminate|]. destruct (String.eqb k _); [discriminate|]. auto. }
  assert (G : forall l p k, (sget k p <> None \/ exists q, In q l /\ forall p', sget k (stp p' q) <> None) -> sget k (fold_left stp l p) <> None).
  { induction l as [|q l IH]; intros p k H; cbn [fold_left]; [destruct H as [H|(q & [] & _)]; auto|]. apply IH. destruct H as [H|(q' & [->|Q] & H)]; [left; apply K; auto|left; auto|right; eauto]. }
  assert (H : sget (pre ++ s)%string (fold_left stp (c_intr f) []) <> None).
  { apply G. right. exists pre. split; auto. intros p'. unfold stp. destruct (lm _ _ pre) as [[a c] s']. rewrite !P_Tavi.sget_sset. destruct S as [<-|[<-|[<-|[]]]]; rewrite String.eqb_refl; repeat match goal with |- context [if ?b then _ else _] => destruct b end; discriminate. }
  match goal with |- match ?x with _ => _ end = _ => destruct x eqn:Q; [reflexivity|exfalso; apply H; exact Q] end.
Qed.
(** Without a background the guess gives every parameter that a fit needs, and lmfit gets the points left. *)
Theorem C71_guess : forall lm d rez ops e, Forall good_op ops -> filter is_background ops = [] -> filter is_signal ops <> [] ->
  let f := fold_left conv_step ops (started d rez) in
  conv_fit_inputs f (conv_guess lm f) e = Ok (f_y (c_fit f), f_x (c_fit f), if e then f_err (c_fit f) else None).
Proof.
  intros lm d rez ops e G NB NS f. destruct (history rez ops G (started d rez) 0 0 eq_refl eq_refl eq_refl eq_refl eq_refl eq_refl) as (_ & _ & _ & _ & I & _). fold f in I. cbn [Nat.add] in I.
  destruct (C71_components d rez ops G) as [_ C]. fold f in C. unfold conv_fit_inputs. rewrite C by (rewrite NB, app_nil_r; auto). cbn [bind]. rewrite NB. cbn [List.length numbered seq map]. rewrite app_nil_r, <- I.
  assert (A : forallb (fun k => dmem String.eqb k (conv_guess lm f)) (flat_map names (map (pair true) (c_intr f))) = true).
  { apply forallb_forall. intros k K. apply in_flat_map in K. destruct K as (bp & B & K). apply in_map_iff in B. destruct B as (pre & <- & P). cbn [names fst snd] in K. destruct K as [<-|[<-|[<-|[]]]]; apply guess_has; cbn; auto. }
  rewrite A. reflexivity.
Qed.
Print Assumptions C71_guess.
(** One expects the same with a background. The guess never has a value for it, and the fit is refused. *)
Theorem C71_guess_refuted : forall lm d rez ops e, Forall good_op ops -> filter is_background ops <> [] ->
  let f := fold_left conv_step ops (started d rez) in conv_fit_inputs f (conv_guess lm f) e = Err ValueError.
Proof.
  intros lm d rez ops e G B f. destruct (history rez ops G (started d rez) 0 0 eq_refl eq_refl eq_refl eq_refl eq_refl eq_refl) as (_ & _ & _ & _ & I & _). fold f in I. cbn [Nat.add] in I.
  destruct (C71_components d rez ops G) as [_ C]. fold f in C. unfold conv_fit_inputs. rewrite C by (intros E; apply app_eq_nil in E; destruct E; congruence). cbn [bind].
  assert (A : forallb (fun k => dmem String.eqb k (conv_guess lm f)) (flat_map names (map (pair true) (numbered "s" (List.length (filter is_signal ops))) ++ map (pair false) (numbered "b" (List.length (filter is_background ops))))) = false).
  { apply not_true_is_false. intros H. rewrite forallb_forall in H. specialize (H ("b" ++ str_of 1 ++ "_" ++ "c")%string).
    assert (K : dmem String.eqb ("b" ++ str_of 1 ++ "_" ++ "c")%string (conv_guess lm f) = false).
    { unfold dmem. rewrite guess_get; auto. intros pre P. rewrite I in P. unfold numbered in P. apply in_map_iff in P. destruct P as (k & <- & _). cbn. repeat split; discriminate. }
    rewrite K in H. discriminate H. apply in_flat_map. exists (false, ("b" ++ str_of 1 ++ "_")%string). split; [|left; reflexivity]. apply in_app_iff. right. apply in_map. unfold numbered. apply in_map_iff. exists 1%nat. split; [reflexivity|]. apply in_seq. destruct (filter is_background ops); [congruence|cbn; lia]. }
  rewrite A. reflexivity.
Qed.
Print Assumptions C71_guess_refuted.
(** A signal of another name is refused with UnboundLocalError, and the fit can never be evaluated again. *)
Theorem C71_unknown_signal : forall f m ops, m <> "Gaussian" -> snd (conv_add_signal m f) = Some UnboundLocalError /\
  exists e, composite (fold_left conv_step ops (fst (conv_add_signal m f))) = Err e.
Proof.
  intros f m ops M. unfold conv_add_signal. destruct (String.eqb_spec m "Gaussian"); [contradiction|]. cbn [fst snd]. split; auto.
  assert (G : forall ops g, (exists n, In (AName n) (c_sig g)) -> exists n, In (AName n) (c_sig (fold_left conv_step ops g))).
  { clear. induction ops as [|o ops IH]; intros g (n & H); [exists n; auto|]. cbn [fold_left]. apply IH. exists n. destruct o as [r|m|m]; cbn [conv_step].
    - rewrite conv_set_range_fst. exact H.
    - unfold conv_add_signal. destruct (String.eqb m "Gaussian"); cbn [fst c_sig]; apply in_app_iff; auto.
    - exact H. }
  destruct (G ops (CF (with_counts (f_nsig (c_fit f) + 1) (f_nbkg (c_fit f)) (c_fit f)) (c_rez f) (List.app (c_sig f) [AName m]) (c_bkg f) (c_intr f))) as (n' & H). { exists m. cbn [c_sig]. apply in_app_iff. right. left. auto. }
  set (g := fold_left _ _ _) in *. clearbody g. unfold composite.
  assert (I : In (true, AName n') (map (pair true) (c_sig g) ++ map (pair false) (c_bkg g))) by (apply in_app_iff; left; apply in_map; auto).
  destruct (map (pair true) (c_sig g) ++ map (pair false) (c_bkg g)) as [|[b [p|p]] l]; [destruct I| |eauto]. destruct I as [I|I]; [discriminate|]. cbn [mapM bind].
  assert (E : exists e, mapM (fun bi : bool * item => match bi with (b, AModel p) => Ok (b, p) | (_, AName _) => Err ValueError end) l = Err e).
  { induction l as [|[b' [q|q]] l IH]; [destruct I| |cbn; eauto]. destruct I as [I|I]; [discriminate|]. destruct (IH I) as (e & E). exists e. cbn [mapM bind]. rewrite E. auto. }
  destruct E as (e & ->). exists e. reflexivity.
Qed.
Print Assumptions C71_unknown_signal.
(** A background of another name is accepted, and the fit can never be evaluated either. *)
Theorem C71_unknown_background_refuted : forall f m, m <> "Constant" -> exists e, composite (conv_add_background m f) = Err e.
Proof.
  intros f m M. unfold conv_add_background. destruct (String.eqb_spec m "Constant"); [contradiction|]. unfold composite. cbn [c_sig c_bkg]. rewrite map_app, app_assoc. cbn [map].
  set (l := map (pair true) (c_sig f) ++ map (pair false) (c_bkg f)). clearbody l.
  assert (E : exists e, mapM (fun bi : bool * item => match bi with (b, AModel p) => Ok (b, p) | (_, AName _) => Err ValueError end) (l ++ [(false, AName m)]) = Err e).
  { induction l as [|[b [q|q]] l IH]; cbn [List.app]; [cbn; eauto| |cbn; eauto]. destruct IH as (e & E). exists e. cbn [mapM bind]. rewrite E. auto. }
  destruct l as [|[b [q|q]] l]; cbn [List.app] in *; eauto.
Qed.
Print Assumptions C71_unknown_background_refuted.

(** A case that meets the hypotheses: two points, a peak on a background. *)
Example C71_example : exists d rez p ys, let f := fold_left conv_step [CAddSignal "Gaussian"; CAddBackground "Constant"] (started d rez) in
  List.length (dx d) = List.length rez /\ Forall (fun q => snd q <> 0) rez /\ conv_eval f p (dx d) = Ok ys /\
  ys @ 0 is Some (smeared (fun u => peak 3 0 1 u + (2 + 0)) (1, 1) 0) /\ ys @ 1 is Some (smeared (fun u => peak 3 0 1 u + (2 + 0)) (2, 1) 4).
Proof.
  exists (Data1D [Some 0; Some 4] [Some 5; Some 6] None [Some 1; Some 1]), [(1, 1); (2, 1)], [("s1_amplitude", 3); ("s1_center", 0); ("s1_sigma", 1); ("b1_c", 2)].
  destruct (C71_own_resolution (Data1D [Some 0; Some 4] [Some 5; Some 6] None [Some 1; Some 1]) [(1, 1); (2, 1)] [CAddSignal "Gaussian"; CAddBackground "Constant"] [("s1_amplitude", 3); ("s1_center", 0); ("s1_sigma", 1); ("b1_c", 2)]
    [peak 3 0 1; fun _ => 2]) as (X & ys & E & _ & H).
  { repeat constructor. } { repeat constructor. } { reflexivity. } { repeat constructor; cbn; lra. }
  { constructor; [exists 3, 0, 1; repeat split; lra|]. constructor; [exists 2; split; reflexivity|constructor]. } { discriminate. }
  exists ys. cbv zeta. split; [reflexivity|]. split; [repeat constructor; cbn; lra|]. rewrite X in E. split; [exact E|]. split; [apply (H 0%nat 0 (1, 1))|apply (H 1%nat 4 (2, 1))]; reflexivity.
Qed.

(** ** x_to_plot *)
Definition least (xs : list R) (m : R) : Prop := In m xs /\ forall x, In x xs -> m <= x.
Definition greatest (xs : list R) (m : R) : Prop := In m xs /\ forall x, In x xs -> x <= m.
Lemma fold_min : forall l x, exists m, fold_left (fun u v => match u, v with Some a, Some b => Some (Rmin a b) | _, _ => None end) (map Some l) (Some x) = Some m /\ least (x :: l) m.
Proof.
  induction l as [|y l IH]; intros x; cbn [map fold_left]. { exists x. split; auto. split; [left; auto|]. intros z [<-|[]]. lra. }
  destruct (IH (Rmin x y)) as (m & E & I & B). exists m. split; auto. split.
  - destruct I as [<-|I]; [|right; right; auto]. unfold Rmin. destruct (Rle_dec x y); [left|right; left]; auto.
  - assert (B0 : m <= Rmin x y) by (apply B; left; auto). pose proof (Rmin_l x y). pose proof (Rmin_r x y). intros z [<-|[<-|Z]]; [lra|lra|apply B; right; auto].
Qed.
Lemma fold_max : forall l x, exists m, fold_left (fun u v => match u, v with Some a, Some b => Some (Rmax a b) | _, _ => None end) (map Some l) (Some x) = Some m /\ greatest (x :: l) m.
Proof.
  induction l as [|y l IH]; intros x; cbn [map fold_left]. { exists x. split; auto. split; [left; auto|]. intros z [<-|[]]. lra. }
  destruct (IH (Rmax x y)) as (m & E & I & B). exists m. split; auto. split.
  - destruct I as [<-|I]; [|right; right; auto]. unfold Rmax. destruct (Rle_dec x y); [right; left|left]; auto.
  - assert (B0 : Rmax x y <= m) by (apply B; left; auto). pose proof (Rmax_l x y). pose proof (Rmax_r x y). intros z [<-|[<-|Z]]; [lra|lra|apply B; right; auto].
Qed.
(** The values at which a fitted curve is drawn: n of them, evenly spaced, from the smallest to the largest value of the data or
    from and to the ends that were given. *)
Theorem C50_x_to_plot : forall f xs lo hi n, f_x f = map Some xs -> xs <> [] -> (2 <= n)%nat ->
  exists a b pts, fit_x_to_plot f lo hi n = Ok (map Some pts) /\ List.length pts = n%nat /\ match lo with Some r => a = r | None => least xs a end /\ match hi with Some r => b = r | None => greatest xs b end /\ nth 0%nat pts 0 = a /\ nth (n - 1)%nat pts 0 = b /\ (forall k, (S k < n)%nat -> nth (S k) pts 0 - nth k pts 0 = (b - a) / INR (n - 1)).
Proof.
  intros f xs lo hi n X N L. destruct xs as [|x xs]; [congruence|]. cbn [map] in X.
  destruct (fold_min xs x) as (m & M & ML). destruct (fold_max xs x) as (mx & MX & MG).
  set (a := match lo with Some r => r | None => m end). set (b := match hi with Some r => r | None => mx end).
  exists a, b, (map (linspace_at a b n) (seq 0%nat n)).
  assert (NZ : INR (n - 1) <> 0) by (apply not_0_INR; lia).
  assert (AT : forall k, (k < n)%nat -> nth k (map (linspace_at a b n) (seq 0%nat n)) 0 = linspace_at a b n k).
  { intros k K. rewrite (nth_indep _ 0 (linspace_at a b n 0)) by (rewrite map_length, seq_length; auto). rewrite map_nth, seq_nth by auto. reflexivity. }
  split; [|split; [|split; [|split; [|split; [|split]]]]].
  - unfold fit_x_to_plot. rewrite X. destruct (Nat.eqb_spec n 1); [lia|]. rewrite map_map. subst a b. destruct lo as [lo|], hi as [hi|]; cbn [bind]; rewrite ?M, ?MX; reflexivity.
  - rewrite map_length, seq_length. auto.
  - subst a. destruct lo; auto.
  - subst b. destruct hi; auto.
  - rewrite AT by lia. unfold linspace_at. cbn [INR]. lra.
  - rewrite AT by lia. unfold linspace_at. field. auto.
  - intros k K. rewrite !AT by lia. unfold linspace_at. rewrite S_INR. lra.
Qed.
Print Assumptions C50_x_to_plot.
(** Without data points there are no ends: ValueError, unless both are given. *)
Theorem C50_x_to_plot_empty : forall f lo hi n, f_x f = [] -> (lo = None \/ hi = None) -> fit_x_to_plot f lo hi n = Err ValueError.
Proof. intros f lo hi n X H. unfold fit_x_to_plot. rewrite X. destruct lo; [|reflexivity]. destruct H as [H|H]; [discriminate|]. subst. reflexivity. Qed.
Print Assumptions C50_x_to_plot_empty.
Example C50_x_to_plot_example : exists f, f_x f = map Some [3; 1; 2] /\ fit_x_to_plot f None None 3 = Ok (map Some [1; 2; 3]).
Proof.
  exists (Fit1D (map Some [3; 1; 2]) [] None [] [] 0 0). split; [reflexivity|]. unfold fit_x_to_plot, linspace_at. cbn. repeat f_equal; unfold Rmin, Rmax; repeat destruct (Rle_dec _ _); try lra.
Qed.
