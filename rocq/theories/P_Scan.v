(** Properties C28, C56, C57: rebin parameters, extracting data from a scan, combining scans. *)
From Coq Require Import Reals Lra Psatz List ZArith Lia Bool Permutation String Ascii.
From Verif Require Import Base PyStr M_ScanData M_Scan S_ScanData L_ScanData L_ScanData2 P_ScanData P_ScanData2.
Import ListNotations.
Open Scope R_scope.

(** * C28 *)
(** The object passed asks for minimum [a], maximum [b] and step [s]. *)
Definition requested (p : pparam) (a b s : option num) : Prop :=
  p = PTup [a; b; s] \/ (p = PTup [a; b] /\ s = None) \/ (exists v, p = PNum v /\ a = None /\ b = None /\ s = Some v).
Definition sensible (a b s : option num) : Prop :=
  (forall u v, a = Some (Some u) -> b = Some (Some v) -> u < v) /\ (forall v, s = Some (Some v) -> 0 <= v).

Theorem C28_accepts : forall p a b s, format_rebin_params p = Ok (a, b, s) <-> requested p a b s /\ sensible a b s.
Proof.
  assert (K : forall a b s a' b' s' : option num,
    (if match a, b with Some u, Some v => nge u v | _, _ => false end then Err ValueError
     else if match s with Some v => nlt0 v | None => false end then Err ValueError else Ok (a, b, s)) = Ok (a', b', s') <->
    (a = a' /\ b = b' /\ s = s') /\ sensible a' b' s').
  { intros a b s a' b' s'. unfold sensible.
    destruct (match a, b with Some u, Some v => nge u v | _, _ => false end) eqn:G.
    { split; [discriminate|]. intros ((-> & -> & ->) & (H & _)). destruct a' as [[u|]|], b' as [[v|]|]; cbn in G; try discriminate.
      destruct (Rle_dec v u); [|discriminate]. specialize (H u v eq_refl eq_refl). lra. }
    destruct (match s with Some v => nlt0 v | None => false end) eqn:N.
    { split; [discriminate|]. intros ((-> & -> & ->) & (_ & H)). destruct s' as [[v|]|]; cbn in N; try discriminate.
      destruct (Rlt_dec v 0); [|discriminate]. specialize (H v eq_refl). lra. }
    split.
    - intros E. assert (a = a' /\ b = b' /\ s = s') as (<- & <- & <-) by (repeat split; congruence). split; [auto|]. split.
      + intros u v -> ->. cbn in G. destruct (Rle_dec v u); [discriminate|lra].
      + intros v ->. cbn in N. destruct (Rlt_dec v 0); [discriminate|lra].
    - intros ((-> & -> & ->) & _). auto. }
  intros p a b s. unfold format_rebin_params, requested. destruct p as [v|l|t].
  - transitivity ((None = a /\ None = b /\ Some v = s) /\ sensible a b s); [exact (K None None (Some v) a b s)|]. split.
    + intros ((<- & <- & <-) & H). split; auto. right; right. eauto.
    + intros ([E|[(E & _)|(v' & E & -> & -> & ->)]] & H); try discriminate. injection E as ->. auto.
  - destruct l as [|a1 [|a2 [|a3 [|]]]]; cbn [bind].
    + split; [discriminate|]. intros ([E|[(E & _)|(v' & E & _)]] & _); discriminate.
    + split; [discriminate|]. intros ([E|[(E & _)|(v' & E & _)]] & _); discriminate.
    + transitivity ((a1 = a /\ a2 = b /\ None = s) /\ sensible a b s); [exact (K a1 a2 None a b s)|]. split.
      * intros ((<- & <- & <-) & H). auto.
      * intros ([E|[(E & ->)|(v' & E & _)]] & H); try discriminate. injection E as -> ->. auto.
    + rewrite K. split.
      * intros ((<- & <- & <-) & H). auto.
      * intros ([E|[(E & _)|(v' & E & _)]] & H); try discriminate. injection E as -> -> ->. auto.
    + split; [discriminate|]. intros ([E|[(E & _)|(v' & E & _)]] & _); discriminate.
  - cbn [bind]. split; [discriminate|]. intros ([E|[(E & _)|(v' & E & _)]] & _); discriminate.
Qed.
Print Assumptions C28_accepts.

Theorem C28_rejects_with_ValueError : forall p e, format_rebin_params p = Err e -> e = ValueError.
Proof.
  intros p e. unfold format_rebin_params. destruct p as [v|[|a1 [|a2 [|a3 [|]]]]|t]; cbn [bind]; try congruence;
  repeat match goal with |- context [if ?b then _ else _] => destruct b end; congruence.
Qed.
Print Assumptions C28_rejects_with_ValueError.

(** Acceptance is not enough: a zero step in a triple, and every pair, pass validation, and then no rebinning works. *)
Theorem C28_zero_step_refuted : forall k d arg lo hi, suits k d arg [] \/ (exists pts, suits k d arg pts) -> lo < hi ->
  format_rebin_params (PTup [Some (Some lo); Some (Some hi); Some (Some 0)]) = Ok (Some (Some lo), Some (Some hi), Some (Some 0)) /\
  rebin k d (Some lo, Some hi, 0) arg = Err ZeroDivisionError.
Proof.
  intros k d arg lo hi H L. split.
  - apply C28_accepts. split; [left; auto|]. split; [intros u v [= ->] [= ->]; auto|intros v [= <-]; lra].
  - assert (S : exists pts, suits k d arg pts) by (destruct H; eauto). destruct S as (pts & S).
    assert (E : rebin_setup (dx d) (Some lo, Some hi, 0) = Err ZeroDivisionError).
    { unfold rebin_setup. cbn [bind]. destruct (Req_EM_T 0 0); [auto|lra]. }
    destruct k; cbn [rebin suits] in *; unfold rebin_tol, rebin_tol_renorm, rebin_grid, rebin_grid_renorm; rewrite ?(pick_normalised _ _ _ S); cbn [bind]; rewrite E; auto.
Qed.
Print Assumptions C28_zero_step_refuted.

Theorem C28_pair_refuted : forall xs lo hi, lo < hi ->
  exists q, format_rebin_params (PTup [Some (Some lo); Some (Some hi)]) = Ok q /\ to_params xs q = Err TypeError.
Proof.
  intros xs lo hi L. exists (Some (Some lo), Some (Some hi), None). split; [|reflexivity].
  apply C28_accepts. split; [right; left; auto|]. split; [intros u v [= ->] [= ->]; auto|discriminate].
Qed.
Print Assumptions C28_pair_refuted.

(** * C56 *)
Definition plain (s : string) : Prop := split_on "_" s = [s].

Lemma head_eq : forall dq s xs ys ax norm_to grid tol, (ax = (Some xs, Some ys) \/ (ax = (None, None) /\ s_def_x s = xs /\ s_def_y s = ys) \/
      (ax = (Some xs, None) /\ s_def_y s = ys) \/ (ax = (None, Some ys) /\ s_def_x s = xs)) ->
    get_data dq s ax norm_to grid tol = get_data dq s (Some xs, Some ys) norm_to grid tol.
  Proof. intros dq s xs ys ax norm_to grid tol [->|[(-> & <- & <-)|[(-> & <-)|(-> & <-)]]]; reflexivity. Qed.

Section GetData.
  Context (dq : string -> result (list num)) (s : scan) (xs ys ch0 : string) (v0 : R) (cx cy : list num).
  Hypothesis (P : s_preset s = Normal ch0 v0) (CX : column s xs = Ok cx) (CY : column s ys = Ok cy)
    (NQ : contains "del_q" xs = false) (PL : plain ys).

  Lemma label_plain : label (Normal ch0 v0) ys = Ok tt.
  Proof using PL. unfold label. rewrite PL. reflexivity. Qed.

  Lemma gd_eq : forall norm_to grid tol, get_data dq s (Some xs, Some ys) norm_to grid tol =
    let d := new_data1d cx cy None in
    let '(t, params) := select grid tol in
    if negb (match params with Some q => truthy q | None => false end) then
      match norm_to with
      | Some (v, ch) => do c <- column s ch; renorm d (Some (map (fun w => ndiv w (Some v)) c)) 1
      | None => Ok d
      end
    else
      do q <- format_rebin_params (match params with Some q => q | None => POther false end);
      match t, norm_to with
      | TTol, None => do c <- column s ch0; do ps <- to_params cx q; rebin_tol d ps (Some c)
      | TTol, Some (v, ch) => do c <- column s ch; do ps <- to_params cx q; rebin_tol_renorm d ps (Some c) v
      | TGrid, None => do ps <- to_params cx q; rebin_grid d ps
      | TGrid, Some (v, ch) => do c <- column s ch; do ps <- to_params cx q; rebin_grid_renorm d ps (Some c) v
      end.
  Proof using P CX CY NQ PL.
    intros norm_to grid tol. unfold get_data, scan_info. rewrite P. cbn [bind fst snd]. rewrite NQ, CX, CY. cbn [bind].
    rewrite label_plain. cbn [bind]. assert (ML : make_labels norm_to (Normal ch0 v0) = Ok tt) by (destruct norm_to; reflexivity).
    assert (BI : forall A (r : result A), (do d' <- r; do _ <- make_labels norm_to (Normal ch0 v0); Ok d') = r).
    { intros A [a|e]; cbn [bind]; auto. rewrite ML. auto. }
    destruct (select grid tol) as (t, params). destruct (negb _).
    - rewrite BI. auto.
    - destruct (format_rebin_params _); cbn [bind]; auto.
  Qed.
End GetData.

(** Without options, the two columns come out as they are, with square-root errors. *)
Theorem C56_plain_columns : forall dq s xs ys ch0 v0 cx cy,
  s_preset s = Normal ch0 v0 -> column s xs = Ok cx -> column s ys = Ok cy -> contains "del_q" xs = false -> plain ys ->
  exists d, get_data dq s (Some xs, Some ys) None None None = Ok d /\ dx d = cx /\ dy d = cy /\ derr d = map nsqrt cy /\
    (s_def_x s = xs -> s_def_y s = ys -> get_data dq s (None, None) None None None = Ok d).
Proof.
  intros dq s xs ys ch0 v0 cx cy P CX CY NQ PL.
  exists (new_data1d cx cy None). rewrite (gd_eq dq s xs ys ch0 v0 cx cy) by auto. cbn. split; [auto|split; [auto|split; [auto|split; [auto|]]]].
  intros X Y. rewrite (head_eq dq s xs ys) by (right; left; auto). rewrite (gd_eq dq s xs ys ch0 v0 cx cy) by auto. reflexivity.
Qed.
Print Assumptions C56_plain_columns.

(** With a normalisation, every value and error is multiplied by value/monitor. *)
Theorem C56_normalised : forall dq s xs ys ch0 v0 cx cy v ch c,
  s_preset s = Normal ch0 v0 -> column s xs = Ok cx -> column s ys = Ok cy -> contains "del_q" xs = false -> plain ys ->
  column s ch = Ok c -> v <> 0 -> List.length c = List.length cy ->
  exists d, get_data dq s (Some xs, Some ys) (Some (v, ch)) None None = Ok d /\ dx d = cx /\ List.length (dy d) = List.length cy /\
    forall i y w, nth_error cy i = Some (Some y) -> nth_error c i = Some (Some w) -> w <> 0 ->
      nth_error (dy d) i = Some (Some (y * (v / w))) /\ (0 <= y -> nth_error (derr d) i = Some (Some (sqrt y * (v / w)))).
Proof.
  intros dq s xs ys ch0 v0 cx cy v ch c P CX CY NQ PL CC V L.
  rewrite (gd_eq dq s xs ys ch0 v0 cx cy) by auto. cbn [select negb]. rewrite CC. cbn [bind].
  assert (Z : forall f : num -> num -> num, forall l : list num, List.length l = List.length c -> bcast f l (map (fun w => ndiv w (Some v)) c) = Ok (zipw f l (map (fun w => ndiv w (Some v)) c))).
  { intros f l E. unfold bcast. rewrite map_length. unfold num in *. rewrite E, Nat.eqb_refl. auto. }
  unfold renorm. cbn [pick_norm bind new_data1d dy derr dx dnorm]. rewrite !Z by (rewrite ?map_length; unfold num in *; congruence). cbn [bind].
  eexists. split; [reflexivity|]. cbn [dx dy derr]. split; [auto|split].
  { rewrite map_length, zipw_length; auto. rewrite map_length. unfold num in *. congruence. }
  intros i y w Y W NZ.
  assert (WV : nth_error (map (fun w => ndiv w (Some v)) c) i = Some (Some (w / v))).
  { rewrite nth_error_map, W. cbn. destruct (Req_EM_T v 0); [lra|auto]. }
  assert (NZ2 : w / v <> 0). { intros E. apply NZ. replace w with (w / v * v) by (field; auto). rewrite E. ring. }
  split.
  - rewrite nth_error_map, (zipw_nth _ _ _ _ _ _ _ _ _ Y WV). cbn. destruct (Req_EM_T (w / v) 0); [contradiction|]. cbn. do 2 f_equal. field. auto.
  - intros YP. assert (E : nth_error (map nsqrt cy) i = Some (Some (sqrt y))).
    { rewrite nth_error_map, Y. cbn. destruct (Rlt_dec y 0); [lra|auto]. }
    rewrite nth_error_map, (zipw_nth _ _ _ _ _ _ _ _ _ E WV). cbn. destruct (Req_EM_T (w / v) 0); [contradiction|]. cbn. do 2 f_equal. field. auto.
Qed.
Print Assumptions C56_normalised.

(** With rebinning, the result is the rebinning of those columns, for every way of asking. *)
Theorem C56_rebinned : forall dq s xs ys ch0 v0 cx cy k c lo hi step (grid tol : option pparam) norm_to,
  s_preset s = Normal ch0 v0 -> column s xs = Ok cx -> column s ys = Ok cy -> contains "del_q" xs = false -> plain ys ->
  lo < hi -> 0 < step ->
  let p := PTup [Some (Some lo); Some (Some hi); Some (Some step)] in
  match k with
  | Grid => grid = Some p /\ norm_to = None
  | GridRenorm v => grid = Some p /\ exists ch, norm_to = Some (v, ch) /\ column s ch = Ok c
  | Tol => grid = None /\ tol = Some p /\ norm_to = None /\ column s ch0 = Ok c
  | TolRenorm v => grid = None /\ tol = Some p /\ exists ch, norm_to = Some (v, ch) /\ column s ch = Ok c
  end ->
  get_data dq s (Some xs, Some ys) norm_to grid tol = rebin k (new_data1d cx cy None) (Some lo, Some hi, step) (Some c).
Proof.
  intros dq s xs ys ch0 v0 cx cy k c lo hi step grid tol norm_to P CX CY NQ PL L S p H.
  assert (F : format_rebin_params p = Ok (Some (Some lo), Some (Some hi), Some (Some step))).
  { apply C28_accepts. split; [left; auto|]. split; [intros u v [= ->] [= ->]; auto|intros v [= <-]; lra]. }
  rewrite (gd_eq dq s xs ys ch0 v0 cx cy) by auto.
  destruct k; cbn [rebin].
  - destruct H as (-> & -> & -> & CC). cbn [select truthy negb p]. fold p. rewrite F, CC. reflexivity.
  - destruct H as (-> & -> & ch & -> & CC). cbn [select truthy negb p]. fold p. rewrite F, CC. reflexivity.
  - destruct H as (-> & ->). cbn [select truthy negb p]. fold p. rewrite F. reflexivity.
  - destruct H as (-> & ch & -> & CC). cbn [select truthy negb p]. fold p. rewrite F, CC. reflexivity.
Qed.
Print Assumptions C56_rebinned.

(** A single number is a step over the whole range of the data. *)
Theorem C56_step_only : forall dq s xs ys ch0 v0 pts step lo hi,
  s_preset s = Normal ch0 v0 -> column s xs = Ok (col px pts) -> column s ys = Ok (col py pts) -> contains "del_q" xs = false -> plain ys ->
  0 < step -> lo < hi ->
  (forall p, In p pts -> lo <= px p <= hi) -> (exists p, In p pts /\ px p = lo) -> (exists p, In p pts /\ px p = hi) ->
  get_data dq s (Some xs, Some ys) None (Some (PNum (Some step))) None =
  get_data dq s (Some xs, Some ys) None (Some (PTup [Some (Some lo); Some (Some hi); Some (Some step)])) None.
Proof.
  intros dq s xs ys ch0 v0 pts step lo hi P CX CY NQ PL S L BD A B.
  rewrite !(gd_eq dq s xs ys ch0 v0 (col px pts) (col py pts)) by auto. cbn [select truthy]. destruct (Req_EM_T step 0); [lra|]. cbn [negb].
  assert (F1 : format_rebin_params (PNum (Some step)) = Ok (None, None, Some (Some step))).
  { apply C28_accepts. split; [right; right; eauto|]. split; [discriminate|intros v [= <-]; lra]. }
  assert (F2 : format_rebin_params (PTup [Some (Some lo); Some (Some hi); Some (Some step)]) = Ok (Some (Some lo), Some (Some hi), Some (Some step))).
  { apply C28_accepts. split; [left; auto|]. split; [intros u v [= ->] [= ->]; auto|intros v [= <-]; lra]. }
  rewrite F1, F2. cbn [bind]. destruct A as (p1 & I1 & E1).
  assert (NE : pts <> []) by (intros ->; destruct I1).
  assert (T : to_params (col px pts) (None, None, Some (Some step)) = Ok (None, None, step)).
  { unfold to_params. destruct pts; [congruence|]. reflexivity. }
  rewrite T. cbn [bind to_params].
  pose proof (C22_default_range Grid (new_data1d (col px pts) (col py pts) None) None pts lo hi step) as D. cbn [rebin] in D.
  assert (H : holds (new_data1d (col px pts) (col py pts) None) pts) by (split; auto).
  destruct (D H NE (fun p I => proj1 (BD p I)) (ex_intro _ p1 (conj I1 E1)) (fun p I => proj2 (BD p I)) B None) as (D1 & _).
  destruct (D H NE (fun p I => proj1 (BD p I)) (ex_intro _ p1 (conj I1 E1)) (fun p I => proj2 (BD p I)) B (Some lo)) as (_ & D2).
  rewrite D1, D2. auto.
Qed.
Print Assumptions C56_step_only.

(** If both "grid" and "tol" are given, "grid" wins. *)
Theorem C56_grid_wins : forall dq s ax norm_to p tol, get_data dq s ax norm_to (Some p) tol = get_data dq s ax norm_to (Some p) None.
Proof. reflexivity. Qed.
Print Assumptions C56_grid_wins.

(** A column whose name has an underscore can never be plotted from an ordinary scan, although it is there. *)
Theorem C56_underscore_refuted : forall dq s xs ys ch0 v0 cx cy norm_to grid tol,
  s_preset s = Normal ch0 v0 -> column s xs = Ok cx -> column s ys = Ok cy -> contains "del_q" xs = false ->
  (1 < List.length (split_on "_" ys))%nat ->
  get_data dq s (Some xs, Some ys) norm_to grid tol = Err ValueError \/ get_data dq s (Some xs, Some ys) norm_to grid tol = Err IndexError.
Proof.
  intros dq s xs ys ch0 v0 cx cy norm_to grid tol P CX CY NQ U. unfold get_data, scan_info. rewrite P. cbn [bind fst snd]. rewrite NQ, CX, CY. cbn [bind].
  unfold label. rewrite (proj2 (Nat.ltb_lt _ _) U).
  assert (D : forall t a, match digits a t with Ok _ => True | Err e => e = ValueError end).
  { induction t as [|c t]; intros a; cbn [digits]; auto. destruct (digit c); auto. apply IHt. }
  assert (I : forall t, match py_int t with Ok _ => True | Err e => e = ValueError end).
  { intros t. assert (D0 : match digits 0 t with Ok _ => True | Err e => e = ValueError end) by apply D.
    unfold py_int. destruct t as [|c t]; auto. pose proof (D t 0%Z) as D1.
    destruct c as [[] [] [] [] [] [] [] []]; try exact D0; destruct t as [|c' t]; try reflexivity; try exact D1; revert D1; destruct (digits 0 (String c' t)); cbn [rmap]; auto. }
  pose proof (I (last (split_on "_" ys) EmptyString)) as I1. destruct (py_int (last (split_on "_" ys) EmptyString)) as [z|e]; cbn [bind]; [|left; congruence].
  unfold py_index. cbn [List.length]. right. destruct ((if (z - 1 <? 0)%Z then (z - 1 + Z.of_nat 0)%Z else (z - 1)%Z) <? 0)%Z; auto.
  destruct (Z.to_nat _); auto.
Qed.
Print Assumptions C56_underscore_refuted.

(** A scan taken from a count file cannot be extracted without a normalisation. *)
Theorem C56_countfile_refuted : forall dq s ax labels grid tol, s_preset s = Countfile labels ->
  forall d, get_data dq s ax None grid tol <> Ok d.
Proof.
  intros dq s ax labels grid tol P d. unfold get_data, scan_info. rewrite P. cbn [bind].
  match goal with |- context [bind (if ?b then ?x else ?y) _] => destruct (if b then x else y) as [cx|]; cbn [bind]; [|discriminate] end.
  destruct (column s _) as [cy|]; cbn [bind]; [|discriminate]. destruct (label _ _); cbn [bind]; [|discriminate].
  destruct (select grid tol) as (t, params). destruct (negb _); cbn [bind make_labels]; [discriminate|].
  destruct (format_rebin_params _); cbn [bind]; [|discriminate].
  match goal with |- context [bind ?r _] => destruct r; cbn [bind make_labels]; discriminate end.
Qed.
Print Assumptions C56_countfile_refuted.

(** * C57 *)
Lemma mapM_map : forall A B (f : A -> result B) (g : A -> B) l, (forall x, In x l -> f x = Ok (g x)) -> mapM f l = Ok (map g l).
Proof. induction l; intros H; cbn; auto. rewrite H by (left; auto). cbn. rewrite IHl; [auto|]. intros. apply H. right; auto. Qed.

(** Columns [ax], [ay] and [ch] of the scan hold the points. *)
Definition scan_holds (s : scan) (ax ay ch : string) (pts : list point) : Prop :=
  column s ax = Ok (col px pts) /\ column s ay = Ok (col py pts) /\ column s ch = Ok (col pw pts) /\ s_preset s <> Unknown.

Lemma concat_col : forall (pts : scan -> list point) f scans, List.concat (map (fun s => col f (pts s)) scans) = col f (List.concat (map pts scans)).
Proof. intros. unfold col. rewrite concat_map, map_map. auto. Qed.

Section Combine.
  Context (ax ay ch : string) (pts : scan -> list point) (scans : list scan).
  Hypothesis H : forall s, In s scans -> scan_holds s ax ay ch (pts s).
  Let all := List.concat (map pts scans).

  Lemma gather_eq : gather scans ch = Ok (col pw all).
  Proof.
    unfold gather. rewrite (mapM_map _ _ _ (fun s => col pw (pts s))) by (intros s I; apply (H s I)). cbn [bind]. rewrite concat_col. auto.
  Qed.
  Lemma read_eq : mapM (fun s => do a <- column s ax; do b <- column s ay; do _ <- scan_info s; Ok (a, b)) scans = Ok (map (fun s => (col px (pts s), col py (pts s))) scans).
  Proof.
    apply mapM_map. intros s I. destruct (H s I) as (A & B & _ & N). rewrite A, B. cbn [bind]. unfold scan_info. destruct (s_preset s); [auto|auto|congruence].
  Qed.

  (** the part of combine_1d after the columns have been read *)
  Definition combined (d : data1d) (x : list num) (c : list num) (dflt : result unit) (norm_to : option R) (grid tol : option pparam) : result data1d :=
    let '(t, params) := select grid tol in
    if negb (match params with Some q => truthy q | None => false end) then
      match norm_to with Some v => renorm d (Some c) v | None => do _ <- dflt; Ok d end
    else
      do q <- format_rebin_params (match params with Some q => q | None => POther false end);
      match t, norm_to with
      | TTol, None => do _ <- dflt; do ps <- to_params x q; rebin_tol d ps (Some c)
      | TTol, Some v => do ps <- to_params x q; rebin_tol_renorm d ps (Some c) v
      | TGrid, None => do _ <- dflt; do ps <- to_params x q; rebin_grid d ps
      | TGrid, Some v => do ps <- to_params x q; rebin_grid_renorm d ps (Some c) v
      end.

  Lemma combine_norm_eq : forall v grid tol,
    combine_1d scans (ax, ay) (Some (v, ch)) grid tol = combined (new_data1d (col px all) (col py all) None) (col px all) (col pw all) (Ok tt) (Some v) grid tol.
  Proof.
    intros v grid tol. unfold combine_1d, combined. cbn [fst snd]. rewrite read_eq. cbn [bind]. rewrite !map_map. cbn [fst snd]. rewrite !concat_col. fold all.
    rewrite gather_eq. destruct (select grid tol) as (t, params). destruct (negb _); cbn [bind]; auto. 
  Qed.

  Lemma default_eq : forall v, scans <> [] -> (forall s, In s scans -> s_preset s = Normal ch v) -> default_renorm scans = Ok (v, ch).
  Proof.
    clear. intros v NE PN. unfold default_renorm. rewrite (mapM_map _ _ _ (fun _ => Normal ch v)) by (intros s I; unfold scan_info; rewrite (PN s I); auto).
    cbn [bind]. rewrite (mapM_map _ _ _ (fun _ => (v, ch))) by (intros p I; apply in_map_iff in I; destruct I as (s & <- & I); auto). cbn [bind].
    rewrite map_map. destruct scans as [|s l]; [congruence|]. cbn [map].
    assert (F : forallb (fun q => (if Req_EM_T (fst q) v then true else false) && String.eqb (snd q) ch) (map (fun _ => (v, ch)) l) = true).
    { apply forallb_forall. intros q Q. apply in_map_iff in Q. destruct Q as (? & <- & _). cbn [fst snd]. rewrite String.eqb_refl. destruct (Req_EM_T v v); [auto|congruence]. }
    rewrite F. auto.
  Qed.

  Lemma combine_default_eq : forall v grid tol, scans <> [] -> (forall s, In s scans -> s_preset s = Normal ch v) ->
    combine_1d scans (ax, ay) None grid tol = combined (new_data1d (col px all) (col py all) None) (col px all) (col pw all) (Ok tt) None grid tol.
  Proof.
    intros v grid tol NE PN. unfold combine_1d, combined. cbn [fst snd]. rewrite read_eq. cbn [bind]. rewrite !map_map. cbn [fst snd]. rewrite !concat_col. fold all.
    rewrite (default_eq v) by auto. cbn [bind]. rewrite gather_eq. destruct (select grid tol) as (t, params). destruct (negb _); cbn [bind]; auto.
  Qed.
End Combine.

(** A group behaves like one long scan made of its members. *)
Theorem C57_one_long_scan : forall ax ay ch pts scans m,
  (forall s, In s scans -> scan_holds s ax ay ch (pts s)) -> scan_holds m ax ay ch (List.concat (map pts scans)) ->
  (forall v grid tol, combine_1d scans (ax, ay) (Some (v, ch)) grid tol = combine_1d [m] (ax, ay) (Some (v, ch)) grid tol) /\
  (forall v grid tol, scans <> [] -> (forall s, In s (m :: scans) -> s_preset s = Normal ch v) ->
     combine_1d scans (ax, ay) None grid tol = combine_1d [m] (ax, ay) None grid tol).
Proof.
  intros ax ay ch pts scans m H M.
  assert (M1 : forall s, In s [m] -> scan_holds s ax ay ch ((fun _ => List.concat (map pts scans)) s)) by (intros s [<-|[]]; auto).
  split.
  - intros v grid tol. rewrite (combine_norm_eq ax ay ch pts scans H), (combine_norm_eq ax ay ch _ [m] M1). cbn [map List.concat]. rewrite app_nil_r. auto.
  - intros v grid tol NE PN. rewrite (combine_default_eq ax ay ch pts scans H v), (combine_default_eq ax ay ch _ [m] M1 v); auto; try discriminate.
    + cbn [map List.concat]. rewrite app_nil_r. auto.
    + intros s [<-|[]]. apply PN. left; auto. + intros s I. apply PN. right; auto.
Qed.
Print Assumptions C57_one_long_scan.

(** The order of the scans in the group does not matter when the result is rebinned. *)
Theorem C57_order_independent : forall ax ay ch pts scans scans' grid tol p,
  (forall s, In s scans -> scan_holds s ax ay ch (pts s)) -> Permutation scans scans' ->
  snd (select grid tol) = Some p -> truthy p = true ->
  (forall v, arrays (combine_1d scans (ax, ay) (Some (v, ch)) grid tol) = arrays (combine_1d scans' (ax, ay) (Some (v, ch)) grid tol)) /\
  (forall v, scans <> [] -> (forall s, In s scans -> s_preset s = Normal ch v) ->
     arrays (combine_1d scans (ax, ay) None grid tol) = arrays (combine_1d scans' (ax, ay) None grid tol)).
Proof.
  intros ax ay ch pts scans scans' grid tol p H P SEL TR.
  assert (H' : forall s, In s scans' -> scan_holds s ax ay ch (pts s)) by (intros s I; apply H; eapply Permutation_in; [apply Permutation_sym; eauto|auto]).
  assert (PP : Permutation (List.concat (map pts scans)) (List.concat (map pts scans'))).
  { clear - P. induction P; cbn; auto. - apply Permutation_app_head. auto. - rewrite !app_assoc. apply Permutation_app_tail, Permutation_app_comm. - eapply perm_trans; eauto. }
  assert (G : forall nt, arrays (combined (new_data1d (col px (List.concat (map pts scans))) (col py (List.concat (map pts scans))) None) (col px (List.concat (map pts scans))) (col pw (List.concat (map pts scans))) (Ok tt) nt grid tol) =
    arrays (combined (new_data1d (col px (List.concat (map pts scans'))) (col py (List.concat (map pts scans'))) None) (col px (List.concat (map pts scans'))) (col pw (List.concat (map pts scans'))) (Ok tt) nt grid tol)).
  { intros nt. unfold combined. destruct (select grid tol) as (t, params). cbn [snd] in SEL. subst params. rewrite TR. cbn [negb].
    destruct (format_rebin_params p) as [q|]; cbn [bind]; auto.
    set (A := List.concat (map pts scans)) in *. set (B := List.concat (map pts scans')) in *.
    assert (T : to_params (col px A) q = to_params (col px B) q).
    { destruct q as [[pmin pmax] step].
      pose proof (setup_perm A B (None, Some 0, 1) PP) as E1. pose proof (setup_perm A B (Some 0, None, 1) PP) as E2.
      pose proof (reduce_perm Rmin Rmin_comm Rmin_assoc _ _ (Permutation_map px PP)) as Q1.
      pose proof (reduce_perm Rmax Rmax_comm Rmax_assoc _ _ (Permutation_map px PP)) as Q2.
      assert (AM : amin (col px A) = amin (col px B)).
      { unfold amin, col. rewrite <- !(map_map px Some). destruct (map px A), (map px B); try contradiction; cbn [map]; congruence. }
      assert (BM : amax (col px A) = amax (col px B)).
      { unfold amax, col. rewrite <- !(map_map px Some). destruct (map px A), (map px B); try contradiction; cbn [map]; congruence. }
      unfold to_params. rewrite AM, BM. auto. }
    rewrite T.
    assert (K : forall k ps, arrays (rebin k (new_data1d (col px A) (col py A) None) ps (Some (col pw A))) = arrays (rebin k (new_data1d (col px B) (col py B) None) ps (Some (col pw B)))).
    { intros k ps. apply (C25_order_independent k _ _ _ _ A B ps PP); [split; auto|destruct k; cbn; auto; left; auto|split; auto|destruct k; cbn; auto; left; auto]. }
    destruct t, nt as [v|]; cbn [bind]; destruct (to_params (col px B) q) as [ps|]; cbn [bind]; auto.
    - apply (K (GridRenorm v)). - apply (K Grid). - apply (K (TolRenorm v)). - apply (K Tol). }
  split.
  - intros v. rewrite (combine_norm_eq ax ay ch pts scans H), (combine_norm_eq ax ay ch pts scans' H'). apply G.
  - intros v NE PN. rewrite (combine_default_eq ax ay ch pts scans H v grid tol NE PN).
    rewrite (combine_default_eq ax ay ch pts scans' H' v). + apply G.
    + intros ->. apply Permutation_sym, Permutation_nil in P. auto.
    + intros s I. apply PN. eapply Permutation_in; [apply Permutation_sym; eauto|auto].
Qed.
Print Assumptions C57_order_independent.

Lemma presets_differ : forall scans s1 s2 c1 v1 c2 v2, (forall s, In s scans -> exists c v, s_preset s = Normal c v) ->
  In s1 scans -> In s2 scans -> s_preset s1 = Normal c1 v1 -> s_preset s2 = Normal c2 v2 -> (c1 <> c2 \/ v1 <> v2) -> default_renorm scans = Err ValueError.
Proof.
  intros scans s1 s2 c1 v1 c2 v2 PN I1 I2 P1 P2 D.
  set (pr := fun s => match s_preset s with Normal c v => (v, c) | _ => (0, EmptyString) end).
  unfold default_renorm. rewrite (mapM_map _ _ _ s_preset) by (intros s I; unfold scan_info; destruct (PN s I) as (c & v & ->); auto). cbn [bind].
    assert (MM : mapM (fun p => match p with Normal ch v => Ok (v, ch) | _ => Err TypeError end) (map s_preset scans) = Ok (map pr scans)).
    { clear - PN. induction scans as [|s l]; auto. cbn [map mapM]. destruct (PN s (or_introl eq_refl)) as (c & v & E). unfold pr at 1. rewrite E. cbn [bind].
      rewrite IHl by (intros; apply PN; right; auto). auto. }
    rewrite MM. cbn [bind]. destruct scans as [|s l] eqn:SC; [destruct I1|]. cbn [map]. destruct (pr s) as (v, c) eqn:PS.
    destruct (forallb _ (map pr l)) eqn:F; auto. exfalso. rewrite forallb_forall in F.
    assert (ALL : forall s', In s' (s :: l) -> pr s' = (v, c)).
    { intros s' [<-|I]; auto. specialize (F (pr s') (in_map pr _ _ I)). apply andb_true_iff in F. destruct F as (F1 & F2). apply String.eqb_eq in F2.
      destruct (pr s') as (v', c'). cbn [fst snd] in *. destruct (Req_EM_T v' v); [subst; auto|discriminate]. }
    pose proof (ALL s1 I1) as A1. pose proof (ALL s2 I2) as A2. unfold pr in A1, A2. rewrite P1 in A1. rewrite P2 in A2. destruct D; congruence.
Qed.
(** Without a normalisation, scans counted in different ways are refused. *)
Theorem C57_different_presets : forall ax ay ch pts scans s1 s2 c1 v1 c2 v2 grid tol,
  (forall s, In s scans -> scan_holds s ax ay ch (pts s)) -> (forall s, In s scans -> exists c v, s_preset s = Normal c v) ->
  In s1 scans -> In s2 scans -> s_preset s1 = Normal c1 v1 -> s_preset s2 = Normal c2 v2 -> (c1 <> c2 \/ v1 <> v2) ->
  combine_1d scans (ax, ay) None grid tol = Err ValueError.
Proof.
  intros ax ay ch pts scans s1 s2 c1 v1 c2 v2 grid tol H PN I1 I2 P1 P2 D.
  assert (DR := presets_differ scans s1 s2 c1 v1 c2 v2 PN I1 I2 P1 P2 D).
  unfold combine_1d. cbn [fst snd]. rewrite (read_eq ax ay ch pts scans H). cbn [bind]. rewrite DR. cbn [bind].
  destruct (select grid tol) as (t, params). destruct (negb _); auto.
  destruct (format_rebin_params _) eqn:F; cbn [bind]; [destruct t; auto|]. f_equal. eapply C28_rejects_with_ValueError; eauto.
Qed.
Print Assumptions C57_different_presets.

(** Two short scans that meet the hypotheses. *)
Example C57_example : let pts1 := [Point 0 4 2; Point 1 5 1] in let pts2 := [Point 1 9 3] in
  let mk pts := Scan "en" "detector" (Normal "monitor" 2) [("en", col px pts); ("detector", col py pts); ("monitor", col pw pts)]%string in
  let pts s := match dget String.eqb "detector"%string (s_data s) with Some [_; _] => pts1 | _ => pts2 end in
  (forall s, In s [mk pts1; mk pts2] -> scan_holds s "en" "detector" "monitor" (pts s)) /\
  (forall s, In s [mk pts1; mk pts2] -> s_preset s = Normal "monitor" 2) /\ plain "detector" /\ contains "del_q" "en" = false.
Proof.
  intros pts1 pts2 mk pts. split; [|split; [|split; reflexivity]].
  - intros s [<-|[<-|[]]]; (split; [reflexivity|split; [reflexivity|split; [reflexivity|discriminate]]]).
  - intros s [<-|[<-|[]]]; reflexivity.
Qed.

Example C28_ex : exists q, format_rebin_params (PTup [Some (Some 0); Some (Some 5); Some (Some (1/2))]) = Ok q /\ format_rebin_params (PTup [Some (Some 5); Some (Some 0); Some (Some (1/2))]) = Err ValueError.
Proof.
  eexists. split; [apply C28_accepts; split; [left; reflexivity|split; [intros u v [= <-] [= <-]; lra|intros v [= <-]; lra]]|].
  destruct (format_rebin_params _) as [[[a b] s]|e] eqn:E; [|f_equal; eapply C28_rejects_with_ValueError; eauto]. exfalso. apply C28_accepts in E. destruct E as [Q [S _]].
  destruct Q as [Q|[[Q _]|(v & Q & _)]]; try discriminate. injection Q as <- <- <-. specialize (S 5 0 eq_refl eq_refl). lra.
Qed.
(** A scan of three points, normalised to the monitor and rebinned. *)
Example C56_ex : let pts := [Point 0 4 2; Point 1 5 1; Point 2 9 3] in
  let s := Scan "en" "detector" (Normal "monitor" 2) [("en", col px pts); ("detector", col py pts); ("monitor", col pw pts)]%string in
  s_preset s = Normal "monitor" 2 /\ column s "en" = Ok (col px pts) /\ column s "detector" = Ok (col py pts) /\ column s "monitor" = Ok (col pw pts) /\
  contains "del_q" "en" = false /\ plain "detector" /\ (forall p, In p pts -> 0 <= px p <= 2) /\ (exists p, In p pts /\ px p = 0) /\ (exists p, In p pts /\ px p = 2) /\
  (1 < List.length (split_on "_" "detector_1"))%nat.
Proof.
  intros pts s. repeat (split; [reflexivity|]). split; [intros p [<-|[<-|[<-|[]]]]; cbn; lra|].
  split; [exists (Point 0 4 2); split; [left|]; auto|]. split; [exists (Point 2 9 3); split; [right; right; left|]; auto|]. cbn. lia.
Qed.
