(** Properties C30 and C31: filtering scans. *)
From Coq Require Import Reals Lra List String Bool Permutation Sorting.Sorted.
From Verif Require Import Base PyStr PySort L_Sort M_Filter.
Import ListNotations.
Open Scope R_scope.

(** * Specification *)
(** The text field [kw] of the scan is [a]: metadata first, else the UB configuration. *)
Definition field (s : fscan) (kw a : string) : Prop :=
  dget String.eqb kw (f_meta s) = Some a \/
  (dget String.eqb kw (f_meta s) = None /\ exists u, f_ub s = Some u /\ dget String.eqb kw u = Some a).
Definition substring_of (v a : string) : Prop := exists pre post, a = (pre ++ v ++ post)%string.
Definition compares (op : num_op) (tol x v : R) : Prop :=
  match op with
  | EQUAL => Rabs (x - v) <= tol
  | NOTEQUAL => Rabs (x - v) > tol
  | LESS => x < v
  | LESSEQUAL => x <= v
  | GREATER => x > v
  | GREATEREQUAL => x >= v
  end.
(** The scan meets the condition: text compares as asked, or every value of the column does. *)
Definition meets (tol : R) (s : fscan) (c : condition) : Prop :=
  match c with
  | Text kw op v => exists a, field s kw a /\
      match op with CONTAINS => substring_of v a | NOTCONTAIN => ~ substring_of v a | IS => a = v | ISNOT => a <> v end
  | Numeric kw op v => exists r col, v = Some r /\ dget String.eqb kw (f_data s) = Some col /\ Forall (fun x => compares op tol x r) col
  end.
(** The condition can be evaluated on the scan. *)
Definition applicable (s : fscan) (c : condition) : Prop :=
  match c with
  | Text kw _ _ => exists a, field s kw a
  | Numeric kw _ v => v <> None /\ exists a l, dget String.eqb kw (f_data s) = Some (a :: l)
  end.
Definition exact_op (c : condition) : Prop := match c with Numeric _ (LESSEQUAL | NOTEQUAL) _ => False | _ => True end.

(** * Lemmas *)
Lemma prefixb_spec : forall p s, prefixb p s = true <-> exists t, s = (p ++ t)%string.
Proof.
  induction p as [|a p]; intros s; cbn. { split; eauto. }
  destruct s as [|b s]. { split; [discriminate|]. intros (t & H). discriminate. }
  rewrite andb_true_iff, Ascii.eqb_eq, IHp. split.
  - intros (-> & t & ->). eauto. - intros (t & [= -> ->]). eauto.
Qed.
Lemma contains_spec : forall p s, contains p s = true <-> substring_of p s.
Proof.
  unfold substring_of. intros p. induction s as [|b s]; cbn [contains]; rewrite orb_true_iff, prefixb_spec.
  - split.
    + intros [(t & H)|H]; [|discriminate]. exists EmptyString, t. auto.
    + intros ([|b pre] & post & H); [|discriminate]. left. eauto.
  - rewrite IHs. split.
    + intros [(t & H)|(pre & post & ->)]; [exists EmptyString, t; auto|]. exists (String b pre), post. auto.
    + intros ([|b' pre] & post & H); [left; eauto|]. injection H as -> ->. right. eauto.
Qed.
Lemma fold_max_le : forall l a v, fold_left Rmax l a <= v <-> Forall (fun x => x <= v) (a :: l).
Proof.
  induction l as [|b l]; intros a v; cbn [fold_left]. { split; intros H; [constructor; auto|inversion H; auto]. }
  rewrite IHl, !Forall_cons_iff. split.
  - intros (H & F). pose proof (Rmax_l a b). pose proof (Rmax_r a b). split; [lra|split; [lra|auto]].
  - intros (A & B & F). split; auto. apply Rmax_lub; auto.
Qed.
Lemma fold_max_lt : forall l a v, fold_left Rmax l a < v <-> Forall (fun x => x < v) (a :: l).
Proof.
  induction l as [|b l]; intros a v; cbn [fold_left]. { split; intros H; [constructor; auto|inversion H; auto]. }
  rewrite IHl, !Forall_cons_iff. split.
  - intros (H & F). pose proof (Rmax_l a b). pose proof (Rmax_r a b). split; [lra|split; [lra|auto]].
  - intros (A & B & F). split; auto. apply Rmax_lub_lt; auto.
Qed.
Lemma fold_min_ge : forall l a v, v <= fold_left Rmin l a <-> Forall (fun x => v <= x) (a :: l).
Proof.
  induction l as [|b l]; intros a v; cbn [fold_left]. { split; intros H; [constructor; auto|inversion H; auto]. }
  rewrite IHl, !Forall_cons_iff. split.
  - intros (H & F). pose proof (Rmin_l a b). pose proof (Rmin_r a b). split; [lra|split; [lra|auto]].
  - intros (A & B & F). split; auto. apply Rmin_glb; auto.
Qed.
Lemma fold_min_gt : forall l a v, v < fold_left Rmin l a <-> Forall (fun x => v < x) (a :: l).
Proof.
  induction l as [|b l]; intros a v; cbn [fold_left]. { split; intros H; [constructor; auto|inversion H; auto]. }
  rewrite IHl, !Forall_cons_iff. split.
  - intros (H & F). pose proof (Rmin_l a b). pose proof (Rmin_r a b). split; [lra|split; [lra|auto]].
  - intros (A & B & F). split; auto. apply Rmin_glb_lt; auto.
Qed.
Lemma fold_min_le : forall l a v, fold_left Rmin l a <= v <-> Exists (fun x => x <= v) (a :: l).
Proof.
  induction l as [|b l]; intros a v; cbn [fold_left]. { split; intros H; [constructor; auto|inversion H; subst; auto; inversion H1]. }
  rewrite IHl, !Exists_cons. unfold Rmin. destruct (Rle_dec a b); split; intros; try tauto.
  - destruct H as [H|[H|H]]; auto. left; lra. - destruct H as [H|[H|H]]; auto. left; lra.
Qed.
Lemma leb_spec : forall a b, leb a b = true <-> a <= b.
Proof. intros. unfold leb. destruct (Rle_dec a b); split; auto; discriminate. Qed.
Lemma ltb_spec : forall a b, ltb a b = true <-> a < b.
Proof. intros. unfold ltb. destruct (Rlt_dec a b); split; auto; discriminate. Qed.

(** One condition on one scan, as coded. *)
Definition eval (tol : R) (c : condition) (s : fscan) : result bool :=
  match c with Text kw op v => eval_text s kw op v | Numeric kw op (Some v) => eval_num tol s kw op v | Numeric _ _ None => Err ValueError end.

Lemma eval_applicable : forall tol c s, applicable s c -> exists b, eval tol c s = Ok b.
Proof.
  intros tol [kw op v|kw op v] s H; cbn [applicable eval] in *.
  - unfold eval_text. destruct H as (a & [A|(A & u & U & B)]); rewrite A; cbn [bind]; eauto. rewrite U, B. cbn [bind]. eauto.
  - destruct H as (N & a & l & A). destruct v as [v|]; [|congruence]. unfold eval_num. rewrite A. destruct op; cbn [pmax pmin bind]; eauto.
    + destruct (leb _ _); eauto. + destruct (ltb _ _); eauto.
Qed.

Lemma eval_text_spec : forall s kw op v b, eval_text s kw op v = Ok b -> (b = true <-> meets 0 s (Text kw op v)).
Proof.
  intros s kw op v b H. unfold eval_text in H. cbn [meets].
  assert (exists a, field s kw a /\ (forall a', field s kw a' -> a' = a) /\ Ok (match op with CONTAINS => contains v a | NOTCONTAIN => negb (contains v a) | IS => String.eqb v a | ISNOT => negb (String.eqb v a) end) = Ok b) as (a & F & U & E).
  { destruct (dget String.eqb kw (f_meta s)) as [a|] eqn:M; cbn [bind] in H.
    - exists a. split; [left; auto|split; auto]. intros a' [A|(A & _)]; congruence.
    - destruct (f_ub s) as [u|] eqn:UB; cbn [bind] in H; [|discriminate]. destruct (dget String.eqb kw u) as [a|] eqn:A; cbn [bind] in H; [|discriminate].
      exists a. split; [right; eauto|split; auto]. intros a' [A'|(A' & u' & U' & B')]; congruence. }
  apply Ok_inj in E. subst b. destruct op.
  - rewrite contains_spec. split; [intros; exists a; auto|]. intros (a' & F' & S). rewrite (U a' F') in S. auto.
  - rewrite negb_true_iff, <- not_true_iff_false, contains_spec. split; [intros; exists a; auto|]. intros (a' & F' & S). rewrite (U a' F') in S. auto.
  - rewrite String.eqb_eq. split; [intros ->; exists a; auto|]. intros (a' & F' & S). rewrite (U a' F') in S. auto.
  - rewrite negb_true_iff, <- not_true_iff_false, String.eqb_eq. split; [intros; exists a; split; congruence|]. intros (a' & F' & S). rewrite (U a' F') in S. congruence.
Qed.

Lemma eval_num_spec : forall tol s kw op v b, exact_op (Numeric kw op (Some v)) -> eval_num tol s kw op v = Ok b ->
  (b = true <-> meets tol s (Numeric kw op (Some v))).
Proof.
  intros tol s kw op v b X H. unfold eval_num in H. cbn [meets exact_op] in *. destruct (dget String.eqb kw (f_data s)) as [[|a l]|] eqn:C; [| |discriminate].
  { destruct op; discriminate. }
  assert (G : forall P : Prop, (b = true <-> P) -> (P <-> Forall (fun x => compares op tol x v) (a :: l)) ->
    (b = true <-> (exists r col, Some v = Some r /\ Some (a :: l) = Some col /\ Forall (fun x => compares op tol x r) col))).
  { intros P -> ->. split; [intros F; exists v, (a :: l); auto|]. intros (r & col & [= <-] & [= <-] & F). auto. }
  destruct op; try contradiction; cbn [pmax pmin bind] in H.
  - assert (B : b = leb (fold_left Rmax l a) (v + tol) && leb (v - tol) (fold_left Rmin l a)).
    { destruct (leb (fold_left Rmax l a) (v + tol)); apply Ok_inj in H; subst; auto. }
    apply (G (Forall (fun x => x <= v + tol) (a :: l) /\ Forall (fun x => v - tol <= x) (a :: l))).
    + rewrite B, andb_true_iff, !leb_spec, fold_max_le, fold_min_ge. tauto.
    + cbn [compares]. rewrite !Forall_forall. split.
      * intros (F1 & F2) x I. specialize (F1 x I). specialize (F2 x I). cbn in F1, F2. apply Rabs_le. lra.
      * intros F. split; intros x I; specialize (F x I); cbn in F; unfold Rabs in F; destruct (Rcase_abs (x - v)); lra.
  - apply Ok_inj in H. apply (G (Forall (fun x => x < v) (a :: l))); [|cbn [compares]; tauto]. subst b. rewrite ltb_spec. apply fold_max_lt.
  - apply Ok_inj in H. apply (G (Forall (fun x => v < x) (a :: l))); [|cbn [compares]; tauto]. subst b. rewrite ltb_spec. apply fold_min_gt.
  - apply Ok_inj in H. apply (G (Forall (fun x => v <= x) (a :: l))). { subst b. rewrite leb_spec. apply fold_min_ge. }
    cbn [compares]. rewrite !Forall_forall. split; intros F x I; specialize (F x I); cbn in *; lra.
Qed.

Lemma eval_spec : forall tol c s b, exact_op c -> eval tol c s = Ok b -> (b = true <-> meets tol s c).
Proof.
  intros tol [kw op v|kw op [v|]] s b X H; cbn [eval] in H.
  - apply (eval_text_spec s kw op v b H). - apply eval_num_spec; auto. - discriminate.
Qed.

Lemma matching_spec : forall ev scans acc, (forall n s, In (n, s) scans -> exists b, ev s = Ok b) -> NoDup acc ->
  exists names, matching ev scans acc = Ok names /\ NoDup names /\ forall n, In n names <-> In n acc \/ exists s, In (n, s) scans /\ ev s = Ok true.
Proof.
  induction scans as [|[m s] scans]; intros acc H N; cbn [matching].
  - exists acc. split; auto. split; auto. intros n. split; auto. intros [|(s & [] & _)]; auto.
  - destruct (H m s (or_introl eq_refl)) as (b & B). rewrite B. cbn [bind].
    destruct (IHscans (if b then sadd m acc else acc)) as (names & E & ND & I).
    { intros. eapply H. right; eauto. } { destruct b; auto. apply sadd_nodup; auto. }
    exists names. split; auto. split; auto. intros n. rewrite I. destruct b.
    + rewrite sadd_in. split.
      * intros [[->|A]|(s' & S & T)]; [right; exists s; split; [left; auto|auto]|auto|right; exists s'; split; [right; auto|auto]].
      * intros [A|(s' & [S|S] & T)]; [auto|injection S as -> ->; auto|right; exists s'; auto].
    + split.
      * intros [A|(s' & S & T)]; [auto|right; exists s'; split; [right; auto|auto]].
      * intros [A|(s' & [S|S] & T)]; [auto|injection S as -> ->; congruence|right; exists s'; auto].
Qed.

Lemma factory_spec : forall tol scans c, (forall n s, In (n, s) scans -> applicable s c) -> (match c with Numeric _ _ None => False | _ => True end) ->
  exists names, condition_factory tol scans c = Ok names /\ NoDup names /\ forall n, In n names <-> exists s, In (n, s) scans /\ eval tol c s = Ok true.
Proof.
  intros tol scans c A V. destruct (matching_spec (eval tol c) scans []) as (names & E & N & I).
  { intros n s S. apply eval_applicable. eapply A; eauto. } { constructor. }
  exists names. split; [destruct c as [|? ? [v|]]; [exact E|exact E|contradiction]|]. split; auto. intros n. rewrite I. split; [intros [[]|]; auto|auto].
Qed.

Lemma run_app : forall f cs out, fst (run f cs out) = (out ++ fst (run f cs []))%list /\ snd (run f cs out) = snd (run f cs []).
Proof.
  induction cs as [|c cs]; intros out; cbn [run]. { rewrite app_nil_r. auto. }
  destruct (condition_factory (fl_tol f) (fl_scans f) c) as [s|e].
  - destruct (IHcs (out ++ [s])%list) as (A & B), (IHcs ([] ++ [s])%list) as (A' & B'). rewrite A, B, A', B'. rewrite app_nil_l, app_assoc. auto.
  - cbn. rewrite app_nil_r. auto.
Qed.
Lemma run_ok : forall f cs names, (forall c, In c cs -> condition_factory (fl_tol f) (fl_scans f) c = Ok (names c)) -> run f cs [] = (map names cs, Ok tt).
Proof.
  induction cs as [|c cs]; intros names H; auto. cbn [run]. rewrite (H c (or_introl eq_refl)). cbn [app].
  destruct (run_app f cs [names c]) as (A & B). specialize (IHcs names (fun c' I => H c' (or_intror I))). rewrite IHcs in A, B. cbn [fst snd] in *.
  destruct (run f cs [names c]). cbn [fst snd] in *. subst. auto.
Qed.

Lemma fold_union_in : forall n out acc, In n (fold_left union out acc) <-> In n acc \/ exists s, In s out /\ In n s.
Proof.
  induction out as [|s out]; intros acc; cbn [fold_left]. { split; auto. intros [|(s & [] & _)]; auto. }
  rewrite IHout, union_in. split.
  - intros [[|]|(t & T & N)]; [auto|right; exists s; split; [left; auto|auto]|right; exists t; split; [right; auto|auto]].
  - intros [|(t & [->|T] & N)]; [auto|auto|right; exists t; auto].
Qed.
Lemma fold_union_nodup : forall out acc, NoDup acc -> NoDup (fold_left union out acc).
Proof. induction out; intros; cbn; auto. apply IHout, union_nodup; auto. Qed.
Lemma fold_inter_in : forall n out acc, In n (fold_left inter out acc) <-> In n acc /\ forall s, In s out -> In n s.
Proof.
  induction out as [|s out]; intros acc; cbn [fold_left]. { split; [intros; split; auto; intros s []|tauto]. }
  rewrite IHout, inter_in. split.
  - intros ((A & B) & C). split; auto. intros t [<-|T]; auto. - intros (A & C). split; [split; [auto|apply C; left; auto]|]. intros t T. apply C. right; auto.
Qed.
Lemma fold_inter_nodup : forall out acc, NoDup acc -> NoDup (fold_left inter out acc).
Proof. induction out; intros; cbn; auto. apply IHout, inter_nodup; auto. Qed.

(** Names in the answer, for every condition, in terms of what the code evaluates. *)
Lemma filter_answer : forall scans conds l tol, conds <> [] -> l <> BadLogic ->
  (forall c, In c conds -> (forall n s, In (n, s) scans -> applicable s c) /\ match c with Numeric _ _ None => False | _ => True end) ->
  exists names, snd (filter_data (new_filter scans conds l tol)) = Ok (Some names) /\ StronglySorted slt names /\
    forall n, In n names <-> match l with
      | AND => forall c, In c conds -> exists s, In (n, s) scans /\ eval tol c s = Ok true
      | _ => exists c, In c conds /\ exists s, In (n, s) scans /\ eval tol c s = Ok true end.
Proof.
  intros scans conds l tol NE NB A.
  set (nm := fun c => match condition_factory tol scans c with Ok n => n | Err _ => [] end).
  assert (NM : forall c, In c conds -> condition_factory tol scans c = Ok (nm c) /\ NoDup (nm c) /\ forall n, In n (nm c) <-> exists s, In (n, s) scans /\ eval tol c s = Ok true).
  { intros c C. destruct (A c C) as (A1 & A2). destruct (factory_spec tol scans c A1 A2) as (names & E & N). unfold nm. rewrite E. auto. }
  assert (R : run (new_filter scans conds l tol) conds [] = (map nm conds, Ok tt)) by (apply run_ok; intros c C; apply NM; auto).
  unfold filter_data. cbn [fl_conds new_filter fl_output]. destruct conds as [|c0 conds]; [congruence|]. fold (new_filter scans (c0 :: conds) l tol).
  rewrite R. cbn [snd bind fl_logic]. destruct l; [| |congruence].
  - cbn [map]. eexists. split; [reflexivity|]. split.
    + apply strict; [apply sort_sorted|]. apply sort_nodup, fold_inter_nodup. apply NM. left; auto.
    + intros n. rewrite sort_in, fold_inter_in. split.
      * intros (H & F) c [<-|C]; [apply NM; [left|]; auto|]. apply NM; [right; auto|]. apply F. apply in_map; auto.
      * intros F. split; [apply NM; [left; auto|apply F; left; auto]|]. intros s S. apply in_map_iff in S. destruct S as (c & <- & C). apply NM; [right; auto|]. apply F. right; auto.
  - eexists. split; [reflexivity|]. split.
    + apply strict; [apply sort_sorted|]. apply sort_nodup, fold_union_nodup. constructor.
    + intros n. rewrite sort_in, fold_union_in. split.
      * intros [[]|(s & S & N)]. apply in_map_iff in S. destruct S as (c & <- & C). exists c. split; auto. apply NM; auto.
      * intros (c & C & N). right. exists (nm c). split; [apply in_map; auto|apply NM; auto].
Qed.

(** * C30 *)
(** The answer is sorted, without repetitions, and contains exactly the names of the scans that meet all ('and') or some ('or')
    of the conditions. *)
Theorem C30_matching_scans : forall scans conds l tol, conds <> [] -> l <> BadLogic -> NoDup (dkeys scans) ->
  (forall c n s, In c conds -> In (n, s) scans -> applicable s c) -> (forall c, In c conds -> match c with Numeric _ _ None => False | _ => True end) ->
  (forall c, In c conds -> exact_op c) ->
  exists names, snd (filter_data (new_filter scans conds l tol)) = Ok (Some names) /\ StronglySorted slt names /\
    forall n, In n names <-> exists s, In (n, s) scans /\
      match l with AND => Forall (meets tol s) conds | _ => Exists (meets tol s) conds end.
Proof.
  intros scans conds l tol NE NB ND A V X.
  destruct (filter_answer scans conds l tol NE NB (fun c C => conj (fun n s => A c n s C) (V c C))) as (names & E & S & I).
  exists names. split; auto. split; auto. intros n. rewrite I.
  assert (EV : forall c s, In c conds -> In (n, s) scans -> (eval tol c s = Ok true <-> meets tol s c)).
  { intros c s C N. destruct (eval_applicable tol c s (A c n s C N)) as (b & B). rewrite <- (eval_spec tol c s b (X c C) B). rewrite B. split; congruence. }
  assert (U : forall s s', In (n, s) scans -> In (n, s') scans -> s = s').
  { clear - ND. unfold dkeys in ND. induction scans as [|[m t] scans]; intros s s' A B; [destruct A|]. cbn in ND. inversion ND; subst.
    destruct A as [A|A], B as [B|B]; [congruence| | |auto].
    - exfalso. injection A as -> ->. apply H1. apply (in_map fst) in B. auto. - exfalso. injection B as -> ->. apply H1. apply (in_map fst) in A. auto. }
  destruct l.
  - split.
    + intros F. destruct conds as [|c0 conds]; [congruence|]. destruct (F c0 (or_introl eq_refl)) as (s & N & B). exists s. split; auto.
      apply Forall_forall. intros c C. destruct (F c C) as (s' & N' & B'). rewrite (U s s' N N'). apply EV; auto.
    + intros (s & N & F) c C. exists s. split; auto. rewrite Forall_forall in F. apply EV; auto.
  - split.
    + intros (c & C & s & N & B). exists s. split; auto. apply Exists_exists. exists c. split; auto. apply EV; auto.
    + intros (s & N & F). apply Exists_exists in F. destruct F as (c & C & M). exists c. split; auto. exists s. split; auto. apply EV; auto.
  - congruence.
Qed.
Print Assumptions C30_matching_scans.

(** "<=" keeps a scan as soon as its smallest value is not above the limit ... *)
Theorem C30_less_equal_as_coded : forall scans kw v l tol, l <> BadLogic -> (forall n s, In (n, s) scans -> applicable s (Numeric kw LESSEQUAL (Some v))) ->
  exists names, snd (filter_data (new_filter scans [Numeric kw LESSEQUAL (Some v)] l tol)) = Ok (Some names) /\
    forall n, In n names <-> exists s col, In (n, s) scans /\ dget String.eqb kw (f_data s) = Some col /\ Exists (fun x => x <= v) col.
Proof.
  intros scans kw v l tol NB A. destruct (filter_answer scans [Numeric kw LESSEQUAL (Some v)] l tol) as (names & E & _ & I); auto; [discriminate| |].
  { intros c [<-|[]]. auto. }
  exists names. split; auto. intros n. rewrite I. clear E I.
  assert (EV : forall s, In (n, s) scans -> (eval tol (Numeric kw LESSEQUAL (Some v)) s = Ok true <-> exists col, dget String.eqb kw (f_data s) = Some col /\ Exists (fun x => x <= v) col)).
  { intros s N. destruct (A n s N) as (_ & a & r & C). cbn [eval]. unfold eval_num. rewrite C. cbn [pmin bind]. split.
    - intros H. apply Ok_inj in H. rewrite leb_spec, fold_min_le in H. eauto.
    - intros (col & [= <-] & X). f_equal. apply leb_spec, fold_min_le. auto. }
  transitivity (exists s, In (n, s) scans /\ eval tol (Numeric kw LESSEQUAL (Some v)) s = Ok true).
  - destruct l; [|split|congruence].
    + split; [intros H; apply H; left; auto|intros H c [<-|[]]; auto]. + intros (c & [<-|[]] & H); auto. + intros H. eexists. split; [left; reflexivity|auto].
  - split. + intros (s & N & H). apply EV in H; auto. destruct H as (col & C & X). eauto.
    + intros (s & col & N & C & X). exists s. split; auto. apply EV; eauto.
Qed.
Print Assumptions C30_less_equal_as_coded.

(** ... so that a scan with larger values is returned. *)
Theorem C30_less_equal_refuted : exists scans kw v, let f := new_filter scans [Numeric kw LESSEQUAL (Some v)] OR (1/100) in
  exists n s, snd (filter_data f) = Ok (Some [n]) /\ scans = [(n, s)] /\ ~ meets (1/100) s (Numeric kw LESSEQUAL (Some v)).
Proof.
  exists [("a", FScan [("temp", [1; 200])] [] None)]%string, "temp"%string, 100.
  exists "a"%string, (FScan [("temp"%string, [1; 200])] [] None). split; [|split; [auto|]].
  - cbn. unfold leb. destruct (Rle_dec (Rmin 1 200) 100) as [|n]; [reflexivity|]. exfalso. apply n. pose proof (Rmin_l 1 200). lra.
  - intros (r & col & [= <-] & [= <-] & F). rewrite !Forall_cons_iff in F. cbn in F. lra.
Qed.
Print Assumptions C30_less_equal_refuted.

(** "!=" returns only scans whose values all differ, but misses those with values on both sides. *)
Theorem C30_not_equal_sound : forall tol s kw v, eval tol (Numeric kw NOTEQUAL (Some v)) s = Ok true -> 0 <= tol -> meets tol s (Numeric kw NOTEQUAL (Some v)).
Proof.
  intros tol s kw v H T. cbn [eval] in H. unfold eval_num in H. destruct (dget String.eqb kw (f_data s)) as [[|a l]|] eqn:C; try discriminate.
  exists v, (a :: l). split; [auto|split; [auto|]]. cbn [pmin pmax bind] in H. destruct (ltb (v + tol) (fold_left Rmin l a)) eqn:L.
  - apply ltb_spec, fold_min_gt in L. eapply Forall_impl; [|exact L]. cbn. intros x X. rewrite Rabs_right; lra.
  - apply Ok_inj in H. apply ltb_spec, fold_max_lt in H. eapply Forall_impl; [|exact H]. cbn. intros x X. rewrite Rabs_left; lra.
Qed.
Print Assumptions C30_not_equal_sound.
Theorem C30_not_equal_refuted : exists scans kw v n s, let f := new_filter scans [Numeric kw NOTEQUAL (Some v)] OR (1/100) in
  snd (filter_data f) = Ok (Some []) /\ scans = [(n, s)] /\ meets (1/100) s (Numeric kw NOTEQUAL (Some v)).
Proof.
  exists [("a", FScan [("temp", [1; 200])] [] None)]%string, "temp"%string, 100.
  exists "a"%string, (FScan [("temp"%string, [1; 200])] [] None). split; [|split; [auto|]].
  - cbn. unfold ltb. pose proof (Rmin_l 1 200). pose proof (Rmax_r 1 200).
    destruct (Rlt_dec (100 + 1 / 100) (Rmin 1 200)); [lra|]. cbn. destruct (Rlt_dec (Rmax 1 200) (100 - 1 / 100)); [lra|]. reflexivity.
  - exists 100, [1; 200]. split; [auto|split; [auto|]]. repeat constructor; cbn; unfold Rabs; destruct (Rcase_abs _); lra.
Qed.
Print Assumptions C30_not_equal_refuted.

(** The order of the conditions, and of the scans, does not matter. *)
Theorem C30_order_independent : forall scans scans' conds conds' l tol names, Permutation conds conds' -> Permutation scans scans' -> l <> BadLogic ->
  (forall c n s, In c conds -> In (n, s) scans -> applicable s c) -> (forall c, In c conds -> match c with Numeric _ _ None => False | _ => True end) ->
  snd (filter_data (new_filter scans conds l tol)) = Ok (Some names) ->
  snd (filter_data (new_filter scans' conds' l tol)) = Ok (Some names).
Proof.
  intros scans scans' conds conds' l tol names P Q NB A V H.
  assert (NE : conds <> []) by (intros ->; discriminate).
  assert (NE' : conds' <> []) by (intros ->; apply Permutation_sym, Permutation_nil in P; auto).
  destruct (filter_answer scans conds l tol NE NB (fun c C => conj (fun n s => A c n s C) (V c C))) as (n1 & E1 & S1 & I1).
  assert (PI : forall c, In c conds' -> In c conds) by (intros c C; eapply Permutation_in; [apply Permutation_sym; eauto|auto]).
  assert (QI : forall x, In x scans' -> In x scans) by (intros c C; eapply Permutation_in; [apply Permutation_sym; eauto|auto]).
  assert (PI' : forall c, In c conds -> In c conds') by (intros c C; eapply Permutation_in; eauto).
  assert (QI' : forall x, In x scans -> In x scans') by (intros c C; eapply Permutation_in; eauto).
  destruct (filter_answer scans' conds' l tol NE' NB (fun c C => conj (fun n s N => A c n s (PI c C) (QI _ N)) (V c (PI c C)))) as (n2 & E2 & S2 & I2).
  rewrite E1 in H. apply Ok_inj in H. injection H as <-. rewrite E2. do 2 f_equal.
  assert (W : forall n, StronglySorted slt n -> StronglySorted sle n /\ NoDup n).
  { induction n; intros S; [split; constructor|]. inversion S; subst. destruct (IHn H1). split; constructor; auto.
    - eapply Forall_impl; [|eauto]. intros b B. apply B. - intros IN. rewrite Forall_forall in H2. apply (slt_irrefl a). auto. }
  apply sorted_unique; try apply W; auto. apply NoDup_Permutation; try apply W; auto.
  intros n. rewrite I1, I2. destruct l; [| |congruence].
  - split; intros F c C; destruct (F c) as (s & N & B); auto; exists s; auto.
  - split; intros (c & C & s & N & B); exists c; split; auto; exists s; auto.
Qed.
Print Assumptions C30_order_independent.

(** A keyword no scan has raises TypeError (an attempt to log it). *)
Theorem C30_unknown_keyword_refuted : forall n s rest kw op v l tol, dget String.eqb kw (f_meta s) = None -> f_ub s = None ->
  snd (filter_data (new_filter ((n, s) :: rest) [Text kw op v] l tol)) = Err TypeError.
Proof.
  intros n s rest kw op v l tol M U. unfold filter_data, new_filter. cbn [fl_conds run condition_factory matching fl_scans fl_tol]. unfold eval_text. rewrite M, U. reflexivity.
Qed.
Print Assumptions C30_unknown_keyword_refuted.

(** * C31 *)
Fixpoint calls (n : nat) (f : filter_obj) : filter_obj := match n with O => f | S k => fst (filter_data (calls k f)) end.

Fixpoint copies {A} (n : nat) (l : list A) : list A := match n with O => [] | S k => copies k l ++ l end.
Lemma copies_in {A} : forall n (l : list A) x, In x (copies n l) -> In x l.
Proof. induction n; intros l x H; [destruct H|]. cbn in H. apply in_app_iff in H. destruct H; auto. Qed.
Lemma copies_front {A} : forall n (l : list A), exists r, (copies n l ++ l = l ++ r)%list /\ forall x, In x r -> In x l.
Proof.
  induction n; intros l; cbn [copies]. { exists []. rewrite app_nil_r. split; auto. intros x []. }
  destruct (IHn l) as (r & E & I). rewrite E. exists (r ++ l)%list. rewrite app_assoc. split; auto. intros x X. apply in_app_iff in X. destruct X; auto.
Qed.
Lemma sort_same : forall a b, NoDup a -> NoDup b -> (forall n, In n a <-> In n b) -> sort a = sort b.
Proof. intros a b A B H. apply sort_ext. apply NoDup_Permutation; auto. Qed.

Lemma calls_state : forall scans cs l tol n,
  let f0 := new_filter scans cs l tol in cs <> [] -> calls n f0 = Filter scans cs l tol (copies n (fst (run f0 cs []))).
Proof.
  intros scans cs l tol n f0 NE. induction n as [|n IH]; auto. cbn [calls copies]. rewrite IH.
  set (o := copies n (fst (run f0 cs []))).
  assert (FE : forall c x, run (Filter scans cs l tol o) c x = run f0 c x) by (induction c; intros x; cbn [run fl_tol fl_scans f0 new_filter]; [auto|destruct (condition_factory tol scans a); auto]).
  unfold filter_data. cbn [fl_conds fl_output fl_scans fl_logic fl_tol]. destruct (run_app f0 cs o) as (A & _).
  destruct cs as [|c0 cs]; [congruence|]. rewrite FE. destruct (run f0 (c0 :: cs) o) as [o' r']. cbn [fst] in *. subst o'. auto.
Qed.

Lemma run_sets : forall f cs out, (forall s, In s out -> NoDup s) -> (forall s, In s (fst (run f cs out)) -> NoDup s).
Proof.
  assert (M : forall ev scans acc names, NoDup acc -> matching ev scans acc = Ok names -> NoDup names).
  { intros ev. induction scans as [|[m s] scans]; intros acc names N H; cbn [matching] in H. - apply Ok_inj in H; subst; auto.
    - destruct (ev s) as [b|]; cbn [bind] in H; [|discriminate]. eapply IHscans; [|exact H]. destruct b; auto. apply sadd_nodup; auto. }
  induction cs as [|c cs]; intros out H; cbn [run]; auto. destruct (condition_factory (fl_tol f) (fl_scans f) c) as [s|e] eqn:E; auto.
  apply IHcs. intros t T. apply in_app_iff in T. destruct T as [T|[<-|[]]]; auto. unfold condition_factory in E. destruct c as [k o v|k o [v|]].
  - eapply M; [|exact E]. constructor. - eapply M; [|exact E]. constructor. - discriminate.
Qed.

(** The answer of the n-th call on the same object is that of the first. *)
Theorem C31_repeatable : forall scans conds l tol n,
  snd (filter_data (calls n (new_filter scans conds l tol))) = snd (filter_data (new_filter scans conds l tol)).
Proof.
  intros scans cs l tol n. destruct cs as [|c0 cs].
  { assert (calls n (new_filter scans [] l tol) = new_filter scans [] l tol) as ->; auto. induction n; auto. cbn [calls]. rewrite IHn. auto. }
  rewrite calls_state; [|discriminate]. set (f0 := new_filter scans (c0 :: cs) l tol). set (base := fst (run f0 (c0 :: cs) [])).
  pose proof (run_sets f0 (c0 :: cs) [] (fun s (H : In s []) => match H with end)) as ND. fold base in ND.
  assert (FE : forall o c x, run (Filter scans (c0 :: cs) l tol o) c x = run f0 c x) by (intros o; induction c; intros x; cbn [run fl_tol fl_scans f0 new_filter]; [auto|destruct (condition_factory tol scans a); auto]).
  unfold filter_data at 1. cbn [fl_conds fl_output fl_scans fl_logic fl_tol]. rewrite FE. destruct (run_app f0 (c0 :: cs) (copies n base)) as (A & B).
  assert (F0 : filter_data f0 = let '(out, r) := run f0 (c0 :: cs) [] in (Filter scans (c0 :: cs) l tol out, do _ <- r;
    match l with OR => Ok (Some (sort (fold_left union out []))) | AND => match out with [] => Err TypeError | a :: rest => Ok (Some (sort (fold_left inter rest a))) end | BadLogic => Ok None end)) by reflexivity.
  rewrite F0. clear F0.
  fold base in A. destruct (run f0 (c0 :: cs) (copies n base)) as [o' r']. destruct (run f0 (c0 :: cs) []) as [b r] eqn:RB. unfold base in *. cbn [fst snd] in *. subst o' r'.
  destruct r as [[]|e]; [|reflexivity]. cbn [bind]. destruct l; auto.
  - destruct (copies_front n b) as (q & E & I). rewrite E. destruct b as [|s0 b].
    + destruct q as [|x q]; [reflexivity|]. destruct (I x (or_introl eq_refl)).
    + cbn [app]. do 2 f_equal. apply sort_same; try (apply fold_inter_nodup, ND; left; auto).
      intros m. rewrite !fold_inter_in. split; intros (H & F); split; auto.
      * intros s S. apply F, in_app_iff; auto.
      * intros s S. apply in_app_iff in S. destruct S as [S|S]; auto. destruct (I s S) as [<-|]; auto.
  - do 2 f_equal. apply sort_same; try (apply fold_union_nodup; constructor). intros m. rewrite !fold_union_in. split.
    + intros [[]|(s & S & M)]. right. exists s. split; auto. apply in_app_iff in S. destruct S; auto. eapply copies_in; eauto.
    + intros [[]|(s & S & M)]. right. exists s. split; auto. apply in_app_iff; auto.
Qed.
Print Assumptions C31_repeatable.

(** Changing the conditions of an object already used leaves the old matches in: the answer is not that of the new conditions. *)
Definition set_conditions (f : filter_obj) (cs : list condition) : filter_obj := Filter (fl_scans f) cs (fl_logic f) (fl_tol f) (fl_output f).
Definition two_scans : list (string * fscan) := [("a", FScan [] [("user", "x")] None); ("b", FScan [] [("user", "y")] None)]%string.
Theorem C31_changed_conditions_refuted : exists scans c1 c2 l tol,
  snd (filter_data (set_conditions (fst (filter_data (new_filter scans [c1] l tol))) [c2])) <> snd (filter_data (new_filter scans [c2] l tol)).
Proof. exists two_scans, (Text "user" IS "x"), (Text "user" IS "y"), OR, 0. cbn. intros [=]. Qed.
Print Assumptions C31_changed_conditions_refuted.

(** The conditions of C30/C31 are met by a non-trivial case. *)
Definition ex_scans : list (string * fscan) :=
  [("s2", FScan [("temp", [3; 4])] [("user", "adam")] None); ("s1", FScan [("temp", [1; 2])] [("user", "mary ann")] None)]%string.
Definition ex_conds := [Text "user" CONTAINS "a"; Numeric "temp" LESS (Some 3)].
Example C30_example : (forall c n s, In c ex_conds -> In (n, s) ex_scans -> applicable s c) /\ NoDup (dkeys ex_scans) /\ (forall c, In c ex_conds -> exact_op c)
  /\ snd (filter_data (calls 5 (new_filter ex_scans ex_conds AND 0))) = Ok (Some ["s1"%string])
  /\ snd (filter_data (new_filter ex_scans ex_conds OR 0)) = Ok (Some ["s1"; "s2"]%string).
Proof.
  split; [|split; [|split; [|split]]].
  - intros c n s [<-|[<-|[]]] [[= <- <-]|[[= <- <-]|[]]]; cbn; try (split; [discriminate|eauto]); eexists; left; reflexivity.
  - repeat constructor; cbn; intuition discriminate.
  - intros c [<-|[<-|[]]]; exact I.
  - rewrite C31_repeatable. cbn. unfold ltb. destruct (Rlt_dec (Rmax 3 4) 3) as [H|H]; [pose proof (Rmax_l 3 4); lra|].
    destruct (Rlt_dec (Rmax 1 2) 3) as [K|K]; [reflexivity|]. exfalso. apply K. apply Rmax_lub_lt; lra.
  - cbn. unfold ltb. destruct (Rlt_dec (Rmax 3 4) 3) as [H|H]; [pose proof (Rmax_l 3 4); lra|].
    destruct (Rlt_dec (Rmax 1 2) 3) as [K|K]; reflexivity.
Qed.
(** A filter called three times, and one whose conditions are changed in between. *)
Example C31_ex : snd (filter_data (calls 3 (new_filter ex_scans ex_conds OR 0))) = snd (filter_data (new_filter ex_scans ex_conds OR 0)) /\
  snd (filter_data (new_filter ex_scans ex_conds OR 0)) = Ok (Some ["s1"; "s2"]%string).
Proof. split; [apply C31_repeatable|apply C30_example]. Qed.
