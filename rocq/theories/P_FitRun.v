(** Property C86: the parameters of a fit are those of the last fit that succeeded, or a guess. *)
From Coq Require Import Reals Lra List ZArith String Ascii Bool Lia DecimalString.
From Verif Require Import Base M_ScanData M_Project M_Tavi P_Tavi M_Fit P_Fit M_ConvFit M_FitRun.
Import ListNotations.
Open Scope string_scope.
Open Scope list_scope.

(** * Specification *)
(** The ranges and components of a history, without the fits. *)
Definition edits {E} (ops : list (op E)) : list E := flat_map (fun o => match o with Edit e => [e] | Fit _ _ => [] end) ops.
(** The fit as the ranges and components make it. *)
Definition made (d : data1d) (ops : list (op fit_op)) : fit1d := fold_left fit_step (edits ops) (new_fit d).
(** Every parameter of every component has a value. *)
Definition complete (f : fit1d) (p : pars) : Prop :=
  forall prefix model a, In (prefix, model) (components f) -> In a (arguments model) -> exists v, sget (prefix ++ a)%string p = Some v.

(** The parameters that lmfit's models have, by the names under which fit.py offers the models. *)
Definition lmfit_parameters : list (string * list string) :=
  [("Gaussian", ["amplitude"; "center"; "sigma"]); ("Lorentzian", ["amplitude"; "center"; "sigma"]);
   ("Voigt", ["amplitude"; "center"; "sigma"; "gamma"]); ("PseudoVoigt", ["amplitude"; "center"; "sigma"; "fraction"]);
   ("DampedOscillator", ["amplitude"; "center"; "sigma"]); ("DampedHarmonicOscillator", ["amplitude"; "center"; "sigma"; "gamma"]);
   ("Constant", ["c"]); ("Linear", ["slope"; "intercept"]); ("Quadratic", ["a"; "b"; "c"]);
   ("Polynomial", ["c0"; "c1"; "c2"; "c3"; "c4"; "c5"; "c6"; "c7"]); ("Exponential", ["amplitude"; "decay"]); ("PowerLaw", ["amplitude"; "exponent"])].

Lemma arguments_table : forall m a, In a (arguments m) <-> exists names, In (m, names) lmfit_parameters /\ In a names.
Proof.
  intros m a. split.
  - intros H. unfold arguments in H.
    assert (T : forall l, In a l -> In (m, l) lmfit_parameters -> exists names, In (m, names) lmfit_parameters /\ In a names) by eauto.
    cbn [existsb] in H.
    repeat match type of H with context [String.eqb m ?x] => destruct (String.eqb_spec m x) as [->|]; [cbn [orb] in H; eapply T; [exact H|unfold lmfit_parameters; cbn [In]; tauto]|cbn [orb] in H] end.
    destruct H.
  - intros (names & T & A). unfold lmfit_parameters in T. cbn [In] in T.
    repeat destruct T as [T|T]; try (injection T as <- <-; exact A). destruct T.
Qed.

(** A fit wants a value for every parameter of every component: its prefix and a name of lmfit's. *)
Theorem C86_wanted : forall f p, complete f p <->
  forall prefix model names a, In (prefix, model) (components f) -> In (model, names) lmfit_parameters -> In a names ->
    exists v, sget (prefix ++ a)%string p = Some v.
Proof.
  intros f p. unfold complete. split.
  - intros C prefix model names a I T A. apply (C prefix model a I). apply arguments_table. eauto.
  - intros C prefix model a I A. apply arguments_table in A. destruct A as (names & T & A). eauto.
Qed.
Print Assumptions C86_wanted.

Section Spec.
  Variable lm_fit : list (string * string) -> list num -> list num -> option (list num) -> pars -> result outcome.
  Variable lm_guess : string * string -> list num -> list num -> result pars.
  (** A fit with these parameters, after [before], succeeds with the outcome [o]: lmfit is given the points and components of that moment. *)
  Definition succeeds (d : data1d) (before : list (op fit_op)) (p : pars) (u : bool) (o : outcome) : Prop :=
    let f := made d before in
    components f <> [] /\ complete f p /\ lm_fit (components f) (f_y f) (f_x f) (if u then f_err f else None) p = Ok o /\
    oc_success o = true /\ oc_errorbars o = true.
  (** No fit of [ops], which follow [before], succeeds. *)
  Definition none_succeeds (d : data1d) (before ops : list (op fit_op)) : Prop :=
    forall a p u b o, ops = a ++ Fit p u :: b -> ~ succeeds d (before ++ a) p u o.
  Definition last_success (d : data1d) (ops : list (op fit_op)) (o : outcome) : Prop :=
    exists before p u after, ops = before ++ Fit p u :: after /\ succeeds d before p u o /\ none_succeeds d (before ++ [Fit p u]) after.
  (** lmfit's guess is a dictionary with the parameters of the component, with its prefix, and others (widths, heights) with the same prefix. *)
  Definition guesses_well : Prop := forall c y x g, lm_guess c y x = Ok g -> NoDup (map fst g) /\
    (forall a, In a (arguments (snd c)) -> exists v, sget (fst c ++ a)%string g = Some v) /\
    (forall k v, sget k g = Some v -> exists a, k = (fst c ++ a)%string).
  (** lmfit's result has the parameters it was given. *)
  Definition same_names : Prop := forall cs y x w p o, lm_fit cs y x w p = Ok o -> forall k, sget k (oc_params o) = None <-> sget k p = None.
End Spec.

(** * Auxiliary *)
Section Generic.
  Context {S E : Type}.
  Variable edit : S -> E -> S.
  Variable call : S -> pars -> bool -> result outcome.
  Variable accept : outcome -> bool.
  Variable s0 : S.
  Notation step := (run_step edit call accept).
  Definition at_ (ops : list (op E)) : S := fold_left edit (edits ops) s0.
  Definition good (before : list (op E)) p u o := call (at_ before) p u = Ok o /\ accept o = true.
  Definition no_good (before ops : list (op E)) := forall a p u b o, ops = a ++ Fit p u :: b -> ~ good (before ++ a) p u o.

  Lemma edits_app : forall (a b : list (op E)), edits (a ++ b) = edits a ++ edits b.
  Proof. intros. apply flat_map_app. Qed.
  Lemma at_snoc : forall ops o, at_ (ops ++ [o]) = match o with Edit e => edit (at_ ops) e | Fit _ _ => at_ ops end.
  Proof. intros ops o. unfold at_. rewrite edits_app, fold_left_app. destruct o; reflexivity. Qed.

  Lemma run_spec : forall ops, let r := fold_left step ops (Run s0 None) in
    ru_set r = at_ ops /\
    match ru_result r with
    | Some o => exists pre p u post, ops = pre ++ Fit p u :: post /\ good pre p u o /\ no_good (pre ++ [Fit p u]) post
    | None => no_good [] ops
    end.
  Proof.
    induction ops as [|o ops IH] using rev_ind; cbv zeta in *.
    - split; [reflexivity|]. cbn. intros a p u b o H. destruct a; discriminate.
    - rewrite fold_left_app. cbn [fold_left]. set (r := fold_left step ops (Run s0 None)) in *. destruct IH as [SE RE]. rewrite at_snoc.
      assert (LAST : forall before, no_good before ops -> (forall p u o', o = Fit p u -> ~ good (before ++ ops) p u o') -> no_good before (ops ++ [o])).
      { intros before N L a p u b o' Q. destruct b as [|x b] using rev_ind.
        - apply app_inj_tail in Q. destruct Q as [<- ->]. apply (L p u o'); auto.
        - clear IHb. change (a ++ Fit p u :: b ++ [x]) with (a ++ (Fit p u :: b) ++ [x]) in Q. rewrite app_assoc in Q. apply app_inj_tail in Q. destruct Q as [Q _]. apply (N a p u b o'); auto. }
      destruct o as [e|p u].
      + cbn [run_step ru_set ru_result]. split; [congruence|]. destruct (ru_result r) as [o|].
        * destruct RE as (pre & p & u & post & -> & G & N). exists pre, p, u, (post ++ [Edit e]). split; [rewrite <- app_assoc; reflexivity|]. split; auto.
          intros a p' u' b o' Q. destruct b as [|x b] using rev_ind.
          -- change (a ++ [Fit p' u']) with (a ++ [Fit p' u']) in Q. apply app_inj_tail in Q. destruct Q; discriminate.
          -- clear IHb. change (a ++ Fit p' u' :: b ++ [x]) with (a ++ (Fit p' u' :: b) ++ [x]) in Q. rewrite app_assoc in Q. apply app_inj_tail in Q. destruct Q as [Q _]. apply (N a p' u' b o'); auto.
        * apply LAST; auto. intros; discriminate.
      + cbn [run_step]. unfold fit_of. rewrite SE. destruct (call (at_ ops) p u) as [o|e] eqn:C.
        * destruct (accept o) eqn:A; cbn [fst ru_set ru_result].
          -- split; auto. exists ops, p, u, []. split; auto. split; [split; auto|]. intros a p' u' b o' Q. destruct a; discriminate.
          -- split; auto. destruct (ru_result r) as [o1|].
             ++ destruct RE as (pre & p1 & u1 & post & -> & G & N). exists pre, p1, u1, (post ++ [Fit p u]). split; [rewrite <- app_assoc; reflexivity|]. split; auto.
                intros a p' u' b o' Q. destruct b as [|x b] using rev_ind.
                ** apply app_inj_tail in Q. destruct Q as [<- Q]. injection Q as <- <-. intros [C' A']. rewrite <- !app_assoc in C'. cbn [List.app] in C'. assert (o' = o) by congruence. congruence.
                ** clear IHb. change (a ++ Fit p' u' :: b ++ [x]) with (a ++ (Fit p' u' :: b) ++ [x]) in Q. rewrite app_assoc in Q. apply app_inj_tail in Q. destruct Q as [Q _]. apply (N a p' u' b o'); auto.
             ++ apply LAST; auto. intros p' u' o' Q [C' A']. injection Q as <- <-. cbn [List.app] in C'. congruence.
        * cbn [fst]. split; auto. destruct (ru_result r) as [o1|].
             ++ destruct RE as (pre & p1 & u1 & post & -> & G & N). exists pre, p1, u1, (post ++ [Fit p u]). split; [rewrite <- app_assoc; reflexivity|]. split; auto.
                intros a p' u' b o' Q. destruct b as [|x b] using rev_ind.
                ** apply app_inj_tail in Q. destruct Q as [<- Q]. injection Q as <- <-. intros [C' A']. rewrite <- !app_assoc in C'. cbn [List.app] in C'. congruence.
                ** clear IHb. change (a ++ Fit p' u' :: b ++ [x]) with (a ++ (Fit p' u' :: b) ++ [x]) in Q. rewrite app_assoc in Q. apply app_inj_tail in Q. destruct Q as [Q _]. apply (N a p' u' b o'); auto.
             ++ apply LAST; auto. intros p' u' o' Q [C' A']. injection Q as <- <-. cbn [List.app] in C'. congruence.
  Qed.
End Generic.

Lemma complete_spec : forall f p, forallb (fun k => dmem String.eqb k p) (flat_map param_names (components f)) = true <-> complete f p.
Proof.
  intros f p. rewrite forallb_forall. split.
  - intros H prefix model a I A. specialize (H (prefix ++ a)%string). unfold dmem in H. destruct (sget (prefix ++ a)%string p); eauto.
    discriminate H. apply in_flat_map. exists (prefix, model). split; auto. unfold param_names. apply in_map_iff. exists a. auto.
  - intros H k K. apply in_flat_map in K. destruct K as ([prefix model] & I & K). unfold param_names in K. apply in_map_iff in K. destruct K as (a & <- & A).
    destruct (H prefix model a I A) as (v & V). unfold dmem. cbn [fst]. rewrite V. reflexivity.
Qed.

Section Fits.
  Variable lm_fit : list (string * string) -> list num -> list num -> option (list num) -> pars -> result outcome.
  Variable lm_guess : string * string -> list num -> list num -> result pars.
  Notation good1 d := (good fit_step (call1 lm_fit) accept1 (new_fit d)).

  Lemma call1_ok : forall f p u o, call1 lm_fit f p u = Ok o <-> components f <> [] /\ complete f p /\ lm_fit (components f) (f_y f) (f_x f) (if u then f_err f else None) p = Ok o.
  Proof.
    intros f p u o. rewrite <- complete_spec. unfold call1. destruct (components f) as [|c cs]; [split; [discriminate|intros [H _]; congruence]|].
    destruct (forallb _ _); [|split; [discriminate|intros (_ & H & _); discriminate]].
    split; [intros H; split; [discriminate|]; auto|intros (_ & _ & H); exact H].
  Qed.
  Lemma good_succeeds : forall d before p u o, good1 d before p u o <-> succeeds lm_fit d before p u o.
  Proof.
    intros. unfold good, succeeds. cbv zeta. change (at_ fit_step (new_fit d) before) with (made d before). rewrite call1_ok. unfold accept1. rewrite andb_true_iff. tauto.
  Qed.

  (** * C86 *)
  (** After any history of ranges, components and fits: the parameters are those of the last fit that succeeded; before the first one they
      are guessed from the points and components of the moment. *)
  Theorem C86_params : forall d ops,
    let r := run1 lm_fit d ops in
    (exists o, last_success lm_fit d ops o /\ params1 lm_guess r = Ok (oc_params o)) \/
    (none_succeeds lm_fit d [] ops /\ params1 lm_guess r = guess1 lm_guess (made d ops)).
  Proof.
    intros d ops r. destruct (run_spec fit_step (call1 lm_fit) accept1 (new_fit d) ops) as [SE RE]. fold (run1 lm_fit d ops) in SE, RE. fold r in SE, RE.
    unfold params1, params_of. destruct (ru_result r) as [o|].
    - left. exists o. split; auto. destruct RE as (pre & p & u & post & -> & G & N). exists pre, p, u, post. split; auto. split; [apply good_succeeds; auto|].
      intros a p' u' b o' Q H. apply (N a p' u' b o' Q). apply good_succeeds. auto.
    - right. split; [|rewrite SE; reflexivity]. intros a p' u' b o' Q H. apply (RE a p' u' b o' Q). apply good_succeeds. auto.
  Qed.

  (** Every fit: what it gives, when it is refused and with which exception; one that is refused leaves everything as it was. *)
  Theorem C86_fit : forall d ops p u,
    let r := run1 lm_fit d ops in let f := made d ops in
    (forall o, snd (fit1 lm_fit p u r) = Ok o <-> succeeds lm_fit d ops p u o) /\
    (forall o, snd (fit1 lm_fit p u r) = Ok o -> params1 lm_guess (fst (fit1 lm_fit p u r)) = Ok (oc_params o) /\ ru_set (fst (fit1 lm_fit p u r)) = f) /\
    (forall e, snd (fit1 lm_fit p u r) = Err e -> fst (fit1 lm_fit p u r) = r) /\
    (components f = [] -> snd (fit1 lm_fit p u r) = Err AttributeError) /\
    (components f <> [] -> ~ complete f p -> snd (fit1 lm_fit p u r) = Err ValueError) /\
    (forall o, components f <> [] -> complete f p -> lm_fit (components f) (f_y f) (f_x f) (if u then f_err f else None) p = Ok o ->
       (oc_success o = false \/ oc_errorbars o = false) -> snd (fit1 lm_fit p u r) = Err ValueError).
  Proof.
    intros d ops p u r f. destruct (run_spec fit_step (call1 lm_fit) accept1 (new_fit d) ops) as [SE _]. fold (run1 lm_fit d ops) in SE. fold r in SE. change (ru_set r = f) in SE.
    assert (G := good_succeeds d ops p u). unfold good in G. change (at_ fit_step (new_fit d) ops) with f in G.
    unfold fit1, fit_of. rewrite SE. split; [|split; [|split; [|split; [|split]]]].
    - intros o. rewrite <- G. destruct (call1 lm_fit f p u) as [o'|e]; [|split; [discriminate|intros [H _]; discriminate]].
      destruct (accept1 o') eqn:A; cbn [snd]; split; intros H; try discriminate.
      + apply Ok_inj in H. subst. auto.
      + destruct H as [H _]. exact H.
      + destruct H as [H H']. apply Ok_inj in H. congruence.
    - intros o. destruct (call1 lm_fit f p u) as [o'|e]; [|discriminate]. destruct (accept1 o'); [|discriminate]. cbn [snd fst]. intros H. apply Ok_inj in H. subst. split; reflexivity.
    - intros e. destruct (call1 lm_fit f p u) as [o'|e']; [|reflexivity]. destruct (accept1 o'); [discriminate|reflexivity].
    - intros Z. unfold call1. rewrite Z. reflexivity.
    - intros Z N. unfold call1. destruct (components f) as [|c cs] eqn:CS; [congruence|]. rewrite <- CS. destruct (forallb _ _) eqn:Q; [|reflexivity]. exfalso. apply N. apply complete_spec. exact Q.
    - intros o Z C L B. assert (K : call1 lm_fit f p u = Ok o) by (apply call1_ok; auto). rewrite K. unfold accept1. destruct B as [-> | ->]; [reflexivity|]. rewrite andb_false_r. reflexivity.
  Qed.

  (** ** Guesses *)
  Lemma digits_split : forall u v x y, (NilEmpty.string_of_uint u ++ String "_"%char x)%string = (NilEmpty.string_of_uint v ++ String "_"%char y)%string -> u = v.
  Proof. induction u; intros [| | | | | | | | | |] x y H; cbn in H; try discriminate; auto; injection H as H; f_equal; eauto. Qed.
  Lemma sapp_assoc' : forall a b c : string, ((a ++ b) ++ c = a ++ (b ++ c))%string.
  Proof. induction a; intros; cbn; congruence. Qed.
  Lemma prefix_free : forall c n m x y, (0 <= n)%Z -> (0 <= m)%Z -> ((c ++ str_of n ++ "_") ++ x = (c ++ str_of m ++ "_") ++ y)%string -> n = m.
  Proof.
    intros c n m x y N M H. rewrite !sapp_assoc' in H. apply append_inj_l in H. cbn [append] in H.
    destruct (str_of_nonneg n N) as (u & S & O). destruct (str_of_nonneg m M) as (v & S' & O'). destruct (uint_nz u) as (u' & U & W). destruct (uint_nz v) as (v' & U' & W').
    rewrite S, S', U, U' in H. apply digits_split in H. congruence.
  Qed.
  Lemma made_ok : forall d ops, prefixes_ok (made d ops).
  Proof.
    intros d ops. unfold made. assert (G : forall l f, prefixes_ok f -> prefixes_ok (fold_left fit_step l f)).
    { induction l as [|o l IH]; intros f H; cbn; auto. apply IH, fit_step_ok; auto. }
    apply G. unfold prefixes_ok; cbn. repeat split; try lia; try contradiction. constructor.
  Qed.
  Lemma own_prefix : forall f p q m m' x y, prefixes_ok f -> In (p, m) (components f) -> In (q, m') (components f) -> (p ++ x = q ++ y)%string -> p = q.
  Proof.
    intros f p q m m' x y (NS & NB & S & B & _) I J H. unfold components in I, J. apply in_app_or in I. apply in_app_or in J.
    destruct I as [I|I], J as [J|J].
    - destruct (S _ _ I) as (n & Hn & ->), (S _ _ J) as (k & Hk & ->). apply prefix_free in H; try lia. congruence.
    - destruct (S _ _ I) as (n & Hn & ->), (B _ _ J) as (k & Hk & ->). discriminate.
    - destruct (B _ _ I) as (n & Hn & ->), (S _ _ J) as (k & Hk & ->). discriminate.
    - destruct (B _ _ I) as (n & Hn & ->), (B _ _ J) as (k & Hk & ->). apply prefix_free in H; try lia. congruence.
  Qed.

  Lemma sget_update : forall (g p : pars) k, NoDup (map fst g) -> sget k (dupdate String.eqb p g) = match sget k g with Some v => Some v | None => sget k p end.
  Proof.
    induction g as [|[k' v'] g IH]; intros p k ND; cbn; auto. inversion ND as [|? ? NI ND']; subst. change (fold_left (fun acc kv => sset (fst kv) (snd kv) acc) g (sset k' v' p)) with (dupdate String.eqb (sset k' v' p) g).
    rewrite IH by auto. rewrite P_Tavi.sget_sset. destruct (String.eqb_spec k k') as [->|N]; auto.
    assert (Z : sget k' g = None). { clear - NI. induction g as [|[a b] g IH]; cbn in *; auto. destruct (String.eqb_spec k' a) as [->|]; [exfalso; apply NI; auto|]. apply IH. tauto. }
    rewrite Z. reflexivity.
  Qed.

  Definition guess_step (f : fit1d) (acc : result pars) (c : string * string) : result pars := do p <- acc; do g <- lm_guess c (f_y f) (f_x f); Ok (dupdate String.eqb p g).
  Lemma guess_err : forall f l e, fold_left (guess_step f) l (Err e) = Err e.
  Proof. induction l; intros; cbn; auto. Qed.
  (** The parameters of a component come from its own guess, those of a foreign prefix are left alone. *)
  Lemma guess_fold : forall f l p q, guesses_well lm_guess -> fold_left (guess_step f) l (Ok p) = Ok q ->
    (forall c, In c l -> exists g, lm_guess c (f_y f) (f_x f) = Ok g) /\
    (forall k, (forall c a, In c l -> k <> (fst c ++ a)%string) -> sget k q = sget k p) /\
    (forall k c g v, In c l -> lm_guess c (f_y f) (f_x f) = Ok g -> sget k g = Some v -> exists v', sget k q = Some v') /\
    (forall k v, sget k p = Some v -> exists v', sget k q = Some v').
  Proof.
    intros f l p q GW. revert p. induction l as [|c l IH]; intros p H; cbn [fold_left] in H.
    - apply Ok_inj in H. subst. repeat split; eauto; intros; contradiction.
    - unfold guess_step at 2 in H. cbn [bind] in H. destruct (lm_guess c (f_y f) (f_x f)) as [g|e] eqn:G; cbn [bind] in H; [|rewrite guess_err in H; discriminate].
      destruct (GW _ _ _ _ G) as (ND & GA & GP). destruct (IH _ H) as (I1 & I2 & I3 & I4). split; [|split; [|split]].
      + intros c' [->|I]; eauto.
      + intros k K. rewrite I2 by (intros c' a C'; apply K; right; auto). rewrite sget_update by auto. destruct (sget k g) as [v|] eqn:Q; auto.
        destruct (GP _ _ Q) as (a & ->). exfalso. apply (K c a); auto. left; auto.
      + intros k c' g' v [->|C'] G' V; [|eauto]. rewrite G in G'. apply Ok_inj in G'. subst g'. apply (I4 k v). rewrite sget_update by auto. rewrite V. auto.
      + intros k v V. destruct (sget k (dupdate String.eqb p g)) as [v'|] eqn:Q; [apply (I4 k v' Q)|]. rewrite sget_update in Q by auto. destruct (sget k g); congruence.
  Qed.

  (** Before the first success: the guess gives every parameter a value, that of the guess for its own component and the points of the moment; so the
      fit is handed to lmfit. *)
  Theorem C86_guess : forall d ops p, guesses_well lm_guess -> guess1 lm_guess (made d ops) = Ok p ->
    let f := made d ops in
    complete f p /\
    (forall prefix model a, In (prefix, model) (components f) -> exists g, lm_guess (prefix, model) (f_y f) (f_x f) = Ok g /\ sget (prefix ++ a)%string p = sget (prefix ++ a)%string g) /\
    (components f <> [] -> forall u, call1 lm_fit f p u = lm_fit (components f) (f_y f) (f_x f) (if u then f_err f else None) p).
  Proof.
    intros d ops p GW H f. assert (OK := made_ok d ops). fold f in OK, H. unfold guess1 in H. change (fold_left (guess_step f) (components f) (Ok []) = Ok p) in H.
    destruct (guess_fold f (components f) [] p GW H) as (I1 & I2 & I3 & I4).
    assert (CO : complete f p). { intros prefix model a I A. destruct (I1 _ I) as (g & G). destruct (GW _ _ _ _ G) as (_ & GA & _). destruct (GA a A) as (v & V). apply (I3 _ _ _ _ I G V). }
    split; auto. split.
    - intros prefix model a I. destruct (I1 _ I) as (g & G). exists g. split; auto.
      assert (ND : NoDup (map fst (components f))) by apply OK.
      apply in_split in I. destruct I as (l1 & l2 & C).
      assert (OWN : forall c x, In c l1 \/ In c l2 -> (prefix ++ a)%string <> (fst c ++ x)%string).
      { intros [q m'] x J Q. cbn [fst] in Q. assert (IC : In (q, m') (components f)) by (rewrite C; apply in_or_app; destruct J; [left|right; right]; auto).
        assert (IP : In (prefix, model) (components f)) by (rewrite C; apply in_or_app; right; left; auto).
        assert (prefix = q) by (apply (own_prefix f prefix q model m' a x OK IP IC Q)). subst q. rewrite C, map_app in ND. cbn [map fst] in ND. apply NoDup_remove_2 in ND. apply ND. rewrite in_app_iff.
        destruct J as [J|J]; [left|right]; apply in_map_iff; exists (prefix, m'); auto. }
      rewrite C in H. rewrite fold_left_app in H. cbn [fold_left] in H.
      destruct (fold_left (guess_step f) l1 (Ok [])) as [p1|e] eqn:F1; [|unfold guess_step at 2 in H; cbn [bind] in H; rewrite guess_err in H; discriminate].
      unfold guess_step at 2 in H. cbn [bind] in H. rewrite G in H. cbn [bind] in H.
      destruct (guess_fold f l1 [] p1 GW F1) as (_ & A1 & _). destruct (guess_fold f l2 _ p GW H) as (_ & A2 & _).
      rewrite A2 by (intros c x J; apply OWN; auto). destruct (GW _ _ _ _ G) as (NG & _). rewrite sget_update by auto.
      destruct (sget (prefix ++ a)%string g); auto. rewrite A1 by (intros c x J; apply OWN; auto). reflexivity.
    - intros NE u. unfold call1. destruct (components f) as [|c cs] eqn:C; [congruence|]. rewrite <- C. destruct (complete_spec f p) as [_ B]. rewrite (B CO). reflexivity.
  Qed.

  Lemma set_range_comps : forall r f, components (fst (set_range r f)) = components f.
  Proof. intros r f. unfold components. destruct (set_range_components r f) as (A & B & _). congruence. Qed.
  (** After a success, as long as no component is added, the parameters still are complete: another fit with them is handed to lmfit, with the points of
      the new range. *)
  Theorem C86_again : forall d before p u after o u', same_names lm_fit -> succeeds lm_fit d before p u o -> none_succeeds lm_fit d (before ++ [Fit p u]) after ->
    (forall e, In e (edits after) -> exists r, e = SetRange r) ->
    let ops := before ++ Fit p u :: after in let f := made d ops in
    params1 lm_guess (run1 lm_fit d ops) = Ok (oc_params o) /\ components f = components (made d before) /\
    call1 lm_fit f (oc_params o) u' = lm_fit (components f) (f_y f) (f_x f) (if u' then f_err f else None) (oc_params o).
  Proof.
    intros d before p u after o u' SN SU NS RG ops f.
    assert (CF : components f = components (made d before)).
    { unfold f, ops, made. rewrite edits_app, fold_left_app. cbn [edits flat_map List.app]. fold (edits after). generalize (fold_left fit_step (edits before) (new_fit d)). intros g. clear - RG.
      revert g RG. induction (edits after) as [|e l IH]; intros g RG; cbn [fold_left]; auto. rewrite IH by (intros e' E'; apply RG; right; auto).
      destruct (RG e ltac:(left; auto)) as (r & ->). unfold fit_step. apply set_range_comps. }
    split; [|split; auto].
    - destruct (C86_params d ops) as [(o' & L & P)|[N _]].
      + rewrite P. f_equal. f_equal. destruct L as (b1 & p1 & u1 & a1 & E & S1 & N1). unfold ops in E.
        assert (W : (b1 = before /\ p1 = p /\ u1 = u) \/ (exists c, b1 = (before ++ [Fit p u]) ++ c /\ after = c ++ Fit p1 u1 :: a1) \/ (exists c, before = (b1 ++ [Fit p1 u1]) ++ c /\ a1 = c ++ Fit p u :: after)).
        { clear - E. revert b1 E. induction before as [|x before IH]; intros [|y b1] E; cbn [List.app] in E.
          - injection E as <- <- <-. left; auto.
          - injection E as <- E. right; left. exists b1. split; auto.
          - injection E as <- E. right; right. exists before. split; auto.
          - injection E as <- E. destruct (IH b1 E) as [(-> & -> & ->)|[(c & -> & ->)|(c & -> & ->)]]; [left; auto|right; left; exists c; auto|right; right; exists c; auto]. }
        destruct W as [(-> & -> & ->)|[(c & -> & ->)|(c & -> & ->)]].
        * destruct S1 as (_ & _ & Q & _), SU as (_ & _ & Q' & _). cbv zeta in *. congruence.
        * exfalso. apply (NS c p1 u1 a1 o' eq_refl S1).
        * exfalso. apply (N1 c p u after o eq_refl SU).
      + exfalso. apply (N before p u after o eq_refl SU).
    - unfold call1. destruct SU as (NE & CO & LM & _). cbv zeta in *. destruct (components f) as [|c cs] eqn:C; [congruence|]. rewrite <- C.
      assert (CO' : complete f (oc_params o)).
      { intros prefix model a I A. rewrite C, CF in I. destruct (CO prefix model a I A) as (v & V). destruct (sget (prefix ++ a)%string (oc_params o)) eqn:Q; eauto.
        apply (SN _ _ _ _ _ _ LM) in Q. congruence. }
      destruct (complete_spec f (oc_params o)) as [_ B]. rewrite (B CO'). reflexivity.
  Qed.

  (** One expects to be able to go on after a fit by adding a component. The parameters are still those of the fit, without values for the new
      component, and every fit with them is refused. *)
  Theorem C86_stale_refuted : forall d before p u o m e, guesses_well lm_guess -> same_names lm_fit ->
    guess1 lm_guess (made d before) = Ok p -> succeeds lm_fit d before p u o -> In m plain_models -> e = AddSignal m \/ e = AddBackground m ->
    let r := run1 lm_fit d (before ++ [Fit p u; Edit e]) in
    params1 lm_guess r = Ok (oc_params o) /\ forall u', snd (fit1 lm_fit (oc_params o) u' r) = Err ValueError.
  Proof.
    intros d before p u o m e GW SN G SU PM ED r.
    assert (R : r = Run (fit_step (made d before) e) (Some o)).
    { unfold r, run1. rewrite fold_left_app. fold (run1 lm_fit d before). cbn [fold_left run_step]. destruct (C86_fit d before p u) as (A & _). cbv zeta in A. apply A in SU.
      destruct (run_spec fit_step (call1 lm_fit) accept1 (new_fit d) before) as [SE _]. fold (run1 lm_fit d before) in SE. cbv zeta in SE. change (ru_set (run1 lm_fit d before) = made d before) in SE.
      unfold fit1, fit_of in *. rewrite SE in *. destruct (call1 lm_fit (made d before) p u) as [o'|]; [|discriminate]. destruct (accept1 o'); [|discriminate]. cbn [snd] in SU. apply Ok_inj in SU. subst. reflexivity. }
    rewrite R. split; [reflexivity|]. intros u'. unfold fit1, fit_of. cbn [ru_set]. set (f := made d before) in *. assert (OK : prefixes_ok f) by apply made_ok.
    assert (BM : build_model m = None). { unfold build_model. assert (X : existsb (String.eqb m) plain_models = true) by (apply existsb_exists; exists m; split; auto; apply String.eqb_refl). rewrite X. reflexivity. }
    assert (AR : exists a, In a (arguments m)). { cbn in PM. repeat (destruct PM as [<-|PM]; [eexists; left; reflexivity|]). destruct PM. }
    destruct AR as (a & AA).
    assert (NW : exists q, In (q, m) (components (fit_step f e)) /\ forall q' m' x, In (q', m') (components f) -> (q ++ a)%string <> (q' ++ x)%string).
    { destruct OK as (NS & NB & S & B & _). destruct ED as [-> | ->]; unfold fit_step, add_signal, add_background, components; rewrite BM; cbn [fst f_signals f_backgrounds].
      - exists ("s" ++ str_of (f_nsig f + 1) ++ "_")%string. split; [apply in_or_app; left; apply in_or_app; right; left; auto|]. intros q' m' x I Q. apply in_app_or in I. destruct I as [I|I].
        + destruct (S _ _ I) as (n & Hn & ->). apply prefix_free in Q; lia.
        + destruct (B _ _ I) as (n & Hn & ->). discriminate.
      - exists ("b" ++ str_of (f_nbkg f + 1) ++ "_")%string. split; [apply in_or_app; right; apply in_or_app; right; left; auto|]. intros q' m' x I Q. apply in_app_or in I. destruct I as [I|I].
        + destruct (S _ _ I) as (n & Hn & ->). discriminate.
        + destruct (B _ _ I) as (n & Hn & ->). apply prefix_free in Q; lia. }
    destruct NW as (q & IQ & FR).
    assert (NP : sget (q ++ a)%string p = None).
    { unfold guess1 in G. change (fold_left (guess_step f) (components f) (Ok []) = Ok p) in G. destruct (guess_fold f (components f) [] p GW G) as (_ & I2 & _).
      rewrite I2; [reflexivity|]. intros [q' m'] x C. cbn [fst]. apply (FR q' m' x C). }
    assert (NC : ~ complete (fit_step f e) (oc_params o)).
    { intros CO. destruct (CO q m a IQ AA) as (v & V). destruct SU as (_ & _ & LM & _). cbv zeta in LM. apply (SN _ _ _ _ _ _ LM) in NP. congruence. }
    unfold call1. destruct (components (fit_step f e)) as [|c cs] eqn:CS; [destruct IQ|]. rewrite <- CS. destruct (forallb _ _) eqn:Q; [|reflexivity]. exfalso. apply NC. apply complete_spec. exact Q.
  Qed.
End Fits.
Print Assumptions C86_params.
Print Assumptions C86_fit.
Print Assumptions C86_guess.
Print Assumptions C86_again.
Print Assumptions C86_stale_refuted.

(** ** With resolution *)
Section Conv.
  Variable lm_fit : list (bool * string) -> list (R * R) -> list num -> list num -> option (list num) -> pars -> result outcome.
  Variable lm_guess : list num -> list num -> string -> R * R * R.
  Definition conv_made (d : data1d) (rez : list (R * R)) (ops : list (op conv_op)) : convfit := fold_left conv_step (edits ops) (fst (new_conv d rez None)).
  (** Here a fit succeeds even if its error bars cannot be found. *)
  Definition conv_succeeds (d : data1d) (rez : list (R * R)) (before : list (op conv_op)) (p : pars) (u : bool) (o : outcome) : Prop :=
    let f := conv_made d rez before in
    exists cs, composite f = Ok cs /\ (forall k, In k (flat_map names cs) -> exists v, sget k p = Some v) /\
      lm_fit cs (c_rez f) (f_y (c_fit f)) (f_x (c_fit f)) (if u then f_err (c_fit f) else None) p = Ok o /\ oc_success o = true.
  Definition conv_none_succeeds (d : data1d) rez (before ops : list (op conv_op)) : Prop :=
    forall a p u b o, ops = a ++ Fit p u :: b -> ~ conv_succeeds d rez (before ++ a) p u o.
  Theorem C86_resolution : forall d rez ops,
    let r := runc lm_fit d rez ops in
    (exists before p u after o, ops = before ++ Fit p u :: after /\ conv_succeeds d rez before p u o /\ conv_none_succeeds d rez (before ++ [Fit p u]) after /\
       paramsc lm_guess r = Ok (oc_params o)) \/
    (conv_none_succeeds d rez [] ops /\ paramsc lm_guess r = Ok (conv_guess lm_guess (conv_made d rez ops))).
  Proof.
    intros d rez ops r. destruct (run_spec conv_step (callc lm_fit) acceptc (fst (new_conv d rez None)) ops) as [SE RE]. fold (runc lm_fit d rez ops) in SE, RE. fold r in SE, RE.
    assert (GS : forall before p u o, good conv_step (callc lm_fit) acceptc (fst (new_conv d rez None)) before p u o <-> conv_succeeds d rez before p u o).
    { intros before p u o. unfold good, conv_succeeds. cbv zeta. change (at_ conv_step (fst (new_conv d rez None)) before) with (conv_made d rez before). set (f := conv_made d rez before). unfold callc, conv_fit_inputs, acceptc.
      destruct (composite f) as [cs|e]; cbn [bind]; [|split; [intros [H _]; discriminate|intros (cs & H & _); discriminate]].
      assert (Q : forallb (fun k => dmem String.eqb k p) (flat_map names cs) = true <-> forall k, In k (flat_map names cs) -> exists v, sget k p = Some v).
      { rewrite forallb_forall. split; intros H k K; specialize (H k K); unfold dmem in *; destruct (sget k p); eauto; try discriminate. destruct H; discriminate. }
      destruct (forallb _ _); cbn [bind].
      - split; [intros [H A]; exists cs; split; auto; split; [apply Q; auto|]; split; auto|intros (cs' & E & _ & H & A); apply Ok_inj in E; subst cs'; split; auto].
      - split; [intros [H _]; discriminate|]. intros (cs' & E & H & _). apply Ok_inj in E. subst cs'. apply Q in H. discriminate. }
    unfold paramsc, params_of. destruct (ru_result r) as [o|].
    - left. destruct RE as (pre & p & u & post & -> & G & N). exists pre, p, u, post, o. split; auto. split; [apply GS; auto|]. split; auto.
      intros a p' u' b o' Q H. apply (N a p' u' b o' Q). apply GS. auto.
    - right. split; [|rewrite SE; reflexivity]. intros a p' u' b o' Q H. apply (RE a p' u' b o' Q). apply GS. auto.
  Qed.
End Conv.
Print Assumptions C86_resolution.

(** A guess and a fit as lmfit could make them: all parameters one, and the fit answers with twos; it fails on fewer than two points. *)
Definition ex_guess (c : string * string) (y x : list num) : result pars := Ok (map (fun a => ((fst c ++ a)%string, 1%R)) (arguments (snd c))).
Definition ex_fit (cs : list (string * string)) (y x : list num) (w : option (list num)) (p : pars) : result outcome :=
  Ok (Outcome (Nat.ltb 1 (List.length x)) true (map (fun kv => (fst kv, 2%R)) p)).
Definition ex_data : data1d := new_data1d [Some 0; Some 1; Some 2]%R [Some 4; Some 9; Some 16]%R None.
Example C86_ex_guesses : guesses_well ex_guess.
Proof.
  intros [q m] y x g H. unfold ex_guess in H. apply Ok_inj in H. subst g. cbn [fst snd]. split; [|split].
  - rewrite map_map. cbn [fst]. assert (ND : NoDup (arguments m)).
    { unfold arguments. repeat match goal with |- context [if ?b then _ else _] => destruct b end; repeat (constructor; [cbn; intuition discriminate|]); constructor. }
    revert ND. generalize (arguments m). induction l as [|a l IH]; intros ND; cbn; constructor; inversion ND as [|? ? NI ND']; subst; auto. intros I. apply in_map_iff in I. destruct I as (b & E & I). apply append_inj_l in E. subst. contradiction.
  - intros a A. exists 1%R. revert A. generalize (arguments m). induction l as [|b l IH]; intros A; [destruct A|]. cbn. destruct (String.eqb_spec (q ++ a)%string (q ++ b)%string) as [|N]; auto. destruct A as [->|A]; [congruence|]. apply IH; auto.
  - intros k v. generalize (arguments m). induction l as [|b l IH]; cbn; [discriminate|]. destruct (String.eqb_spec k (q ++ b)%string) as [->|]; eauto.
Qed.
Example C86_ex_names : same_names ex_fit.
Proof.
  intros cs y x w p o H k. unfold ex_fit in H. apply Ok_inj in H. subst o. cbn [oc_params]. induction p as [|[a b] p IH]; cbn; [tauto|]. destruct (String.eqb k a); [split; discriminate|auto].
Qed.
(** A peak is fitted; a fit on one point fails and changes nothing; a second peak makes the parameters unusable. *)
Example C86_ex : 
  let one := [("s1_amplitude", 1); ("s1_center", 1); ("s1_sigma", 1)]%R in
  let before := [Edit (AddSignal "Gaussian")] in
  guess1 ex_guess (made ex_data before) = Ok one /\
  succeeds ex_fit ex_data before one true (Outcome true true (map (fun kv => (fst kv, 2%R)) one)) /\
  In "Voigt" plain_models /\
  params1 ex_guess (run1 ex_fit ex_data [Edit (AddSignal "Gaussian"); Fit one true; Edit (SetRange (0, 1/2)%R); Fit one true]) = Ok (map (fun kv => (fst kv, 2%R)) one).
Proof.
  cbv zeta. split; [reflexivity|]. split; [|split].
  - split; [discriminate|]. split; [|split; [|split]]; try reflexivity. intros q m a I A. cbn in I. destruct I as [I|[]]. injection I as <- <-. cbn in A. destruct A as [<-|[<-|[<-|[]]]]; eexists; reflexivity.
  - cbn. tauto.
  - unfold params1, params_of, run1. cbn [fold_left run_step]. unfold fit_of. cbn. destruct (Rle_dec 0 0); [|lra]. destruct (Rle_dec 0 (1/2)); [|lra]. destruct (Rle_dec 0 1); [|lra]. destruct (Rle_dec 1 (1/2)); [lra|]. destruct (Rle_dec 0 2); [|lra]. destruct (Rle_dec 2 (1/2)); [lra|]. cbn. reflexivity.
Qed.
