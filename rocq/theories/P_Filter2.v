(** Property C30, further: exactly when a filter answers, and how the answer changes with more conditions and more scans. *)
From Coq Require Import Reals Lra List String Bool Sorting.Sorted.
From Verif Require Import Base PyStr PySort L_Sort M_Filter P_Filter.
Import ListNotations.
Open Scope R_scope.

(** What the user is given. *)
Definition answer (scans : dict string fscan) (conds : list condition) (l : logic) (tol : R) : result (option (list string)) :=
  snd (filter_data (new_filter scans conds l tol)).
Definition number_given (c : condition) : Prop := match c with Numeric _ _ None => False | _ => True end.

Lemma eval_only_applicable : forall tol c s b, eval tol c s = Ok b -> applicable s c.
Proof.
  intros tol [kw op v|kw op [v|]] s b H; cbn [eval applicable] in *; [|split; [discriminate|]|discriminate].
  - unfold eval_text in H. unfold field. destruct (dget String.eqb kw (f_meta s)) as [a|]; [exists a; auto|].
    destruct (f_ub s) as [u|]; [|discriminate]. destruct (dget String.eqb kw u) as [a|] eqn:U; [|discriminate]. exists a. right. eauto.
  - unfold eval_num in H. destruct (dget String.eqb kw (f_data s)) as [[|a l]|]; [destruct op; discriminate|eauto|discriminate].
Qed.
Lemma matching_all : forall ev scans acc names, matching ev scans acc = Ok names -> forall n s, In (n, s) scans -> exists b, ev s = Ok b.
Proof.
  induction scans as [|[m t] scans]; intros acc names H n s I; [destruct I|]. cbn [matching] in H.
  destruct (ev t) as [b|] eqn:B; [|discriminate]. cbn [bind] in H. destruct I as [[= <- <-]|I]; [eauto|]. eapply IHscans; eauto.
Qed.
Lemma run_all : forall f cs out, snd (run f cs out) = Ok tt -> forall c, In c cs -> exists names, condition_factory (fl_tol f) (fl_scans f) c = Ok names.
Proof.
  induction cs as [|c cs]; intros out H c' I; [destruct I|]. cbn [run] in H.
  destruct (condition_factory (fl_tol f) (fl_scans f) c) as [s|e] eqn:E; [|discriminate]. destruct I as [<-|I]; [eauto|]. eapply IHcs; eauto.
Qed.
Lemma answered : forall scans conds l tol names, answer scans conds l tol = Ok (Some names) ->
  conds <> [] /\ l <> BadLogic /\ forall c, In c conds -> (forall n s, In (n, s) scans -> applicable s c) /\ number_given c.
Proof.
  unfold answer, filter_data. intros scans conds l tol names H. cbn [fl_conds new_filter fl_output fl_logic fl_scans fl_tol] in H.
  destruct conds as [|c0 conds]; [discriminate|]. split; [discriminate|].
  destruct (run _ (c0 :: conds) []) as [out r] eqn:R. cbn [snd] in H. destruct r as [[]|]; [|discriminate]. cbn [bind] in H.
  split; [intros ->; discriminate|]. intros c C.
  assert (S : snd (run (new_filter scans (c0 :: conds) l tol) (c0 :: conds) []) = Ok tt) by (rewrite R; auto).
  destruct (run_all _ _ _ S c C) as (nm & E). cbn [new_filter fl_tol fl_scans] in E.
  destruct c as [kw op v|kw op [v|]]; [| |discriminate]; (split; [|exact I]); intros n s N; destruct (matching_all _ _ _ _ E n s N) as (b & B).
  - apply (eval_only_applicable tol (Text kw op v) s b B). - apply (eval_only_applicable tol (Numeric kw op (Some v)) s b B).
Qed.

(** A filter answers with a list of names exactly when there is a condition, the logic is 'and' or 'or', and every condition can
    be evaluated on every scan: the text field is there, the number is one, the column is there and not empty. *)
Theorem C30_answers_exactly : forall scans conds l tol,
  (exists names, answer scans conds l tol = Ok (Some names)) <->
  conds <> [] /\ l <> BadLogic /\ (forall c, In c conds -> number_given c) /\ (forall c n s, In c conds -> In (n, s) scans -> applicable s c).
Proof.
  intros scans conds l tol. split.
  - intros (names & H). destruct (answered _ _ _ _ _ H) as (A & B & C). split; [auto|split; [auto|split]]; [intros c I; apply (C c I)|intros c n s I N; apply (proj1 (C c I) n s N)].
  - intros (A & B & C & D). destruct (filter_answer scans conds l tol A B) as (names & E & _); [|exists names; exact E].
    intros c I. split; [intros n s; apply D; auto|apply C; auto].
Qed.
Print Assumptions C30_answers_exactly.

Lemma told : forall scans conds l tol names, answer scans conds l tol = Ok (Some names) -> forall n, In n names <-> match l with
  | AND => forall c, In c conds -> exists s, In (n, s) scans /\ eval tol c s = Ok true
  | _ => exists c, In c conds /\ exists s, In (n, s) scans /\ eval tol c s = Ok true end.
Proof.
  intros scans conds l tol names H. destruct (answered _ _ _ _ _ H) as (A & B & C). destruct (filter_answer scans conds l tol A B C) as (nm & E & _ & I).
  unfold answer in H. rewrite E in H. injection H as <-. exact I.
Qed.

(** One condition more narrows the answer with 'and' and widens it with 'or', whatever the operations (also "<=" and "!=", which
    are not coded as their names say); every name is that of a scan. *)
Theorem C30_narrows : forall scans conds conds' tol names names', (forall c, In c conds -> In c conds') ->
  answer scans conds AND tol = Ok (Some names) -> answer scans conds' AND tol = Ok (Some names') -> forall n, In n names' -> In n names.
Proof. intros scans conds conds' tol names names' S H H' n. rewrite (told _ _ _ _ _ H n), (told _ _ _ _ _ H' n). auto. Qed.
Print Assumptions C30_narrows.
Theorem C30_widens : forall scans conds conds' tol names names', (forall c, In c conds -> In c conds') ->
  answer scans conds OR tol = Ok (Some names) -> answer scans conds' OR tol = Ok (Some names') -> forall n, In n names -> In n names'.
Proof.
  intros scans conds conds' tol names names' S H H' n. rewrite (told _ _ _ _ _ H n), (told _ _ _ _ _ H' n). intros (c & C & X). exists c. auto.
Qed.
Print Assumptions C30_widens.
(** A list of conditions splits: 'and' of two lists is what both answer, 'or' is what either answers. *)
Theorem C30_splits : forall scans c1 c2 l tol n1 n2 n12,
  answer scans c1 l tol = Ok (Some n1) -> answer scans c2 l tol = Ok (Some n2) -> answer scans (c1 ++ c2)%list l tol = Ok (Some n12) ->
  forall n, In n n12 <-> match l with AND => In n n1 /\ In n n2 | _ => In n n1 \/ In n n2 end.
Proof.
  intros scans c1 c2 l tol n1 n2 n12 H1 H2 H n. rewrite (told _ _ _ _ _ H n). pose proof (told _ _ _ _ _ H1 n) as T1. pose proof (told _ _ _ _ _ H2 n) as T2.
  destruct l; rewrite T1, T2.
  - split; [intros F; split; intros c C; apply F, in_or_app; auto|intros (F & G) c C; apply in_app_or in C; destruct C; auto].
  - split; [intros (c & C & X); apply in_app_or in C; destruct C; [left|right]; eauto|intros [(c & C & X)|(c & C & X)]; exists c; split; auto; apply in_or_app; auto].
  - split; [intros (c & C & X); apply in_app_or in C; destruct C; [left|right]; eauto|intros [(c & C & X)|(c & C & X)]; exists c; split; auto; apply in_or_app; auto].
Qed.
Print Assumptions C30_splits.
(** Every answer of 'and' is one of 'or', and every name answered is the name of a scan. *)
Theorem C30_and_within_or : forall scans conds tol na no,
  answer scans conds AND tol = Ok (Some na) -> answer scans conds OR tol = Ok (Some no) -> forall n, In n na -> In n no /\ In n (dkeys scans).
Proof.
  intros scans conds tol na no H H' n. destruct (answered _ _ _ _ _ H) as (NE & _). rewrite (told _ _ _ _ _ H n), (told _ _ _ _ _ H' n). intros F.
  destruct conds as [|c0 conds]; [congruence|]. destruct (F c0 (or_introl eq_refl)) as (s & N & B). split; [exists c0; split; [left; auto|eauto]|].
  apply in_map_iff. exists (n, s). auto.
Qed.
Print Assumptions C30_and_within_or.

(** Scans loaded later do not change what was answered about the scans that were there. *)
Theorem C30_more_scans : forall scans more conds l tol names names', NoDup (dkeys (scans ++ more)%list) ->
  answer scans conds l tol = Ok (Some names) -> answer (scans ++ more)%list conds l tol = Ok (Some names') ->
  forall n, In n (dkeys scans) -> (In n names' <-> In n names).
Proof.
  intros scans more conds l tol names names' ND H H' n K. rewrite (told _ _ _ _ _ H' n), (told _ _ _ _ _ H n).
  assert (U : forall s, In (n, s) (scans ++ more)%list <-> In (n, s) scans).
  { intros s. rewrite in_app_iff. split; [|auto]. intros [|M]; [auto|]. exfalso. unfold dkeys in *. rewrite map_app in ND.
    apply (in_map fst) in M. cbn in M. clear - ND K M. induction (map fst scans) as [|a ks]; [destruct K|]. cbn in ND. inversion ND; subst.
    destruct K as [->|K]; [apply H1, in_or_app; auto|auto]. }
  destruct l.
  - split; intros F c C; destruct (F c C) as (s & N & B); exists s; (split; [apply U|]); auto.
  - split; intros (c & C & s & N & B); exists c; split; auto; exists s; (split; [apply U|]); auto.
  - split; intros (c & C & s & N & B); exists c; split; auto; exists s; (split; [apply U|]); auto.
Qed.
Print Assumptions C30_more_scans.

(** Two scans, one of them cold; a filter on the user's name and one on the temperature. *)
Definition two : dict string fscan :=
  [("a", FScan [("temp", [1; 2])] [("users", "Ann")] None); ("b", FScan [("temp", [300])] [("users", "Ann")] None)]%string.
Definition by_user := Text "users" IS "Ann"%string.
Definition warm := Numeric "temp" GREATER (Some 100).
Example C30_ex_narrows : answer two [by_user] AND 0 = Ok (Some ["a"; "b"]%string) /\ answer two [by_user; warm] AND 0 = Ok (Some ["b"%string]) /\
  answer two [by_user; warm] OR 0 = Ok (Some ["a"; "b"]%string) /\ answer two [warm] OR 0 = Ok (Some ["b"%string]) /\ NoDup (dkeys two) /\
  answer two [Text "title" IS "x"%string] AND 0 = Err TypeError.
Proof.
  assert (L1 : ltb 100 (Rmin 1 2) = false) by (unfold ltb; destruct (Rlt_dec _ _) as [L|]; auto; pose proof (Rmin_l 1 2); lra).
  assert (L2 : ltb 100 300 = true) by (unfold ltb; destruct (Rlt_dec _ _) as [|L]; auto; lra).
  split; [reflexivity|]. split; [cbn; rewrite L1, L2; reflexivity|]. split; [cbn; rewrite L1, L2; reflexivity|]. split; [cbn; rewrite L1, L2; reflexivity|].
  split; [|reflexivity]. repeat constructor; cbn; intuition discriminate.
Qed.
