(** Property C78: projects used from a script. *)
From Coq Require Import Reals List ZArith String Bool Lia Lra Sorted.
From Verif Require Import Base PyStr PySort L_Sort M_Filter P_Filter M_ScanData M_Project M_Spice M_Load P_Load2 M_Workspace.
Import ListNotations.
Open Scope string_scope.
Open Scope list_scope.

Lemma set_nth_length : forall {A} (l : list A) i x, List.length (set_nth l i x) = List.length l.
Proof.
  unfold set_nth. induction l as [|a l IH]; intros [|i] x; cbn; auto. specialize (IH i x). destruct (skipn i l); cbn in *; auto.
Qed.
Lemma set_nth_eq : forall {A} (l : list A) i x, (i < List.length l)%nat -> nth_error (set_nth l i x) i = Some x.
Proof.
  unfold set_nth. induction l as [|a l IH]; intros [|i] x L; cbn in *; try lia; auto. specialize (IH i x). destruct (skipn i l) eqn:E; [apply (f_equal (@List.length A)) in E; rewrite skipn_length in E; cbn in E; lia|]. apply IH. lia.
Qed.
Lemma set_nth_ne : forall {A} (l : list A) i j x, i <> j -> nth_error (set_nth l i x) j = nth_error l j.
Proof.
  unfold set_nth. induction l as [|a l IH]; intros [|i] [|j] x N; cbn; auto; try contradiction. { destruct (skipn i l); auto. }
  specialize (IH i j x). destruct (skipn i l); cbn in *; auto.
Qed.
Lemma nth_set_eq : forall {A} (l : list A) i x d, (i < List.length l)%nat -> nth i (set_nth l i x) d = x.
Proof. intros A l i x d L. apply nth_error_nth. apply set_nth_eq. auto. Qed.
Lemma nth_set_ne : forall {A} (l : list A) i j x d, i <> j -> nth j (set_nth l i x) d = nth j l d.
Proof. intros A l i j x d N. rewrite <- !nth_default_eq. unfold nth_default. rewrite set_nth_ne; auto. Qed.

Lemma oeqb_eq : forall a b, oeqb a b = true <-> a = b.
Proof. intros [a|] [b|]; cbn; split; intros H; try discriminate; auto. { apply String.eqb_eq in H. congruence. } injection H as ->. apply String.eqb_refl. Qed.
Lemma oget_oset : forall {A} (d : dict (option string) A) k v k', dget oeqb k' (dset oeqb k v d) = if oeqb k' k then Some v else dget oeqb k' d.
Proof.
  intros A. induction d as [|[k0 v0] d IH]; intros k v k'; cbn [dset dget]. { auto. }
  destruct (oeqb k k0) eqn:E; cbn [dget].
  - apply oeqb_eq in E. subst k0. destruct (oeqb k' k); auto.
  - rewrite IH. destruct (oeqb k' k0) eqn:E2; auto. apply oeqb_eq in E2. subst k0. destruct (oeqb k' k) eqn:E3; auto. apply oeqb_eq in E3. subst k'. assert (oeqb k k = true) by (apply oeqb_eq; auto). congruence.
Qed.

Section C78.
  Variable float_of : string -> option R.
  Variable int_of : string -> option Z.
  Variable genfromtxt : list string -> result (list (list num)).
  Variable xml_last : list string -> option (option string).
  Notation load := (load float_of int_of genfromtxt xml_last).
  Notation exec := (exec float_of int_of genfromtxt xml_last).
  Notation run := (run float_of int_of genfromtxt xml_last).

  (** The project exists after the operations. *)
  Definition made (h : list op) (i : nat) : Prop := raw_of (run h) i <> None.
  (** The operation loads the scans [d] into the project. *)
  Definition loads (o : op) (i : nat) (d : option (dict string raw_scan)) : Prop :=
    exists fs folder files ub facility, o = LoadScans i fs folder files ub facility /\ load fs folder files ub facility = Ok d.

  Lemma run_snoc : forall h o, run (h ++ [o]) = fst (exec (run h) o).
  Proof. intros h o. unfold M_Workspace.run. rewrite fold_left_app. reflexivity. Qed.
  Lemma upd_other : forall w i f j, i <> j -> nth_error (projects (upd w i f)) j = nth_error (projects w) j.
  Proof. intros w i f j N. unfold upd. destruct (nth_error (projects w) i); cbn; auto. apply set_nth_ne; auto. Qed.
  Lemma upd_same : forall w i f, nth_error (projects (upd w i f)) i = option_map f (nth_error (projects w) i).
  Proof. intros w i f. unfold upd. destruct (nth_error (projects w) i) eqn:E; cbn; auto. apply set_nth_eq. apply nth_error_Some. congruence. Qed.
  Lemma upd_dicts : forall w i f, dicts (upd w i f) = dicts w.
  Proof. intros w i f. unfold upd. destruct (nth_error (projects w) i); auto. Qed.
  Lemma upd_attr : forall {B} (g : tavi_data -> B) w i f j, (forall p, g (f p) = g p) -> option_map g (nth_error (projects (upd w i f)) j) = option_map g (nth_error (projects w) j).
  Proof. intros B g w i f j H. destruct (Nat.eq_dec i j) as [->|N]; [rewrite upd_same; destruct (nth_error (projects w) j); cbn; auto; f_equal; auto|rewrite upd_other; auto]. Qed.
  Lemma raw_step : forall w o i,
    (raw_of w i = None /\ (raw_of (fst (exec w o)) i = None \/ raw_of (fst (exec w o)) i = Some Placeholder)) \/
    (raw_of w i <> None /\ ((exists d, loads o i d /\ raw_of (fst (exec w o)) i = Some (Loaded d)) \/ ((forall d, ~ loads o i d) /\ raw_of (fst (exec w o)) i = raw_of w i))).
  Proof.
    intros w o i. assert (SAME : (forall d, ~ loads o i d) -> raw_of (fst (exec w o)) i = raw_of w i ->
      (raw_of w i = None /\ (raw_of (fst (exec w o)) i = None \/ raw_of (fst (exec w o)) i = Some Placeholder)) \/
      (raw_of w i <> None /\ ((exists d, loads o i d /\ raw_of (fst (exec w o)) i = Some (Loaded d)) \/ ((forall d, ~ loads o i d) /\ raw_of (fst (exec w o)) i = raw_of w i)))).
    { intros NL E. destruct (raw_of w i) eqn:Q; [right; split; [discriminate|auto]|left; auto]. }
    destruct o as [|j fs folder files ub fac|j name conds l cat tol|j scans|j].
    2:{ destruct (load fs folder files ub fac) as [d|e] eqn:E.
        - destruct (Nat.eq_dec j i) as [->|N].
          + unfold raw_of. cbn [M_Workspace.exec]. rewrite E. cbn [fst]. rewrite upd_same. destruct (nth_error (projects w) i) eqn:P; cbn; [right|left; auto]. split; [discriminate|]. left. exists d. split; auto. exists fs, folder, files, ub, fac. auto.
          + apply SAME. { intros d' (? & ? & ? & ? & ? & Q & _). injection Q as -> _ _ _ _ _. contradiction. } unfold raw_of. cbn [M_Workspace.exec]. rewrite E. cbn [fst]. rewrite upd_other; auto.
        - apply SAME. { intros d' (? & ? & ? & ? & ? & Q & L). injection Q as -> -> -> -> -> ->. congruence. } unfold raw_of. cbn [M_Workspace.exec]. rewrite E. auto. }
    - assert (NL : forall d, ~ loads New i d) by (intros d (? & ? & ? & ? & ? & Q & _); discriminate). unfold raw_of in *. cbn [M_Workspace.exec fst projects] in *. destruct (Nat.lt_trichotomy i (List.length (projects w))) as [L|[E|L]].
      + apply SAME; auto. rewrite nth_error_app1; auto.
      + left. subst i. rewrite nth_error_app2, Nat.sub_diag by lia. split; [|right; reflexivity]. assert (X : nth_error (projects w) (List.length (projects w)) = None) by (apply nth_error_None; lia). rewrite X. auto.
      + apply SAME; auto. rewrite !(proj2 (nth_error_None _ _)); auto. { lia. } rewrite app_length. cbn. lia.
    - apply SAME. { intros d (? & ? & ? & ? & ? & Q & _); discriminate. } unfold raw_of. cbn [M_Workspace.exec]. destruct (nth_error (projects w) j) as [p|] eqn:P; auto. destruct (td_scan_list p); auto. destruct (snd _); auto. destruct (oeqb cat _); cbn [fst]; auto. apply upd_attr. auto.
    - apply SAME. { intros d (? & ? & ? & ? & ? & Q & _); discriminate. } apply upd_attr. auto.
    - apply SAME. { intros d (? & ? & ? & ? & ? & Q & _); discriminate. } unfold raw_of. cbn [M_Workspace.exec fst projects]. apply upd_attr. auto.
  Qed.
  Lemma snoc_split : forall (h : list op) o h1 o1 h2, h ++ [o] = h1 ++ o1 :: h2 -> (exists h2', h = h1 ++ o1 :: h2' /\ h2 = h2' ++ [o]) \/ (h1 = h /\ o1 = o /\ h2 = []).
  Proof.
    intros h o h1 o1 h2 E. destruct h2 as [|x h2 _] using rev_ind. { apply app_inj_tail in E. destruct E; auto. }
    change (h1 ++ o1 :: h2 ++ [x]) with (h1 ++ (o1 :: h2) ++ [x]) in E. rewrite app_assoc in E. apply app_inj_tail in E. destruct E as [E ->]. left. eauto.
  Qed.
  (** A project holds the scans it loaded last; before that, nothing that could be used. *)
  Theorem C78_loaded : forall h i, made h i ->
    (exists h1 o h2 d, h = h1 ++ o :: h2 /\ made h1 i /\ loads o i d /\ (forall o' d', In o' h2 -> ~ loads o' i d') /\ raw_of (run h) i = Some (Loaded d)) \/
    (raw_of (run h) i = Some Placeholder /\ forall h1 o h2 d, h = h1 ++ o :: h2 -> loads o i d -> ~ made h1 i).
  Proof.
    unfold made. intros h i. induction h as [|o h IH] using rev_ind. { intros H. exfalso. apply H. unfold raw_of. destruct i; reflexivity. }
    rewrite !run_snoc. destruct (raw_step (run h) o i) as [[N [E|E]]|[N [(d & LD & E)|[NL E]]]]; rewrite E.
    - intros H. exfalso. apply H. reflexivity.
    - intros _. right. split; auto. intros h1 o1 h2 d Q L M. assert (NONE : forall h1 h2, h = h1 ++ h2 -> raw_of (run h1) i = None).
      { clear - N. intros h1 h2. revert h N. induction h2 as [|x h2 IH] using rev_ind; intros h N ->. { rewrite app_nil_r in N. auto. }
        rewrite app_assoc, run_snoc in N. destruct (raw_step (run (h1 ++ h2)) x i) as [[NN _]|[_ [(d & _ & E)|[_ E]]]]; [eauto|congruence|]. rewrite E in N. eauto. }
      apply M. apply snoc_split in Q. destruct Q as [(h2' & -> & _)|(-> & _)]; [eapply NONE; reflexivity|auto].
    - intros _. left. exists h, o, [], d. repeat split; auto.
    - intros M. destruct (IH N) as [(h1 & o1 & h2 & d & -> & M1 & L1 & NL2 & R)|[R NM]].
      + left. exists h1, o1, (h2 ++ [o]), d. split; [rewrite <- app_assoc; reflexivity|]. split; auto. split; auto. split; auto. intros o' d' I. apply in_app_or in I. destruct I as [I|[<-|[]]]; eauto.
      + right. split; auto. intros h1 o1 h2 d Q L. apply snoc_split in Q. destruct Q as [(h2' & -> & _)|(-> & -> & _)]; [eapply NM; eauto|]. exfalso. eapply NL; eauto.
  Qed.

  (** ** Selecting *)
  Definition scans_given (w : world) (i : nat) : option (option (dict string fscan)) := option_map td_scan_list (nth_error (projects w) i).
  Lemma given_step : forall w o i scans, (scans_given w i = Some (Some scans) /\ (forall s, o <> Give i s) -> scans_given (fst (exec w o)) i = Some (Some scans)) /\
    (raw_of w i <> None -> o = Give i scans -> scans_given (fst (exec w o)) i = Some (Some scans)) /\
    ((forall s, o <> Give i s) -> forall s, scans_given (fst (exec w o)) i = Some (Some s) -> scans_given w i = Some (Some s)).
  Proof.
    intros w o i scans. unfold scans_given. split; [|split].
    - intros [G N]. destruct o as [|j fs folder files ub fac|j name conds l cat tol|j s|j]; cbn [M_Workspace.exec].
      + cbn. destruct (nth_error (projects w) i) eqn:P; [|discriminate]. rewrite nth_error_app1 by (apply nth_error_Some; congruence). rewrite P. auto.
      + destruct (load fs folder files ub fac); cbn [fst]; auto. rewrite upd_attr; auto.
      + destruct (nth_error (projects w) j) as [p|] eqn:P; auto. destruct (td_scan_list p); auto. destruct (snd _); auto. destruct (oeqb cat _); cbn [fst]; auto. rewrite upd_attr; auto.
      + cbn [fst]. destruct (Nat.eq_dec j i) as [->|M]; [exfalso; eapply N; eauto|]. rewrite upd_other; auto.
      + cbn [fst projects]. rewrite upd_attr; auto.
    - unfold raw_of. intros M ->. cbn [M_Workspace.exec fst]. rewrite upd_same. destruct (nth_error (projects w) i); [reflexivity|contradiction].
    - intros N s. destruct o as [|j fs folder files ub fac|j name conds l cat tol|j s'|j]; cbn [M_Workspace.exec].
      + cbn. destruct (Nat.lt_trichotomy i (List.length (projects w))) as [L|[E|L]]. { rewrite nth_error_app1; auto. } { subst i. rewrite nth_error_app2, Nat.sub_diag by lia. discriminate. }
        rewrite (proj2 (nth_error_None (_ ++ _) _)); [discriminate|]. rewrite app_length. cbn. lia.
      + destruct (load fs folder files ub fac); cbn [fst]; auto. rewrite upd_attr; auto.
      + destruct (nth_error (projects w) j) as [p|] eqn:P; auto. destruct (td_scan_list p); auto. destruct (snd _); auto. destruct (oeqb cat _); cbn [fst]; auto. rewrite upd_attr; auto.
      + cbn [fst]. destruct (Nat.eq_dec j i) as [->|M]; [exfalso; eapply N; eauto|]. rewrite upd_other; auto.
      + cbn [fst projects]. rewrite upd_attr; auto.
  Qed.
  (** As long as a script does not set scan_list itself, nothing can be selected, loaded or not. *)
  Theorem C78_select_refuted : forall h i name conds l category tol, made h i -> (forall s, ~ In (Give i s) h) ->
    exec (run h) (SelectScans i name conds l category tol) = (run h, Err AttributeError).
  Proof.
    intros h i name conds l category tol M NG. assert (G : forall s, scans_given (run h) i <> Some (Some s)).
    { clear M. induction h as [|o h IH] using rev_ind. { intros s. unfold scans_given. destruct i; discriminate. }
      intros s E. rewrite run_snoc in E. apply (proj2 (proj2 (given_step (run h) o i s))) in E. { revert E. apply IH. intros s' I. apply (NG s'). apply in_or_app. auto. }
      intros s' ->. apply (NG s'). apply in_or_app. right. left. auto. }
    unfold made, raw_of in M. unfold scans_given in G. cbn [M_Workspace.exec]. destruct (nth_error (projects (run h)) i) as [p|]; [|contradiction]. destruct (td_scan_list p) as [s|] eqn:T; [|auto]. exfalso. apply (G s). cbn. rewrite T. auto.
  Qed.
  (** *** Dictionaries of selections *)
  (** Every project has a dictionary, and the first one is there from the start. *)
  Definition sound (w : world) : Prop := (0 < List.length (dicts w))%nat /\ forall i p, nth_error (projects w) i = Some p -> (td_show p < List.length (dicts w))%nat.
  Lemma nth_upd : forall w i f j, nth_error (projects (upd w i f)) j = if Nat.eq_dec i j then option_map f (nth_error (projects w) j) else nth_error (projects w) j.
  Proof. intros w i f j. destruct (Nat.eq_dec i j) as [->|N]; [apply upd_same|apply upd_other; auto]. Qed.
  Lemma nth_new : forall (l : list tavi_data) x i, nth_error (l ++ [x]) i = if Nat.eq_dec i (List.length l) then Some x else nth_error l i.
  Proof.
    intros l x i. destruct (Nat.eq_dec i (List.length l)) as [->|N]. { rewrite nth_error_app2, Nat.sub_diag by lia. auto. }
    destruct (Nat.lt_ge_cases i (List.length l)). { apply nth_error_app1. auto. }
    rewrite !(proj2 (nth_error_None _ _)); auto. rewrite app_length. cbn. lia.
  Qed.
  (** What an operation does to the dictionary a project refers to, and to the dictionaries. *)
  Lemma step_cases : forall w o, let w' := fst (exec w o) in
    (dicts w' = dicts w /\ (o = New \/ forall i, option_map td_show (nth_error (projects w') i) = option_map td_show (nth_error (projects w) i))) \/
    (exists j, o = Own j /\ dicts w' = dicts w ++ [[]]) \/
    (exists j name conds l cat tol p d, o = SelectScans j name conds l cat tol /\ projects w' = projects w /\ nth_error (projects w) j = Some p /\ dicts w' = set_nth (dicts w) (td_show p) d).
  Proof.
    intros w o. destruct o as [|j fs folder files ub fac|j name conds l cat tol|j s|j]; cbn [M_Workspace.exec]; cbv zeta.
    - left. split; auto.
    - left. destruct (load fs folder files ub fac); cbn [fst]; [|auto]. rewrite upd_dicts. split; auto. right. intros i. apply upd_attr. auto.
    - destruct (nth_error (projects w) j) as [p|] eqn:P; [|left; auto]. destruct (td_scan_list p); [|left; auto]. destruct (snd _); [|left; auto]. destruct (oeqb cat _); cbn [fst].
      + left. rewrite upd_dicts. split; auto. right. intros i. apply upd_attr. auto.
      + right. right. exists j, name, conds, l, cat, tol, p. eexists. repeat split; eauto.
    - left. cbn [fst]. rewrite upd_dicts. split; auto. right. intros i. apply upd_attr. auto.
    - right. left. exists j. auto.
  Qed.
  Lemma run_sound : forall h, sound (run h).
  Proof.
    induction h as [|o h [L IH]] using rev_ind. { split; [cbn; lia|]. intros [|i] p E; discriminate. }
    rewrite run_snoc. destruct (step_cases (run h) o) as [(D & C)|[(j & -> & D)|(j & name & conds & l & cat & tol & p & d & -> & P & Pj & D)]]; unfold sound; rewrite D.
    - split; auto. intros i p E. destruct C as [-> |C].
      + cbn [M_Workspace.exec fst projects] in E. rewrite nth_new in E. destruct (Nat.eq_dec _ _); [injection E as <-; auto|eauto].
      + specialize (C i). rewrite E in C. destruct (nth_error (projects (run h)) i) as [q|] eqn:Q; [|discriminate]. injection C as ->. eauto.
    - rewrite app_length. cbn [List.length]. split; [lia|]. intros i p E. cbn [M_Workspace.exec fst projects] in E. rewrite nth_upd in E. destruct (Nat.eq_dec j i).
      + destruct (nth_error (projects (run h)) i) as [q|]; [|discriminate]. injection E as <-. cbn. lia.
      + specialize (IH _ _ E). lia.
    - rewrite set_nth_length. split; auto. rewrite P. auto.
  Qed.

  (** A selection holds exactly the names of the scans that meet the conditions, in order; it is kept under its name, or for the model. *)
  Theorem C78_selected : forall h i scans h' name conds l category tol, made h i -> (forall s, ~ In (Give i s) h') ->
    conds <> [] -> l <> BadLogic -> NoDup (dkeys scans) -> (forall c n s, In c conds -> In (n, s) scans -> applicable s c) -> (forall c, In c conds -> exact_op c) ->
    (forall c, In c conds -> match c with Numeric _ _ None => False | _ => True end) ->
    let w := run (h ++ Give i scans :: h') in
    exists names w', exec w (SelectScans i name conds l category tol) = (w', Ok tt) /\ StronglySorted slt names /\
      (forall n, In n names <-> exists s, In (n, s) scans /\ match l with AND => Forall (meets tol s) conds | _ => Exists (meets tol s) conds end) /\
      (category = Some "model" -> processed_in w' i = Some (Some names) /\ (forall j, j <> i -> processed_in w' j = processed_in w j) /\ (forall j nm, shown_in w' j nm = shown_in w j nm)) /\
      (category <> Some "model" -> shown_in w' i name = Some (Some names) /\ (forall j nm, nm <> name -> shown_in w' j nm = shown_in w j nm) /\ (forall j, processed_in w' j = processed_in w j)).
  Proof.
    intros h i scans h' name conds l category tol M NG NE LB ND AP EX NUM w.
    assert (G : scans_given w i = Some (Some scans)).
    { unfold w. clear w NE LB ND AP EX NUM. induction h' as [|o h' IH] using rev_ind.
      - rewrite run_snoc. apply (proj1 (proj2 (given_step (run h) (Give i scans) i scans))); auto.
      - rewrite app_comm_cons, app_assoc, run_snoc. apply (proj1 (given_step _ o i scans)). split.
        + apply IH. intros s I. apply (NG s). apply in_or_app. auto.
        + intros s ->. apply (NG s). apply in_or_app. right. left. auto. }
    assert (SD : sound w) by apply run_sound. destruct SD as [_ SD].
    destruct (nth_error (projects w) i) as [p|] eqn:P; [|unfold scans_given in G; rewrite P in G; discriminate].
    unfold scans_given in G. rewrite P in G. injection G as G. assert (LS := SD _ _ P).
    destruct (C30_matching_scans scans conds l tol) as (names & F & SS & IN); auto.
    cbn [M_Workspace.exec]. rewrite P, G, F. destruct (oeqb category (Some "model")) eqn:C.
    - apply oeqb_eq in C. exists names. eexists. split; [reflexivity|]. split; auto. split; auto. split; [|intros X; contradiction]. intros _. unfold processed_in, shown_in. split; [|split].
      + rewrite upd_same, P. reflexivity.
      + intros j N. rewrite upd_other; auto.
      + intros j nm. rewrite nth_upd, upd_dicts. destruct (Nat.eq_dec i j) as [->|N]; auto. destruct (nth_error (projects w) j); auto.
    - assert (C' : category <> Some "model") by (intros X; apply oeqb_eq in X; congruence).
      exists names. eexists. split; [reflexivity|]. split; auto. split; auto. split; [intros X; contradiction|]. intros _. unfold processed_in, shown_in. cbn [projects dicts]. split; [|split; [|auto]].
      + rewrite P, nth_set_eq, oget_oset by auto. rewrite (proj2 (oeqb_eq name name) eq_refl). auto.
      + intros j nm N. destruct (nth_error (projects w) j) as [q|]; auto. destruct (Nat.eq_dec (td_show p) (td_show q)) as [E|E].
        * rewrite <- E, nth_set_eq, oget_oset by auto. destruct (oeqb nm name) eqn:B; auto. apply oeqb_eq in B. contradiction.
        * rewrite nth_set_ne; auto.
  Qed.

  (** Without a dictionary of their own, all projects show the same selections. *)
  Theorem C78_shared_refuted : forall h i j name, made h i -> made h j -> ~ In (Own i) h -> ~ In (Own j) h -> shown_in (run h) i name = shown_in (run h) j name.
  Proof.
    assert (Z : forall h i p, ~ In (Own i) h -> nth_error (projects (run h)) i = Some p -> td_show p = 0%nat).
    { induction h as [|o h IH] using rev_ind; intros i p NI E. { destruct i; discriminate. }
      assert (NI' : ~ In (Own i) h) by (intros X; apply NI; apply in_or_app; auto). assert (NO : o <> Own i) by (intros ->; apply NI; apply in_or_app; right; left; auto).
      rewrite run_snoc in E. destruct (step_cases (run h) o) as [(D & C)|[(j & -> & D)|(j & name & conds & l & cat & tol & q & d & -> & P & Pj & D)]].
      - destruct C as [-> |C].
        + cbn [M_Workspace.exec fst projects] in E. rewrite nth_new in E. destruct (Nat.eq_dec _ _); [injection E as <-; auto|eauto].
        + specialize (C i). rewrite E in C. destruct (nth_error (projects (run h)) i) as [q|] eqn:Q; [|discriminate]. injection C as ->. eauto.
      - cbn [M_Workspace.exec fst projects] in E. rewrite upd_other in E; [eauto|congruence].
      - rewrite P in E. eauto. }
    unfold made, raw_of, shown_in. intros h i j name MI MJ NI NJ. destruct (nth_error (projects (run h)) i) as [p|] eqn:P; [|contradiction]. destruct (nth_error (projects (run h)) j) as [q|] eqn:Q; [|contradiction].
    rewrite (Z _ _ _ NI P), (Z _ _ _ NJ Q). auto.
  Qed.

  (** The project the operation is on. *)
  Definition target (o : op) : option nat := match o with New => None | LoadScans i _ _ _ _ _ => Some i | SelectScans i _ _ _ _ _ => Some i | Give i _ => Some i | Own i => Some i end.
  Definition owned (w : world) (i : nat) : Prop := exists p, nth_error (projects w) i = Some p /\ td_show p <> 0%nat /\ forall j q, j <> i -> nth_error (projects w) j = Some q -> td_show q <> td_show p.
  Lemma owned_step : forall w o i, sound w -> (owned w i \/ (o = Own i /\ raw_of w i <> None)) -> owned (fst (exec w o)) i.
  Proof.
    intros w o i [L SD] [(p & P & NZ & OT)|[-> M]].
    - destruct (step_cases w o) as [(D & C)|[(j & -> & D)|(j & name & conds & l & cat & tol & q & d & -> & PS & Pj & D)]].
      + destruct C as [-> |C].
        * exists p. cbn [M_Workspace.exec fst projects]. assert (i <> List.length (projects w)) by (assert (i < List.length (projects w))%nat by (apply nth_error_Some; congruence); lia).
          split. { rewrite nth_new. destruct (Nat.eq_dec _ _); [contradiction|auto]. } split; auto. intros j q N E. rewrite nth_new in E. destruct (Nat.eq_dec _ _); [injection E as <-; auto|eauto].
        * pose proof (C i) as Ci. rewrite P in Ci. destruct (nth_error (projects (fst (exec w o))) i) as [p'|] eqn:P'; [|discriminate]. injection Ci as E'. exists p'. split; auto. rewrite E'. split; auto.
          intros j q N Q. specialize (C j). rewrite Q in C. destruct (nth_error (projects w) j) as [q'|] eqn:Q'; [|discriminate]. injection C as ->. eauto.
      + cbn [M_Workspace.exec fst]. destruct (Nat.eq_dec j i) as [->|N].
        * eexists. cbn [projects]. rewrite upd_same, P. split; [reflexivity|]. cbn [td_show]. split; [lia|]. intros k q K Q. rewrite upd_other in Q by auto. specialize (SD _ _ Q). lia.
        * exists p. cbn [projects]. rewrite upd_other by auto. split; auto. split; auto. intros k q K Q. rewrite nth_upd in Q. destruct (Nat.eq_dec j k); [|eauto].
          destruct (nth_error (projects w) k); [|discriminate]. injection Q as <-. cbn. specialize (SD _ _ P). lia.
      + exists p. rewrite PS. auto.
    - unfold raw_of in M. destruct (nth_error (projects w) i) as [p|] eqn:P; [|contradiction]. cbn [M_Workspace.exec fst]. eexists. cbn [projects]. rewrite upd_same, P. split; [reflexivity|]. cbn [td_show]. split; [lia|].
      intros k q K Q. rewrite upd_other in Q by auto. specialize (SD _ _ Q). lia.
  Qed.
  (** A project with a dictionary of its own starts without selections, and only operations on it change what it shows. *)
  Theorem C78_isolated : forall h i, made h i ->
    (forall name, shown_in (run (h ++ [Own i])) i name = None) /\
    forall h' o name, target o <> Some i -> shown_in (run (h ++ Own i :: h' ++ [o])) i name = shown_in (run (h ++ Own i :: h')) i name.
  Proof.
    intros h i M. split.
    - intros name. rewrite run_snoc. unfold shown_in. cbn [M_Workspace.exec fst projects dicts]. rewrite upd_same. destruct (nth_error (projects (run h)) i); auto. cbn [option_map td_show]. rewrite app_nth2, Nat.sub_diag by lia. auto.
    - intros h' o name T. assert (O : owned (run (h ++ Own i :: h')) i).
      { clear T. induction h' as [|x h' IH] using rev_ind. { rewrite run_snoc. apply owned_step; [apply run_sound|auto]. }
        rewrite app_comm_cons, app_assoc, run_snoc. apply owned_step; [apply run_sound|auto]. }
      rewrite (app_comm_cons h' [o] (Own i)), app_assoc, run_snoc. set (w := run (h ++ Own i :: h')) in *. assert (SD : sound w) by apply run_sound. destruct SD as [LD SD]. destruct O as (p & P & NZ & OT).
      unfold shown_in. destruct (step_cases w o) as [(D & C)|[(j & -> & D)|(j & nm & conds & l & cat & tol & q & d & -> & PS & Pj & D)]].
      + rewrite D. destruct C as [-> |C].
        * cbn [M_Workspace.exec fst projects]. assert (i < List.length (projects w))%nat by (apply nth_error_Some; congruence). rewrite nth_error_app1; auto.
        * specialize (C i). rewrite P in C |- *. destruct (nth_error (projects (fst (exec w o))) i) as [p'|]; [|discriminate]. injection C as ->. auto.
      + rewrite D. cbn [M_Workspace.exec fst projects]. rewrite upd_other by (cbn in T; congruence). rewrite P. rewrite app_nth1; auto. eauto.
      + rewrite D, PS, P, nth_set_ne; auto. apply (OT j); auto. cbn in T. congruence.
  Qed.
End C78.
Print Assumptions C78_loaded.
Print Assumptions C78_select_refuted.
Print Assumptions C78_selected.
Print Assumptions C78_shared_refuted.
Print Assumptions C78_isolated.

(** Two projects: the first is given scans and selects, the second then shows that selection too, until it has its own dictionary. *)
Example C78_example : forall float_of int_of genfromtxt xml_last, let run := run float_of int_of genfromtxt xml_last in
  let h := [New; New; Give 0 ex_scans; SelectScans 0 (Some "f") ex_conds OR (Some "view") 0] in
  made float_of int_of genfromtxt xml_last h 0 /\ made float_of int_of genfromtxt xml_last h 1 /\
  shown_in (run h) 0 (Some "f") = Some (Some ["s1"; "s2"]) /\ shown_in (run h) 1 (Some "f") = Some (Some ["s1"; "s2"]) /\
  shown_in (run (h ++ [Own 1])) 1 (Some "f") = None /\
  snd (exec float_of int_of genfromtxt xml_last (run h) (SelectScans 1 None ex_conds OR None 0)) = Err AttributeError.
Proof.
  intros float_of int_of genfromtxt xml_last run h. destruct C30_example as (_ & _ & _ & _ & F).
  assert (R : run h = World [TaviData Placeholder (Some ex_scans) (Some []) 0; TaviData Placeholder None (Some []) 0] [[(Some "f", Some ["s1"; "s2"])]]).
  { unfold run, h, M_Workspace.run. cbn [fold_left]. cbn [exec fst projects dicts upd nth_error start set_nth skipn firstn List.app td_scan_list td_raw td_process td_show]. rewrite F. reflexivity. }
  assert (R1 : run (h ++ [Own 1]) = fst (exec float_of int_of genfromtxt xml_last (run h) (Own 1))) by (unfold run, M_Workspace.run; rewrite fold_left_app; reflexivity).
  unfold made. fold run. rewrite R1, R. repeat split; try discriminate; reflexivity.
Qed.
(** A load that succeeds, followed by one that does not, leaves the scans of the first. *)
Example C78_example_loaded : let fo := fun _ => None in let io := fun s => if String.eqb s "1" then Some 1%Z else None in let xl := fun _ => None in
  exists s, raw_of (run fo io ex_table xl [New; LoadScans 0 (ex_tree "# ubconf = b.ini" ["data"; "UBConf"] ["b.ini"] []) ["data"] [] None None;
    LoadScans 0 (ex_tree "# ubconf = b.ini" ["data"; "UBConf"] [] ["b.ini"]) ["data"] [] None None]) 0 = Some (Loaded (Some [("a.dat", s)])) /\ rs_cols s = ["Pt."; "s1"; "s-2"].
Proof.
  intros fo io xl. destruct C65_ex as (s & E & _ & C & _). pose proof C65_tmp_ub_refuted as F. unfold ex_load in E, F. exists s. split; auto.
  unfold run. cbn [fold_left exec]. unfold fo, io, xl. rewrite E. cbn [fst]. rewrite F. reflexivity.
Qed.
