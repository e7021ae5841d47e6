(** Property C89: the configuration file from one start to the next. *)
From Coq Require Import List String Bool.
From Verif Require Import Base M_Labels P_Labels M_Startup.
Import ListNotations.
Open Scope string_scope.
Open Scope list_scope.

(** * Specification *)
(** The user's file holds a value for a field. *)
Definition set_to (d : disk) (s f : string) (v : option string) : Prop := exists c, d_user d = Holds c /\ sees c s f v.
Definition usable (f : cfile) : Prop := exists c, f = Holds c.
Definition sound_template (d : disk) : Prop := exists t, d_template d = Holds t /\ unique_fields t.
Fixpoint after (n : nat) (d : disk) : disk := match n with O => d | S n => fst (start (after n d)) end.

Lemma start_holds : forall t u c, u = Holds c -> start (Disk (Holds t) u) = (Disk (Holds t) (Holds (validate t c)), Valid true).
Proof. intros t u c ->. reflexivity. Qed.
Lemma start_fresh : forall t, start (Disk (Holds t) Absent) = (Disk (Holds t) (Holds (validate t t)), Valid true).
Proof. reflexivity. Qed.

(** The program starts exactly when the template is there and sound and the user's file, if there is one, can be read. *)
Theorem C89_starts : forall d, runs (snd (start d)) = true <-> usable (d_template d) /\ (d_user d = Absent \/ usable (d_user d)).
Proof.
  intros [t u]. unfold usable. cbn. split.
  - destruct t, u; cbn; try discriminate; eauto.
  - intros [[t' ->] [->|[c ->]]]; reflexivity.
Qed.
Print Assumptions C89_starts.

(** Whatever happens, the template is left alone, and a user's file that cannot be read is left as it is. *)
Theorem C89_left_alone : forall d, d_template (fst (start d)) = d_template d /\
  (d_user d <> Absent -> ~ usable (d_user d) -> fst (start d) = d) /\ (d_template d = Absent -> fst (start d) = d).
Proof.
  intros [t u]. unfold usable. cbn. split; [|split].
  - destruct t, u; reflexivity.
  - intros A N. destruct u; [contradiction| | |exfalso; eauto]; destruct t; reflexivity.
  - intros ->. reflexivity.
Qed.
Print Assumptions C89_left_alone.

(** After any number of starts every value the user had is there, every field of the template is, and nothing else; the first start that
    succeeds does everything. *)
Theorem C89_kept : forall n d s f v, sound_template d -> set_to d s f v -> set_to (after n d) s f v.
Proof.
  assert (K : forall d s f v, sound_template d -> set_to d s f v -> sound_template (fst (start d)) /\ set_to (fst (start d)) s f v).
  { intros [t u] s f v (t' & T & U) (c & C & S). cbn in T, C. subst. rewrite (start_holds t' _ c eq_refl). cbn [fst]. split; [exists t'; auto|].
    exists (validate t' c). split; auto. apply C55_user_settings_kept; auto. }
  induction n as [|n IH]; intros d s f v T S; auto. cbn [after].
  assert (ST : sound_template (after n d)).
  { clear IH S. induction n as [|n IH]; auto. cbn [after]. destruct IH as (t & E & U). exists t. split; auto. rewrite (proj1 (C89_left_alone _)). auto. }
  apply K; auto.
Qed.
Print Assumptions C89_kept.

Theorem C89_complete : forall d t s f v, d_template d = Holds t -> unique_fields t -> d_user d = Absent \/ usable (d_user d) -> sees t s f v ->
  exists w, set_to (fst (start d)) s f w /\ (d_user d = Absent -> w = v).
Proof.
  intros [t0 u] t s f v T U H S. cbn in T, H. subst. destruct H as [->|[c ->]].
  - rewrite start_fresh. cbn [fst]. exists v. split; auto. exists (validate t t). split; auto. apply C55_user_settings_kept; auto.
  - rewrite (start_holds t _ c eq_refl). cbn [fst]. destruct (C55_complete t c s f v U S) as ((w & W) & _). exists w. split; [exists (validate t c); auto|discriminate].
Qed.
Print Assumptions C89_complete.

Theorem C89_settles : forall d n, sound_template d -> d_user d = Absent \/ usable (d_user d) -> after (S n) d = after 1 d.
Proof.
  intros [t0 u] n (t & T & U) H. cbn in T, H. subst.
  assert (F : exists c, after 1 (Disk (Holds t) u) = Disk (Holds t) (Holds (validate t c))) by (destruct H as [->|[c ->]]; [exists t|exists c]; reflexivity).
  destruct F as [c F]. rewrite F. induction n as [|n IH]; auto. cbn [after] in *. rewrite IH. rewrite (start_holds t _ _ eq_refl). cbn [fst]. rewrite C55_idempotent by auto. auto.
Qed.
Print Assumptions C89_settles.

(** The help page is the user's, else that of the template, as long as every line that is no comment has a value. *)
Theorem C89_help : forall d t c v, d_template d = Holds t -> unique_fields t -> d_user d = Holds c -> all_valued (validate t c) ->
  sees c "global.other" "help_url" (Some v) \/
    ((forall w, ~ sees c "global.other" "help_url" w) /\ dget String.eqb "help_url" (c_defaults c) = None /\ sees t "global.other" "help_url" (Some v)) ->
  exists x, help_url (fst (start d)) = inl x /\ means v x.
Proof.
  intros [t0 u] t c v T U C V H. cbn in T, C. subst. rewrite (start_holds t _ c eq_refl). cbn [fst]. unfold help_url, setting_of. cbn [d_user].
  assert (X : sees (validate t c) "global.other" "help_url" (Some v)).
  { destruct H as [H|(N & D & S)]; [apply C55_user_settings_kept; auto|]. apply (C55_complete t c _ _ _ U S); auto. }
  assert (NC : ~ comment_line "help_url") by (intros [r [H'|H']]; discriminate).
  destruct (C55_read_back t (validate t c) _ _ v U X NC) as (x & G & M); [rewrite C55_idempotent; auto|].
  rewrite C55_idempotent in G by auto. rewrite G. eauto.
Qed.
Print Assumptions C89_help.

(** A start broken off anywhere leaves files with which the next one succeeds, and then every field of the template is there; a setting is
    there too unless the user's file was open for writing. *)
Theorem C89_broken_off : forall d t d' s f v, d_template d = Holds t -> unique_fields t -> d_user d = Absent \/ usable (d_user d) -> In d' (broken_off d) ->
  snd (start d') = Valid true /\ (sees t s f v -> exists w, set_to (fst (start d')) s f w) /\
  (d_user d' <> Holds empty_config -> forall w, set_to d s f w -> set_to (fst (start d')) s f w).
Proof.
  intros [t0 u] t d' s f v T U H I. cbn in T, H. subst.
  assert (X : d_template d' = Holds t /\ (d_user d' = Absent \/ usable (d_user d')) /\ (d_user d' <> Holds empty_config -> forall w, set_to (Disk (Holds t) u) s f w -> set_to d' s f w)).
  { destruct H as [->|[c ->]]; cbn in I.
    - assert (N : forall w, ~ set_to (Disk (Holds t) Absent) s f w) by (intros w (c & C & _); discriminate).
      destruct I as [<-|[<-|[<-|[<-|[<-|[]]]]]]; (split; [reflexivity|split; [cbn; unfold usable; eauto|intros _ w S; destruct (N w S)]]).
    - destruct I as [<-|[<-|[<-|[]]]]; (split; [reflexivity|split; [cbn; unfold usable; eauto|]]).
      + auto.
      + intros E. exfalso. apply E. reflexivity.
      + intros _ w S. destruct S as (c' & C & S). injection C as <-. exists (validate t c). split; auto. apply C55_user_settings_kept; auto. }
  destruct X as (T' & H' & K). destruct d' as [t' u']. cbn in T', H'. subst t'. split; [|split].
  - destruct H' as [->|[c ->]]; reflexivity.
  - intros S. destruct (C89_complete (Disk (Holds t) u') t s f v eq_refl U H' S) as (w & W & _). eauto.
  - intros E w S. apply (C89_kept 1); [exists t; auto|]. apply K; auto.
Qed.
Print Assumptions C89_broken_off.

(** Finding: a start broken off while the file is written (it is rewritten at every start) costs the settings of the user: *)
Theorem C89_broken_off_refuted : forall t c s f v, unique_fields t -> sees c s f (Some v) -> (forall w, ~ sees t s f w) ->
  exists d', In d' (broken_off (Disk (Holds t) (Holds c))) /\ forall n w, ~ set_to (after n d') s f w.
Proof.
  intros t c s f v U S N. exists (Disk (Holds t) (Holds empty_config)). split; [right; left; reflexivity|]. intros n w.
  assert (E0 : forall w, ~ sees empty_config s f w) by (intros w' H; discriminate).
  assert (E1 : forall w, ~ sees (validate t empty_config) s f w).
  { intros w' H. destruct (C55_nothing_else t empty_config s f w' U H) as [H1|[H1|H1]]; [eapply E0; eauto|eapply N; eauto|discriminate]. }
  destruct n as [|n].
  - intros (c' & C & H). injection C as <-. eapply E0; eauto.
  - rewrite C89_settles; [|exists t; auto|right; eexists; reflexivity]. intros (c' & C & H). injection C as <-. eapply E1; eauto.
Qed.
Print Assumptions C89_broken_off_refuted.

(** Finding: a file that is no configuration (one line before the first heading is enough) should be reported and end the program like other
    problems with the file; the exception reaches the caller. *)
Theorem C89_malformed_refuted : forall t, t <> Absent -> snd (start (Disk t Malformed)) = Raised /\ snd (start (Disk t Undecodable)) = Valid false.
Proof. intros t N. destruct t; [contradiction| | |]; split; reflexivity. Qed.
Print Assumptions C89_malformed_refuted.

(** * Several copies starting at the same time *)
(** No copy reads the file while another one has it open for writing. *)
Fixpoint calm (t : config) (st : cfile * list phase) (turns : list nat) : Prop :=
  match turns with
  | [] => True
  | i :: turns => (nth_error (snd st) i = Some Waiting -> forall c, ~ In (Writing c) (snd st)) /\ calm t (turn t st i) turns
  end.
Definition all_finished (st : cfile * list phase) : Prop := forall ph, In ph (snd st) -> ph = Finished.

Lemma put_in : forall l i ph x, In x (put i ph l) -> x = ph \/ In x l.
Proof. induction l as [|y l IH]; intros [|i] ph x H; cbn in *; auto. - destruct H; auto. - destruct H as [H|H]; auto. destruct (IH _ _ _ H); auto. Qed.
Lemma put_new : forall l i ph x, nth_error l i = Some x -> In ph (put i ph l).
Proof. induction l as [|y l IH]; intros [|i] ph x H; cbn in *; try discriminate; auto. right. eapply IH; eauto. Qed.
Lemma put_length : forall l i ph, List.length (put i ph l) = List.length l.
Proof. induction l as [|y l IH]; intros [|i] ph; cbn; auto. Qed.

Definition settled_state (c k : config) (st : cfile * list phase) : Prop :=
  (forall ph, In ph (snd st) -> ph = Waiting \/ ph = Loaded k \/ ph = Writing k \/ ph = Finished) /\
  (fst st = Holds c /\ (forall ph, In ph (snd st) -> ph = Waiting \/ ph = Loaded k) \/ fst st = Holds k \/ fst st = Holds empty_config /\ In (Writing k) (snd st)).
Lemma turn_settled : forall t c st i, unique_fields t -> settled_state c (validate t c) st ->
  (nth_error (snd st) i = Some Waiting -> forall c, ~ In (Writing c) (snd st)) -> settled_state c (validate t c) (turn t st i).
Proof.
  intros t c [f l] i U [A B] C. unfold turn. cbn [fst snd] in *. set (k := validate t c) in *. destruct (nth_error l i) as [ph|] eqn:E; [|split; auto].
  pose proof (nth_error_In _ _ E) as I. destruct (A ph I) as [->|[->|[->| ->]]]; cbn [advance].
  - specialize (C eq_refl). assert (F : exists c', f = Holds c' /\ validate t c' = k).
    { destruct B as [[B _]|[B|[_ B]]]; [exists c; auto|exists k; split; auto; apply C55_idempotent; auto|destruct (C _ B)]. }
    destruct F as (c' & -> & V). rewrite V. split; cbn [fst snd].
    + intros ph H. apply put_in in H. destruct H as [->|H]; auto.
    + destruct B as [[B N]|[B|[_ B]]]; [left; split; auto|right; left; auto|destruct (C _ B)]. intros ph H. apply put_in in H. destruct H as [->|H]; auto.
  - split; cbn [fst snd].
    + intros ph H. apply put_in in H. destruct H as [->|H]; auto.
    + right. right. split; auto. eapply put_new; eauto.
  - assert (W : written f k = Holds k).
    { destruct B as [[_ N]|[->|[-> _]]]; [destruct (N _ I); discriminate| |]; unfold written; [destruct (config_eq_dec k empty_config); auto; destruct (config_eq_dec k k); [auto|contradiction]|destruct (config_eq_dec empty_config empty_config); [auto|contradiction]]. }
    rewrite W. split; cbn [fst snd]; auto. intros ph H. apply put_in in H. destruct H as [->|H]; auto.
  - assert (L : forall l i, nth_error l i = Some Finished -> put i Finished l = l) by (clear; induction l as [|x l IH]; intros [|i] H; cbn in *; try discriminate; [injection H as ->; auto|rewrite IH; auto]).
    rewrite L by auto. split; auto.
Qed.

(** Any number of copies, taking turns in any order, leave the file as one start does, and none fails, unless one reads it while another writes. *)
Theorem C89_together : forall t c n turns, unique_fields t -> let st := (Holds c, repeat Waiting (S n)) in calm t st turns ->
  ~ In Failed (snd (schedule t st turns)) /\
  (all_finished (schedule t st turns) -> fst (schedule t st turns) = Holds (validate t c)) /\ forall s f v, sees c s f v -> sees (validate t c) s f v.
Proof.
  intros t c n turns U st C.
  assert (H : forall turns st, calm t st turns -> settled_state c (validate t c) st -> settled_state c (validate t c) (schedule t st turns) /\ List.length (snd (schedule t st turns)) = List.length (snd st)).
  { clear - U. induction turns as [|i turns IH]; intros st C S; [split; auto|]. destruct C as [C1 C2]. cbn [schedule fold_left]. fold (schedule t (turn t st i) turns).
    destruct (IH _ C2 (turn_settled t c st i U S C1)) as [X Y]. split; auto. rewrite Y. unfold turn. destruct (nth_error (snd st) i); auto. destruct (advance t (fst st) p). cbn [snd]. apply put_length. }
  destruct (H turns st C) as [[A B] L].
  { split; [|left; split; auto]; intros ph I; apply repeat_spec in I; auto. }
  split; [intros I; destruct (A _ I) as [X|[X|[X|X]]]; discriminate|]. split; [|intros; apply C55_user_settings_kept; auto]. intros F.
  destruct B as [[_ N]|[B|[_ N]]]; auto; exfalso.
  - destruct (snd (schedule t st turns)) as [|ph l] eqn:E; [cbn in L; discriminate|]. assert (I : In ph (snd (schedule t st turns))) by (rewrite E; left; auto). rewrite <- E in N. specialize (F _ I). subst ph. rewrite E in *. destruct (N Finished); [left; auto|discriminate|discriminate].
  - specialize (F _ N). discriminate.
Qed.
Print Assumptions C89_together.

(** Finding: nothing prevents that. Two copies started together can lose the settings for good: *)
Theorem C89_together_refuted : forall t c s f v, unique_fields t -> sees c s f (Some v) -> (forall w, ~ sees t s f w) ->
  exists turns u, let st := schedule t (Holds c, [Waiting; Waiting]) turns in all_finished st /\ fst st = Holds u /\ forall n w, ~ set_to (after n (Disk (Holds t) (Holds u))) s f w.
Proof.
  intros t c s f v U S N. exists [0; 0; 1; 0; 1; 1]%nat, (validate t empty_config).
  assert (E : schedule t (Holds c, [Waiting; Waiting]) [0; 0; 1; 0; 1; 1]%nat = (Holds (validate t empty_config), [Finished; Finished])).
  { unfold schedule. cbn [fold_left]. unfold turn. cbn [fst snd nth_error advance put]. cbn [written]. destruct (config_eq_dec empty_config empty_config); [|contradiction]. cbn [fst snd nth_error advance put written].
    destruct (config_eq_dec empty_config empty_config); [|contradiction]. reflexivity. }
  cbv zeta. rewrite E. split; [intros ph [<-|[<-|[]]]; auto|]. split; [reflexivity|]. intros n w.
  assert (E0 : forall w, ~ sees empty_config s f w) by (intros w' H; discriminate).
  assert (E1 : forall w, ~ sees (validate t empty_config) s f w).
  { intros w' H. destruct (C55_nothing_else t empty_config s f w' U H) as [H1|[H1|H1]]; [eapply E0; eauto|eapply N; eauto|discriminate]. }
  destruct n as [|n]; [intros (c' & C & H); injection C as <-; eapply E1; eauto|]. rewrite C89_settles; [|exists t; auto|right; eexists; reflexivity].
  intros (c' & C & H). injection C as <-. rewrite C55_idempotent in H by auto. eapply E1; eauto.
Qed.
Print Assumptions C89_together_refuted.

(** Two copies that read one after the other, then write one after the other. *)
Example C89_ex_together : let t := Config [] [("global.other", [("help_url", Some "https://github.com")])] in
  let c := Config [] [("ui", [("theme", Some "dark")])] in let st := (Holds c, [Waiting; Waiting]) in
  calm t st [0; 1; 0; 1; 1; 0]%nat /\ all_finished (schedule t st [0; 1; 0; 1; 1; 0]%nat) /\ fst (schedule t st [0; 1; 0; 1; 1; 0]%nat) = Holds (validate t c).
Proof.
  intros t c st. split; [|split; [|reflexivity]].
  - cbn. repeat (split; [intros H; try discriminate H; intros ? [K|[K|[]]]; discriminate K|]). exact I.
  - intros ph H. vm_compute in H. destruct H as [<-|[<-|[]]]; auto.
Qed.

Example C89_ex : let t := Config [] [("global.other", [("help_url", Some "https://github.com")])] in
  let c := Config [] [("ui", [("# colours", None); ("theme", Some "dark")])] in
  let d := Disk (Holds t) (Holds c) in
  sound_template d /\ set_to d "ui" "theme" (Some "dark") /\ (forall w, ~ sees t "ui" "theme" w) /\ all_valued (validate t c) /\
  help_url (fst (start d)) = inl (SStr "https://github.com") /\ help_url (fst (start (Disk (Holds t) Absent))) = inl (SStr "https://github.com") /\
  setting_of (after 3 d) "ui" "theme" = inl (SStr "dark").
Proof.
  intros t c d. split.
  { exists t. split; auto. intros s fs H. cbn in H. destruct (String.eqb s _); [|discriminate]. injection H as <-. repeat constructor. cbn; tauto. }
  split; [exists c; split; reflexivity|]. split; [intros w H; discriminate|]. split; [apply all_valued_visible; reflexivity|]. repeat split.
Qed.
