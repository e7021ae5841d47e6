(** Property C61, continued: an instrument after any sequence of parameter files. *)
From Coq Require Import Reals List String Bool Lia Lra.
From Verif Require Import Base LinAlg M_Utilities M_Tas M_Goni M_Components P_Components P_Components2 M_InstrumentFile.
Import ListNotations.
Open Scope string_scope.
Open Scope list_scope.

(** * Specification *)
(** The kinds of parts, in the order in which they are made. *)
Definition kinds : list string := ["source"; "collimators"; "guide"; "monochromator"; "monitor"; "goniometer"; "analyzer"; "detector"; "distances"].
(** The part [n] which a file describes: the class for [n] makes it from the parameters there. *)
Definition makes (config : dict string attrs) (n : string) (c : attrs) : Prop :=
  exists p mk, dget String.eqb n config = Some p /\ In (n, mk) component_classes /\ mk (Some p) n = Ok c.
(** A part that the file describes wrongly. *)
Definition spoils (config : dict string attrs) (n : string) : Prop :=
  exists p mk e, dget String.eqb n config = Some p /\ In (n, mk) component_classes /\ mk (Some p) n = Err e.
(** Loading a file sets the part [n] to [c]: the file describes it, and nothing that comes before it in the order is wrong. *)
Definition sets_part (d : disk) (path n : string) (c : attrs) : Prop :=
  exists config, d path = Some (Ok config) /\ makes config n c /\
    exists before after, kinds = before ++ n :: after /\ forall m, In m before -> ~ spoils config m.
(** A file loads completely. *)
Definition loads (d : disk) (path : string) : Prop := exists config, d path = Some (Ok config) /\ forall n, ~ spoils config n.

(** * Proofs *)
Lemma kinds_classes : map fst component_classes = kinds. Proof. reflexivity. Qed.
Lemma kinds_nodup : NoDup kinds.
Proof. unfold kinds. repeat (constructor; [cbn; intuition discriminate|]). constructor. Qed.
Lemma class_unique : forall n mk mk', In (n, mk) component_classes -> In (n, mk') component_classes -> mk = mk'.
Proof.
  intros n mk mk' I J. unfold component_classes in I, J. cbn [In] in I, J.
  repeat (destruct I as [I|I]; [injection I as <- <-; repeat (destruct J as [J|J]; [first [discriminate J | injection J as <-; reflexivity]|]); destruct J|]). destruct I.
Qed.
Lemma dget_set : forall (i : parts) k n c, dget String.eqb k (dset String.eqb n c i) = if String.eqb k n then Some c else dget String.eqb k i.
Proof.
  intros i k n c. induction i as [|[k0 v0] i]; cbn.
  - rewrite String.eqb_sym. destruct (String.eqb k n); auto.
  - destruct (String.eqb_spec n k0) as [->|N]; cbn. { destruct (String.eqb_spec k k0); auto. } destruct (String.eqb_spec k k0) as [->|NK]; auto. destruct (String.eqb_spec k0 n); [congruence|auto].
Qed.
(** the loop over some of the classes *)
Lemma loop_spec : forall classes config i i' e, NoDup (map fst classes) -> load_loop classes config i = (i', e) ->
  (e = None <-> forall n p mk, In (n, mk) classes -> dget String.eqb n config = Some p -> exists c, mk (Some p) n = Ok c) /\
  forall n c, dget String.eqb n i' = Some c <->
    (exists b mk a p, classes = b ++ (n, mk) :: a /\ dget String.eqb n config = Some p /\ mk (Some p) n = Ok c /\ (forall m mk' q, In (m, mk') b -> dget String.eqb m config = Some q -> exists x, mk' (Some q) m = Ok x)) \/
    (dget String.eqb n i = Some c /\ ~ exists c' b mk a p, classes = b ++ (n, mk) :: a /\ dget String.eqb n config = Some p /\ mk (Some p) n = Ok c' /\ (forall m mk' q, In (m, mk') b -> dget String.eqb m config = Some q -> exists x, mk' (Some q) m = Ok x)).
Proof.
  induction classes as [|[n0 mk0] cs IH]; intros config i i' e ND H.
  - cbn in H. injection H as <- <-. split; [split; [intros _ n p mk []|auto]|]. intros n c. split.
    + intros G. right. split; auto. intros (c' & b & mk & a & p & E & _). destruct b; discriminate.
    + intros [(b & mk & a & p & E & _)|[G _]]; auto. destruct b; discriminate.
  - inversion ND as [|? ? NI ND']; subst. cbn [load_loop] in H. destruct (dget String.eqb n0 config) as [p0|] eqn:G0.
    + destruct (mk0 (Some p0) n0) as [c0|e0] eqn:M0.
      * destruct (IH _ _ _ _ ND' H) as [IE IG]. split.
        { rewrite IE. split; intros A. - intros n p mk [E|I] G. + injection E as <- <-. rewrite G0 in G. injection G as <-. eauto. + eauto. - intros n p mk I G. apply (A n p mk); auto. right. auto. }
        intros n c. rewrite IG. split.
        { intros [(b & mk & a & p & E & G & M & B)|[G N]].
          - left. exists ((n0, mk0) :: b), mk, a, p. subst. split; auto. split; auto. split; auto. intros m mk' q [E|I] Q; [injection E as <- <-; rewrite G0 in Q; injection Q as <-; eauto|eauto].
          - rewrite dget_set in G. destruct (String.eqb_spec n n0) as [->|NN].
            + injection G as ->. left. exists [], mk0, cs, p0. split; auto. split; auto. split; auto. intros m mk' q [].
            + right. split; auto. intros (c' & b & mk & a & p & E & Q & M & B). apply N. destruct b as [|[n1 mk1] b]; [injection E as -> _ _; contradiction|]. injection E as _ _ E. exists c', b, mk, a, p. split; auto. split; auto. split; auto. intros m mk' q I. apply B. right. auto. }
        { intros [(b & mk & a & p & E & G & M & B)|[G N]].
          - destruct b as [|[n1 mk1] b].
            + injection E as -> -> ->. rewrite G0 in G. injection G as ->. rewrite M0 in M. injection M as ->. right. rewrite dget_set, String.eqb_refl. split; auto. intros (c' & b & mk' & a' & p' & E & _). apply NI. rewrite E, map_app. apply in_or_app. right. left. auto.
            + injection E as -> -> E. left. exists b, mk, a, p. split; auto. split; auto. split; auto. intros m mk' q I. apply B. right. auto.
          - right. rewrite dget_set. destruct (String.eqb_spec n n0) as [->|NN].
            + exfalso. apply N. exists c0, [], mk0, cs, p0. split; auto. split; auto. split; auto. intros m mk' q [].
            + split; auto. intros (c' & b & mk & a & p & E & Q & M & B). apply N. exists c', ((n0, mk0) :: b), mk, a, p. subst. split; auto. split; auto. split; auto. intros m mk' q [E|I] Q'; [injection E as <- <-; rewrite G0 in Q'; injection Q' as <-; eauto|eauto]. }
      * injection H as <- <-. split. { split; [discriminate|]. intros A. destruct (A n0 p0 mk0 (or_introl eq_refl) G0) as (c & M). congruence. }
        intros n c. split.
        { intros G. right. split; auto. intros (c' & b & mk & a & p & E & Q & M & B). destruct b as [|[n1 mk1] b]. { injection E as -> -> _. rewrite G0 in Q. injection Q as ->. congruence. }
          injection E as -> -> _. destruct (B n1 mk1 p0 (or_introl eq_refl) G0) as (x & X). congruence. }
        { intros [(b & mk & a & p & E & Q & M & B)|[G _]]; auto. exfalso. destruct b as [|[n1 mk1] b]. { injection E as -> -> _. rewrite G0 in Q. injection Q as ->. congruence. }
          injection E as -> -> _. destruct (B n1 mk1 p0 (or_introl eq_refl) G0) as (x & X). congruence. }
    + destruct (IH _ _ _ _ ND' H) as [IE IG]. split.
      { rewrite IE. split; intros A. - intros n p mk [E|I] G. + injection E as <- <-. congruence. + eauto. - intros n p mk I G. apply (A n p mk); auto. right. auto. }
      assert (EQ : forall n c, (exists b mk a p, (n0, mk0) :: cs = b ++ (n, mk) :: a /\ dget String.eqb n config = Some p /\ mk (Some p) n = Ok c /\ (forall m mk' q, In (m, mk') b -> dget String.eqb m config = Some q -> exists x, mk' (Some q) m = Ok x)) <->
        (exists b mk a p, cs = b ++ (n, mk) :: a /\ dget String.eqb n config = Some p /\ mk (Some p) n = Ok c /\ (forall m mk' q, In (m, mk') b -> dget String.eqb m config = Some q -> exists x, mk' (Some q) m = Ok x))).
      { intros n c. split.
        - intros (b & mk & a & p & E & Q & M & B). destruct b as [|[n1 mk1] b]; [injection E as -> -> _; congruence|]. injection E as -> -> E. exists b, mk, a, p. split; auto. split; auto. split; auto. intros m mk' q I. apply B. right. auto.
        - intros (b & mk & a & p & E & Q & M & B). exists ((n0, mk0) :: b), mk, a, p. subst. split; auto. split; auto. split; auto. intros m mk' q [E|I] Q'; [injection E as <- <-; congruence|eauto]. }
      intros n c. rewrite IG, (EQ n c). split; (intros [A|[G N]]; [left; exact A|right; split; [exact G|]]); intros (c' & X); apply N; exists c'; apply EQ; exact X.
Qed.
Lemma result_cases : forall {A} (r : result A), (exists x, r = Ok x) \/ exists e, r = Err e.
Proof. intros A [x|e]; eauto. Qed.
Lemma sets_loop : forall d path config n c, d path = Some (Ok config) ->
  (sets_part d path n c <-> exists b mk a p, component_classes = b ++ (n, mk) :: a /\ dget String.eqb n config = Some p /\ mk (Some p) n = Ok c /\ (forall m mk' q, In (m, mk') b -> dget String.eqb m config = Some q -> exists x, mk' (Some q) m = Ok x)).
Proof.
  intros d path config n c D. split.
  - intros (config' & D' & (p & mk & G & I & M) & before & after & K & NS). rewrite D in D'. injection D' as <-. apply in_split in I. destruct I as (b & a & E). exists b, mk, a, p. split; auto. split; auto. split; auto.
    assert (BE : map fst b = before). { pose proof kinds_nodup as ND. rewrite <- kinds_classes, E, map_app in K. cbn in K. rewrite <- kinds_classes, E, map_app in ND. cbn in ND. clear - K ND. revert before K. generalize dependent (map fst b). induction l as [|x l IHl]; intros ND before K; destruct before as [|y before]; auto; cbn in *.
      - injection K as -> K. inversion ND; subst. exfalso. apply H1. rewrite K. apply in_or_app. right. left. auto.
      - injection K as -> K. inversion ND; subst. exfalso. apply H1. apply in_or_app. right. left. auto.
      - injection K as -> K. inversion ND; subst. f_equal. auto. }
    intros m mk' q I Q. destruct (result_cases (mk' (Some q) m)) as [X|(e & X)]; auto. exfalso. apply (NS m). { rewrite <- BE. apply (in_map fst) in I. exact I. }
    exists q, mk', e. split; auto. split; auto. rewrite E. apply in_or_app. auto.
  - intros (b & mk & a & p & E & G & M & B). exists config. split; auto. split. { exists p, mk. split; auto. split; auto. rewrite E. apply in_or_app. right. left. auto. }
    exists (map fst b), (map fst a). split. { rewrite <- kinds_classes, E, map_app. reflexivity. }
    intros m I (q & mk' & e & Q & I' & X). apply in_map_iff in I. destruct I as ([m0 mk0] & F & I). cbn in F. subst m0.
    assert (mk0 = mk'). { eapply class_unique; eauto. rewrite E. apply in_or_app. auto. } subst mk0. destruct (B m mk' q I Q) as (x & X'). congruence.
Qed.
Lemma load_once : forall d path i i' e, load_json d path i = (i', e) ->
  (forall n c, dget String.eqb n (in_parts i') = Some c <-> sets_part d path n c \/ dget String.eqb n (in_parts i) = Some c /\ ~ exists c', sets_part d path n c') /\
  (loads d path -> in_json_path i' = Some path) /\ (~ loads d path -> in_json_path i' = in_json_path i).
Proof.
  intros d path i i' e H. unfold load_json in H. destruct (d path) as [[config|e0]|] eqn:D.
  - destruct (load_instrument_parameters config (in_parts i)) as [p e1] eqn:LI. unfold load_instrument_parameters in LI. apply loop_spec in LI; [|rewrite kinds_classes; apply kinds_nodup]. destruct LI as [IE IG].
    assert (P : in_parts i' = p) by (destruct e1; injection H as <- _; auto).
    assert (LD : loads d path <-> e1 = None).
    { rewrite IE. split.
      - intros (config' & D' & NS) n p0 mk I G. rewrite D in D'. injection D' as <-. destruct (result_cases (mk (Some p0) n)) as [X|(e2 & X)]; auto. exfalso. apply (NS n). exists p0, mk, e2. auto.
      - intros A. exists config. split; auto. intros n (p0 & mk & e2 & G & I & X). destruct (A n p0 mk I G) as (c & C). congruence. }
    split; [|split].
    + intros n c. rewrite P, IG. rewrite (sets_loop d path config n c D). split; (intros [A|[G N]]; [left; exact A|right; split; [exact G|]]); intros (c' & X); apply N; exists c'.
      * apply (sets_loop d path config n c' D). exact X.
      * apply (sets_loop d path config n c' D) in X. exact X.
    + intros L. apply LD in L. subst e1. injection H as <- _. reflexivity.
    + intros NL. destruct e1; [injection H as <- _; reflexivity|]. exfalso. apply NL, LD. auto.
  - injection H as <- _. assert (NS : forall n c, ~ sets_part d path n c) by (intros n c (config & D' & _); congruence). split; [|split; [intros (config & D' & _); congruence|auto]].
    intros n c. split. { intros G. right. split; auto. intros (c' & S). apply (NS n c' S). } intros [S|[G _]]; auto. exfalso. apply (NS n c S).
  - injection H as <- _. assert (NS : forall n c, ~ sets_part d path n c) by (intros n c (config & D' & _); congruence). split; [|split; [intros (config & D' & _); congruence|auto]].
    intros n c. split. { intros G. right. split; auto. intros (c' & S). apply (NS n c' S). } intros [S|[G _]]; auto. exfalso. apply (NS n c S).
Qed.

(** * The theorems *)
(** After any sequence of files, whatever is in them: a part is the one of the last file that sets it, or the one there was before; *)
Theorem C61_history : forall d paths i n c,
  dget String.eqb n (in_parts (load_all d paths i)) = Some c <->
  (exists before path after, paths = before ++ path :: after /\ sets_part d path n c /\ forall later c', In later after -> ~ sets_part d later n c') \/
  (dget String.eqb n (in_parts i) = Some c /\ forall path c', In path paths -> ~ sets_part d path n c').
Proof.
  intros d paths. induction paths as [|p ps IH] using rev_ind; intros i n c.
  - cbn. split. { intros G. right. split; auto. } intros [(b & q & a & E & _)|[G _]]; auto. destruct b; discriminate.
  - unfold load_all. rewrite fold_left_app. cbn [fold_left]. fold (load_all d ps i). destruct (load_json d p (load_all d ps i)) as [i' e] eqn:L. cbn [fst]. destruct (load_once _ _ _ _ _ L) as (G & _ & _). rewrite G, IH. split.
    + intros [S|[[(b & q & a & E & S & N)|[Q N]] NS]].
      * left. exists ps, p, []. split; [auto|]. split; [auto|]. intros l c' [].
      * left. exists b, q, (a ++ [p]). split. { rewrite E, <- app_assoc. reflexivity. } split; auto. intros l c' I. apply in_app_or in I. destruct I as [I|[<-|[]]]; eauto. 
      * right. split; auto. intros q c' I. apply in_app_or in I. destruct I as [I|[<-|[]]]; eauto.
    + intros [(b & q & a & E & S & N)|[Q N]].
      * destruct a as [|x a] using rev_ind. { apply app_inj_tail in E. destruct E as [_ <-]. left. auto. }
        clear IHa. right. rewrite app_comm_cons, app_assoc in E. apply app_inj_tail in E. destruct E as [-> <-]. split. { left. exists b, q, a. split; auto. split; auto. intros l c' I. apply N. apply in_or_app. auto. } intros (c' & S'). apply (N p c'); auto. apply in_or_app. right. left. auto.
      * right. split. { right. split; auto. intros q c' I. apply N. apply in_or_app. auto. } intros (c' & S'). apply (N p c'); auto. apply in_or_app. right. left. auto.
Qed.
(** the path kept is that of the last file that loaded completely. *)
Theorem C61_path : forall d paths i path,
  in_json_path (load_all d paths i) = Some path <->
  (exists before after, paths = before ++ path :: after /\ loads d path /\ forall later, In later after -> ~ loads d later) \/
  (in_json_path i = Some path /\ forall p, In p paths -> ~ loads d p).
Proof.
  assert (DEC : forall d p, loads d p \/ ~ loads d p).
  { intros d p. destruct (load_json d p new_instrument) as [i e] eqn:L. unfold load_json in L. destruct (d p) as [[config|e0]|] eqn:D; [|right; intros (c & D' & _); congruence|right; intros (c & D' & _); congruence].
    destruct (load_instrument_parameters config []) as [q e1] eqn:LI. unfold load_instrument_parameters in LI. apply loop_spec in LI; [|rewrite kinds_classes; apply kinds_nodup]. destruct LI as [IE _]. destruct e1.
    - right. intros (config' & D' & NS). rewrite D in D'. injection D' as <-. assert (X : Some e0 = None); [|discriminate]. apply IE. intros n p0 mk I G. destruct (result_cases (mk (Some p0) n)) as [Y|(e2 & Y)]; auto. exfalso. apply (NS n). exists p0, mk, e2. auto.
    - left. exists config. split; auto. intros n (p0 & mk & e2 & G & I & X). destruct (proj1 IE eq_refl n p0 mk I G) as (c & C). congruence. }
  intros d paths. induction paths as [|p ps IH] using rev_ind; intros i path.
  - cbn. split. { intros G. right. split; auto. } intros [(b & a & E & _)|[G _]]; auto. destruct b; discriminate.
  - unfold load_all. rewrite fold_left_app. cbn [fold_left]. fold (load_all d ps i). destruct (load_json d p (load_all d ps i)) as [i' e] eqn:L. cbn [fst]. destruct (load_once _ _ _ _ _ L) as (_ & GL & GN). destruct (DEC d p) as [LD|LD].
    + rewrite (GL LD). split. { intros E. injection E as ->. left. exists ps, []. split; [auto|]. split; [auto|]. intros l []. } intros [(b & a & E & S & N)|[Q N]].
      * destruct a as [|x a] using rev_ind. { apply app_inj_tail in E. destruct E as [_ <-]. auto. } exfalso. clear IHa. rewrite app_comm_cons, app_assoc in E. apply app_inj_tail in E. destruct E as [_ <-]. apply (N p); auto. apply in_or_app. right. left. auto.
      * exfalso. apply (N p); auto. apply in_or_app. right. left. auto.
    + rewrite (GN LD), IH. split.
      * intros [(b & a & E & S & N)|[Q N]]. { left. exists b, (a ++ [p]). split. { rewrite E, <- app_assoc. reflexivity. } split; auto. intros l I. apply in_app_or in I. destruct I as [I|[<-|[]]]; auto. }
        right. split; auto. intros q I. apply in_app_or in I. destruct I as [I|[<-|[]]]; auto.
      * intros [(b & a & E & S & N)|[Q N]]. { destruct a as [|x a] using rev_ind. { apply app_inj_tail in E. destruct E as [_ <-]. contradiction. } clear IHa. rewrite app_comm_cons, app_assoc in E. apply app_inj_tail in E. destruct E as [-> <-]. left. exists b, a. split; auto. split; auto. intros l I. apply N. apply in_or_app. auto. }
        right. split; auto. intros q I. apply N. apply in_or_app. auto.
Qed.
(** So the parts are not those of the file named: a part that the last file leaves out stays from an earlier one, and a file that is refused leaves what it set. *)
Theorem C61_path_refuted :
  (exists d first second i, i = load_all d [first; second] new_instrument /\ in_json_path i = Some second /\ (exists c, dget String.eqb "guide" (in_parts i) = Some c) /\ forall c, ~ sets_part d second "guide" c) /\
  (exists d first second i, i = load_all d [first; second] new_instrument /\ in_json_path i = Some first /\ (exists c, dget String.eqb "source" (in_parts i) = Some c) /\ forall c, ~ sets_part d first "source" c).
Proof.
  split.
  - exists (fun p => if String.eqb p "a" then Some (Ok [("guide", [("div_h", ANum 15)])]) else Some (Ok [("source", [("width", ANum 10)])])), "a", "b". eexists. split; [reflexivity|]. split; [reflexivity|]. split; [eexists; reflexivity|].
    intros c (config & D & (p & mk & G & _) & _). cbn in D. injection D as <-. discriminate.
  - exists (fun p => if String.eqb p "a" then Some (Ok [("guide", [("div_h", ANum 15)])]) else Some (Ok [("source", [("width", ANum 10)]); ("monochromator", [("type", AStr "PG200")])])), "a", "b". eexists. split; [reflexivity|]. split; [reflexivity|]. split; [eexists; reflexivity|].
    intros c (config & D & (p & mk & G & _) & _). cbn in D. injection D as <-. discriminate.
Qed.
Print Assumptions C61_history.
Print Assumptions C61_path.
Print Assumptions C61_path_refuted.

Example C61_history_example : let d := fun p => if String.eqb p "a" then Some (Ok [("guide", [("div_h", ANum 15)])]) else if String.eqb p "b" then Some (Ok [("source", [("width", ANum 10)])]) else None in
  let i := load_all d ["a"; "b"; "nothing"] new_instrument in
  in_json_path i = Some "b" /\ loads d "b" /\ exists c, sets_part d "b" "source" c /\ dget String.eqb "source" (in_parts i) = Some c.
Proof.
  cbv zeta. split; [reflexivity|]. split.
  - eexists. split; [reflexivity|]. intros n (p & mk & e & G & I & X). cbn in G. destruct (String.eqb_spec n "source") as [->|]; [|discriminate]. injection G as <-. assert (M : mk = component size_props source_defaults) by (apply (class_unique "source"); [exact I|left; reflexivity]). subst mk. discriminate.
  - eexists. split; [|reflexivity]. eexists. split; [reflexivity|]. split. { do 2 eexists. split; [reflexivity|]. split; [left; reflexivity|reflexivity]. } exists [], (tl kinds). split; [reflexivity|]. intros m [].
Qed.
