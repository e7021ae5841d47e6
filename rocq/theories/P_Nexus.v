(** Properties C37 (lookup in an entry) and C38 (writing to and reading from a NeXus file). *)
From Coq Require Import Reals List String Ascii Bool Lia.
From Verif Require Import Base PyStr M_Tavi P_Tavi M_Nexus.
Import ListNotations.
Open Scope string_scope.
Open Scope list_scope.

Section Ind.
  Context (P : val -> Prop) (HL : forall x, P (Leaf x)) (HD : forall l, Forall (fun kv => P (snd kv)) l -> P (Dict l)).
  Fixpoint val_ind2 (v : val) : P v :=
    match v with
    | Leaf x => HL x
    | Dict l => HD l ((fix all (l : list (string * val)) : Forall (fun kv => P (snd kv)) l :=
        match l with [] => Forall_nil _ | kv :: l' => Forall_cons kv (val_ind2 (snd kv)) (all l') end) l)
    end.
End Ind.

(** * Specification *)
(** the value at a path of keys *)
Fixpoint follow (p : list string) (v : val) : option val :=
  match p with [] => Some v | k :: p' => match sget k (items v) with Some v' => follow p' v' | None => None end end.
(** keys that are names of fields or groups *)
Definition named (k : string) : Prop := k <> "attrs" /\ k <> "dataset".
(** every dict has distinct keys (as any Python dict) *)
Fixpoint distinct (v : val) : Prop :=
  match v with
  | Leaf _ => True
  | Dict l => NoDup (map fst l) /\ (fix all (l : list (string * val)) : Prop := match l with [] => True | (_, v') :: l' => distinct v' /\ all l' end) l
  end.
Lemma distinct_in : forall l k v, distinct (Dict l) -> In (k, v) l -> distinct v.
Proof. intros l k v [_ H] I. induction l as [|[k' v'] l]; [destruct I|]. destruct H as [A B]. destruct I as [[= -> ->]|I]; auto. Qed.

Section Lookup.
  Context (full : list string) (wanted : string).
  Notation go := (go full wanted).
  Fixpoint search (l : list (string * val)) : result (option val) :=
    match l with
    | [] => Ok None
    | (k, v) :: l' =>
        if String.eqb k "attrs" || String.eqb k "dataset" then search l'
        else match v with
             | Leaf _ => search l'
             | Dict _ => do r <- go v None; match r with Some x => Ok (Some x) | None => search l' end
             end
    end.
  Fixpoint child (k : string) (rest : list string) (l : list (string * val)) : result (option val) :=
    match l with [] => Ok None | (k', v) :: l' => if String.eqb k k' then go v (Some rest) else child k rest l' end.
  Lemma go_dict : forall l w, go (Dict l) w = match w with
        | Some [] => match sget wanted l with Some v => Ok (Some v) | None => search l end
        | Some (k :: ks) => child k ks l
        | None => match full with k :: ks => if dmem String.eqb k l then child k ks l else search l | [] => search l end
        end.
  Proof. reflexivity. Qed.
  Lemma child_get : forall k rest l, child k rest l = match sget k l with Some v => go v (Some rest) | None => Ok None end.
  Proof. induction l as [|[k' v] l]; cbn; auto. destruct (String.eqb k k'); auto. Qed.

  (** Whatever is found is the wanted item at the end of the key, somewhere in the entry. *)
  Lemma go_sound : forall t, distinct t -> forall w v, go t w = Ok (Some v) ->
    (exists ks, w = Some ks /\ follow (ks ++ [wanted]) t = Some v) \/ (exists p, Forall (fun k => True) p /\ follow (p ++ full ++ [wanted]) t = Some v).
  Proof.
    induction t as [x|l IH] using val_ind2; intros D w v H.
    { cbn in H. destruct w; discriminate. }
    assert (S : forall l', (forall kv, In kv l' -> In kv l) -> search l' = Ok (Some v) -> exists p, follow (p ++ full ++ [wanted]) (Dict l) = Some v).
    { induction l' as [|[k c] l']; intros IN E; cbn [search] in E; [discriminate|].
      destruct (String.eqb k "attrs" || String.eqb k "dataset"). { apply IHl'; auto. intros; apply IN; right; auto. }
      destruct c as [x|lc]. { apply IHl'; auto. intros; apply IN; right; auto. }
      destruct (go (Dict lc) None) as [[y|]|] eqn:G; cbn [bind] in E; [|apply IHl'; auto; intros; apply IN; right; auto|discriminate].
      apply Ok_inj in E. injection E as ->. assert (I : In (k, Dict lc) l) by (apply IN; left; auto).
      rewrite Forall_forall in IH. destruct (IH _ I (distinct_in _ _ _ D I) None v G) as [(ks & ? & _)|(p & _ & F)]; [discriminate|].
      exists (k :: p). cbn [app follow items]. rewrite (in_sget k l (Dict lc)); auto. destruct D; auto. }
    assert (C : forall k ks, child k ks l = Ok (Some v) -> follow (k :: ks ++ [wanted]) (Dict l) = Some v \/ exists p, follow (p ++ full ++ [wanted]) (Dict l) = Some v).
    { intros k ks E. rewrite child_get in E. destruct (sget k l) as [c|] eqn:G; [|discriminate]. pose proof (sget_in _ _ _ G) as I.
      rewrite Forall_forall in IH. destruct (IH _ I (distinct_in _ _ _ D I) _ v E) as [(ks' & [= <-] & F)|(p & _ & F)].
      - left. cbn [follow items]. rewrite G. auto. - right. exists (k :: p). cbn [app follow items]. rewrite G. auto. }
    rewrite go_dict in H. destruct w as [[|k ks]|].
    - destruct (sget wanted l) as [x|] eqn:G.
      + apply Ok_inj in H. injection H as ->. left. exists []. split; auto. cbn. rewrite G. auto.
      + right. destruct (S l) as (p & F); auto. exists p. split; auto. apply Forall_forall. auto.
    - destruct (C k ks H) as [F|(p & F)]; [left; exists (k :: ks); auto|right; exists p; split; auto; apply Forall_forall; auto].
    - right. destruct full as [|k ks] eqn:FE.
      + destruct (S l) as (p & F); auto. exists p. split; auto. apply Forall_forall. auto.
      + destruct (dmem String.eqb k l). * destruct (C k ks H) as [F|(p & F)]; [exists []|exists p]; (split; [apply Forall_forall; auto|exact F]).
        * destruct (S l) as (p & F); auto. exists p. split; auto. apply Forall_forall. auto.
  Qed.
End Lookup.

(** Completeness *)
Section Complete.
  Context (k1 : string) (ks : list string) (wanted : string).
  Notation full := (k1 :: ks).
  (** Wherever the first name of the key occurs, the whole key leads to the wanted item (no half-matching place). *)
  Definition unambiguous (t : val) : Prop := forall p, Forall named p -> follow (p ++ [k1]) t <> None -> exists v, follow (p ++ full ++ [wanted]) t = Some v.

  Lemma unambiguous_sub : forall l k v, NoDup (map fst l) -> named k -> In (k, v) l -> unambiguous (Dict l) -> unambiguous v.
  Proof.
    intros l k v N NK I U p NP F. destruct (U (k :: p)) as (x & X). { constructor; auto. }
    - cbn [app follow items]. rewrite (in_sget k l v); auto. - exists x. cbn [app follow items] in X. rewrite (in_sget k l v) in X; auto.
  Qed.
  Lemma walk_ok : forall rest t v, follow (rest ++ [wanted]) t = Some v -> go full wanted t (Some rest) = Ok (Some v).
  Proof.
    induction rest as [|k rest]; intros t v F; cbn [app follow] in F; destruct t as [x|l]; cbn [items] in F; try (cbn in F; discriminate).
    - rewrite go_dict. destruct (sget wanted l); [|discriminate]. cbn in F. congruence.
    - rewrite go_dict, child_get. destruct (sget k l); [|discriminate]. auto.
  Qed.
  Lemma not_reserved : forall k, String.eqb k "attrs" || String.eqb k "dataset" = false -> named k.
  Proof. intros k Q. apply orb_false_iff in Q. rewrite !String.eqb_neq in Q. auto. Qed.
  Lemma here : forall l, unambiguous (Dict l) -> dmem String.eqb k1 l = true -> exists v, child full wanted k1 ks l = Ok (Some v).
  Proof.
    intros l U M. unfold dmem in M. destruct (U [] (Forall_nil _)) as (v & X). { cbn. destruct (sget k1 l); discriminate. }
    cbn [app follow items] in X. rewrite child_get. destruct (sget k1 l); [|discriminate]. exists v. apply walk_ok. auto.
  Qed.
  Lemma go_total : forall t, distinct t -> unambiguous t -> exists r, go full wanted t None = Ok r.
  Proof.
    induction t as [x|l IH] using val_ind2; intros D U; [cbn; eauto|]. rewrite go_dict. destruct (dmem String.eqb k1 l) eqn:M.
    - destruct (here l U M) as (v & V). eauto.
    - assert (ND : NoDup (map fst l)) by (destruct D; auto).
      assert (G : forall l', (forall kv, In kv l' -> In kv l) -> exists r, search full wanted l' = Ok r).
      { induction l' as [|[k c] l']; intros IN; cbn [search]; eauto.
        assert (IN' : forall kv, In kv l' -> In kv l) by (intros; apply IN; right; auto).
        destruct (String.eqb k "attrs" || String.eqb k "dataset") eqn:Q; auto. destruct c as [x|lc]; auto.
        assert (I : In (k, Dict lc) l) by (apply IN; left; auto).
        rewrite Forall_forall in IH. destruct (IH _ I (distinct_in _ _ _ D I)) as (r & R).
        - apply (unambiguous_sub l k (Dict lc)); auto. apply not_reserved. auto.
        - cbn [snd] in R. rewrite R. cbn [bind]. destruct r; eauto. }
      apply G. auto.
  Qed.
  Lemma go_complete : forall t, distinct t -> unambiguous t ->
    (exists p, Forall named p /\ follow (p ++ [k1]) t <> None) -> exists v, go full wanted t None = Ok (Some v).
  Proof.
    induction t as [x|l IH] using val_ind2; intros D U (p & NP & F). { exfalso. apply F. destruct p; reflexivity. }
    rewrite go_dict. destruct (dmem String.eqb k1 l) eqn:M. { apply here; auto. }
    destruct p as [|k p]. { exfalso. apply F. cbn. unfold dmem in M. destruct (sget k1 l); [discriminate|auto]. }
    inversion NP as [|? ? NK NP']; subst. cbn [app follow items] in F. destruct (sget k l) as [c|] eqn:G; [|congruence].
    assert (ND : NoDup (map fst l)) by (destruct D; auto).
    pose proof (sget_in _ _ _ G) as I. clear G NP. rewrite Forall_forall in IH.
    assert (S : forall l', (forall kv, In kv l' -> In kv l) -> In (k, c) l' -> exists v, search full wanted l' = Ok (Some v)); [|apply S; auto].
    induction l' as [|[k' c'] l']; intros IN J; [destruct J|]. cbn [search].
    assert (IN' : forall kv, In kv l' -> In kv l) by (intros; apply IN; right; auto).
    destruct J as [[= -> ->]|J].
    - destruct (String.eqb k "attrs" || String.eqb k "dataset") eqn:Q. { destruct NK as [A B]. apply orb_true_iff in Q. rewrite !String.eqb_eq in Q. destruct Q; contradiction. }
      destruct c as [x|lc]. { exfalso. apply F. destruct p; reflexivity. }
      destruct (IH _ I (distinct_in _ _ _ D I)) as (v & V).
      + apply (unambiguous_sub l k (Dict lc)); auto. + exists p. split; auto. + cbn [snd] in V. rewrite V. cbn [bind]. eauto.
    - destruct (String.eqb k' "attrs" || String.eqb k' "dataset") eqn:Q; auto. destruct c' as [x|lc]; auto.
      assert (I' : In (k', Dict lc) l) by (apply IN; left; auto).
      destruct (go_total (Dict lc)) as (r & R). { eapply distinct_in; eauto. } { apply (unambiguous_sub l k' (Dict lc)); auto. apply not_reserved; auto. }
      rewrite R. cbn [bind]. destruct r; eauto.
  Qed.
  (** If the first name of the key occurs nowhere, nothing is found. *)
  Lemma go_absent : forall t, distinct t -> (forall p, Forall named p -> follow (p ++ [k1]) t = None) -> go full wanted t None = Ok None.
  Proof.
    induction t as [x|l IH] using val_ind2; intros D A; auto. rewrite go_dict.
    assert (dmem String.eqb k1 l = false) as ->. { pose proof (A [] (Forall_nil _)) as N. cbn in N. unfold dmem. destruct (sget k1 l); [discriminate|auto]. }
    assert (ND : NoDup (map fst l)) by (destruct D; auto). rewrite Forall_forall in IH.
    assert (S : forall l', (forall kv, In kv l' -> In kv l) -> search full wanted l' = Ok None); [|apply S; auto].
    induction l' as [|[k c] l']; intros IN; cbn [search]; auto.
    assert (IN' : forall kv, In kv l' -> In kv l) by (intros; apply IN; right; auto).
    destruct (String.eqb k "attrs" || String.eqb k "dataset") eqn:Q; auto. destruct c as [x|lc]; auto.
    assert (I : In (k, Dict lc) l) by (apply IN; left; auto).
    pose proof (IH _ I (distinct_in _ _ _ D I)) as E. cbn [snd] in E. rewrite E; cbn [bind]; auto. intros p NP. pose proof (A (k :: p)) as B. cbn [app follow items] in B. rewrite (in_sget k l (Dict lc)) in B; auto.
    apply B. constructor; auto. apply not_reserved; auto.
  Qed.
End Complete.

(** * C37 *)
(** The names a key stands for: detector, monitor and sample are short for the field of that name (data sets only). *)
Definition field_path (key : string) (attrs : bool) : list string :=
  if attrs then split_on "/" key else
  if String.eqb key "detector" then ["detector"; "data"] else if String.eqb key "monitor" then ["monitor"; "monitor"]
  else if String.eqb key "sample" then ["sample"; "sample"] else split_on "/" key.
Definition item (attrs : bool) : string := if attrs then "attrs" else "dataset".
(** the NeXus contents: the entry without the logs *)
Definition contents (e : list (string * val)) : val := Dict (filter (fun kv => negb (String.eqb (fst kv) "SPICElogs" || String.eqb (fst kv) "DASlogs")) e).
Definition found_at (e : list (string * val)) (key : string) (attrs : bool) (p : list string) : option val := follow (p ++ field_path key attrs ++ [item attrs]) (contents e).

Lemma ddel_filter : forall k (e : list (string * val)), NoDup (map fst e) -> ddel String.eqb k e = filter (fun kv => negb (String.eqb (fst kv) k)) e.
Proof.
  intros k. induction e as [|[a v] e]; intros N; auto. cbn in *. inversion N; subst. rewrite (String.eqb_sym a k). destruct (String.eqb k a) eqn:Q; cbn.
  - apply String.eqb_eq in Q. subst. clear - H1. induction e as [|[b w] e]; auto. cbn in *. destruct (String.eqb b a) eqn:Q; cbn. { apply String.eqb_eq in Q. exfalso. auto. } f_equal. apply IHe. auto.
  - f_equal. auto.
Qed.
Lemma filter_nodup : forall (f : string * val -> bool) e, NoDup (map fst e) -> NoDup (map fst (filter f e)).
Proof.
  induction e as [|a e]; intros N; cbn; auto. inversion N; subst. destruct (f a); cbn; auto. constructor; auto. intros I. apply H1. apply in_map_iff in I. destruct I as (b & E & I). apply filter_In in I. rewrite <- E. apply in_map. tauto.
Qed.
Lemma contents_get : forall e, NoDup (map fst e) -> ddel String.eqb "DASlogs" (ddel String.eqb "SPICElogs" e) = items (contents e).
Proof.
  intros e N. rewrite (ddel_filter "SPICElogs") by auto. rewrite ddel_filter by (apply filter_nodup; auto). cbn [contents items]. clear N.
  induction e as [|a e]; auto. cbn. destruct (String.eqb (fst a) "SPICElogs") eqn:Q; cbn; auto. destruct (String.eqb (fst a) "DASlogs"); cbn; auto. f_equal; auto.
Qed.
Lemma filter_twice : forall {A} (f : A -> bool) e, filter f (filter f e) = filter f e.
Proof. induction e as [|a e]; auto. cbn. destruct (f a) eqn:Q; cbn; rewrite ?Q, ?IHe; auto. Qed.
Lemma distinct_filter : forall f e, distinct (Dict e) -> distinct (Dict (filter f e)).
Proof.
  intros f e [N A]. split. { apply filter_nodup. auto. } induction e as [|[k v] e]; cbn; auto. destruct A as [A B]. inversion N; subst. destruct (f (k, v)); [split; [exact A|]|]; exact (IHe H2 B).
Qed.
Lemma get_unfold : forall e key attrs default, NoDup (map fst e) ->
  get e key attrs default = (items (contents e), do r <- go (field_path key attrs) (item attrs) (contents e) None; Ok (match r with Some v => Some v | None => default end)).
Proof.
  intros e key attrs default N. unfold get. rewrite contents_get by auto. f_equal. unfold field_path, item, contents. cbn [items].
  destruct attrs; auto. destruct (String.eqb key "detector"); auto. destruct (String.eqb key "monitor"); auto. destruct (String.eqb key "sample"); auto.
Qed.

(** What get returns is the data (or attributes) of the field the key names, somewhere in the NeXus contents; or the default. *)
Theorem C37_sound : forall e key attrs default v, distinct (Dict e) -> snd (get e key attrs default) = Ok (Some v) ->
  (exists p, found_at e key attrs p = Some v) \/ default = Some v.
Proof.
  intros e key attrs default v D H. assert (N : NoDup (map fst e)) by (destruct D; auto). rewrite get_unfold in H by auto. cbn [snd] in H.
  destruct (go _ _ _ _) as [[x|]|] eqn:G; cbn [bind] in H; [|right; congruence|discriminate]. apply Ok_inj in H. injection H as ->. left.
  destruct (go_sound _ _ _ (distinct_filter _ e D) _ _ G) as [(ks & ? & _)|(p & _ & F)]; [discriminate|]. exists p. exact F.
Qed.
Print Assumptions C37_sound.

Lemma field_path_cons : forall key attrs, exists k ks, field_path key attrs = k :: ks.
Proof.
  assert (S : forall s, exists k ks, split_on "/" s = k :: ks). { induction s as [|c s]; cbn; eauto. destruct (Ascii.eqb c "/"); eauto. destruct IHs as (k & ks & ->). eauto. }
  intros key attrs. unfold field_path. destruct attrs; auto. destruct (String.eqb key "detector"); eauto. destruct (String.eqb key "monitor"); eauto. destruct (String.eqb key "sample"); eauto.
Qed.
(** If the first name of the key stands anywhere in the contents, and wherever it stands the key leads to a field, then get finds such a field, *)
Theorem C37_complete : forall e key attrs default k ks, distinct (Dict e) -> field_path key attrs = k :: ks ->
  unambiguous k ks (item attrs) (contents e) -> (exists p, Forall named p /\ follow (p ++ [k]) (contents e) <> None) ->
  exists v p, snd (get e key attrs default) = Ok (Some v) /\ found_at e key attrs p = Some v.
Proof.
  intros e key attrs default k ks D FP U X. assert (N : NoDup (map fst e)) by (destruct D; auto).
  destruct (go_complete k ks (item attrs) (contents e) (distinct_filter _ e D) U X) as (v & V).
  destruct (go_sound _ _ _ (distinct_filter _ e D) _ _ V) as [(q & ? & _)|(p & _ & F)]; [discriminate|].
  exists v, p. rewrite get_unfold by auto. cbn [snd]. rewrite FP, V. cbn [bind]. split; auto. unfold found_at. rewrite FP. exact F.
Qed.
Print Assumptions C37_complete.
(** and if the key leads to one field only, get returns exactly that one. *)
Theorem C37_unique : forall e key attrs default k ks p v, distinct (Dict e) -> field_path key attrs = k :: ks ->
  unambiguous k ks (item attrs) (contents e) -> Forall named p -> found_at e key attrs p = Some v ->
  (forall p' v', found_at e key attrs p' = Some v' -> v' = v) -> snd (get e key attrs default) = Ok (Some v).
Proof.
  intros e key attrs default k ks p v D FP U NP F Q.
  destruct (C37_complete e key attrs default k ks D FP U) as (v' & p' & G & F').
  - exists p. split; auto. unfold found_at in F. rewrite FP in F. intros E. cbn [app] in F.
    assert (K : forall p (t : val), follow (p ++ [k]) t = None -> follow (p ++ k :: ks ++ [item attrs]) t = None).
    { clear. induction p as [|a p]; intros t H; cbn [app follow] in *. { destruct (sget k (items t)); [discriminate|auto]. } destruct (sget a (items t)); auto. }
    rewrite K in F; auto. discriminate.
  - rewrite G. rewrite (Q _ _ F'). auto.
Qed.
Print Assumptions C37_unique.
(** If the first name of the key stands nowhere, the default is returned. *)
Theorem C37_absent : forall e key attrs default k ks, distinct (Dict e) -> field_path key attrs = k :: ks ->
  (forall p, Forall named p -> follow (p ++ [k]) (contents e) = None) -> snd (get e key attrs default) = Ok default.
Proof.
  intros e key attrs default k ks D FP A. assert (N : NoDup (map fst e)) by (destruct D; auto). rewrite get_unfold by auto. cbn [snd]. rewrite FP.
  rewrite (go_absent k ks (item attrs) (contents e) (distinct_filter _ e D) A). auto.
Qed.
Print Assumptions C37_absent.

(** A place where only the beginning of the key matches hides the field in its neighbours. *)
Definition ex_hidden : list (string * val) :=
  [("s1", Dict [("attrs", Dict [])]); ("goniometer", Dict [("s1", Dict [("dataset", Leaf (LNum 5))])])].
Theorem C37_hidden_refuted : distinct (Dict ex_hidden) /\ found_at ex_hidden "s1" false ["goniometer"] = Some (Leaf (LNum 5)) /\ snd (get ex_hidden "s1" false None) = Ok None.
Proof. split; [|split; reflexivity]. repeat (constructor; cbn; auto); intuition discriminate. Qed.
Print Assumptions C37_hidden_refuted.

(** A lookup leaves the NeXus contents alone, and a second one gives the same result, *)
Theorem C37_repeatable : forall e key attrs default key' attrs' default', distinct (Dict e) ->
  snd (get (fst (get e key' attrs' default')) key attrs default) = snd (get e key attrs default) /\ contents (fst (get e key' attrs' default')) = contents e.
Proof.
  intros e key attrs default key' attrs' default' D. assert (N : NoDup (map fst e)) by (destruct D; auto). rewrite (get_unfold e key' attrs' default') by auto. cbn [fst].
  assert (C : contents (items (contents e)) = contents e).
  { unfold contents. cbn [items]. rewrite filter_twice. auto. }
  split; auto. rewrite !get_unfold; auto. 2:{ apply filter_nodup. auto. } cbn [snd]. rewrite C. auto.
Qed.
Print Assumptions C37_repeatable.
(** but it removes the instrument's logs from the entry, whose later use fails. *)
Definition ex_logs : list (string * val) := [("SPICElogs", Dict [("attrs", Dict [("scan_title", Leaf (LStr "t"))])]); ("title", Dict [("dataset", Leaf (LStr "t"))])].
Theorem C37_changes_entry_refuted : get_metadata_from_daslogs ex_logs "scan_title" = Ok (Some (Leaf (LStr "t"))) /\
  snd (get ex_logs "title" false None) = Ok (Some (Leaf (LStr "t"))) /\ get_metadata_from_daslogs (fst (get ex_logs "title" false None)) "scan_title" = Err UnboundLocalError.
Proof. repeat split. Qed.
Print Assumptions C37_changes_entry_refuted.

(** A non-trivial case of the hypotheses: detector data below instrument, a link of the same name below data. *)
Definition ex_entry : list (string * val) :=
  [("attrs", Dict []); ("data", Dict [("attrs", Dict [("signal", Leaf (LStr "detector"))])]);
   ("instrument", Dict [("attrs", Dict []); ("detector", Dict [("data", Dict [("attrs", Dict []); ("dataset", Leaf (LArr [1; 2]))])])]);
   ("SPICElogs", Dict [("detector", Dict [])])]%R.
Lemma ex_unambiguous : unambiguous "detector" ["data"] "dataset" (contents ex_entry).
Proof.
  intros p NP F. cbn in F.
  destruct p as [|a p]. { cbn in F. congruence. }
  apply Forall_cons_iff in NP; destruct NP as [[A1 A2] NP']. cbn in F |- *.
  destruct (String.eqb a "attrs") eqn:Q; [apply String.eqb_eq in Q; contradiction|].
  destruct (String.eqb a "data") eqn:Q1.
  { cbn in F. destruct p as [|b p]; cbn in F; [congruence|]. apply Forall_cons_iff in NP'; destruct NP' as [[B1 B2] NP''].
    destruct (String.eqb b "attrs") eqn:Q2; [apply String.eqb_eq in Q2; contradiction|]. cbn in F. congruence. }
  destruct (String.eqb a "instrument") eqn:Q3; [|cbn in F; congruence]. cbn in F |- *. destruct p as [|b p]; [cbn; eexists; reflexivity|]. apply Forall_cons_iff in NP'; destruct NP' as [[B1 B2] NP'']. cbn in F |- *.
  destruct (String.eqb b "attrs") eqn:Q4; [apply String.eqb_eq in Q4; contradiction|]. destruct (String.eqb b "detector") eqn:Q5; [|cbn in F; congruence]. cbn in F |- *.
  destruct p as [|c p]; cbn in F; [congruence|]. apply Forall_cons_iff in NP''; destruct NP'' as [[C1 C2] NP3]. cbn in F. destruct (String.eqb c "data") eqn:Q6; [|congruence]. cbn in F.
  destruct p as [|d p]; cbn in F; [congruence|]. apply Forall_cons_iff in NP3; destruct NP3 as [[D1 D2] NP4].
  destruct (String.eqb d "attrs") eqn:Q7; [apply String.eqb_eq in Q7; contradiction|]. destruct (String.eqb d "dataset") eqn:Q8; [apply String.eqb_eq in Q8; contradiction|]. congruence.
Qed.
Example C37_example : distinct (Dict ex_entry) /\ unambiguous "detector" ["data"] "dataset" (contents ex_entry) /\ snd (get ex_entry "detector" false None) = Ok (Some (Leaf (LArr [1; 2]%R))).
Proof. split; [|split; [apply ex_unambiguous|reflexivity]]. repeat (constructor; cbn; auto); intuition discriminate. Qed.
