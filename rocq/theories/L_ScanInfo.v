(** Lemmas for C72: lookup in marked entries. *)
From Coq Require Import Reals List ZArith String Ascii Bool Lia DecimalString.
From Verif Require Import Base PyStr S_Str L_Str M_ScanData M_Spice M_Project M_Tavi P_Tavi M_Nexus P_Nexus L_NexusFile M_Builder L_Builder P_Builder P_Builder2 P_Builder3 P_Builder4 P_Builder5 P_Builder6
  L_ScanFields P_Folder P_ScanFields M_ScanInfo.
Import ListNotations.
Open Scope string_scope.
Open Scope list_scope.

(** * Entries that differ in their attributes *)
Definition alike (x y : string * val) : Prop := fst x = fst y /\ (fst x <> "attrs" -> snd x = snd y).
Lemma alike_of : forall e e' : entry, NoDup (map fst e) -> map fst e' = map fst e -> (forall k, k <> "attrs" -> sget k e' = sget k e) -> Forall2 alike e e'.
Proof.
  induction e as [|[k v] e]; intros [|[k' v'] e'] N M G; cbn in M; try discriminate; constructor.
  - injection M as -> _. split; auto. cbn. intros NA. specialize (G k NA). cbn in G. rewrite String.eqb_refl in G. congruence.
  - injection M as -> M. cbn in N. inversion N as [|? ? NI N']; subst. apply IHe; auto. intros a NA. specialize (G a NA). cbn in G. destruct (String.eqb a k) eqn:Q; [|exact G]. apply String.eqb_eq in Q. subst a.
    rewrite !in_none; auto. rewrite M. auto.
Qed.
Lemma alike_filter : forall p (e e' : entry), Forall2 alike e e' -> Forall2 alike (filter (fun kv => p (fst kv)) e) (filter (fun kv => p (fst kv)) e').
Proof. intros p e e' F. induction F as [|[k v] [k' v'] l l' [E V] F]; cbn; auto. cbn in E. subst k'. destruct (p k); auto. constructor; auto. split; auto. Qed.
Lemma alike_sget : forall (e e' : entry) k, Forall2 alike e e' -> k <> "attrs" -> sget k e' = sget k e.
Proof. intros e e' k F NA. induction F as [|[a v] [a' v'] l l' [E V] F]; cbn; auto. cbn in E, V. subst a'. destruct (String.eqb_spec k a) as [->|]; auto. f_equal. symmetry. auto. Qed.
Lemma alike_go : forall full w (e e' : entry), Forall2 alike e e' -> (exists k ks, full = k :: ks /\ named k) -> go full w (Dict e') None = go full w (Dict e) None.
Proof.
  intros full w e e' F (k & ks & -> & NA & ND). rewrite !go_dict. unfold dmem. rewrite (alike_sget _ _ k F NA), !child_get, (alike_sget _ _ k F NA).
  destruct (sget k e); auto. induction F as [|[a v] [a' v'] l l' [E V] F]; cbn [search]; auto. cbn in E, V. subst a'.
  destruct (String.eqb a "attrs") eqn:Q; auto. apply String.eqb_neq in Q. rewrite (V Q). cbn [orb]. rewrite IHF. reflexivity.
Qed.
Lemma alike_contents : forall full w (e e' : entry), Forall2 alike e e' -> (exists k ks, full = k :: ks /\ named k) -> go full w (contents e') None = go full w (contents e) None.
Proof. intros full w e e' F K. unfold contents. apply alike_go; auto. apply (alike_filter (fun k => negb (String.eqb k "SPICElogs" || String.eqb k "DASlogs"))). auto. Qed.
Lemma alike_shape : forall i s e e' instrument part, Forall2 alike e e' -> shape i s e instrument part -> shape i s e' instrument part.
Proof.
  intros i s e e' instrument part F SH. assert (K : map fst e' = map fst e). { clear SH. induction F as [|? ? ? ? [E _] F]; cbn; auto. congruence. }
  constructor.
  - rewrite K. apply (sh_e _ _ _ _ _ SH).
  - apply (sh_i _ _ _ _ _ SH).
  - rewrite (alike_sget _ _ _ F) by discriminate. apply (sh_instrument _ _ _ _ _ SH).
  - intros g I. rewrite (alike_sget _ _ _ F). { apply (sh_group _ _ _ _ _ SH). auto. } intros ->. cbn in I. intuition discriminate.
  - apply (sh_component _ _ _ _ _ SH).
  - apply (sh_keyed _ _ _ _ _ SH).
  - intros k v I NK NS. apply (sh_top _ _ _ _ _ SH); auto. apply in_sget in I. 2:{ unfold dkeys. rewrite K. apply (sh_e _ _ _ _ _ SH). } apply sget_in. rewrite <- (alike_sget _ _ _ F); auto. apply NK.
  - apply (sh_below _ _ _ _ _ SH).
Qed.

(** * Names that the configuration files may not use as keys *)
Definition info_names : list string := ["monochromator"; "analyser"; "goniometer"; "preset_type"; "divergence_x"; "title"; "start_time"; "end_time"].

Section Look.
  Context (i : option config) (s : option (dict string pv)).
  Hypothesis OC : ordinary_config i s.
  Hypothesis IC : forall k, config_key i s k -> ~ In k info_names.
  Context (e instrument : entry) (part : string -> entry) (SH : shape i s e instrument part).
  Notation gofor ks := (go ks "dataset" (contents e) None).
  Definition as_val (o : option leaf) : option val := match o with Some x => Some (Leaf x) | None => None end.

  Lemma entry_left : fst (get_dataset_names e) = items (contents e).
  Proof using OC SH.
    unfold get_dataset_names. rewrite (get_eq i s e instrument part SH).
    match goal with |- context [match ?b with Ok _ => _ | Err _ => _ end] => destruct b as [[[n a] m]|] end; [|reflexivity].
    rewrite (get_again i s e instrument part SH).
    assert (Z : gofor (field_path "monitor/data" false) = Ok None).
    { change (field_path "monitor/data" false) with ["monitor"; "data"].
      assert (T : sget "monitor" (items (contents e)) = Some (Dict (part "monitor"))) by (rewrite contents_sget by discriminate; apply (sh_group _ _ _ _ _ SH); vm_compute; tauto).
      unfold contents in *. rewrite (go_here _ _ _ _ T). rewrite go_dict, child_get. erewrite lacks; eauto.
      - apply in_parts'. vm_compute. tauto.
      - split; discriminate.
      - left. left. exists ["instrument"; "detector"], [("detector", "data", false)], "detector", false. split; [vm_compute; tauto|left; auto].
      - vm_compute. intuition discriminate.
      - intros [(Q & _)|(_ & w & z & _ & I & Q)]; [discriminate|]. unfold six in I. cbn [In] in I. repeat (destruct I as [<-|I]; [discriminate Q|]). destruct I. }
    rewrite Z. reflexivity.
  Qed.

  Lemma at_field : forall d f, flat d -> named f -> (do r <- (match sget f d with Some v => go [f] "dataset" v (Some []) | None => Ok None end); Ok r) = Ok (as_val (leaf_at [f; "dataset"] (Dict d))).
  Proof using.
    clear. intros d f F NF. rewrite leaf_cons. destruct (sget f d) as [v|] eqn:G; auto. apply sget_in in G. destruct (F f v G) as [(-> & _)|(_ & x & a & ->)]; [destruct NF; contradiction|]. reflexivity.
  Qed.
  Lemma walk_field : forall full d f, flat d -> named f -> (match sget f d with Some v => go full "dataset" v (Some []) | None => Ok None end) = Ok (as_val (leaf_at [f; "dataset"] (Dict d))).
  Proof using.
    clear. intros full d f F NF. rewrite leaf_cons. destruct (sget f d) as [v|] eqn:G; auto. apply sget_in in G. destruct (F f v G) as [(-> & _)|(_ & x & a & ->)]; [destruct NF; contradiction|]. reflexivity.
  Qed.
  Lemma group_top : forall g, In g group_names -> sget g (items (contents e)) = Some (Dict (part g)).
  Proof using SH. intros g I. rewrite contents_sget; [apply (sh_group _ _ _ _ _ SH); auto| |]; intros ->; cbn in I; intuition discriminate. Qed.
  (** The field of a group. *)
  Lemma look_group : forall g f, In g group_names -> named f -> gofor [g; f] = Ok (as_val (field_value e [g; f])).
  Proof using SH.
    intros g f I NF. pose proof (group_top g I) as T. unfold contents in *. rewrite (go_here _ _ _ _ T). rewrite go_dict, child_get. rewrite walk_field; auto. 2:{ eapply part_flat; eauto. apply in_or_app. auto. }
    unfold field_value. cbn [List.app]. rewrite (leaf_cons g), (sh_group _ _ _ _ _ SH) by auto. reflexivity.
  Qed.
  Lemma lacks' : forall g f, In g all_parts -> named f -> ~ config_key i s f -> ~ In f (static g) -> ~ numbered_key g f -> sget f (part g) = None.
  Proof using SH.
    clear OC IC. intros g f I [NA _] FN NS NN. apply in_none. intros J. destruct (sh_keyed _ _ _ _ _ SH g I) as [_ K]. destruct (K f J) as [Q|[Q|[Q|Q]]]; contradiction.
  Qed.
  Lemma info_free : forall f, In f info_names -> named f /\ ~ config_key i s f /\ forall g, ~ numbered_key g f.
  Proof using IC.
    intros f I. split; [|split].
    - unfold info_names in I. cbn [In] in I. repeat (destruct I as [<-|I]; [split; discriminate|]). destruct I.
    - intros K. apply (IC f K I).
    - assert (T : forallb (fun x => negb (existsb (fun w => prefixb (w ++ "_")%string x) ("detector" :: six)) || String.eqb x "preset_type") info_names = true) by (vm_compute; reflexivity).
      rewrite forallb_forall in T. specialize (T f I). intros g N.
      assert (Q : exists w z, In w ("detector" :: six) /\ f = numbered w z /\ (1 <= z)%Z).
      { destruct N as [(_ & z & Z & ->)|(_ & w & z & Z & J & ->)]; [exists "detector", z; split; [left|]; auto|exists w, z; split; [right|]; auto]. }
      destruct Q as (w & z & J & -> & Z). apply orb_true_iff in T. destruct T as [T|T].
      + apply negb_true_iff in T. assert (X : existsb (fun w0 => prefixb (w0 ++ "_")%string (numbered w z)) ("detector" :: six) = true); [|congruence].
        apply existsb_exists. exists w. split; auto. apply prefixb_spec. exists (str_of z). unfold numbered. rewrite L_Str.sapp_assoc. auto.
      + apply String.eqb_eq in T. unfold six in J. cbn [In] in J. repeat (destruct J as [<-|J]; [try discriminate T|]); [|destruct J]. unfold numbered in T. cbn in T. injection T as T. revert T. apply str_of_word; auto.
  Qed.
  (** The field of a component. *)
  Lemma look_component : forall c f, In c ["monochromator"; "analyser"; "goniometer"] -> named f -> gofor [c; f] = Ok (as_val (field_value e ["instrument"; c; f])).
  Proof using SH IC.
    intros c f I NF. assert (II : In c info_names) by (unfold info_names; cbn in I |- *; tauto). assert (CC : In c component_names_) by (unfold component_names_; cbn in I |- *; tauto).
    destruct (info_free c II) as (NC & NK & NN).
    assert (T1 : sget c (items (contents e)) = None).
    { destruct (sget c (items (contents e))) as [w|] eqn:E; auto. exfalso. apply sget_in in E. destruct (top_value _ _ _ _ _ SH _ _ E NC) as [(Q & _)|[(J & _)|(J & _)]].
      - subst. cbn in I. intuition discriminate. - cbn in I, J. repeat (destruct I as [<-|I]; [intuition discriminate|]). destruct I. - cbn in I, J. repeat (destruct I as [<-|I]; [intuition discriminate|]). destruct I. }
    assert (LK : forall g, In g group_names -> sget c (part g) = None).
    { intros g J. apply lacks'; auto; [apply in_parts'; auto|]. cbn in I. unfold group_names in J. cbn [In] in J. repeat (destruct J as [<-|J]; [repeat (destruct I as [<-|I]; [vm_compute; intuition discriminate|]); destruct I|]). destruct J. }
    assert (GI : go [c; f] "dataset" (Dict instrument) None = Ok (as_val (field_value e ["instrument"; c; f]))).
    { rewrite (go_here _ _ _ _ (sh_component _ _ _ _ _ SH c CC)). rewrite go_dict, child_get. rewrite walk_field; auto. 2:{ eapply part_flat; eauto. apply in_or_app. auto. }
      unfold field_value. cbn [List.app]. rewrite (leaf_cons "instrument"), (sh_instrument _ _ _ _ _ SH), (leaf_cons c), (sh_component _ _ _ _ _ SH) by auto. reflexivity. }
    destruct (field_value e ["instrument"; c; f]) as [x|]; cbn [as_val] in *.
    - eapply in_instrument; eauto.
    - unfold contents in *. rewrite go_below by auto. apply search_quiet. intros k v J NK'. destruct (String.string_dec k "instrument") as [->|NI].
      + pose proof (contents_in e _ _ J) as [JE _]. pose proof (in_sget _ _ _ (sh_e _ _ _ _ _ SH) JE) as E. rewrite (sh_instrument _ _ _ _ _ SH) in E. injection E as <-. auto.
      + eapply quiet_top; eauto.
  Qed.
  (** A field that is in one part only. *)
  Lemma look_alone_component : forall c f, In c component_names_ -> In f info_names -> ~ In f headings -> (forall g, In g all_parts -> g <> c -> ~ In f (static g)) -> gofor [f] = Ok (as_val (field_value e ["instrument"; c; f])).
  Proof using SH IC.
    intros c f CC II NH NS. destruct (info_free f II) as (NF & NK & NN). assert (LK : forall g, In g all_parts -> g <> c -> sget f (part g) = None) by (intros g J N; apply lacks'; auto).
    destruct (field_value e ["instrument"; c; f]) as [x|] eqn:FV; cbn [as_val].
    - destruct (leaf_component _ _ _ _ _ SH c f x CC NF FV) as (v & G & X). eapply find_component; eauto.
    - destruct (no_heading _ _ _ _ _ SH f NH NF) as [T1 T2]. eapply nowhere; eauto. intros g J. destruct (String.string_dec g c) as [->|N]; [|auto].
      destruct (sget f (part c)) as [v|] eqn:G; auto. exfalso. assert (F : flat (part c)) by (eapply part_flat; eauto). destruct (F f v (sget_in _ _ _ G)) as [(-> & _)|(_ & x & a & ->)]; [destruct NF; contradiction|].
      unfold field_value in FV. cbn [List.app] in FV. rewrite leaf_cons, (sh_instrument _ _ _ _ _ SH), leaf_cons, (sh_component _ _ _ _ _ SH), leaf_cons, G in FV by auto. discriminate.
  Qed.
  Lemma look_alone_group : forall c f, In c group_names -> In f info_names -> ~ In f headings -> (forall g, In g all_parts -> g <> c -> ~ In f (static g)) -> gofor [f] = Ok (as_val (field_value e [c; f])).
  Proof using SH IC.
    intros c f CC II NH NS. destruct (info_free f II) as (NF & NK & NN). assert (LK : forall g, In g all_parts -> g <> c -> sget f (part g) = None) by (intros g J N; apply lacks'; auto).
    destruct (field_value e [c; f]) as [x|] eqn:FV; cbn [as_val].
    - destruct (leaf_group _ _ _ _ _ SH c f x CC NF FV) as (v & G & X). eapply find_group; eauto.
    - destruct (no_heading _ _ _ _ _ SH f NH NF) as [T1 T2]. eapply nowhere; eauto. intros g J. destruct (String.string_dec g c) as [->|N]; [|auto].
      destruct (sget f (part c)) as [v|] eqn:G; auto. exfalso. assert (F : flat (part c)) by (eapply part_flat; eauto). destruct (F f v (sget_in _ _ _ G)) as [(-> & _)|(_ & x & a & ->)]; [destruct NF; contradiction|].
      unfold field_value in FV. cbn [List.app] in FV. rewrite leaf_cons, (sh_group _ _ _ _ _ SH), leaf_cons, G in FV by auto. discriminate.
  Qed.
  (** A field of the entry itself. *)
  Lemma look_top : forall f, In f ["title"; "start_time"; "end_time"] -> gofor [f] = Ok (as_val (field_value e [f])).
  Proof using SH IC.
    intros f I. assert (II : In f info_names) by (unfold info_names; cbn in I |- *; tauto). destruct (info_free f II) as (NF & NK & NN).
    assert (NL : f <> "SPICElogs" /\ f <> "DASlogs" /\ f <> "instrument" /\ f <> "data" /\ f <> "name" /\ ~ In f group_names /\ ~ In f component_names_).
    { cbn in I. repeat (destruct I as [<-|I]; [repeat split; try discriminate; vm_compute; intuition discriminate|]). destruct I. }
    destruct NL as (N1 & N2 & N3 & N4 & N4' & N5 & N6). pose proof (contents_sget e f N1 N2) as CS.
    unfold field_value. cbn [List.app]. rewrite leaf_cons. destruct (sget f e) as [v|] eqn:G.
    - unfold contents in *. rewrite (go_here _ _ _ _ CS). pose proof (sget_in _ _ _ G) as J. destruct (sh_top _ _ _ _ _ SH f v J NF N1) as [Q|[Q|(_ & [(x & a & ->)|(a & ->)])]]; [contradiction|contradiction|reflexivity|].
      rewrite go_dict. reflexivity.
    - eapply nowhere; eauto.
      + destruct (sget f instrument) as [v|] eqn:E; auto. exfalso. apply sget_in in E. destruct (below_value _ _ _ _ _ SH _ _ E NF) as [(J & _)|(-> & _)]; contradiction.
      + intros g J. apply lacks'; auto. revert J. clear - I. unfold component_names_, group_names. cbn [List.app In] in I |- *. intros J.
        repeat (destruct J as [<-|J]; [repeat (destruct I as [<-|I]; [vm_compute; intuition discriminate|]); destruct I|]). destruct J.
  Qed.
End Look.
