(** Lemmas for C67: lookup in entries made of flat groups, and the shape of the entries the builder makes. *)
From Coq Require Import Reals List ZArith String Ascii Bool Lia DecimalString.
From Verif Require Import Base PyStr S_Str L_Str M_ScanData M_Spice M_Project M_Tavi P_Tavi M_Nexus P_Nexus L_NexusFile M_Builder L_Builder P_Builder P_Builder2 P_Builder3 P_Builder4 P_Builder5.
Import ListNotations.
Open Scope string_scope.
Open Scope list_scope.

(** * Lookup in flat groups *)
Definition is_field (v : val) (x : leaf) : Prop := exists a, v = Dict [("dataset", Leaf x); ("attrs", Dict a)].
Definition flat (d : entry) : Prop := forall k v, In (k, v) d -> (k = "attrs" /\ exists a, v = Dict a /\ sget "dataset" a = None) \/ (named k /\ exists x, is_field v x).

Section Go.
  Context (k1 : string) (ks : list string).
  Hypothesis N1 : named k1.
  Notation go := (go (k1 :: ks) "dataset").
  Notation search := (search (k1 :: ks) "dataset").
  Lemma named_free : forall k, named k -> String.eqb k "attrs" || String.eqb k "dataset" = false.
  Proof using. intros k [A B]. apply orb_false_iff. rewrite !String.eqb_neq. auto. Qed.
  Lemma search_quiet : forall l, (forall k v, In (k, v) l -> named k -> go v None = Ok None) -> search l = Ok None.
  Proof using.
    induction l as [|[k v] l]; intros H; cbn [P_Nexus.search]; auto. destruct (String.eqb k "attrs" || String.eqb k "dataset") eqn:Q. { apply IHl. intros; eapply H; eauto. right; eauto. }
    assert (G : go v None = Ok None). { eapply H. left. reflexivity. apply not_reserved. auto. } destruct v as [x|d]. { apply IHl. intros; eapply H; eauto. right; eauto. }
    rewrite G. cbn [bind]. apply IHl. intros; eapply H; eauto. right; eauto.
  Qed.
  Lemma go_field : forall v x, is_field v x -> go v None = Ok None.
  Proof using N1.
    intros v x (a & ->). rewrite go_dict. destruct N1 as [A B]. apply String.eqb_neq in A, B. unfold dmem. cbn [dget]. rewrite A, B. reflexivity.
  Qed.
  Lemma go_attrs : forall a, go (Dict [("attrs", a)]) None = Ok None.
  Proof using N1. intros a. rewrite go_dict. destruct N1 as [A B]. apply String.eqb_neq in A. unfold dmem. cbn [dget]. rewrite A. reflexivity. Qed.
  Lemma go_flat_absent : forall d, flat d -> sget k1 d = None -> go (Dict d) None = Ok None.
  Proof using N1.
    intros d F G. rewrite go_dict. unfold dmem. rewrite G. apply search_quiet. intros k v I NK. destruct (F k v I) as [(-> & _)|(_ & x & X)]. { destruct NK. contradiction. } eapply go_field; eauto.
  Qed.
  Lemma search_one : forall l k0 l0 x, NoDup (map fst l) -> In (k0, Dict l0) l -> named k0 -> go (Dict l0) None = Ok (Some x) ->
    (forall k v, In (k, v) l -> named k -> k <> k0 -> go v None = Ok None) -> search l = Ok (Some x).
  Proof using.
    induction l as [|[k v] l]; intros k0 l0 x ND I NK G Q; [destruct I|]. cbn [map fst] in ND. inversion ND as [|? ? NI ND']; subst. cbn [P_Nexus.search]. destruct I as [E|I].
    - injection E as -> ->. rewrite named_free by auto. rewrite G. reflexivity.
    - assert (REST : search l = Ok (Some x)). { eapply IHl; eauto. intros. eapply Q; eauto. right. auto. }
      destruct (String.eqb k "attrs" || String.eqb k "dataset") eqn:R; auto. destruct v as [y|d]; auto.
      rewrite (Q k (Dict d)); [cbn [bind]; auto|left; auto|apply not_reserved; auto|]. intros ->. apply NI. apply (in_map fst) in I. auto.
  Qed.
  Lemma go_here : forall l v, sget k1 l = Some v -> go (Dict l) None = go v (Some ks).
  Proof using. intros l v G. rewrite go_dict. unfold dmem. rewrite G, child_get, G. auto. Qed.
  Lemma go_below : forall l, sget k1 l = None -> go (Dict l) None = search l.
  Proof using. intros l G. rewrite go_dict. unfold dmem. rewrite G. auto. Qed.
  Lemma go_at_field : forall v x, is_field v x -> go v (Some []) = Ok (Some (Leaf x)).
  Proof using. intros v x (a & ->). reflexivity. Qed.
End Go.

(** No lookup of one name fails where all members are groups. *)
Inductive groups : val -> Prop := Groups : forall l, (forall k v, In (k, v) l -> named k -> groups v) -> groups (Dict l).
Lemma groups_dict : forall v, groups v -> exists l, v = Dict l.
Proof. intros v H. destruct H. eauto. Qed.
Lemma go_groups : forall k t, named k -> groups t -> forall w, (w = None \/ w = Some []) -> exists r, go [k] "dataset" t w = Ok r.
Proof.
  intros k t NK G. induction G as [l _ IH]. intros w W.
  assert (S : exists r, search [k] "dataset" l = Ok r).
  { clear W w. induction l as [|[a v] l]; cbn [search]; eauto. destruct (String.eqb a "attrs" || String.eqb a "dataset") eqn:Q. { apply IHl. intros; eapply IH; eauto. right; eauto. }
    destruct v as [x|d]. { apply IHl. intros; eapply IH; eauto. right; eauto. }
    destruct (IH a (Dict d) (or_introl eq_refl) (not_reserved _ Q) None (or_introl eq_refl)) as ([y|] & ->); cbn [bind]; eauto. apply IHl. intros; eapply IH; eauto. right; eauto. }
  rewrite go_dict. destruct W as [-> | ->].
  - destruct (dmem String.eqb k l) eqn:M; auto. rewrite child_get. destruct (sget k l) as [v|] eqn:E; eauto. eapply IH; [apply sget_in; eauto|auto|auto].
  - destruct (sget "dataset" l); eauto.
Qed.
Lemma flat_groups : forall d, flat d -> groups (Dict d).
Proof.
  intros d F. constructor. intros k v I NK. destruct (F k v I) as [(-> & _)|(_ & x & a & ->)]. { destruct NK. contradiction. }
  constructor. cbn. intros k' v' [E|[E|[]]] NK'; injection E as <- <-; destruct NK'; contradiction.
Qed.

(** * Flat parts *)
Section Fill.
  Variable float_of : string -> option R.
  Variable int_of : string -> option Z.
  Variable repr : pv -> string.
  Variable date_of : string -> option string.
  Notation nxdataset := (nxdataset float_of int_of repr date_of).
  Notation fill := (fill float_of int_of repr date_of).
  Lemma nxdataset_field : forall v kw d, nxdataset v kw = Ok d -> d = [] \/ exists x, is_field (Dict d) x.
  Proof.
    intros v kw d H. assert (X : d = [] \/ exists x, Ok d = Ok [("dataset", Leaf x); ("attrs", Dict (map (fun a => (fst a, Leaf (LStr (snd a)))) kw))]).
    { unfold M_Builder.nxdataset in H. destruct v as [| [|] | | | | |];
        first [apply Ok_inj in H; subst d; left; reflexivity | apply bind_ok in H; destruct H as (y & _ & H); right; exists y; symmetry; exact H]. }
    destruct X as [->|(x & X)]; auto. right. exists x. apply Ok_inj in X. subst. eexists. reflexivity.
  Qed.
  Lemma fill_flat : forall l at_ d, fill l (texts at_) = Ok d -> sget "dataset" at_ = None -> (forall k, In k (map key_of l) -> named k) -> flat d.
  Proof.
    intros l at_ d H A N. unfold flat. apply (fill_members _ _ _ _ (fun k v => (k = "attrs" /\ exists a, v = Dict a /\ sget "dataset" a = None) \/ (named k /\ exists x, is_field v x)) _ _ _ H).
    - intros k v I. unfold texts in I. destruct I as [I|[]]. injection I as <- <-. left. split; auto. eexists. split; [reflexivity|].
      clear - A. induction at_ as [|[a b] at_]; auto. cbn [map dget fst snd] in *. destruct (String.eqb "dataset" a); [discriminate|auto].
    - intros k v kw d0 I D NE. right. split. { apply N. apply (in_map key_of) in I. auto. } destruct (nxdataset_field _ _ _ D) as [->|X]; [contradiction|auto].
  Qed.
  Lemma texts_keys : forall l at_ d k, fill l (texts at_) = Ok d -> In k (map fst d) -> k = "attrs" \/ In k (map key_of l).
  Proof. intros l at_ d k H I. destruct (fill_keys _ _ _ _ _ _ _ _ H I) as [J|[<-|[]]]; auto. Qed.
End Fill.

(** Entries made by keyword arguments: their members. *)
Lemma dupdate_nodup : forall {A} (l d : dict string A), NoDup (map fst d) -> NoDup (map fst (dupdate String.eqb d l)).
Proof. unfold dupdate. induction l as [|[k v] l]; intros d N; cbn; auto. apply IHl. apply sset_nodup. auto. Qed.
Lemma nxentry_nodup : forall kw, NoDup (map fst (nxentry kw)).
Proof. intros. unfold nxentry. apply dupdate_nodup. repeat constructor. intros []. Qed.
Lemma nxentry_in : forall kw k v, NoDup (map fst kw) -> In (k, v) (nxentry kw) -> k <> "attrs" -> exists e, In (k, KObj e) kw /\ v = Dict e /\ e <> [].
Proof.
  intros kw k v ND I NA. apply (in_sget k _ v) in I; [|apply nxentry_nodup]. rewrite nxentry_get in I by auto. destruct (sget k kw) as [[|[|x e]]|] eqn:E; try discriminate. injection I as <-.
  exists (x :: e). split; [apply sget_in; auto|split; [auto|discriminate]].
Qed.

(** * The shape of built entries *)
(** Keys of the configuration files. *)
Definition config_key (i : option config) (s : option (dict string pv)) (k : string) : Prop :=
  (exists c part d v, i = Some c /\ sget part c = Some d /\ In (k, v) d) \/ (exists d v, s = Some d /\ In (k, v) d).
Definition static (part : string) : list string :=
  match sget part
    [("source", ["name"; "probe"]); ("monochromator", ["ei"; "type"; "sense"; "m1"; "m2"; "mfocus"; "marc"; "mtrans"; "focal_length"]);
     ("collimator", ["type"; "divergence_x"; "divergence_y"]);
     ("analyser", ["ef"; "type"; "sense"; "a1"; "a2"; "afocus"; "qm1"; "xm1"; "qm2"; "xm2"; "qm3"; "xm3"; "qm4"; "xm4"; "qm5"; "xm5"; "qm6"; "xm6"; "qm7"; "xm7"; "qm8"; "xm8"]);
     ("detector", ["data"]); ("slits", slit_names); ("flipper", ["fguide"; "hguide"; "vguide"]);
     ("goniometer", ["sense"; "s1"; "s2"; "sgu"; "sgl"; "stu"; "stl"; "omega"; "two_theta"; "2theta"; "chi"; "phi"]);
     ("monitor", ["preset_type"; "mode"; "preset"; "time"; "monitor"; "mcu"; "countfile"]);
     ("sample", ["name"; "type"; "unit_cell"; "qh"; "qk"; "ql"; "en"; "q"; "mosaic"; "Pt."; "orientation_matrix"; "plane_normal"] ++ temperatures ++ ["persistent_field"; "mag_i"]);
     ("user", ["name"])]
  with Some l => l | None => [] end.
Definition numbered_key (part k : string) : Prop :=
  (part = "detector" /\ exists z, (1 <= z)%Z /\ k = numbered "detector" z) \/ (part = "monitor" /\ exists w z, (1 <= z)%Z /\ In w six /\ k = numbered w z).
Definition keyed (i : option config) (s : option (dict string pv)) (part : string) (d : entry) : Prop :=
  (flat d /\ NoDup (map fst d)) /\ forall k, In k (map fst d) -> k = "attrs" \/ In k (static part) \/ numbered_key part k \/ config_key i s k.
Definition component_names_ : list string := ["source"; "monochromator"; "collimator"; "analyser"; "detector"; "slits"; "flipper"; "goniometer"].
Definition group_names : list string := ["monitor"; "sample"; "user"].
Definition single_names : list string := ["data"; "definition"; "title"; "start_time"; "end_time"].

Record shape (i : option config) (s : option (dict string pv)) (e instrument : entry) (part : string -> entry) : Prop := Shape {
  sh_e : NoDup (map fst e);
  sh_i : NoDup (map fst instrument);
  sh_instrument : sget "instrument" e = Some (Dict instrument);
  sh_group : forall g, In g group_names -> sget g e = Some (Dict (part g));
  sh_component : forall c, In c component_names_ -> sget c instrument = Some (Dict (part c));
  sh_keyed : forall g, In g (component_names_ ++ group_names) -> keyed i s g (part g);
  sh_top : forall k v, In (k, v) e -> named k -> k <> "SPICElogs" -> k = "instrument" \/ In k group_names \/ (In k single_names /\ ((exists x, is_field v x) \/ exists a, v = Dict [("attrs", a)]));
  sh_below : forall k v, In (k, v) instrument -> k <> "attrs" -> In k component_names_ \/ (k = "name" /\ exists x, is_field v x) }.

Lemma params_key : forall i s name k, In k (map fst (params i name)) -> config_key i s k.
Proof.
  intros i s name k I. unfold params in I. destruct i as [c|]; [|destruct I]. destruct (sget name c) as [d|] eqn:E; [|destruct I]. apply in_map_iff in I. destruct I as ([k0 v] & <- & I).
  left. exists c, name, d, v. auto.
Qed.
Lemma filtered_key : forall i s name p k, In k (map fst (filter p (params i name))) -> config_key i s k.
Proof. intros i s name p k I. apply (params_key i s name). apply in_map_iff in I. destruct I as (x & <- & I). apply filter_In in I. apply in_map. tauto. Qed.
Lemma all_in : forall (l m : list string), forallb (fun x => existsb (String.eqb x) m) l = true -> forall x, In x l -> In x m.
Proof. intros l m H x I. rewrite forallb_forall in H. specialize (H x I). apply existsb_exists in H. destruct H as (y & J & E). apply String.eqb_eq in E. subst. auto. Qed.
Lemma static_named : forall p k, In k (static p) -> named k.
Proof.
  intros p k I. unfold static in I. match type of I with In _ (match sget p ?t with _ => _ end) => assert (T : forallb (fun kl => forallb (fun x => negb (String.eqb x "attrs" || String.eqb x "dataset")) (snd kl)) t = true) by (vm_compute; reflexivity); destruct (sget p t) as [l|] eqn:E end; [|destruct I].
  apply sget_in in E. rewrite forallb_forall in T. specialize (T _ E). cbn [snd] in T. rewrite forallb_forall in T. specialize (T _ I). apply negb_true_iff in T. apply not_reserved. auto.
Qed.
Lemma numbered_named : forall p k, numbered_key p k -> named k.
Proof.
  intros p k [(_ & z & _ & ->)|(_ & w & z & _ & I & ->)]; [split; discriminate|]. unfold six in I. cbn [In] in I. repeat (destruct I as [<-|I]; [split; discriminate|]). destruct I.
Qed.

Section Shape.
  Variable float_of : string -> option R.
  Variable int_of : string -> option Z.
  Variable repr : pv -> string.
  Variable date_of : string -> option string.
  Notation nxdataset := (nxdataset float_of int_of repr date_of).
  Notation fill := (fill float_of int_of repr date_of).
  Notation build := (spice_scan_to_nxdict float_of int_of repr date_of).
  Notation texts_keys := (texts_keys float_of int_of repr date_of).
  Variable i : option config.
  Variable s : option (dict string pv).
  Hypothesis PC : forall k, config_key i s k -> named k.

  Lemma part_keyed : forall part l at_ d, fill l (texts at_) = Ok d -> sget "dataset" at_ = None -> (forall k, In k (map key_of l) -> In k (static part) \/ numbered_key part k \/ config_key i s k) -> keyed i s part d.
  Proof using PC.
    intros part l at_ d H A K. split; [split; [|apply (fill_nodup _ _ _ _ _ _ _ H); repeat constructor; intros []]|].
    - eapply fill_flat; eauto. intros k I. destruct (K k I) as [J|[J|J]]; [eapply static_named|eapply numbered_named|]; eauto.
    - intros k I. destruct (texts_keys _ _ _ _ H I) as [->|J]; auto.
  Qed.
  Ltac stat := left; match goal with I : In ?k ?l |- In ?k ?m => revert I; apply (all_in l m); vm_compute; reflexivity end.
  Lemma keyed_source : forall d, nxsource float_of int_of repr date_of i = Ok d -> keyed i s "source" d.
  Proof using PC.
    intros d H. eapply part_keyed; [exact H|reflexivity|]. intros k I. rewrite map_app, in_app_iff, with_kw_keys in I. destruct I as [I|I]; [|right; right; eapply params_key; eauto]. stat.
  Qed.
  Lemma keyed_mono : forall L d, nxmono float_of int_of repr date_of L i = Ok d -> keyed i s "monochromator" d.
  Proof using PC.
    intros L d H. unfold nxmono in H. apply bind_ok in H. destruct H as (sense & _ & H). eapply part_keyed; [exact H|reflexivity|].
    intros k I. rewrite map_app, in_app_iff, with_kw_keys in I. destruct I as [I|I]; [|right; right; eapply params_key; eauto]. stat.
  Qed.
  Lemma keyed_ana : forall L d, nxana float_of int_of repr date_of L i = Ok d -> keyed i s "analyser" d.
  Proof using PC.
    intros L d H. unfold nxana in H. apply bind_ok in H. destruct H as (sense & _ & H). eapply part_keyed; [exact H|reflexivity|].
    intros k I. rewrite app_assoc, map_app, in_app_iff, with_kw_keys in I. destruct I as [I|I]; [|right; right; eapply params_key; eauto]. stat.
  Qed.
  Lemma keyed_det : forall L d, nxdet float_of int_of repr date_of L i = Ok d -> keyed i s "detector" d.
  Proof using PC.
    intros L d H. unfold nxdet in H. eapply part_keyed; [exact H|reflexivity|]. intros k I. rewrite !map_app, !in_app_iff, with_kw_keys in I. destruct I as [I|[I|I]]; [stat|right; right; eapply params_key; eauto|].
    right. left. left. split; auto. rewrite map_map in I. apply in_map_iff in I. destruct I as (z & <- & I). exists z. split; auto. apply channels_in in I. apply I.
  Qed.
  Lemma keyed_coll : forall L d, nxcoll float_of int_of repr date_of L i = Ok d -> keyed i s "collimator" d.
  Proof using PC.
    intros L d H. unfold nxcoll in H. do 4 (apply bind_ok in H; destruct H as (? & _ & H)). eapply part_keyed; [exact H|reflexivity|]. intros k I. rewrite !map_app, !in_app_iff in I.
    destruct I as [I|[I|I]]; [stat| |].
    - destruct x1; cbn in I; [destruct I as [<-|[]]; left; vm_compute; auto|destruct I].
    - destruct x2; cbn in I; [destruct I as [<-|[]]; left; vm_compute; auto|destruct I].
  Qed.
  Lemma keyed_slits : forall L d, nxslits float_of int_of repr date_of L = Ok d -> keyed i s "slits" d.
  Proof using PC. intros L d H. eapply part_keyed; [exact H|reflexivity|]. intros k I. left. unfold static. cbn [dget String.eqb Ascii.eqb Bool.eqb]. rewrite map_map in I. unfold key_of in I. cbn [fst] in I. rewrite map_id in I. exact I. Qed.
  Lemma keyed_flipper : forall L d, nxflipper float_of int_of repr date_of L = Ok d -> keyed i s "flipper" d.
  Proof using PC. intros L d H. eapply part_keyed; [exact H|reflexivity|]. intros k I. stat. Qed.
  Lemma keyed_goni : forall L d, nxgoni float_of int_of repr date_of L i = Ok d -> keyed i s "goniometer" d.
  Proof using PC.
    intros L d H. unfold nxgoni in H. apply bind_ok in H. destruct H as (sense & _ & H). eapply part_keyed; [exact H|reflexivity|].
    intros k I. rewrite app_assoc, map_app, in_app_iff, with_kw_keys in I. destruct I as [I|I]; [|right; right; eapply filtered_key; eauto]. stat.
  Qed.
  Lemma keyed_monitor : forall L d, nxmonitor float_of int_of repr date_of L i = Ok d -> keyed i s "monitor" d.
  Proof using PC.
    intros L d H. unfold nxmonitor in H. cbv zeta in H.
    assert (SH : forall k, In k (map key_of (with_kw (fun _ => [tchar]) (filter (fun kv => String.eqb (fst kv) "shape") (params i "monitor")))) -> config_key i s k).
    { intros k I. rewrite with_kw_keys in I. eapply filtered_key; eauto. }
    destruct (is_text _ "normal"); [|destruct (is_text _ "countfile")].
    - eapply part_keyed; [exact H|reflexivity|]. intros k I. rewrite app_assoc, map_app, in_app_iff in I. destruct I as [I|I]; [|auto]. stat.
    - apply bind_ok in H. destruct H as (cf & CFT & H). apply bind_ok in H. destruct H as (ch & CH & H). eapply part_keyed; [exact H|reflexivity|]. intros k I. rewrite !map_app, !in_app_iff in I.
      destruct I as [I|[I|I]]; [stat| |auto]. right. left. right. split; auto. apply mapM_Forall2 in CH.
      assert (POS : forall m, In m (channels L) -> (1 <= m)%Z). { intros m J. apply channels_in in J. apply J. }
      clear - CH I POS. induction CH as [|m fs l ch E F IH]; [destruct I|]. cbn [List.concat] in I. rewrite map_app, in_app_iff in I. destruct I as [I|I]; [|apply IH; auto; intros; apply POS; right; auto].
      unfold channel_fields in E. do 3 (apply bind_ok in E; destruct E as (? & _ & E)). apply Ok_inj in E. subst.
      assert (J : In k (six_names m)) by exact I. unfold six_names in J. apply in_map_iff in J. destruct J as (w & <- & J). exists w, m. split; [apply POS; left; auto|auto].
    - eapply part_keyed; [exact H|reflexivity|]. intros k I. rewrite map_app, in_app_iff in I. destruct I as [I|I]; [|auto]. stat.
  Qed.
  Lemma keyed_sample : forall L d, nxsample float_of int_of repr date_of L s = Ok d -> keyed i s "sample" d.
  Proof using PC.
    intros L d H. unfold nxsample in H. apply bind_ok in H. destruct H as (u & _ & H). eapply part_keyed; [exact H|reflexivity|]. intros k I. rewrite !app_assoc, map_app, in_app_iff in I.
    destruct I as [I|I]; [stat|]. unfold sample_params in I. destruct s as [c|]; [|destruct I]. rewrite map_map in I. apply in_map_iff in I. destruct I as ([k0 v0] & Q & I). apply filter_In in I. destruct I as [I _].
    cbn in Q. destruct (String.eqb k0 "ub_matrix"). { left. subst k. vm_compute. tauto. } right. right. right. subst k0. exists c, v0. auto.
  Qed.
  Lemma keyed_user : forall L d, nxuser float_of int_of repr date_of L = Ok d -> keyed i s "user" d.
  Proof using PC. intros L d H. unfold nxuser in H. apply bind_ok in H. destruct H as (u & _ & H). eapply part_keyed; [exact H|reflexivity|]. intros k I. stat. Qed.

  Lemma built_shape : forall L e, build L i s = Ok e -> exists instrument part, shape i s e instrument part /\
    (forall v x, sget "name" instrument = Some v -> is_field v x -> exists d, nxdataset (meta L "instrument") [tchar] = Ok d /\ v = Dict d).
  Proof using PC.
    intros L e B. pose proof (built float_of int_of repr date_of L i s e B) as B0. unfold spice_scan_to_nxdict in B.
    destruct B0 as (instrument & source & mono & ana & det & coll & slits & flipper & goni & monitor & sample & user & spice &
      (ES & EM & EA & ED & EC & ESL & EF & EG & EMN & ESA & EU & ESP) & (GS & GM & GA & GD & GC & GSL & GF & GG) & (GI & GMN & GSA & GU & GSP & GDA)).
    rewrite EU, ES, EM, EA, ED, EC, ESL, EF, EG, EMN, ESA, ESP in B. cbn [bind] in B.
    apply bind_ok in B. destruct B as (name & EN & B). cbv zeta in B. apply bind_ok in B. destruct B as (def_ & EDF & B). apply bind_ok in B. destruct B as (title & ET & B).
    apply bind_ok in B. destruct B as (st & EST & B). apply bind_ok in B. destruct B as (et & EET & B). apply Ok_inj in B.
    set (ikw := [("source", KObj source); ("monochromator", KObj mono); ("collimator", KObj coll); ("analyser", KObj ana); ("detector", KObj det);
                                 ("slits", KObj slits); ("flipper", KObj flipper); ("goniometer", KObj goni); ("name", KObj name);
                                 ("NX_class", KAttr (LStr "NXinstrument")); ("EX_required", KAttr (LStr "true"))]) in B.
    set (ekw := ("SPICElogs", KObj spice) :: _) in B.
    assert (D1 : NoDup (map fst ikw)) by (apply nodupb_ok; vm_compute; reflexivity). assert (D2 : NoDup (map fst ekw)) by (apply nodupb_ok; vm_compute; reflexivity).
    assert (IE : instrument = nxentry ikw).
    { rewrite <- B in GI. rewrite nxentry_get in GI; [|auto|discriminate]. assert (Q : sget "instrument" ekw = Some (KObj (nxentry ikw))) by reflexivity. rewrite Q in GI. destruct (nxentry ikw); [discriminate|]. congruence. }
    exists instrument, (fun g => match sget g [("source", source); ("monochromator", mono); ("collimator", coll); ("analyser", ana); ("detector", det); ("slits", slits); ("flipper", flipper); ("goniometer", goni);
      ("monitor", monitor); ("sample", sample); ("user", user)] with Some d => d | None => [] end).
    split.
    2:{ intros v x G _. exists name. split; auto. rewrite IE, nxentry_get in G; [|auto|discriminate]. assert (Q : sget "name" ikw = Some (KObj name)) by reflexivity. rewrite Q in G. destruct name; [discriminate|]. congruence. }
    constructor.
    - rewrite <- B. apply nxentry_nodup.
    - rewrite IE. apply nxentry_nodup.
    - exact GI.
    - intros g I. cbn in I. destruct I as [<-|[<-|[<-|[]]]]; assumption.
    - intros c I. unfold component_names_ in I. cbn [In] in I. repeat (destruct I as [<-|I]; [assumption|]). destruct I.
    - intros g I. unfold component_names_, group_names in I. cbn [In List.app] in I.
      repeat (destruct I as [<-|I]; [first [eapply keyed_source; eassumption|eapply keyed_mono; eassumption|eapply keyed_coll; eassumption|eapply keyed_ana; eassumption|eapply keyed_det; eassumption
        |eapply keyed_slits; eassumption|eapply keyed_flipper; eassumption|eapply keyed_goni; eassumption|eapply keyed_monitor; eassumption|eapply keyed_sample; eassumption|eapply keyed_user; eassumption]|]). destruct I.
    - intros k v I [NA ND] NS. rewrite <- B in I. destruct (nxentry_in _ _ _ D2 I NA) as (d & J & -> & NE). clear - J NS NE EDF ET EST EET.
      unfold ekw in J. cbn [In] in J. unfold group_names, single_names. cbn [In].
      assert (FLD : forall v kw, nxdataset v kw = Ok d -> (exists x, is_field (Dict d) x) \/ exists a, Dict d = Dict [("attrs", a)]).
      { intros v kw E. destruct (nxdataset_field _ _ _ _ _ _ _ E) as [->|X]; [contradiction|auto]. }
      destruct J as [J|[J|[J|[J|[J|[J|[J|[J|[J|[J|[J|[J|[]]]]]]]]]]]]]; try discriminate; injection J as <- Q; try contradiction; subst; try tauto; right; right.
      + split; [tauto|]. right. eexists. reflexivity.
      + split; [tauto|]. eapply FLD; eauto.
      + split; [tauto|]. eapply FLD; eauto.
      + split; [tauto|]. eapply FLD; eauto.
      + split; [tauto|]. eapply FLD; eauto.
    - intros k v I NA. rewrite IE in I. destruct (nxentry_in _ _ _ D1 I NA) as (d & J & -> & NE). clear - J NE EN.
      unfold ikw in J. cbn [In] in J. unfold component_names_. cbn [In].
      destruct J as [J|[J|[J|[J|[J|[J|[J|[J|[J|[J|[J|[]]]]]]]]]]]]; try discriminate; injection J as <- Q; subst; try tauto. right. split; auto.
      destruct (nxdataset_field _ _ _ _ _ _ _ EN) as [->|X]; [contradiction|auto].
  Qed.
End Shape.

(** * Lookup in shaped entries *)
Definition headings : list string := "instrument" :: "SPICElogs" :: "DASlogs" :: "name" :: group_names ++ single_names ++ component_names_.
Lemma contents_sget : forall (e : entry) k, k <> "SPICElogs" -> k <> "DASlogs" -> sget k (items (contents e)) = sget k e.
  Proof.
    intros e k A B. unfold contents. cbn [items]. induction e as [|[a v] l]; auto. cbn [filter fst]. destruct (negb _) eqn:Q; cbn [dget]. { rewrite IHl. auto. }
    apply negb_false_iff, orb_true_iff in Q. rewrite !String.eqb_eq in Q. destruct (String.eqb k a) eqn:R; auto. apply String.eqb_eq in R. subst. destruct Q; contradiction.
  Qed.
Lemma contents_in : forall (e : entry) k v, In (k, v) (items (contents e)) -> In (k, v) e /\ k <> "SPICElogs".
  Proof.
    intros e k v I. unfold contents in I. cbn [items] in I. apply filter_In in I. destruct I as [I Q]. split; auto. cbn [fst] in Q. apply negb_true_iff, orb_false_iff in Q. rewrite !String.eqb_neq in Q. tauto.
  Qed.
Section Lookup.
  Context (i : option config) (s : option (dict string pv)) (e instrument : entry) (part : string -> entry) (SH : shape i s e instrument part).
  Lemma contents_nodup : NoDup (map fst (items (contents e))).
  Proof using SH. unfold contents. cbn [items]. apply filter_nodup. apply (sh_e _ _ _ _ _ SH). Qed.
  Lemma group_member : forall g, In g group_names -> In (g, Dict (part g)) (items (contents e)) /\ named g.
  Proof using SH.
    intros g I. assert (N : g <> "SPICElogs" /\ g <> "DASlogs" /\ named g). { unfold group_names in I. cbn [In] in I. repeat (destruct I as [<-|I]; [repeat split; discriminate|]). destruct I. }
    destruct N as (A & B & C). split; auto. apply sget_in. rewrite contents_sget by auto. apply (sh_group _ _ _ _ _ SH). auto.
  Qed.
  Lemma instrument_member : In ("instrument", Dict instrument) (items (contents e)).
  Proof using SH. apply sget_in. rewrite contents_sget by discriminate. apply (sh_instrument _ _ _ _ _ SH). Qed.
  Lemma component_member : forall c, In c component_names_ -> In (c, Dict (part c)) instrument /\ named c.
  Proof using SH.
    intros c I. split. { apply sget_in. apply (sh_component _ _ _ _ _ SH). auto. } unfold component_names_ in I. cbn [In] in I. repeat (destruct I as [<-|I]; [split; discriminate|]). destruct I.
  Qed.
  Lemma part_flat : forall g, In g (component_names_ ++ group_names) -> flat (part g).
  Proof using SH. intros g I. apply (sh_keyed _ _ _ _ _ SH). auto. Qed.
  Lemma part_nodup : forall g, In g (component_names_ ++ group_names) -> NoDup (map fst (part g)).
  Proof using SH. intros g I. apply (sh_keyed _ _ _ _ _ SH). auto. Qed.
  Lemma top_value : forall k v, In (k, v) (items (contents e)) -> named k ->
    (k = "instrument" /\ v = Dict instrument) \/ (In k group_names /\ v = Dict (part k)) \/ (In k single_names /\ ((exists x, is_field v x) \/ exists a, v = Dict [("attrs", a)])).
  Proof using SH.
    intros k v I NK. pose proof (contents_in _ _ _ I) as [IE NS]. pose proof (in_sget _ _ _ (sh_e _ _ _ _ _ SH) IE) as G. destruct (sh_top _ _ _ _ _ SH _ _ IE NK NS) as [->|[J|J]]; auto.
    - left. split; auto. rewrite (sh_instrument _ _ _ _ _ SH) in G. congruence.
    - right. left. split; auto. rewrite (sh_group _ _ _ _ _ SH) in G by auto. congruence.
  Qed.
  Lemma below_value : forall k v, In (k, v) instrument -> named k -> (In k component_names_ /\ v = Dict (part k)) \/ (k = "name" /\ exists x, is_field v x).
  Proof using SH.
    intros k v I NK. destruct (sh_below _ _ _ _ _ SH _ _ I (proj1 NK)) as [J|J]; auto. left. split; auto. pose proof (in_sget _ _ _ (sh_i _ _ _ _ _ SH) I) as G. rewrite (sh_component _ _ _ _ _ SH) in G by auto. congruence.
  Qed.
  Section Key.
    Context (f : string) (ks : list string).
    Hypothesis NF : named f.
    Notation go := (go (f :: ks) "dataset").
    Lemma quiet_instrument : sget f instrument = None -> (forall c, In c component_names_ -> sget f (part c) = None) -> go (Dict instrument) None = Ok None.
    Proof using SH NF.
      intros G A. rewrite go_below by auto. apply search_quiet. intros k v I NK. destruct (below_value _ _ I NK) as [(J & ->)|(-> & x & X)].
      - apply go_flat_absent; auto. apply part_flat. apply in_or_app. auto. - eapply go_field; eauto.
    Qed.
    Lemma quiet_top : forall k v, In (k, v) (items (contents e)) -> named k -> k <> "instrument" -> (forall g, In g group_names -> g = k -> sget f (part g) = None) -> go v None = Ok None.
    Proof using SH NF.
      intros k v I NK NI A. destruct (top_value _ _ I NK) as [(-> & _)|[(J & ->)|(J & [(x & X)|(a & ->)])]]; [contradiction| | |].
      - apply go_flat_absent; auto. apply part_flat. apply in_or_app. auto. - eapply go_field; eauto. - apply go_attrs. auto.
    Qed.
    Hypothesis NT : sget f (items (contents e)) = None.
    (** The key begins in the instrument, below one of its parts or at the part itself; *)
    Lemma in_instrument : forall x, go (Dict instrument) None = Ok (Some x) -> (forall g, In g group_names -> sget f (part g) = None) -> go (contents e) None = Ok (Some x).
    Proof using SH NF NT.
      intros x G A. unfold contents in *. rewrite go_below by auto. eapply search_one; [apply contents_nodup|apply instrument_member|split; discriminate|exact G|].
      intros k v I NK N. eapply quiet_top; eauto.
    Qed.
    Lemma in_component : forall c x, In c component_names_ -> sget f instrument = None -> go (Dict (part c)) None = Ok (Some x) -> (forall c', In c' component_names_ -> c' <> c -> sget f (part c') = None) ->
      go (Dict instrument) None = Ok (Some x).
    Proof using SH NF.
      intros c x I G P A. rewrite go_below by auto. destruct (component_member _ I) as [M NC]. eapply search_one; [apply (sh_i _ _ _ _ _ SH)|exact M|exact NC|exact P|].
      intros k v J NK N. destruct (below_value _ _ J NK) as [(K & ->)|(-> & y & Y)]. - apply go_flat_absent; auto. apply part_flat. apply in_or_app. auto. - eapply go_field; eauto.
    Qed.
    (** or in a group. *)
    Lemma in_group : forall g x, In g group_names -> sget f instrument = None -> go (Dict (part g)) None = Ok (Some x) -> (forall c, In c component_names_ -> sget f (part c) = None) ->
      (forall g', In g' group_names -> g' <> g -> sget f (part g') = None) -> go (contents e) None = Ok (Some x).
    Proof using SH NF NT.
      intros g x I G P A Q. unfold contents in *. rewrite go_below by auto. destruct (group_member _ I) as [M NG]. eapply search_one; [apply contents_nodup|exact M|exact NG|exact P|].
      intros k v J NK N. destruct (String.string_dec k "instrument") as [->|NI].
      - pose proof (contents_in e _ _ J) as [JE _]. pose proof (in_sget _ _ _ (sh_e _ _ _ _ _ SH) JE) as E. rewrite (sh_instrument _ _ _ _ _ SH) in E. injection E as <-. apply quiet_instrument; auto.
      - eapply quiet_top; eauto. intros g' J' ->. apply Q; auto.
    Qed.
    (** or nowhere. *)
    Lemma nowhere : sget f instrument = None -> (forall g, In g (component_names_ ++ group_names) -> sget f (part g) = None) -> go (contents e) None = Ok None.
    Proof using SH NF NT.
      intros G A. unfold contents in *. rewrite go_below by auto. apply search_quiet. intros k v J NK. destruct (String.string_dec k "instrument") as [->|NI].
      - pose proof (contents_in e _ _ J) as [JE _]. pose proof (in_sget _ _ _ (sh_e _ _ _ _ _ SH) JE) as E. rewrite (sh_instrument _ _ _ _ _ SH) in E. injection E as <-. apply quiet_instrument; auto. intros. apply A. apply in_or_app. auto.
      - eapply quiet_top; eauto. intros g' J' ->. apply A. apply in_or_app. auto.
    Qed.
  End Key.
  Lemma no_heading : forall f, ~ In f headings -> named f -> sget f (items (contents e)) = None /\ sget f instrument = None.
  Proof using SH.
    intros f N NF. split.
    - destruct (sget f (items (contents e))) as [v|] eqn:E; auto. exfalso. apply N. apply sget_in in E. destruct (top_value _ _ E NF) as [(-> & _)|[(J & _)|(J & _)]]; unfold headings; [left; auto| |]; do 4 right; apply in_or_app; [auto|right; apply in_or_app; auto].
    - destruct (sget f instrument) as [v|] eqn:E; auto. exfalso. apply N. apply sget_in in E. unfold headings. destruct (below_value _ _ E NF) as [(J & _)|(-> & _)]; [|cbn; tauto]. do 4 right. apply in_or_app. right. apply in_or_app. auto.
  Qed.
  Lemma contents_groups : groups (contents e).
  Proof using SH.
    assert (FG : forall v x, is_field v x -> groups v). { intros v x (a & ->). constructor. cbn. intros k' v' [E|[E|[]]] NK'; injection E as <- <-; destruct NK'; contradiction. }
    change (contents e) with (Dict (items (contents e))). constructor. intros k v I NK. destruct (top_value _ _ I NK) as [(_ & ->)|[(J & ->)|(_ & [(x & X)|(a & ->)])]].
    - constructor. intros k' v' I' NK'. destruct (below_value _ _ I' NK') as [(J & ->)|(_ & x & X)]; [|eauto]. apply flat_groups, part_flat, in_or_app. auto.
    - apply flat_groups, part_flat, in_or_app. auto.
    - eauto.
    - constructor. cbn. intros k' v' [E|[]] NK'. injection E as <- <-. destruct NK'. contradiction.
  Qed.
End Lookup.
