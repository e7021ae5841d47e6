(** Property C66, continued: senses, users, collimation, times, plot attributes, counters, channels and logs. *)
From Coq Require Import Reals List ZArith String Ascii Bool Lia.
From Verif Require Import Base PyStr S_Str L_Str M_ScanData M_Spice M_Project M_Tavi P_Tavi M_Nexus P_Nexus L_NexusFile M_Builder L_Builder P_Builder P_Builder2 P_Builder3.
Import ListNotations.
Open Scope string_scope.
Open Scope list_scope.

(** * Specification *)
(** The configuration file gives all four divergences of a direction. *)
Definition four_names (d : string) : list string := map (fun n => (d ++ n)%string) ["_pre_mono"; "_pre_sample"; "_post_sample"; "_post_ana"].
Definition section (instr : option config) (name : string) (d : dict string pv) : Prop := exists c, instr = Some c /\ sget name c = Some d.
Definition gives_four (instr : option config) (dir : string) (xs : list R) : Prop :=
  exists d, section instr "collimators" d /\ Forall2 (fun k x => sget k d = Some (PNum x)) (four_names dir) xs.
Definition gives_none (instr : option config) (dir : string) : Prop := forall d, section instr "collimators" d -> exists k, In k (four_names dir) /\ sget k d = None.
(** The axis of the plot under its name in the entry. *)
Inductive axis_name : string -> string -> Prop :=
| axis_h : axis_name "h" "qh" | axis_k : axis_name "k" "qk" | axis_l : axis_name "l" "ql" | axis_e : axis_name "e" "en"
| axis_same s : ~ In s ["h"; "k"; "l"; "e"] -> axis_name s s.
Definition has_column (L : logs) (c : string) : Prop := exists l, sget c (lg_data L) = Some l.
(** The scan has the counting channel [i]: columns detector_1, ..., detector_i. *)
Definition has_channel (L : logs) (i : Z) : Prop := (1 <= i)%Z /\ forall j, (1 <= j <= i)%Z -> has_column L ("detector_" ++ str_of j).

Section C66.
  Variable float_of : string -> option R.
  Variable int_of : string -> option Z.
  Variable repr : pv -> string.
  Variable date_of : string -> option string.
  Notation nxdataset := (nxdataset float_of int_of repr date_of).
  Notation fill := (fill float_of int_of repr date_of).
  Notation build := (spice_scan_to_nxdict float_of int_of repr date_of).
  Notation built := (built float_of int_of repr date_of).
  Notation fill_static := (fill_static float_of int_of repr date_of).
  Notation part_field := (part_field float_of int_of repr date_of).
  Notation dataset_leaf := (dataset_leaf float_of int_of repr date_of).
  Ltac distinct := apply nodupb_ok; vm_compute; reflexivity.
  Ltac open B := destruct (built _ _ _ _ B) as (instrument & source & mono & ana & det & coll & slits & flipper & goni & monitor & sample & user & spice &
      (ES & EM & EA & ED & EC & ESL & EF & EG & EMN & ESA & EU & ESP) & (GS & GM & GA & GD & GC & GSL & GF & GG) & (GI & GMN & GSA & GU & GSP & GDA)).

  Lemma text_of : forall L k s, meta_text L k = Ok s <-> header L k = Some s.
  Proof using.
    clear. intros. unfold meta_text, header. destruct (sget k (lg_meta L)) as [[[x|x|x]|x|]|]; split; intros H; try discriminate; congruence || (injection H as ->; reflexivity) || idtac.
  Qed.
  Lemma char_leaf : forall c kw d, nxdataset (PStr (String c "")) kw = Ok d -> sget "type" kw = Some "NX_CHAR" -> data_leaf d = Some (LStr (String c "")).
  Proof.
    intros c kw d D T. destruct (dataset_leaf _ _ _ D) as (x & DX & ->). { intros [X|X]; discriminate. }
    unfold dataset_of in DX. rewrite T in DX. cbn in DX. apply Ok_inj in DX. congruence.
  Qed.
  (** The three senses. *)
  Theorem C66_senses : forall L i s e, build L i s = Ok e -> exists a b c rest, header L "sense" = Some (String a (String b (String c rest))) /\
    (~ configured i s ["instrument"; "monochromator"; "sense"] -> field_value e ["instrument"; "monochromator"; "sense"] = Some (LStr (String a ""))) /\
    field_value e ["instrument"; "goniometer"; "sense"] = Some (LStr (String b "")) /\
    (~ configured i s ["instrument"; "analyser"; "sense"] -> field_value e ["instrument"; "analyser"; "sense"] = Some (LStr (String c ""))).
  Proof.
    intros L i s e B. unfold field_value. open B. unfold nxmono in EM. unfold nxana in EA. unfold nxgoni in EG.
    apply bind_ok in EM. destruct EM as (sm & CM & EM). apply bind_ok in EA. destruct EA as (sa & CA & EA). apply bind_ok in EG. destruct EG as (sg & CG & EG).
    unfold char_at in CM, CA, CG. destruct (meta_text L "sense") as [t|] eqn:MT; [|discriminate]. cbn [bind] in CM, CA, CG. apply text_of in MT.
    destruct t as [|a [|b [|c t]]]; try discriminate. cbn in CM, CA, CG. apply Ok_inj in CM. apply Ok_inj in CA. apply Ok_inj in CG. subst.
    exists a, b, c, t. split; [auto|]. cbn [List.app]. rewrite app_assoc in EG, EA. split; [|split].
    - intros NC. rewrite leaf_cons, GI, leaf_cons, GM.
      destruct (part_field _ _ _ _ "sense" (PStr (String a "")) [tchar] EM) as (d & D & ->); [distinct|member| |discriminate|apply (char_leaf _ _ _ D); reflexivity]. eapply not_configured; [|exact NC]; reflexivity.
    - rewrite leaf_cons, GI, leaf_cons, GG.
      destruct (part_field _ _ _ _ "sense" (PStr (String b "")) [tchar] EG) as (d & D & ->); [distinct|member| |discriminate|apply (char_leaf _ _ _ D); reflexivity].
      rewrite with_kw_keys. intros I. apply in_map_iff in I. destruct I as ([k0 v0] & Q & I). apply filter_In in I. destruct I as [_ I]. apply String.eqb_eq in I. cbn in I, Q. subst. discriminate.
    - intros NC. rewrite leaf_cons, GI, leaf_cons, GA.
      destruct (part_field _ _ _ _ "sense" (PStr (String c "")) [tchar] EA) as (d & D & ->); [distinct|member| |discriminate|apply (char_leaf _ _ _ D); reflexivity]. eapply not_configured; [|exact NC]; reflexivity.
  Qed.
  (** The users are the pieces between the commas. *)
  Theorem C66_users : forall L i s e, build L i s = Ok e -> exists t ps, header L "users" = Some t /\ pieces ","%char t ps /\ field_value e ["user"; "name"] = Some (LStrs ps).
  Proof.
    intros L i s e B. unfold field_value. open B. unfold nxuser in EU. apply bind_ok in EU. destruct EU as (t & T & EU). apply text_of in T.
    exists t, (split_on ","%char t). split; auto. split; [apply split_on_pieces|]. cbn [List.app]. rewrite leaf_cons, GU. rewrite <- (app_nil_r [_]) in EU.
    destruct (part_field _ _ _ _ "name" (PStrs (split_on ","%char t)) [tchar] EU) as (d & D & ->); [distinct|member|intros []|discriminate|].
    destruct (dataset_leaf _ _ _ D) as (x & DX & ->). { intros [X|X]; discriminate. } cbn in DX. apply Ok_inj in DX. congruence.
  Qed.
  Lemma four_spec : forall names d r, four names d = Ok r ->
    match r with Some xs => Forall2 (fun k x => sget k d = Some (PNum x)) names xs | None => exists k, In k names /\ sget k d = None end.
  Proof using.
    clear. induction names as [|k names]; intros d r H; cbn in H. { apply Ok_inj in H. subst. constructor. }
    destruct (sget k d) as [[| |x| | | |]|] eqn:E; try discriminate; [|apply Ok_inj in H; subst; exists k; cbn; auto].
    apply bind_ok in H. destruct H as (r' & H & Q). apply Ok_inj in Q. subst r. specialize (IHnames _ _ H). destruct r' as [xs|]; [constructor; auto|]. destruct IHnames as (k' & I & N). exists k'. cbn. auto.
  Qed.
  Lemma list_leaf : forall l kw d, nxdataset (PList l) kw = Ok d -> sget "type" kw = Some "NX_ANGLE" -> data_leaf d = Some (LList l).
  Proof.
    intros c kw d D T. destruct (dataset_leaf _ _ _ D) as (x & DX & ->). { intros [X|X]; discriminate. }
    unfold dataset_of in DX. rewrite T in DX. cbn in DX. apply Ok_inj in DX. congruence.
  Qed.
  Lemma four_unique : forall d names xs ys, Forall2 (fun k x => sget k d = Some (PNum x)) names xs -> Forall2 (fun k x => sget k d = Some (PNum x)) names ys -> xs = ys.
  Proof using.
    clear. induction names; intros xs ys H K; inversion H; subst; inversion K; subst; auto. f_equal; [congruence|auto].
  Qed.
  Lemma four_has : forall d names xs, Forall2 (fun k x => sget k d = Some (PNum x)) names xs -> forall k, In k names -> exists x, sget k d = Some (PNum x).
  Proof using. clear. intros d names xs H. induction H; intros k0 I; [destruct I|]. destruct I as [<-|I]; eauto. Qed.
  (** The divergences: the numbers between the dashes, unless the configuration file gives all four. *)
  Theorem C66_collimation : forall L i s e, build L i s = Ok e ->
    (exists t ps xs, header L "collimation" = Some t /\ pieces "-"%char t ps /\ Forall2 (fun a x => float_of a = Some x) ps xs /\
       (gives_none i "h" -> field_value e ["instrument"; "collimator"; "divergence_x"] = Some (LList xs))) /\
    (forall ys, gives_four i "h" ys -> field_value e ["instrument"; "collimator"; "divergence_x"] = Some (LList ys)) /\
    (forall ys, gives_four i "v" ys -> field_value e ["instrument"; "collimator"; "divergence_y"] = Some (LList ys)).
  Proof.
    intros L i s e B. unfold field_value. open B. cbn [List.app].
    assert (PX : forall k, leaf_at ["instrument"; "collimator"; k; "dataset"] (Dict e) = leaf_at [k; "dataset"] (Dict coll)). { intros k. rewrite leaf_cons, GI, leaf_cons, GC. auto. }
    rewrite !PX. unfold nxcoll in EC.
    apply bind_ok in EC. destruct EC as (t & T & EC). apply text_of in T. apply bind_ok in EC. destruct EC as (xs & X & EC). apply floats_of in X.
    apply bind_ok in EC. destruct EC as (h & H & EC). apply bind_ok in EC. destruct EC as (v & V & EC). apply four_spec in H. apply four_spec in V.
    change ["h_pre_mono"; "h_pre_sample"; "h_post_sample"; "h_post_ana"] with (four_names "h") in H. change ["v_pre_mono"; "v_pre_sample"; "v_post_sample"; "v_post_ana"] with (four_names "v") in V.
    assert (PF : forall dir r, match r with Some xs => Forall2 (fun k x => sget k (params i "collimators") = Some (PNum x)) (four_names dir) xs | None => exists k, In k (four_names dir) /\ sget k (params i "collimators") = None end ->
      (gives_none i dir -> r = None) /\ (forall ys, gives_four i dir ys -> r = Some ys)).
    { clear. intros dir r H. split.
      - intros G. destruct r as [xs|]; auto. exfalso. unfold params in H. destruct i as [c|].
        + destruct (sget "collimators" c) as [d|] eqn:E.
          * destruct (G d) as (k & I & N); [exists c; auto|]. destruct (four_has _ _ _ H k I). congruence.
          * unfold four_names in H. inversion H; subst. discriminate.
        + unfold four_names in H. inversion H; subst. discriminate.
      - intros ys (d & (c & -> & E) & F). unfold params in H. rewrite E in H. destruct r as [xs|].
        + f_equal. apply (four_unique _ _ _ _ H F).
        + exfalso. destruct H as (k & I & N). destruct (four_has _ _ _ F k I). congruence. }
    destruct (PF "h" h H) as [HN HS]. destruct (PF "v" v V) as [_ VS]. clear PF H V.
    assert (XV : forall l1 l2 ys, l1 ++ l2 = [("type", PStr "Soller", [tchar]); ("divergence_x", PList xs, [tangle; units "minutes of arc"])] ++ opt_field "divergence_x" h [tangle; units "minutes of arc"] ++ opt_field "divergence_y" v [tangle; units "minutes of arc"] ->
      forall k, (exists l1', l1 = l1' ++ [(k, PList ys, [tangle; units "minutes of arc"])]) -> ~ In k (map key_of l2) -> k <> "attrs" -> leaf_at [k; "dataset"] (Dict coll) = Some (LList ys)).
    { intros l1 l2 ys Q k (l1' & ->) NI NA. rewrite <- Q in EC. rewrite <- app_assoc in EC. cbn in EC. destruct (fill_last _ _ _ _ _ _ _ _ _ _ _ EC NI) as (d & e1 & _ & D & G).
      pose proof (list_leaf _ _ _ D eq_refl) as DL. destruct d as [|q d]; [discriminate|]. rewrite leaf_cons, G, at_data. auto. }
    split; [|split].
    - exists t, (split_on "-"%char t), xs. split; auto. split; [apply split_on_pieces|]. split; auto. intros G. rewrite (HN G) in *. cbn [opt_field List.app] in *.
      eapply (XV [_; _] (opt_field "divergence_y" v _)); [reflexivity|exists [("type", PStr "Soller", [tchar])]; reflexivity| |discriminate]. destruct v; cbn; intuition discriminate.
    - intros ys G. rewrite (HS ys G) in *. eapply (XV [_; _; _] (opt_field "divergence_y" v _)); [reflexivity|eexists [_; _]; reflexivity| |discriminate]. destruct v; cbn; intuition discriminate.
    - intros ys G. rewrite (VS ys G) in *. eapply (XV _ []); [rewrite app_nil_r; reflexivity|eexists; cbn [opt_field]; rewrite app_assoc; reflexivity|intros []|discriminate].
  Qed.
  (** Start and end of the scan. *)
  Theorem C66_times : forall L i s e, build L i s = Ok e ->
    (forall d t, header L "date" = Some d -> header L "time" = Some t -> exists x, date_of (d ++ " " ++ t) = Some x /\ field_value e ["start_time"] = Some (LStr x)) /\
    (forall t, header L "end_time" = Some t -> t <> "" -> exists x, date_of t = Some x /\ field_value e ["end_time"] = Some (LStr x)) /\
    (header L "end_time" = Some "" \/ sget "end_time" (lg_meta L) = None -> field_value e ["end_time"] = None).
  Proof.
    intros L i s e B. unfold field_value. cbn [List.app]. destruct (built_texts _ _ _ _ _ _ _ _ B) as (name & title & st & et & ins & _ & _ & N3 & N4 & _ & _ & _ & -> & ->).
    assert (DT : forall t kw d, nxdataset (PStr t) kw = Ok d -> t <> "" -> sget "type" kw = Some "NX_DATE_TIME" -> exists x, date_of t = Some x /\ data_leaf d = Some (LStr x)).
    { intros t kw d D NE T. destruct (dataset_leaf _ _ _ D) as (x & DX & ->). { intros [X|X]; [discriminate|]. injection X as ->. contradiction. }
      unfold dataset_of in DX. rewrite T in DX. cbn in DX. destruct (date_of t) as [y|]; [|discriminate]. apply Ok_inj in DX. exists y. subst. auto. }
    assert (HM : forall k t, header L k = Some t -> meta L k = PStr t).
    { clear. intros k t H. unfold header in H. unfold meta. destruct (sget k (lg_meta L)) as [[[x|x|x]|x|]|]; try discriminate. injection H as ->. reflexivity. }
    split; [|split].
    - intros d t HD HT. rewrite (HM _ _ HD), (HM _ _ HT) in N3. cbn [fmt] in N3. apply (DT _ _ _ N3); auto. destruct d; discriminate.
    - intros t HT NE. rewrite (HM _ _ HT) in N4. apply (DT _ _ _ N4); auto.
    - intros [H|H]; [rewrite (HM _ _ H) in N4|unfold meta in N4; rewrite H in N4]; apply Ok_inj in N4; subst; reflexivity.
  Qed.
  (** The attributes of [data] tell what to plot. *)
  Theorem C66_plot : forall L i s e, build L i s = Ok e ->
    (forall y, header L "def_y" = Some y -> leaf_at ["data"; "attrs"; "signal"] (Dict e) = Some (LStr y)) /\
    (forall x, header L "def_x" = Some x -> exists a, axis_name x a /\ leaf_at ["data"; "attrs"; "axes"] (Dict e) = Some (LStr a)).
  Proof.
    intros L i s e B. open B.
    assert (HM : forall k t, header L k = Some t -> meta L k = PStr t).
    { clear. intros k t H. unfold header in H. unfold meta. destruct (sget k (lg_meta L)) as [[[x|x|x]|x|]|]; try discriminate. injection H as ->. reflexivity. }
    split.
    - intros y H. rewrite leaf_cons, GDA. unfold nxdata. rewrite (HM _ _ H). reflexivity.
    - intros x H. exists (renamed x). split.
      + unfold renamed. destruct (String.eqb_spec x "h"); [subst; constructor|]. destruct (String.eqb_spec x "k"); [subst; constructor|]. destruct (String.eqb_spec x "l"); [subst; constructor|].
        destruct (String.eqb_spec x "e"); [subst; constructor|]. constructor. cbn. intuition.
      + rewrite leaf_cons, GDA. unfold nxdata. rewrite (HM _ _ H). rewrite leaf_cons. cbn [dget String.eqb]. cbn. destruct (meta L "def_y"); reflexivity.
  Qed.
End C66.
Print Assumptions C66_senses.
Print Assumptions C66_users.
Print Assumptions C66_collimation.
Print Assumptions C66_times.
Print Assumptions C66_plot.
