(** Property C66, continued: headers, counting channels, logs and configuration files. *)
From Coq Require Import Reals List ZArith String Ascii Bool Lia.
From Verif Require Import Base PyStr S_Str L_Str M_ScanData M_Spice M_Project M_Tavi P_Tavi M_Nexus P_Nexus L_NexusFile M_Builder L_Builder P_Builder P_Builder2.
Import ListNotations.
Open Scope string_scope.
Open Scope list_scope.

(** * Specification *)
(** The text of a header. *)
Definition header (L : logs) (k : string) : option string := match sget k (lg_meta L) with Some (AMeta (MStr s)) => Some s | _ => None end.
(** The headers that are copied as text, and where. *)
Definition text_headers : list (string * list string) :=
  [("monochromator", ["instrument"; "monochromator"; "type"]); ("analyzer", ["instrument"; "analyser"; "type"]);
   ("samplename", ["sample"; "name"]); ("sampletype", ["sample"; "type"]); ("instrument", ["instrument"; "name"]); ("scan_title", ["title"])].
(** The headers that are lists of numbers separated by commas, and where. *)
Definition number_headers : list (string * list string) :=
  [("latticeconstants", ["sample"; "unit_cell"]); ("ubmatrix", ["sample"; "orientation_matrix"]); ("plane_normal", ["sample"; "plane_normal"])].
Definition field_value (e : entry) (p : list string) : option leaf := leaf_at (p ++ ["dataset"]) (Dict e).

Section C66.
  Variable float_of : string -> option R.
  Variable int_of : string -> option Z.
  Variable repr : pv -> string.
  Variable date_of : string -> option string.
  Notation nxdataset := (nxdataset float_of int_of repr date_of).
  Notation fill := (fill float_of int_of repr date_of).
  Notation build := (spice_scan_to_nxdict float_of int_of repr date_of).
  Notation built := (built float_of int_of repr date_of).
  Notation fill_static := (fill_static float_of int_of repr date_of).
  Ltac distinct := apply nodupb_ok; vm_compute; reflexivity.
  Ltac open B := destruct (built _ _ _ _ B) as (instrument & source & mono & ana & det & coll & slits & flipper & goni & monitor & sample & user & spice &
      (ES & EM & EA & ED & EC & ESL & EF & EG & EMN & ESA & EU & ESP) & (GS & GM & GA & GD & GC & GSL & GF & GG) & (GI & GMN & GSA & GU & GSP & GDA)).

  Definition data_leaf (d : entry) : option leaf := match sget "dataset" d with Some (Leaf x) => Some x | _ => None end.
  Lemma at_data : forall d, leaf_at ["dataset"] (Dict d) = data_leaf d.
  Proof using. intros d. rewrite leaf_cons. unfold data_leaf. destruct (sget "dataset" d) as [[|]|]; reflexivity. Qed.
  Lemma part_field : forall st cf at_ e' k v kw, fill (st ++ cf) (texts at_) = Ok e' -> NoDup (map key_of st) -> In (k, v, kw) st -> ~ In k (map key_of cf) -> k <> "attrs" ->
    exists d, nxdataset v kw = Ok d /\ leaf_at [k; "dataset"] (Dict e') = data_leaf d.
  Proof.
    intros st cf at_ e' k v kw E ND I NC NA. destruct (fill_static _ _ _ _ _ _ _ E ND I NC) as (d & D & G). { apply texts_get. auto. }
    exists d. split; auto. rewrite leaf_cons, G. destruct d as [|q d]; [reflexivity|]. apply at_data.
  Qed.
  Lemma dataset_leaf : forall v kw d, nxdataset v kw = Ok d -> ~ empty_value v -> exists x, dataset_of float_of int_of repr date_of v kw = Ok x /\ data_leaf d = Some x.
  Proof.
    intros v kw d D N. unfold M_Builder.nxdataset in D. unfold empty_value in N.
    assert (G : (do x <- dataset_of float_of int_of repr date_of v kw; Ok [("dataset", Leaf x); ("attrs", Dict (map (fun a : string * string => (fst a, Leaf (LStr (snd a)))) kw))]) = Ok d).
    { destruct v as [|[|c s]| | | | |]; auto; exfalso; tauto. }
    apply bind_ok in G. destruct G as (x & DX & G). apply Ok_inj in G. subst. exists x. auto.
  Qed.
  Lemma text_leaf : forall L k kw d, nxdataset (meta L k) kw = Ok d -> sget "type" kw = Some "NX_CHAR" ->
    (forall s, header L k = Some s -> data_leaf d = if String.eqb s "" then None else Some (LStr s)) /\ (sget k (lg_meta L) = None -> data_leaf d = None).
  Proof.
    intros L k kw d D T. unfold meta, header in *. destruct (sget k (lg_meta L)) as [a|].
    - split; [|discriminate]. intros s H. destruct a as [[s0| |]| |]; try discriminate. injection H as ->. cbn [pv_of] in D. destruct (String.eqb s "") eqn:Q.
      + apply String.eqb_eq in Q. subst. cbn in D. apply Ok_inj in D. subst. reflexivity.
      + destruct (dataset_leaf _ _ _ D) as (x & DX & ->). { intros [X|X]; [discriminate|]. injection X as ->. discriminate. }
        unfold dataset_of in DX. rewrite T in DX. cbn in DX. apply Ok_inj in DX. congruence.
    - split; [discriminate|]. intros _. apply Ok_inj in D. subst. reflexivity.
  Qed.
  (** The title and the name of the instrument; the times. *)
  Lemma built_texts : forall L i s e, build L i s = Ok e -> exists name title start_time end_time instrument,
    nxdataset (meta L "instrument") [tchar] = Ok name /\ nxdataset (meta L "scan_title") [tchar; req] = Ok title /\
    nxdataset (PStr (fmt repr (meta L "date") ++ " " ++ fmt repr (meta L "time"))) [("type", "NX_DATE_TIME"); req] = Ok start_time /\ nxdataset (meta L "end_time") [("type", "NX_DATE_TIME")] = Ok end_time /\
    sget "instrument" e = Some (Dict instrument) /\ leaf_at ["name"; "dataset"] (Dict instrument) = data_leaf name /\
    leaf_at ["title"; "dataset"] (Dict e) = data_leaf title /\ leaf_at ["start_time"; "dataset"] (Dict e) = data_leaf start_time /\ leaf_at ["end_time"; "dataset"] (Dict e) = data_leaf end_time.
  Proof.
    intros L i s e B. pose proof B as B0. open B0. unfold spice_scan_to_nxdict in B.
    repeat (let x := fresh "x" in let E := fresh "E" in apply bind_ok in B; destruct B as (x & E & B)).
    exists x9, x13, x14, x15, instrument. repeat (split; [assumption|]). apply Ok_inj in B.
    assert (DX : forall d, (match d with [] => None | x :: y => leaf_at ["dataset"] (Dict (x :: y)) end) = data_leaf d). { intros [|a b]; [reflexivity|]. apply at_data. }
    match type of B with nxentry ?kw = _ => assert (D2 : NoDup (map fst kw)) by (cbn; repeat (constructor; [cbn; intuition discriminate|]); constructor) end.
    assert (G : forall kw k d, NoDup (map fst kw) -> k <> "attrs" -> In (k, KObj d) kw -> leaf_at [k; "dataset"] (Dict (nxentry kw)) = data_leaf d).
    { intros kw k d ND NA I. rewrite leaf_cons, nxentry_get by auto. rewrite (in_sget k kw (KObj d)) by auto. destruct d as [|a b]; [reflexivity|]. apply at_data. }
    split; [|rewrite <- B; repeat split; (apply G; [exact D2|discriminate|member])].
    assert (EI : exists kw, instrument = nxentry kw /\ NoDup (map fst kw) /\ In ("name", KObj x9) kw).
    { rewrite <- B in GI. rewrite nxentry_get in GI by (auto; discriminate).
      match type of GI with context [sget "instrument" ?kw] => match kw with context [("instrument", KObj ?I)] => assert (Q : sget "instrument" kw = Some (KObj I)) by (apply in_sget; [exact D2|member]); rewrite Q in GI; destruct I as [|a b] eqn:EQ end end.
      - discriminate.
      - injection GI as <-. rewrite <- EQ. eexists. split; [reflexivity|]. split; [cbn; repeat (constructor; [cbn; intuition discriminate|]); constructor|member]. }
    destruct EI as (kw & -> & ND & I). apply G; auto. discriminate.
  Qed.
  (** Texts are copied; an empty or missing header leaves no field. *)
  Theorem C66_texts : forall L i s e, build L i s = Ok e -> forall k p, In (k, p) text_headers -> ~ configured i s p ->
    (forall t, header L k = Some t -> field_value e p = if String.eqb t "" then None else Some (LStr t)) /\ (sget k (lg_meta L) = None -> field_value e p = None).
  Proof.
    intros L i s e B k p I NC. unfold field_value. pose proof B as B0. open B0. destruct (built_texts _ _ _ _ B) as (name & title & st & et & ins & N1 & N2 & _ & _ & N5 & N6 & N7 & _).
    rewrite N5 in GI. injection GI as <-.
    cbn [In text_headers] in I. unfold text_headers in I. cbn [In] in I. destruct I as [I|[I|[I|[I|[I|[I|[]]]]]]]; injection I as <- <-; cbn [List.app].
    - rewrite leaf_cons, N5, leaf_cons, GM. unfold nxmono in EM. apply bind_ok in EM. destruct EM as (sense & _ & EM).
      destruct (part_field _ _ _ _ "type" (meta L "monochromator") [tchar] EM) as (d & D & ->); [distinct|member| |discriminate|apply (text_leaf _ _ _ _ D); reflexivity]. eapply not_configured; [|exact NC]; reflexivity.
    - rewrite leaf_cons, N5, leaf_cons, GA. unfold nxana in EA. apply bind_ok in EA. destruct EA as (sense & _ & EA). rewrite app_assoc in EA.
      destruct (part_field _ _ _ _ "type" (meta L "analyzer") [tchar] EA) as (d & D & ->); [distinct|member| |discriminate|apply (text_leaf _ _ _ _ D); reflexivity]. eapply not_configured; [|exact NC]; reflexivity.
    - rewrite leaf_cons, GSA. unfold nxsample in ESA. apply bind_ok in ESA. destruct ESA as (ubok & _ & ESA). rewrite !app_assoc in ESA.
      destruct (part_field _ _ _ _ "name" (meta L "samplename") [tchar; req] ESA) as (d & D & ->); [distinct|member| |discriminate|apply (text_leaf _ _ _ _ D); reflexivity].
      intros I. apply NC. clear - I. unfold sample_params in I. destruct s as [d|]; [|destruct I]. rewrite map_map in I. apply in_map_iff in I. destruct I as ([k0 v0] & Q & I). apply filter_In in I. destruct I as [I _]. cbn in Q.
      exists k0, v0. exists d. split; auto. split; auto. destruct (String.eqb k0 "ub_matrix"); auto. discriminate.
    - rewrite leaf_cons, GSA. unfold nxsample in ESA. apply bind_ok in ESA. destruct ESA as (ubok & _ & ESA). rewrite !app_assoc in ESA.
      destruct (part_field _ _ _ _ "type" (meta L "sampletype") [tchar; req] ESA) as (d & D & ->); [distinct|member| |discriminate|apply (text_leaf _ _ _ _ D); reflexivity].
      intros I. apply NC. clear - I. unfold sample_params in I. destruct s as [d|]; [|destruct I]. rewrite map_map in I. apply in_map_iff in I. destruct I as ([k0 v0] & Q & I). apply filter_In in I. destruct I as [I _]. cbn in Q.
      exists k0, v0. exists d. split; auto. split; auto. destruct (String.eqb k0 "ub_matrix"); auto. discriminate.
    - rewrite leaf_cons, N5, N6. apply (text_leaf _ _ _ _ N1); reflexivity.
    - rewrite N7. apply (text_leaf _ _ _ _ N2); reflexivity.
  Qed.
  (** Lists of numbers: the pieces between the commas, read as numbers. *)
  Lemma mapM_Forall2 : forall {A B} (f : A -> result B) l r, mapM f l = Ok r -> Forall2 (fun a b => f a = Ok b) l r.
  Proof using. intros A B f. clear. induction l as [|a l]; intros r H; cbn in H. { apply Ok_inj in H. subst. constructor. } apply bind_ok in H. destruct H as (b & Hb & H). apply bind_ok in H. destruct H as (bs & Hbs & H). apply Ok_inj in H. subst. constructor; auto. Qed.
  Lemma floats_of : forall l r, mapM (to_num float_of int_of true) l = Ok r -> Forall2 (fun a x => float_of a = Some x) l r.
  Proof using. intros l r H. apply mapM_Forall2 in H. induction H as [|a x l r Q H IH]; constructor; auto. cbn in Q. destruct (float_of a); [|discriminate]. apply Ok_inj in Q. congruence. Qed.
  Theorem C66_numbers : forall L i s e, build L i s = Ok e -> forall k p, In (k, p) number_headers -> ~ configured i s p ->
    (forall t, header L k = Some t -> occurs "," t -> exists ps xs, pieces ","%char t ps /\ Forall2 (fun a x => float_of a = Some x) ps xs /\ field_value e p = Some (LArr xs)) /\
    (sget k (lg_meta L) = None -> field_value e p = None).
  Proof.
    intros L i s e B k p I NC. unfold field_value. open B.
    assert (G : exists name kw d, p = ["sample"; name] /\ sget "type" kw = Some "NX_FLOAT" /\ nxdataset (meta L k) kw = Ok d /\ leaf_at (p ++ ["dataset"]) (Dict e) = data_leaf d).
    { unfold nxsample in ESA. apply bind_ok in ESA. destruct ESA as (ubok & _ & ESA). rewrite !app_assoc in ESA.
      assert (NS : forall n, p = ["sample"; n] -> ~ In n (map key_of (sample_params s))).
      { intros n -> J. apply NC. clear - J. unfold sample_params in J. destruct s as [d|]; [|destruct J]. rewrite map_map in J. apply in_map_iff in J. destruct J as ([k0 v0] & Q & I). apply filter_In in I. destruct I as [I _]. cbn in Q.
        exists k0, v0. exists d. split; auto. split; auto. destruct (String.eqb k0 "ub_matrix") eqn:E; auto. right. split; [apply String.eqb_eq; auto|auto]. }
      unfold number_headers in I. cbn [In] in I. destruct I as [I|[I|[I|[]]]]; injection I as <- <-; cbn [List.app].
      - destruct (part_field _ _ _ _ "unit_cell" (meta L "latticeconstants") [tfloat; req] ESA) as (d & D & E); [distinct|member|apply NS; auto|discriminate|]. do 3 eexists. split; [reflexivity|]. split; [|split; [exact D|rewrite leaf_cons, GSA; exact E]]; reflexivity.
      - destruct (part_field _ _ _ _ "orientation_matrix" (meta L "ubmatrix") [tfloat; req; units "NX_DIMENSIONLESS"] ESA) as (d & D & E); [distinct|member|apply NS; auto|discriminate|]. do 3 eexists. split; [reflexivity|]. split; [|split; [exact D|rewrite leaf_cons, GSA; exact E]]; reflexivity.
      - destruct (part_field _ _ _ _ "plane_normal" (meta L "plane_normal") [tfloat] ESA) as (d & D & E); [distinct|member|apply NS; auto|discriminate|]. do 3 eexists. split; [reflexivity|]. split; [|split; [exact D|rewrite leaf_cons, GSA; exact E]]; reflexivity. }
    destruct G as (name & kw & d & -> & T & D & ->). unfold meta, header in *. split.
    - intros t H O. destruct (sget k (lg_meta L)) as [[[s0| |]| |]|]; try discriminate. injection H as ->. cbn [pv_of] in D.
      destruct (dataset_leaf _ _ _ D) as (x & DX & ->). { intros [X|X]; [discriminate|]. injection X as ->. apply contains_spec in O. discriminate. }
      unfold dataset_of in DX. rewrite T in DX. cbn [String.eqb] in DX. unfold recast in DX. cbn in DX. apply contains_spec in O.
      change (contains "," t) with (contains "," t) in DX. rewrite O in DX. apply bind_ok in DX. destruct DX as (xs & M & DX). apply Ok_inj in DX. subst.
      exists (split_on ","%char t), xs. split; [apply split_on_pieces|]. split; [apply floats_of; auto|auto].
    - intros H. rewrite H in D. cbn in D. apply Ok_inj in D. subst. reflexivity.
  Qed.
End C66.
Print Assumptions C66_texts.
Print Assumptions C66_numbers.
