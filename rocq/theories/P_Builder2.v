(** Property C66: where the columns and headers of a SPICE scan are found in the NeXus entry built from it. *)
From Coq Require Import Reals List ZArith String Ascii Bool Lia.
From Verif Require Import Base PyStr M_ScanData M_Spice M_Project M_Tavi P_Tavi M_Nexus P_Nexus L_NexusFile M_Builder L_Builder P_Builder.
Import ListNotations.
Open Scope string_scope.
Open Scope list_scope.

(** * Specification *)
(** For every part of the entry the columns it takes: the column, the name of the field, and whether numbers are kept (else cut to whole numbers). *)
Definition same (names : list string) : list (string * string * bool) := map (fun n => (n, n, true)) names.
Definition placement : list (list string * list (string * string * bool)) :=
  [ (["instrument"; "monochromator"], same ["ei"; "m1"; "m2"; "mfocus"; "marc"; "mtrans"; "focal_length"]);
    (["instrument"; "analyser"], same ["ef"; "a1"; "a2"; "afocus"; "qm1"; "qm2"; "qm3"; "qm4"; "qm5"; "qm6"; "qm7"; "qm8"; "xm1"; "xm2"; "xm3"; "xm4"; "xm5"; "xm6"; "xm7"; "xm8"]);
    (["instrument"; "detector"], [("detector", "data", false)]);
    (["instrument"; "slits"], same ["bat"; "bab"; "bal"; "bar"; "bbt"; "bbb"; "bbl"; "bbr"; "slita_lf"; "slita_rt"; "slita_tp"; "slita_bt"; "slitb_lf"; "slitb_rt"; "slitb_tp"; "slitb_bt";
                                    "slit_pre_lf"; "slit_pre_rt"; "slit_pre_tp"; "slit_pre_bt"]);
    (["instrument"; "flipper"], same ["fguide"; "hguide"; "vguide"]);
    (["instrument"; "goniometer"], same ["s1"; "s2"; "sgu"; "sgl"; "stu"; "stl"; "omega"; "two_theta"; "2theta"; "chi"; "phi"]);
    (["sample"], [("h", "qh", true); ("k", "qk", true); ("l", "ql", true); ("e", "en", true); ("q", "q", true); ("Pt.", "Pt.", false)]
                 ++ same ["temp"; "temp_a"; "temp_2"; "coldtip"; "tsample"; "sample"; "vti"; "dr_tsample"; "dr_temp"; "lt"; "ht"; "sorb_temp"; "sorb"; "sample_ht"; "persistent_field"; "mag_i"]) ].
Definition counting : list (string * string * bool) := [("time", "time", true); ("monitor", "monitor", false); ("mcu", "mcu", true)].
(** The configuration files speak about the field at a path. *)
Definition configured (instr : option config) (smpl : option (dict string pv)) (p : list string) : Prop :=
  exists k v, match p with
  | ["instrument"; part; name] => k = name /\ exists c d, instr = Some c /\ sget (if String.eqb part "analyser" then "analyzer" else part) c = Some d /\ In (k, v) d
  | ["sample"; name] => exists d, smpl = Some d /\ In (k, v) d /\ (k = name \/ k = "ub_matrix" /\ name = "orientation_matrix")
  | _ => False
  end.
(** The field for a column: its numbers if the file has the column, nothing otherwise. *)
Definition holds_column (L : logs) (e : entry) (p : list string) (c : string) (keep : bool) : Prop :=
  leaf_at (p ++ ["dataset"]) (Dict e) = match sget c (lg_data L) with Some l => Some (LArr (if keep then l else map trunc l)) | None => None end.
(** The scan is counted with a count file. *)
Definition by_countfile (L : logs) : Prop := sget "preset_type" (lg_meta L) = Some (AMeta (MStr "countfile")).

Ltac member := repeat first [left; reflexivity | right].
Section C66.
  Variable float_of : string -> option R.
  Variable int_of : string -> option Z.
  Variable repr : pv -> string.
  Variable date_of : string -> option string.
  Notation nxdataset := (nxdataset float_of int_of repr date_of).
  Notation fill := (fill float_of int_of repr date_of).
  Notation build := (spice_scan_to_nxdict float_of int_of repr date_of).

  (** ** The parts *)
  Lemma fill_static : forall st cf e e' k v kw, fill (st ++ cf) e = Ok e' -> NoDup (map key_of st) -> In (k, v, kw) st -> ~ In k (map key_of cf) -> sget k e = None ->
    exists d, nxdataset v kw = Ok d /\ sget k e' = match d with [] => None | _ => Some (Dict d) end.
  Proof.
    intros st cf e e' k v kw E ND I NC Z. rewrite fill_app in E. destruct (fill st e) as [e1|] eqn:F; [|discriminate]. cbn in E.
    destruct (fill_in _ _ _ _ _ _ _ _ _ _ F ND I) as (d & D & G). exists d. split; auto. rewrite (fill_other _ _ _ _ _ _ _ _ E NC), G, Z. auto.
  Qed.
  Lemma texts_get : forall l k, k <> "attrs" -> sget k (texts l) = None.
  Proof. intros l k N. unfold texts. cbn. destruct (String.eqb k "attrs") eqn:Q; auto. apply String.eqb_eq in Q. contradiction. Qed.
  Definition kind (keep : bool) : string := if keep then "NX_FLOAT" else "NX_INT".
  Lemma col_leaf : forall L c kw d keep, nxdataset (col L c) kw = Ok d -> sget "type" kw = Some (kind keep) ->
    match sget "dataset" d with Some (Leaf x) => Some x | _ => None end = match sget c (lg_data L) with Some l => Some (LArr (if keep then l else map trunc l)) | None => None end.
  Proof.
    intros L c kw d keep D T. unfold col in D. destruct (sget c (lg_data L)) as [l|].
    - destruct (C39_dataset _ _ _ _ _ _ _ D) as (x & -> & _ & _ & F & G & _). { intros [X|X]; discriminate. } destruct keep; cbn in T |- *; [rewrite (F T)|rewrite (G T)]; auto.
    - apply Ok_inj in D. subst. auto.
  Qed.
  (** One part: what is found for a row of its fields. *)
  Lemma part_column : forall L st cf at_ e' k c kw keep, fill (st ++ cf) (texts at_) = Ok e' -> NoDup (map key_of st) -> In (k, col L c, kw) st -> ~ In k (map key_of cf) -> k <> "attrs" ->
    sget "type" kw = Some (kind keep) ->
    leaf_at [k; "dataset"] (Dict e') = match sget c (lg_data L) with Some l => Some (LArr (if keep then l else map trunc l)) | None => None end.
  Proof.
    intros L st cf at_ e' k c kw keep E ND I NC NA T. destruct (fill_static _ _ _ _ _ _ _ E ND I NC) as (d & D & G). { apply texts_get. auto. }
    rewrite leaf_cons, G. rewrite <- (col_leaf _ _ _ _ _ D T). destruct d as [|q d]; [reflexivity|].
    rewrite leaf_cons. destruct (sget "dataset" (q :: d)) as [[|]|]; reflexivity.
  Qed.

  Lemma bind_ok : forall {A B} (r : result A) (f : A -> result B) b, bind r f = Ok b -> exists a, r = Ok a /\ f a = Ok b.
  Proof. intros A B [a|] f b H; [|discriminate]. exists a. auto. Qed.
  Lemma add_attribute_nonempty : forall k x e e', add_attribute k x e = Ok e' -> e <> [] -> e' <> [].
  Proof.
    intros k x e e' A N. unfold add_attribute in A. destruct (falsy x) as [[|]|]; cbn in A; try discriminate. { apply Ok_inj in A. subst. auto. }
    destruct (sget "attrs" e) as [[|w]|]; try discriminate. apply Ok_inj in A. subst. destruct e as [|[k1 v1] e]; [contradiction|]. cbn [dset]. destruct (String.eqb "attrs" k1); discriminate.
  Qed.
  (** The whole entry. *)
  Lemma built : forall L i s e, build L i s = Ok e ->
    exists instrument source mono ana det coll slits flipper goni monitor sample user spice,
      (nxsource float_of int_of repr date_of i = Ok source /\ nxmono float_of int_of repr date_of L i = Ok mono /\ nxana float_of int_of repr date_of L i = Ok ana /\
       nxdet float_of int_of repr date_of L i = Ok det /\ nxcoll float_of int_of repr date_of L i = Ok coll /\ nxslits float_of int_of repr date_of L = Ok slits /\
       nxflipper float_of int_of repr date_of L = Ok flipper /\ nxgoni float_of int_of repr date_of L i = Ok goni /\ nxmonitor float_of int_of repr date_of L i = Ok monitor /\
       nxsample float_of int_of repr date_of L s = Ok sample /\ nxuser float_of int_of repr date_of L = Ok user /\ formatted_spicelogs float_of int_of repr date_of L = Ok spice) /\
      (sget "source" instrument = Some (Dict source) /\ sget "monochromator" instrument = Some (Dict mono) /\ sget "analyser" instrument = Some (Dict ana) /\
       sget "detector" instrument = Some (Dict det) /\ sget "collimator" instrument = Some (Dict coll) /\ sget "slits" instrument = Some (Dict slits) /\
       sget "flipper" instrument = Some (Dict flipper) /\ sget "goniometer" instrument = Some (Dict goni)) /\
      (sget "instrument" e = Some (Dict instrument) /\ sget "monitor" e = Some (Dict monitor) /\ sget "sample" e = Some (Dict sample) /\ sget "user" e = Some (Dict user) /\
       sget "SPICElogs" e = Some (Dict spice) /\ sget "data" e = Some (Dict (nxdata L))).
  Proof.
    intros L i s e H. unfold spice_scan_to_nxdict in H.
    repeat (let x := fresh "x" in let E := fresh "E" in apply bind_ok in H; destruct H as (x & E & H)).
    set (instrument := nxentry (("source", KObj x0) :: _)) in H.
    assert (NE : forall l at_ e', fill l (texts at_) = Ok e' -> exists x y, e' = x :: y).
    { intros l at_ e' F. assert (N : e' <> []). { eapply fill_nonempty; eauto. discriminate. } destruct e' as [|a b]; [contradiction|eauto]. }
    assert (NS : forall k l at_ e', (do s0 <- char_at L "sense" k; fill (l s0) (texts at_)) = Ok e' -> exists x y, e' = x :: y).
    { intros k l at_ e' F. apply bind_ok in F. destruct F as (q & _ & F). eauto. }
    assert (NC : exists a b, x4 = a :: b). { unfold nxcoll in E4. do 4 (apply bind_ok in E4; destruct E4 as (? & _ & E4)). eauto. }
    assert (NM : exists a b, x8 = a :: b). { unfold nxmonitor in E8. cbv zeta in E8. destruct (is_text _ "normal"); [eauto|]. destruct (is_text _ "countfile"); [|eauto]. do 2 (apply bind_ok in E8; destruct E8 as (? & _ & E8)). eauto. }
    assert (NU : exists a b, x = a :: b). { unfold nxuser in E. apply bind_ok in E. destruct E as (? & _ & E). eauto. }
    assert (NP : exists a b, x11 = a :: b).
    { unfold formatted_spicelogs in E11. apply bind_ok in E11. destruct E11 as (y & AA & E11). assert (N : x11 <> []). { eapply fill_nonempty; eauto.
        assert (G : forall l e0 e1, add_attributes l e0 = Ok e1 -> e0 <> [] -> e1 <> []).
        { clear. induction l as [|[k a] l]; intros e0 e1 A N; cbn [add_attributes] in A. { apply Ok_inj in A. subst. auto. } apply bind_ok in A. destruct A as (e2 & A & B). apply (IHl _ _ B).
          destruct (pv_of a); first [apply Ok_inj in A; subst; auto; fail | eapply add_attribute_nonempty; eauto]. }
        eapply G; eauto. discriminate. }
      destruct x11 as [|a b]; [contradiction|eauto]. }
    destruct (NE _ _ _ E0) as (? & ? & S0). destruct (NS _ _ _ _ E1) as (? & ? & S1). destruct (NS _ _ _ _ E2) as (? & ? & S2). destruct (NE _ _ _ E3) as (? & ? & S3).
    destruct NC as (? & ? & S4). destruct (NE _ _ _ E5) as (? & ? & S5). destruct (NE _ _ _ E6) as (? & ? & S6). destruct (NS _ _ _ _ E7) as (? & ? & S7).
    destruct NM as (? & ? & S8). assert (NSA : exists a b, x10 = a :: b). { unfold nxsample in E10. apply bind_ok in E10. destruct E10 as (? & _ & E10). eauto. } destruct NSA as (? & ? & S10). destruct NU as (? & ? & SU). destruct NP as (? & ? & S11).
    apply Ok_inj in H.
    assert (D1 : NoDup (map fst [("source", KObj x0); ("monochromator", KObj x1); ("collimator", KObj x4); ("analyser", KObj x2); ("detector", KObj x3); ("slits", KObj x5); ("flipper", KObj x6);
      ("goniometer", KObj x7); ("name", KObj x9); ("NX_class", KAttr (LStr "NXinstrument")); ("EX_required", KAttr (LStr "true"))])).
    { cbn. repeat (constructor; [cbn; intuition discriminate|]). constructor. }
    exists instrument, x0, x1, x2, x3, x4, x5, x6, x7, x8, x10, x, x11.
    assert (G : forall kw k d a b, NoDup (map fst kw) -> k <> "attrs" -> In (k, KObj d) kw -> d = a :: b -> sget k (nxentry kw) = Some (Dict d)).
    { intros kw k d a b ND NA I ->. rewrite nxentry_get by auto. rewrite (in_sget k kw (KObj (a :: b))) by auto. reflexivity. }
    split; [tauto|].
    assert (P1 : sget "source" instrument = Some (Dict x0)) by (eapply G; [exact D1|discriminate|member|exact S0]).
    split.
    - split; [exact P1|]. repeat split; (eapply G; [exact D1|discriminate|member|eassumption]).
    - assert (NI : exists a b, instrument = a :: b).
      { assert (N : instrument <> []). { intros Z. rewrite Z in P1. discriminate. } destruct instrument as [|a b]; [contradiction|eauto]. }
      destruct NI as (? & ? & SI). rewrite <- H. clearbody instrument.
      match goal with |- context [nxentry ?l] => assert (D2 : NoDup (map fst l)) by (cbn; repeat (constructor; [cbn; intuition discriminate|]); constructor) end.
      repeat split; (eapply G; [exact D2|discriminate|member|first [eassumption|reflexivity]]).
  Qed.

  Lemma nodupb_ok : forall l, (fix go (l : list string) : bool := match l with [] => true | x :: l' => negb (existsb (String.eqb x) l') && go l' end) l = true -> NoDup l.
  Proof using.
    clear. induction l as [|x l]; intros H; constructor; apply andb_true_iff in H; destruct H as [A B]; auto.
    intros I. apply negb_true_iff in A. assert (T : existsb (String.eqb x) l = true). { apply existsb_exists. exists x. split; auto. apply String.eqb_refl. } congruence.
  Qed.
  Lemma with_kw_keys : forall f d, map key_of (with_kw f d) = map fst d.
  Proof using. intros. unfold with_kw. rewrite map_map. apply map_ext. auto. Qed.
  Lemma not_configured : forall i s part k name, (if String.eqb part "analyser" then "analyzer" else part) = name -> ~ configured i s ["instrument"; part; k] -> forall f, ~ In k (map key_of (with_kw f (params i name))).
  Proof using.
    intros i s part k name Q N f I. rewrite with_kw_keys in I. unfold params in I. destruct i as [c|]; [|destruct I]. destruct (sget name c) as [d|] eqn:E; [|destruct I].
    apply in_map_iff in I. destruct I as ([k0 v] & <- & I). apply N. exists k0, v. split; auto. exists c, d. rewrite Q. auto.
  Qed.
  Ltac rows R := cbn in R; repeat (destruct R as [R|R]; [injection R; intros; subst; clear R; eexists; split; [member|reflexivity]|]); destruct R.
  Ltac distinct := apply nodupb_ok; vm_compute; reflexivity.
  Ltac plain_key R := cbn in R; repeat (destruct R as [R|R]; [injection R; intros; subst; discriminate|]); destruct R.

  (** Every column of the table is found in its field, unless a configuration file sets that field. *)
  Theorem C66_columns : forall L i s e, build L i s = Ok e -> forall part rows, In (part, rows) placement -> forall c k keep, In (c, k, keep) rows ->
    ~ configured i s (part ++ [k]) -> holds_column L e (part ++ [k]) c keep.
  Proof.
    intros L i s e B part rows IP c k keep R NC. unfold holds_column.
    destruct (built L i s e B) as (instrument & source & mono & ana & det & coll & slits & flipper & goni & monitor & sample & user & spice &
      (ES & EM & EA & ED & EC & ESL & EF & EG & EMN & ESA & EU & ESP) & (GS & GM & GA & GD & GC & GSL & GF & GG) & (GI & GMN & GSA & GU & GSP & GDA)).
    assert (KA : k <> "attrs"). { unfold placement in IP. cbn [In] in IP. repeat (destruct IP as [IP|IP]; [injection IP as <- <-; plain_key R|]). destruct IP. }
    unfold placement in IP. cbn [In] in IP.
    destruct IP as [IP|[IP|[IP|[IP|[IP|[IP|[IP|[]]]]]]]]; injection IP as <- <-; cbn [List.app]; rewrite leaf_cons.
    - rewrite GI, leaf_cons, GM. unfold nxmono in EM. apply bind_ok in EM. destruct EM as (sense & _ & EM).
      match type of EM with M_Builder.fill _ _ _ _ (?st ++ _) _ = _ => assert (X : exists kw, In (k, col L c, kw) st /\ sget "type" kw = Some (kind keep)) by rows R end.
      destruct X as (kw & X & T). eapply part_column; [exact EM|distinct|exact X| |exact KA|exact T]. eapply not_configured; [|exact NC]; reflexivity.
    - rewrite GI, leaf_cons, GA. unfold nxana in EA. apply bind_ok in EA. destruct EA as (sense & _ & EA). rewrite app_assoc in EA.
      match type of EA with M_Builder.fill _ _ _ _ (?st ++ _) _ = _ => assert (X : exists kw, In (k, col L c, kw) st /\ sget "type" kw = Some (kind keep)) by rows R end.
      destruct X as (kw & X & T). eapply part_column; [exact EA|distinct|exact X| |exact KA|exact T]. eapply not_configured; [|exact NC]; reflexivity.
    - rewrite GI, leaf_cons, GD. unfold nxdet in ED.
      match type of ED with M_Builder.fill _ _ _ _ (?st ++ _) _ = _ => assert (X : exists kw, In (k, col L c, kw) st /\ sget "type" kw = Some (kind keep)) by rows R end.
      destruct X as (kw & X & T). eapply part_column; [exact ED|distinct|exact X| |exact KA|exact T]. rewrite map_app, in_app_iff. intros [I|I]; [revert I; eapply not_configured; [|exact NC]; reflexivity|].
      rewrite map_map in I. apply in_map_iff in I. destruct I as (z & Q & _). cbn in R. destruct R as [R|[]]. injection R as _ <- _. discriminate.
    - rewrite GI, leaf_cons, GSL. unfold nxslits in ESL. rewrite <- (app_nil_r (map _ slit_names)) in ESL.
      match type of ESL with M_Builder.fill _ _ _ _ (?st ++ _) _ = _ => assert (X : exists kw, In (k, col L c, kw) st /\ sget "type" kw = Some (kind keep)) by rows R end.
      destruct X as (kw & X & T). eapply part_column; [exact ESL|distinct|exact X|intros []|exact KA|exact T].
    - rewrite GI, leaf_cons, GF. unfold nxflipper in EF. rewrite <- (app_nil_r (map _ _)) in EF.
      match type of EF with M_Builder.fill _ _ _ _ (?st ++ _) _ = _ => assert (X : exists kw, In (k, col L c, kw) st /\ sget "type" kw = Some (kind keep)) by rows R end.
      destruct X as (kw & X & T). eapply part_column; [exact EF|distinct|exact X|intros []|exact KA|exact T].
    - rewrite GI, leaf_cons, GG. unfold nxgoni in EG. apply bind_ok in EG. destruct EG as (sense & _ & EG). rewrite app_assoc in EG.
      match type of EG with M_Builder.fill _ _ _ _ (?st ++ _) _ = _ => assert (X : exists kw, In (k, col L c, kw) st /\ sget "type" kw = Some (kind keep)) by rows R end.
      destruct X as (kw & X & T). eapply part_column; [exact EG|distinct|exact X| |exact KA|exact T]. rewrite with_kw_keys. intros I. apply in_map_iff in I. destruct I as ([k0 v0] & <- & I).
      apply filter_In in I. destruct I as [_ I]. apply String.eqb_eq in I. cbn in I. subst k0. cbn in R. repeat (destruct R as [R|R]; [discriminate|]). destruct R.
    - rewrite GSA. unfold nxsample in ESA. apply bind_ok in ESA. destruct ESA as (ubok & _ & ESA). rewrite !app_assoc in ESA.
      match type of ESA with M_Builder.fill _ _ _ _ (?st ++ _) _ = _ => assert (X : exists kw, In (k, col L c, kw) st /\ sget "type" kw = Some (kind keep)) by rows R end.
      destruct X as (kw & X & T). eapply part_column; [exact ESA|distinct|exact X| |exact KA|exact T]. intros I. unfold sample_params in I. destruct s as [d|]; [|destruct I].
      rewrite map_map in I. apply in_map_iff in I. destruct I as ([k0 v0] & Q & I). apply filter_In in I. destruct I as [I _]. cbn in Q. apply NC. exists k0, v0. exists d. split; auto. split; auto.
      destruct (String.eqb k0 "ub_matrix") eqn:Q2; auto. right. split; [apply String.eqb_eq; auto|]. cbn in Q. congruence.
  Qed.
End C66.
Print Assumptions C66_columns.
