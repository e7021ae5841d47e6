(** Property C66, continued: configuration files; an example. *)
From Coq Require Import Reals List ZArith String Ascii Bool Lia.
From Verif Require Import Base PyStr S_Str L_Str M_ScanData M_Spice M_Project M_Tavi P_Tavi M_Nexus P_Nexus L_NexusFile M_Builder L_Builder P_Builder P_Builder2 P_Builder3 P_Builder4 P_Builder5.
Import ListNotations.
Open Scope string_scope.
Open Scope list_scope.

(** * Specification *)
(** Parameters written as text, and those read as numbers; the others are taken as they are. *)
Definition text_params : list string := ["shape"; "curved_h"; "optimally_curved_h"; "curved_v"; "optimally_curved_v"].
Definition number_params : list string := ["width"; "height"; "depth"; "mosaic_h"; "mosaic_v"; "curvh"; "curvv"; "plane_normal"; "in_plane_ref"; "ub_matrix"].
(** Sections of the instrument file and the parts they describe. *)
Definition parts_of_file : list (string * string) := [("source", "source"); ("monochromator", "monochromator"); ("analyzer", "analyser"); ("detector", "detector")].
Definition lattice_params : list string := ["a"; "b"; "c"; "alpha"; "beta"; "gamma"].

Section C66.
  Variable float_of : string -> option R.
  Variable int_of : string -> option Z.
  Variable repr : pv -> string.
  Variable date_of : string -> option string.
  Notation nxdataset := (nxdataset float_of int_of repr date_of).
  Notation fill := (fill float_of int_of repr date_of).
  Notation build := (spice_scan_to_nxdict float_of int_of repr date_of).
  Notation built := (built float_of int_of repr date_of).
  Notation dataset_leaf := (dataset_leaf float_of int_of repr date_of).
  Ltac open B := destruct (built _ _ _ _ B) as (instrument & source & mono & ana & det & coll & slits & flipper & goni & monitor & sample & user & spice &
      (ES & EM & EA & ED & EC & ESL & EF & EG & EMN & ESA & EU & ESP) & (GS & GM & GA & GD & GC & GSL & GF & GG) & (GI & GMN & GSA & GU & GSP & GDA)).

  Lemma fill_config : forall st (g : string * pv -> fld) d tl at_ e' k v, fill (st ++ map g d ++ tl) (texts at_) = Ok e' -> NoDup (map (fun kv => key_of (g kv)) d) -> In (k, v) d -> ~ In (key_of (g (k, v))) (map key_of tl) ->
    snd (fst (g (k, v))) = v -> ~ empty_value v -> exists x, dataset_of float_of int_of repr date_of v (snd (g (k, v))) = Ok x /\ leaf_at [key_of (g (k, v)); "dataset"] (Dict e') = Some x.
  Proof.
    intros st g d tl at_ e' k v E ND I NT GV NE. destruct (in_split _ _ I) as (d1 & d2 & ->). rewrite map_app in ND. cbn [map] in ND. apply NoDup_remove_2 in ND. rewrite in_app_iff in ND.
    rewrite map_app in E. cbn [map] in E. rewrite <- app_assoc, app_assoc in E. cbn [List.app] in E. destruct (g (k, v)) as [[k0 v0] kw] eqn:G. cbn in GV. subst v0.
    destruct (fill_last _ _ _ _ _ _ _ _ _ _ _ E) as (dd & e1 & _ & D & GG). { rewrite map_app, map_map, in_app_iff. cbn in NT, ND |- *. intros [X|X]; [apply ND; auto|contradiction]. }
    destruct (dataset_leaf _ _ _ D NE) as (x & DX & DL). exists x. split; auto. change (key_of (k0, v, kw)) with k0. destruct dd as [|q dd]; [discriminate|]. rewrite leaf_cons, GG, at_data. auto.
  Qed.
  Definition pair_of (f : string -> list (string * string)) (kv : string * pv) : fld := (fst kv, snd kv, f (fst kv)).
  Lemma with_kw_map : forall f d, with_kw f d = map (pair_of f) d. Proof using. reflexivity. Qed.

  (** Whatever the keyword arguments, one of three. *)
  Definition kw_kind (k : string) (kw : list (string * string)) : Prop :=
    (In k text_params /\ sget "type" kw = Some "NX_CHAR") \/ (In k number_params /\ (sget "type" kw = Some "NX_FLOAT" \/ sget "type" kw = Some "NX_ANGLE")) \/ (sget "type" kw = None).
  Lemma source_kind : forall k, kw_kind k (source_kw k).
  Proof using.
    intros k. unfold source_kw, one_of, kw_kind. destruct (String.eqb_spec k "shape"); [left; subst; split; [member|reflexivity]|].
    destruct (existsb _ _) eqn:E; [|right; right; reflexivity]. right; left. apply existsb_exists in E. destruct E as (x & I & Q). apply String.eqb_eq in Q. subst. cbn in I. destruct I as [<-|[<-|[]]]; (split; [member|left; reflexivity]).
  Qed.
  Lemma crystal_kind : forall m k, (sget "type" m = Some "NX_FLOAT" \/ sget "type" m = Some "NX_ANGLE") -> kw_kind k (crystal_kw m k).
  Proof using.
    intros m k M. unfold crystal_kw, one_of, kw_kind. destruct (String.eqb_spec k "shape"); [left; subst; split; [member|reflexivity]|].
    destruct (existsb _ _) eqn:E. { right; left. apply existsb_exists in E. destruct E as (x & I & Q). apply String.eqb_eq in Q. subst. cbn in I. destruct I as [<-|[<-|[<-|[]]]]; (split; [member|left; reflexivity]). }
    destruct (existsb _ ["mosaic_h"; _]) eqn:E2. { right; left. apply existsb_exists in E2. destruct E2 as (x & I & Q). apply String.eqb_eq in Q. subst. cbn in I. destruct I as [<-|[<-|[]]]; (split; [member|exact M]). }
    destruct (existsb _ ["curved_h"; _; _; _]) eqn:E3. { left. apply existsb_exists in E3. destruct E3 as (x & I & Q). apply String.eqb_eq in Q. subst. cbn in I. destruct I as [<-|[<-|[<-|[<-|[]]]]]; (split; [member|reflexivity]). }
    destruct (existsb _ ["curvh"; _]) eqn:E4; [|right; right; reflexivity]. right; left. apply existsb_exists in E4. destruct E4 as (x & I & Q). apply String.eqb_eq in Q. subst. cbn in I. destruct I as [<-|[<-|[]]]; (split; [member|left; reflexivity]).
  Qed.
  Lemma sample_kind : forall k, kw_kind k (sample_kw k).
  Proof using.
    intros k. unfold sample_kw, one_of, kw_kind. destruct (String.eqb_spec k "shape"); [left; subst; split; [member|reflexivity]|].
    destruct (existsb _ _) eqn:E. { right; left. apply existsb_exists in E. destruct E as (x & I & Q). apply String.eqb_eq in Q. subst. cbn in I. destruct I as [<-|[<-|[<-|[<-|[<-|[]]]]]]; (split; [member|left; reflexivity]). }
    destruct (existsb _ ["mosaic_h"; _]) eqn:E2. { right; left. apply existsb_exists in E2. destruct E2 as (x & I & Q). apply String.eqb_eq in Q. subst. cbn in I. destruct I as [<-|[<-|[]]]; (split; [member|right; reflexivity]). }
    destruct (String.eqb_spec k "ub_matrix"); [right; left; subst; split; [member|left; reflexivity]|]. right; right; reflexivity.
  Qed.
  Lemma number_kind : forall k kw x y, kw_kind k kw -> ~ In k text_params -> dataset_of float_of int_of repr date_of (PNum x) kw = Ok y -> y = LNum x.
  Proof using.
    intros k kw x y [[I _]|[[_ [T|T]]|T]] N D; [contradiction| | |]; unfold dataset_of in D; rewrite T in D; cbn in D; apply Ok_inj in D; auto.
  Qed.
  Lemma string_kind : forall k kw t y, kw_kind k kw -> ~ In k number_params -> dataset_of float_of int_of repr date_of (PStr t) kw = Ok y -> y = LStr t.
  Proof using.
    intros k kw x y [[_ T]|[[I _]|T]] N D; [|contradiction|]; unfold dataset_of in D; rewrite T in D; cbn in D; apply Ok_inj in D; auto.
  Qed.

  (** A value in the instrument file is in the field of its part, whatever the data file says. *)
  Lemma part_configured : forall L i s e, build L i s = Ok e -> forall name part, In (name, part) parts_of_file -> forall d, section i name d -> NoDup (map fst d) ->
    forall k v, In (k, v) d -> ~ empty_value v -> (part = "detector" -> forall n, has_channel L n -> k <> ("detector_" ++ str_of n)%string) ->
    exists kw x, kw_kind k kw /\ dataset_of float_of int_of repr date_of v kw = Ok x /\ field_value e ["instrument"; part; k] = Some x.
  Proof.
    intros L i s e B name part IP d (c & EI & SC) ND k v I NE NCH. unfold field_value. open B. cbn [List.app].
    assert (P : params i name = d). { unfold params. rewrite EI, SC. auto. }
    assert (NDP : forall f, NoDup (map (fun kv => key_of (pair_of f kv)) d)). { intros f. exact ND. }
    unfold parts_of_file in IP. cbn [In] in IP. destruct IP as [IP|[IP|[IP|[IP|[]]]]]; injection IP as <- <-.
    - unfold nxsource in ES. rewrite P, with_kw_map in ES. rewrite <- (app_nil_r (map _ d)) in ES.
      destruct (fill_config _ _ _ _ _ _ _ _ ES (NDP _) I) as (x & D & E); [intros []|reflexivity|exact NE|]. exists (source_kw k), x. split; [apply source_kind|]. split; [exact D|].
      rewrite leaf_cons, GI, leaf_cons, GS. exact E.
    - unfold nxmono in EM. apply bind_ok in EM. destruct EM as (sn & _ & EM). rewrite P, with_kw_map in EM. rewrite <- (app_nil_r (map _ d)) in EM.
      destruct (fill_config _ _ _ _ _ _ _ _ EM (NDP _) I) as (x & D & E); [intros []|reflexivity|exact NE|]. eexists _, x. split; [apply (crystal_kind [tfloat; units "mins of arc"]); left; reflexivity|]. split; [exact D|].
      rewrite leaf_cons, GI, leaf_cons, GM. exact E.
    - unfold nxana in EA. apply bind_ok in EA. destruct EA as (sn & _ & EA). rewrite P, with_kw_map in EA. rewrite <- (app_nil_r (map _ d)) in EA. rewrite app_assoc in EA.
      destruct (fill_config _ _ _ _ _ _ _ _ EA (NDP _) I) as (x & D & E); [intros []|reflexivity|exact NE|]. eexists _, x. split; [apply (crystal_kind [tangle; units "minutes of arc"]); right; reflexivity|]. split; [exact D|].
      rewrite leaf_cons, GI, leaf_cons, GA. exact E.
    - unfold nxdet in ED. rewrite P, with_kw_map in ED.
      destruct (fill_config _ _ _ _ _ _ _ _ ED (NDP _) I) as (x & D & E); [|reflexivity|exact NE|].
      { rewrite map_map. intros J. apply in_map_iff in J. destruct J as (n & Q & J). apply channels_in in J. apply (NCH eq_refl n J). symmetry. exact Q. }
      exists (source_kw k), x. split; [apply source_kind|]. split; [exact D|]. rewrite leaf_cons, GI, leaf_cons, GD. exact E.
  Qed.
  Theorem C66_config_numbers : forall L i s e, build L i s = Ok e -> forall name part, In (name, part) parts_of_file -> forall d, section i name d -> NoDup (map fst d) ->
    forall k x, In (k, PNum x) d -> ~ In k text_params -> (part = "detector" -> forall n, has_channel L n -> k <> ("detector_" ++ str_of n)%string) ->
    field_value e ["instrument"; part; k] = Some (LNum x).
  Proof.
    intros L i s e B name part IP d S ND k x I NT NCH. destruct (part_configured _ _ _ _ B _ _ IP _ S ND _ _ I) as (kw & y & K & D & ->); auto. { intros [X|X]; discriminate. }
    f_equal. eapply number_kind; eauto.
  Qed.
  Theorem C66_config_texts : forall L i s e, build L i s = Ok e -> forall name part, In (name, part) parts_of_file -> forall d, section i name d -> NoDup (map fst d) ->
    forall k t, In (k, PStr t) d -> t <> "" -> ~ In k number_params -> (part = "detector" -> forall n, has_channel L n -> k <> ("detector_" ++ str_of n)%string) ->
    field_value e ["instrument"; part; k] = Some (LStr t).
  Proof.
    intros L i s e B name part IP d S ND k x I NE NT NCH. destruct (part_configured _ _ _ _ B _ _ IP _ S ND _ _ I) as (kw & y & K & D & ->); auto. { intros [X|X]; [discriminate|]. injection X as ->. contradiction. }
    f_equal. eapply string_kind; eauto.
  Qed.
  (** The sample file: numbers, texts and the UB matrix of nine numbers; its lattice parameters are not used. *)
  Definition sample_key (k : string) : string := if String.eqb k "ub_matrix" then "orientation_matrix" else k.
  Lemma sample_configured : forall L i d e, build L i (Some d) = Ok e -> NoDup (map fst d) -> ~ In "orientation_matrix" (map fst d) ->
    forall k v, In (k, v) d -> ~ In k lattice_params -> ~ empty_value v ->
    exists kw x, kw_kind k kw /\ (k = "ub_matrix" -> sget "type" kw = Some "NX_FLOAT") /\ dataset_of float_of int_of repr date_of v kw = Ok x /\ field_value e ["sample"; sample_key k] = Some x.
  Proof.
    intros L i d e B ND NO k v I NL NE. unfold field_value. open B. cbn [List.app]. unfold nxsample in ESA. apply bind_ok in ESA. destruct ESA as (ubok & _ & ESA). unfold sample_params in ESA. rewrite !app_assoc in ESA.
    set (g := fun kv : string * pv => (if String.eqb (fst kv) "ub_matrix" then "orientation_matrix" else fst kv, snd kv, sample_kw (fst kv))) in ESA.
    set (d' := filter _ d) in ESA. rewrite <- (app_nil_r (map g d')) in ESA.
    assert (I' : In (k, v) d'). { unfold d'. apply filter_In. split; auto. apply negb_true_iff. cbn [fst]. unfold one_of. apply not_true_iff_false. intros E. apply existsb_exists in E. destruct E as (x & J & Q). apply String.eqb_eq in Q. subst. apply NL. exact J. }
    assert (ND' : NoDup (map (fun kv => key_of (g kv)) d')).
    { assert (ND1 : NoDup (map fst d')). { unfold d'. clear - ND. induction d as [|[a b] d]; cbn; [constructor|]. cbn in ND. inversion ND; subst. destruct (negb _); auto. cbn. constructor; auto. intros J. apply H1. apply in_map_iff in J. destruct J as (y & <- & J). apply filter_In in J. apply in_map. tauto. }
      assert (NO1 : ~ In "orientation_matrix" (map fst d')). { intros J. apply NO. apply in_map_iff in J. destruct J as (y & <- & J). apply filter_In in J. apply in_map. tauto. }
      clear - ND1 NO1. clearbody d'. clear d. revert ND1 NO1. induction d' as [|[a b] d]; intros ND1 NO1; cbn [map]; [constructor|]. cbn in ND1, NO1. inversion ND1; subst. constructor; [|apply IHd; auto].
      intros J. apply in_map_iff in J. destruct J as ([a1 b1] & Q & J). unfold key_of, g in Q. cbn [fst] in Q.
      assert (In a1 (map fst d)) by (apply in_map_iff; exists (a1, b1); auto). destruct (String.eqb_spec a "ub_matrix"), (String.eqb_spec a1 "ub_matrix"); subst; auto. }
    destruct (fill_config _ g _ _ _ _ _ _ ESA ND' I') as (x & D & E); [intros []|reflexivity|exact NE|].
    exists (sample_kw k), x. split; [apply sample_kind|]. split; [intros ->; reflexivity|]. split; [exact D|]. rewrite leaf_cons, GSA. exact E.
  Qed.
  Theorem C66_sample_file : forall L i d e, build L i (Some d) = Ok e -> NoDup (map fst d) -> ~ In "orientation_matrix" (map fst d) ->
    (forall k x, In (k, PNum x) d -> ~ In k lattice_params -> ~ In k text_params -> k <> "ub_matrix" -> field_value e ["sample"; k] = Some (LNum x)) /\
    (forall k t, In (k, PStr t) d -> t <> "" -> ~ In k lattice_params -> ~ In k number_params -> field_value e ["sample"; k] = Some (LStr t)) /\
    (forall v, In ("ub_matrix", v) d -> exists l, (v = PList l \/ v = PArr l) /\ List.length l = 9%nat /\ field_value e ["sample"; "orientation_matrix"] = Some (LArr l)).
  Proof.
    intros L i d e B ND NO. split; [|split].
    - intros k x I NL NT NU. destruct (sample_configured _ _ _ _ B ND NO _ _ I NL) as (kw & y & K & _ & D & E). { intros [X|X]; discriminate. }
      unfold sample_key in E. destruct (String.eqb_spec k "ub_matrix"); [contradiction|]. rewrite E. f_equal. eapply number_kind; eauto.
    - intros k t I NE NL NT. destruct (sample_configured _ _ _ _ B ND NO _ _ I NL) as (kw & y & K & _ & D & E). { intros [X|X]; [discriminate|]. injection X as ->. contradiction. }
      unfold sample_key in E. destruct (String.eqb_spec k "ub_matrix"). { subst. exfalso. apply NT. cbn. tauto. } rewrite E. f_equal. eapply string_kind; eauto.
    - intros v I. pose proof B as B0. open B0. unfold nxsample in ESA. apply bind_ok in ESA. destruct ESA as (u & UB & _). unfold ub_of_nine in UB. rewrite (in_sget "ub_matrix" d v ND I) in UB.
      assert (X : exists l, (v = PList l \/ v = PArr l) /\ List.length l = 9%nat).
      { destruct v; try discriminate; (destruct (Nat.eqb_spec (List.length l) 9); [|discriminate]; eauto). }
      destruct X as (l & V & LN). exists l. split; auto. split; auto.
      destruct (sample_configured _ _ _ _ B ND NO _ _ I) as (kw & y & K & T & D & E). { cbn. intuition discriminate. } { destruct V as [-> | ->]; intros [X|X]; discriminate. }
      change (sample_key "ub_matrix") with "orientation_matrix" in E. rewrite E. f_equal. unfold dataset_of in D. rewrite (T eq_refl) in D. cbn in D. assert (M : map (cast true) l = l) by (rewrite <- (map_id l) at 2; apply map_ext; auto).
      destruct V as [-> | ->]; cbn in D; apply Ok_inj in D; rewrite M in D; auto.
  Qed.
End C66.
Print Assumptions C66_config_numbers.
Print Assumptions C66_config_texts.
Print Assumptions C66_sample_file.

(** The UB configuration read with the scan is not in the entry: any two give the same. *)
Theorem C66_ub_refuted : forall float_of int_of repr date_of a d u u' i s,
  (do L <- logs_of (SpiceLogs a d u); spice_scan_to_nxdict float_of int_of repr date_of L i s) = (do L <- logs_of (SpiceLogs a d u'); spice_scan_to_nxdict float_of int_of repr date_of L i s).
Proof. reflexivity. Qed.
Print Assumptions C66_ub_refuted.

(** * Example: a scan of three points, with a count-file variant *)
Definition ex_float (s : string) : option R :=
  if String.eqb s "48" then Some 48%R else if String.eqb s "40" then Some 40%R else if String.eqb s "120" then Some 120%R else if String.eqb s "5.5" then Some 5.5%R
  else if String.eqb s "90" then Some 90%R else if String.eqb s "30" then Some 30%R else None.
Definition ex_int (s : string) : option Z := None.
Definition ex_repr (v : pv) : string := match v with PBool true => "True" | PBool false => "False" | _ => "" end.
Definition ex_date (s : string) : option string := if String.eqb s "5/19/2024 5:58:09 PM" then Some "2024-05-19T17:58:09-04:00" else None.
Definition ex_meta : dict string aval :=
  [("users", AMeta (MStr "A,B")); ("sense", AMeta (MStr "-+-")); ("collimation", AMeta (MStr "48-40-40-120")); ("date", AMeta (MStr "5/19/2024")); ("time", AMeta (MStr "5:58:09 PM"));
   ("samplename", AMeta (MStr "crystal")); ("monochromator", AMeta (MStr "PG002")); ("latticeconstants", AMeta (MStr "5.5,5.5,5.5,90,90,90"));
   ("def_x", AMeta (MStr "e")); ("def_y", AMeta (MStr "detector")); ("preset_type", AMeta (MStr "normal")); ("preset_channel", AMeta (MStr "time")); ("preset_value", AMeta (MStr "30"))].
Definition ex_logs : logs := Logs ex_meta [("Pt.", [1; 2; 3]%R); ("e", [0; 1; 2]%R); ("detector", [10; 12; 11]%R); ("time", [30; 30; 30]%R); ("monitor", [100; 101; 99]%R)].
Definition ex_config : option config := Some [("monochromator", [("mosaic_h", PNum 45); ("curved_h", PBool false)]); ("source", [("shape", PStr "rectangular")])].
Example C66_example : exists e, spice_scan_to_nxdict ex_float ex_int ex_repr ex_date ex_logs ex_config None = Ok e /\
  field_value e ["sample"; "en"] = Some (LArr [0; 1; 2]%R) /\ field_value e ["instrument"; "monochromator"; "mosaic_h"] = Some (LNum 45) /\
  field_value e ["instrument"; "monochromator"; "curved_h"] = Some (LStr "False") /\ field_value e ["user"; "name"] = Some (LStrs ["A"; "B"]) /\
  field_value e ["monitor"; "preset"] = Some (LNum 30) /\ ~ by_countfile ex_logs /\ gives_none ex_config "h" /\
  ~ configured ex_config None ["sample"; "en"] /\ NoDup (map fst (lg_data ex_logs)) /\ NoDup (map fst (lg_meta ex_logs)).
Proof.
  eexists. split; [cbv -[trunc IZR Q2R]; reflexivity|]. repeat split; try reflexivity.
  - discriminate.
  - intros d (c & Q & E). injection Q as <-. discriminate.
  - intros (k & v & d & Q & _). discriminate.
  - apply nodupb_ok. vm_compute. reflexivity.
  - apply nodupb_ok. vm_compute. reflexivity.
Qed.
(** A count file with two channels. *)
Definition ex_count_logs : logs := Logs
  ([("preset_type", AMeta (MStr "countfile")); ("countfile", AMeta (MStr "count preset time 5")); ("norm_channels", AMeta (MStrs ["time"; "monitor"])); ("norm_vals", AMeta (MNums [5; 1000]%R)); ("labels", AMeta (MStrs ["Px, on"; "Px, off"]))]
   ++ filter (fun kv => negb (existsb (String.eqb (fst kv)) ["preset_type"; "preset_channel"; "preset_value"])) ex_meta)
  [("Pt.", [1; 2]%R); ("detector_1", [10; 12]%R); ("time_1", [5; 5]%R); ("detector_2", [7; 8]%R); ("monitor_2", [1000; 1000]%R)].
Example C66_count_example : exists e, spice_scan_to_nxdict ex_float ex_int ex_repr ex_date ex_count_logs None None = Ok e /\ by_countfile ex_count_logs /\ has_channel ex_count_logs 2 /\
  text_item ex_count_logs "labels" 1 "Px, off" /\ number_item ex_count_logs "norm_vals" 1 1000 /\
  field_value e ["monitor"; "label_2"] = Some (LStr "Px, off") /\ field_value e ["monitor"; "preset_2"] = Some (LNum 1000).
Proof.
  eexists. split; [cbv -[trunc IZR Q2R]; reflexivity|]. repeat split; try reflexivity; try lia.
  - intros j J. assert (j = 1%Z \/ j = 2%Z) as [-> | ->] by lia; eexists; reflexivity.
  - left. eexists. split; reflexivity.
  - eexists. split; reflexivity.
Qed.
(** The same scan with a negative preset cannot be built. *)
Example C66_signed_example : spice_scan_to_nxdict ex_float ex_int ex_repr ex_date (Logs (dset String.eqb "preset_value" (AMeta (MStr "-30")) ex_meta) (lg_data ex_logs)) None None = Err UnboundLocalError.
Proof. cbv -[trunc IZR Q2R]. reflexivity. Qed.
