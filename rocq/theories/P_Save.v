(** Property C73: an entry or a scan saved to a NeXus file and read back answers as before. *)
From Coq Require Import Reals List ZArith String Ascii Bool Lia Lra.
From Verif Require Import Base PyStr LinAlg M_UB M_Project M_Tavi P_Tavi M_Builder P_Builder2 M_Nexus P_Nexus L_NexusFile L_NexusLinks P_NexusFile L_ScanFields M_ScanInfo S_Save L_Save L_SaveGet L_SaveScan.
Import ListNotations.
Open Scope string_scope.
Open Scope list_scope.

(** * Specification *)
(** An entry that can be saved. *)
Definition storable (e : list (string * val)) : Prop := savable (Dict e) /\ ~ is_dataset e /\ plot_ready e /\ agreed e.
(** A key made of names of groups and fields; it does not ask for what the file will show under "data" but the entry does not. *)
Definition ordinary (e : list (string * val)) (key : string) : Prop :=
  Forall named (field_path key false) /\ forall d, field_path key false = ["data"; d] -> plots e d -> leaf_at ["data"; d; "dataset"] (Dict e) <> None.
(** What is found for a key before and after: the same content in the form the file gives it. *)
Definition reread (show : list string -> string) (o : option val) : option val :=
  option_map (fun v => match v with Leaf x => Leaf (after show x) | Dict d => Dict d end) o.
(** What a scan needs of its entry besides: plain names, the points and the direct fields of the instrument stored as they are read. *)
Record scannable (show : list string -> string) (e : list (string * val)) : Prop := Scannable {
  sc_tidy : tidy (Dict e); sc_slash : slashless e; sc_points : solid show e "Pt.";
  sc_instrument : forall c x, leaf_at ["instrument"; c; "dataset"] (Dict e) = Some x -> after show x = x;
  sc_groups : leaf_at ["monitor"; "dataset"] (Dict e) = None /\ leaf_at ["sample"; "dataset"] (Dict e) = None }.
Definition info_after (show : list string -> string) (i : info) : info :=
  Info (option_map (fun v => match v with Leaf x => Leaf (as_array x) | Dict d => Dict d end) (in_exp i)) (in_num i) (reread show (in_title i)) (in_y i) (in_x i) (reread show (in_start i)) (reread show (in_end i)) (reread show (in_type i))
    (match in_preset i with Single c v => Single (reread show c) (reread show v) | Several c v l => Several (map (reread show) c) (map (reread show) v) (map (reread show) l) end).
Definition sample_after (show : list string -> string) (i : sample_info) : sample_info :=
  SampleInfo (reread show (sa_name i)) (reread show (sa_cell i)) (reread show (sa_mosaic i)) (sa_ub i) (reread show (sa_type i)) (sa_uv i) (reread show (sa_normal i)).
Definition instrument_after (show : list string -> string) (i : instrument_info_) : instrument_info_ :=
  InstrumentInfo (ii_name i) (reread show (ii_mono i)) (reread show (ii_ana i)) (ii_sense i) (reread show (ii_collimation i)).

(** * Saving and reading *)
Lemma storable_parts : forall e, storable e -> savable (Dict e) /\ sget "dataset" e = None /\ plot_ready e /\ agreed e.
Proof. intros e (A & B & C & D). split; auto. split; auto. unfold is_dataset in B. destruct (sget "dataset" e); auto. exfalso. apply B. discriminate. Qed.
(** the file, and what is read from it with and without a scan number *)
Lemma save_read : forall show name e stamp, storable e -> exists root v, to_nexus [name] e stamp (HGroup [] []) = Ok root /\
  from_nexus show root [] None = Ok [(name, Dict v)] /\ restored show e v /\
  (forall n, scan_name n = name -> from_nexus show root [] (Some n) = Ok [(name, Dict (tl v))]) /\ exists a, v = ("attrs", a) :: tl v.
Proof.
  intros show name e stamp ST. destruct (storable_parts e ST) as (SV & ND & PR & AG). destruct (save_entry e [name] SV ND PR) as (s & W & (a & c & ES) & EI).
  set (root := HGroup (dupdate String.eqb [] stamp) [(name, s)]). assert (A : at_path [name] root = Some s). { unfold root. cbn. rewrite String.eqb_refl. auto. }
  destruct (EI show root A) as (v & R & RS). exists root, v. split. { unfold to_nexus. cbn [M_Nexus.in_group dget]. match goal with |- context [write_entry ?a ?b ?c] => assert (W' : write_entry a b c = Ok s) by exact W end. rewrite W'. reflexivity. }
  split. { unfold from_nexus. cbn [at_path root]. rewrite read_members_all. cbn [read_all]. rewrite R. auto. }
  split; auto. subst s. rewrite read_group in R. injection R as <-. split; [|eexists; reflexivity].
  intros n <-. unfold from_nexus. cbn [at_path root dget]. rewrite String.eqb_refl. rewrite read_members_all. reflexivity.
Qed.

Lemma ordinary_not_new : forall show e v key, savable (Dict e) -> restored show e v -> ordinary e key -> not_new e v key.
Proof.
  intros show e v key SV RS [NF ON] d FP. rewrite FP in NF. inversion NF as [|? ? _ X]; subst. inversion X as [|? ? [NA _] _]; subst. assert (NI : ~ In "attrs" ["data"; d; "dataset"]) by (intros [?|[?|[?|[]]]]; try discriminate; auto).
  assert (ID : forall l, leaf_at ["data"; d; "dataset"] (Dict (bares ident l)) = leaf_at ["data"; d; "dataset"] (Dict l)). { intros l. rewrite bare_leaf by auto. destruct (leaf_at ["data"; d; "dataset"] (Dict l)); auto. }
  assert (SAME : leaf_at ["data"; d; "dataset"] (Dict (bares ident v)) = leaf_at ["data"; d; "dataset"] (Dict (bares (after show) e)) -> leaf_at ["data"; d; "dataset"] (Dict e) <> None \/ leaf_at ["data"; d; "dataset"] (Dict v) = None).
  { intros E. rewrite ID in E. rewrite bare_leaf in E by auto. destruct (leaf_at ["data"; d; "dataset"] (Dict e)); [left; discriminate|right; exact E]. }
  destruct (sget "data" e) as [dd|] eqn:GD; [|apply SAME; rewrite (rs_same _ _ _ RS GD); auto].
  assert (DD : exists dl, dd = Dict dl). { inversion SV as [? x ? K|? ? ? ? WM]; subst; [destruct (K _ _ (sget_in _ _ _ GD)); discriminate|]. assert (SD : savable dd). { eapply WM; [eapply sget_in; eauto|discriminate]. } inversion SD; eauto. } destruct DD as (dl & ->).
  destruct (rs_data _ _ _ RS dl GD) as (l1 & l2 & dv & _ & _ & _ & _ & GV & _ & _ & EQ). destruct (EQ d NA) as [E|(p0 & x & PL & _)].
  - apply SAME. rewrite !leaf_cons, !bares_get, GD, GV by discriminate. cbn [option_map]. rewrite !bare_dict, !leaf_cons, !bares_get, E by auto. auto.
  - left. apply ON; auto.
Qed.
(** C73: every lookup of a field finds after the round trip what it found before. *)
Theorem C73_get : forall show name e stamp, storable e -> exists root v, to_nexus [name] e stamp (HGroup [] []) = Ok root /\ from_nexus show root [] None = Ok [(name, Dict v)] /\
  forall key, ordinary e key -> exists r, snd (get e key false None) = Ok r /\ snd (get v key false None) = Ok (reread show r).
Proof.
  intros show name e stamp ST. destruct (save_read show name e stamp ST) as (root & v & W & R & RS & _). exists root, v. split; auto. split; auto. intros key OK.
  destruct (storable_parts e ST) as (SV & ND & PR & AG). destruct (alike_get show e v key (restored_alike _ _ _ SV ND PR AG RS) (proj1 OK) (ordinary_not_new _ _ _ _ SV RS OK)) as (r & G1 & G2). exists (option_map Leaf r). rewrite G1, G2. split; auto. destruct r; auto.
Qed.
Print Assumptions C73_get.

(** * Infos *)
Definition ordinary0 (key : string) : Prop := Forall named (field_path key false) /\ hd "" (field_path key false) <> "data".
Definition ordinaryb (key : string) : bool := negb (String.eqb (hd "" (field_path key false)) "data") && forallb (fun k => negb (String.eqb k "attrs" || String.eqb k "dataset")) (field_path key false).
Lemma ordinary_test : forall key, ordinaryb key = true -> ordinary0 key.
Proof.
  intros key H. unfold ordinary0, ordinaryb in *. apply andb_true_iff in H. destruct H as [H0 H]. split; [|apply negb_true_iff, String.eqb_neq in H0; auto]. rewrite forallb_forall in H. apply Forall_forall. intros k I. specialize (H k I). apply negb_true_iff, orb_false_iff in H. destruct H as [A B]. split; apply String.eqb_neq; auto.
Qed.
Lemma channel_keys : forall z, (1 <= z <= 12)%Z -> ordinary0 ("monitor/mode_" ++ str_of z)%string /\ ordinary0 ("monitor/preset_" ++ str_of z)%string /\ ordinary0 ("monitor/label_" ++ str_of z)%string.
Proof.
  intros z B. assert (I : In z (map Z.of_nat (seq 1 12))). { apply in_map_iff. exists (Z.to_nat z). split; [lia|]. apply in_seq. lia. }
  assert (T : forallb (fun z => ordinaryb ("monitor/mode_" ++ str_of z)%string && (ordinaryb ("monitor/preset_" ++ str_of z)%string && ordinaryb ("monitor/label_" ++ str_of z)%string)) (map Z.of_nat (seq 1 12)) = true) by (vm_compute; reflexivity).
  rewrite forallb_forall in T. specialize (T z I). apply andb_true_iff in T. destruct T as [A T]. apply andb_true_iff in T. destruct T as [B' C]. split; [|split]; apply ordinary_test; auto.
Qed.
Section Infos.
  Variable show : list string -> string.
  Variables c c' : scan.
  Hypothesis AL : alike show (sn_entry c) (sn_entry c').
  Lemma look_after : forall key, ordinary0 key -> exists r, look c key = Ok (option_map Leaf r) /\ look c' key = Ok (option_map Leaf (option_map (after show) r)).
  Proof using AL. intros key OK. destruct (alike_get show _ _ key AL (proj1 OK)) as (r & G1 & G2). { intros k X. destruct OK as [_ OK]. rewrite X in OK. exfalso. apply OK. auto. } exists r. unfold look. rewrite G1, G2. auto. Qed.
  Lemma reread_leaf : forall r, reread show (option_map Leaf r) = option_map Leaf (option_map (after show) r).
  Proof using. intros []; auto. Qed.
  Lemma look_reread : forall key r, ordinary0 key -> look c key = Ok r -> look c' key = Ok (reread show r).
  Proof using AL. intros key r OK L. destruct (look_after key OK) as (x & L1 & L2). rewrite L1 in L. apply Ok_inj in L. subst. rewrite reread_leaf. auto. Qed.
  Lemma channels_after : forall fuel k l, (1 <= k)%Z -> (k + Z.of_nat fuel <= 13)%Z -> count_channels c fuel k = Ok l ->
    count_channels c' fuel k = Ok (map (fun x => (reread show (fst (fst x)), reread show (snd (fst x)), reread show (snd x))) l).
  Proof using AL.
    induction fuel as [|fuel]; intros k l B1 B2 H; cbn [count_channels] in *. { apply Ok_inj in H. subst. auto. }
    destruct (channel_keys k) as (O1 & O2 & O3); [lia|]. destruct (look_after _ O1) as (m & L1 & L1'). rewrite L1 in H. rewrite L1'. cbn [bind] in *. destruct m as [x|]; cbn [option_map] in *; [|apply Ok_inj in H; subst; auto].
    apply bind_ok in H. destruct H as (p & L2 & H). apply bind_ok in H. destruct H as (lb & L3 & H). apply bind_ok in H. destruct H as (rest & HR & H). apply Ok_inj in H. subst l.
    rewrite (look_reread _ _ O2 L2), (look_reread _ _ O3 L3). cbn [bind]. rewrite (IHfuel (k + 1)%Z rest); auto; lia.
  Qed.
  Lemma text_after : forall o t, equals_text o t = true -> equals_text (reread show o) t = true.
  Proof using. intros [[[s| | | |]|]|] t H; try discriminate. exact H. Qed.
  Lemma text_is : forall o t, equals_text o t = true -> o = Some (Leaf (LStr t)).
  Proof using. intros [[[s| | | |]|]|] t H; try discriminate. apply String.eqb_eq in H. subst. auto. Qed.

  Hypothesis ATTRS : forall a, sget "attrs" (sn_entry c) = Some (Dict a) -> exists a', sget "attrs" (sn_entry c') = Some (Dict a') /\ forall k, sget k a' = option_map (fun v => match v with Leaf x => Leaf (as_array x) | Dict d => Dict d end) (sget k a).
  Hypothesis PLOT : forall k v, (k = "signal" \/ k = "axes") -> plot_attr c k = Ok v -> plot_attr c' k = Ok v.
  Hypothesis NAMES : sn_name c' = sn_name c.
  Lemma info_kept : forall int_of i, scan_info int_of c = Ok i -> scan_info int_of c' = Ok (info_after show i).
  Proof using AL ATTRS PLOT NAMES.
    intros int_of i H. unfold scan_info in *. apply bind_ok in H. destruct H as (ty & LT & H). apply bind_ok in H. destruct H as (pr & LP & H). apply bind_ok in H. destruct H as (ex & LE & H). apply bind_ok in H. destruct H as (num & LN & H).
    apply bind_ok in H. destruct H as (title & LTI & H). apply bind_ok in H. destruct H as (y & LY & H). apply bind_ok in H. destruct H as (x & LX & H). apply bind_ok in H. destruct H as (t0 & L0 & H). apply bind_ok in H. destruct H as (t1 & L1 & H).
    assert (OT : forall k, ordinaryb k = true -> ordinary0 k) by apply ordinary_test.
    rewrite (look_reread "preset_type" ty (OT "preset_type" eq_refl) LT). cbn [bind].
    destruct pr as [pr|]; [|discriminate]. apply Ok_inj in H. subst i.
    assert (P : (if equals_text (reread show ty) "normal" then do ch <- look c' "monitor/mode"; do v <- look c' "monitor/preset"; Ok (Some (Single ch v))
      else if equals_text (reread show ty) "countfile" then do l <- count_channels c' 12 1; Ok (Some (Several (map (fun x => fst (fst x)) l) (map (fun x => snd (fst x)) l) (map snd l)))
      else Ok None) = Ok (Some (match pr with Single c v => Single (reread show c) (reread show v) | Several c v l => Several (map (reread show) c) (map (reread show) v) (map (reread show) l) end))).
    { destruct (equals_text ty "normal") eqn:Q1.
      - rewrite (text_after _ _ Q1). apply bind_ok in LP. destruct LP as (ch & LC & LP). apply bind_ok in LP. destruct LP as (v & LV & LP). apply Ok_inj in LP. injection LP as <-.
        rewrite (look_reread "monitor/mode" ch (OT "monitor/mode" eq_refl) LC), (look_reread "monitor/preset" v (OT "monitor/preset" eq_refl) LV). auto.
      - destruct (equals_text ty "countfile") eqn:Q2; [|discriminate]. apply text_is in Q2. subst ty. cbn [reread option_map after read_leaf stored equals_text]. change (String.eqb "countfile" "normal") with false. change (String.eqb "countfile" "countfile") with true. cbv iota.
        apply bind_ok in LP. destruct LP as (l & LC & LP). apply Ok_inj in LP. injection LP as <-. rewrite (channels_after 12 1 l) by (auto; lia). cbn [bind]. rewrite !map_map. auto. }
    rewrite P. cbn [bind]. destruct (sget "attrs" (sn_entry c)) as [[|a]|] eqn:GA; try discriminate. destruct (ATTRS a eq_refl) as (a' & GA' & KA). rewrite GA'. cbn [bind]. apply Ok_inj in LE. subst ex. rewrite NAMES, LN. cbn [bind].
    rewrite (look_reread "title" title (OT "title" eq_refl) LTI). cbn [bind]. rewrite (PLOT "signal" y), (PLOT "axes" x) by auto. cbn [bind]. rewrite (look_reread "start_time" t0 (OT "start_time" eq_refl) L0), (look_reread "end_time" t1 (OT "end_time" eq_refl) L1). cbn [bind].
    unfold info_after. cbn [in_exp in_num in_title in_y in_x in_start in_end in_type in_preset]. rewrite KA. auto.
  Qed.
  Lemma sample_kept : forall i, (forall l, show l <> "crystal") -> sample_ub_info c = Ok i -> sample_ub_info c' = Ok (sample_after show i).
  Proof using AL.
    intros i SH H. unfold sample_ub_info in *. assert (OT : forall k, ordinaryb k = true -> ordinary0 k) by apply ordinary_test.
    apply bind_ok in H. destruct H as (ty & LT & H). apply bind_ok in H. destruct H as (mo & LM & H). apply bind_ok in H. destruct H as (u & LU & H). apply bind_ok in H. destruct H as (ub & HU & H). apply bind_ok in H. destruct H as (cell & LC & H).
    apply bind_ok in H. destruct H as (uv & HV & H). apply bind_ok in H. destruct H as (name & LN & H). apply bind_ok in H. destruct H as (nm & LP & H). apply Ok_inj in H. subst i.
    rewrite (look_reread "sample/type" ty (OT "sample/type" eq_refl) LT), (look_reread "sample/mosaic" mo (OT "sample/mosaic" eq_refl) LM), (look_reread "sample/orientation_matrix" u (OT "sample/orientation_matrix" eq_refl) LU). cbn [bind].
    assert (R : reread show u = u). { destruct u as [[x|]|]; try discriminate. destruct x; try discriminate. reflexivity. } rewrite R, HU. cbn [bind].
    rewrite (look_reread "sample/unit_cell" cell (OT "sample/unit_cell" eq_refl) LC). cbn [bind].
    assert (E : equals_text (reread show ty) "crystal" = equals_text ty "crystal"). { destruct ty as [[x|]|]; auto. destruct x; auto. cbn. apply String.eqb_neq. auto. } rewrite E, HV. cbn [bind].
    rewrite (look_reread "sample/name" name (OT "sample/name" eq_refl) LN), (look_reread "sample/plane_normal" nm (OT "sample/plane_normal" eq_refl) LP). reflexivity.
  Qed.
  Lemma instrument_kept : forall i, instrument_info c = Ok i -> instrument_info c' = Ok (instrument_after show i).
  Proof using AL.
    intros i H. unfold instrument_info in *. assert (OT : forall k, ordinaryb k = true -> ordinary0 k) by apply ordinary_test.
    apply bind_ok in H. destruct H as (m & LM & H). apply bind_ok in H. destruct H as (a & LA & H). apply bind_ok in H. destruct H as (s1 & L1 & H). apply bind_ok in H. destruct H as (s2 & L2 & H). apply bind_ok in H. destruct H as (s12 & H12 & H).
    apply bind_ok in H. destruct H as (s3 & L3 & H). apply bind_ok in H. destruct H as (s & HS & H). apply bind_ok in H. destruct H as (col & LC & H). apply Ok_inj in H. subst i.
    rewrite (look_reread "monochromator/type" m (OT "monochromator/type" eq_refl) LM), (look_reread "analyser/type" a (OT "analyser/type" eq_refl) LA), (look_reread "monochromator/sense" s1 (OT "monochromator/sense" eq_refl) L1), (look_reread "goniometer/sense" s2 (OT "goniometer/sense" eq_refl) L2). cbn [bind].
    assert (T : forall r o s, add_text r o = Ok s -> reread show o = o). { intros r o t E. unfold add_text in E. destruct r; [|discriminate]. cbn [bind] in E. destruct o as [[x|]|]; try discriminate. destruct x; try discriminate. reflexivity. }
    rewrite (T _ _ _ H12). assert (T1 : exists q, add_text (Ok "") s1 = Ok q). { unfold add_text in H12 at 1. destruct (add_text (Ok "") s1); eauto; try discriminate. } destruct T1 as (q & T1). rewrite (T _ _ _ T1), H12. cbn [bind].
    rewrite (look_reread "analyser/sense" s3 (OT "analyser/sense" eq_refl) L3). cbn [bind]. rewrite (T _ _ _ HS), HS. cbn [bind]. rewrite (look_reread "divergence_x" col (OT "divergence_x" eq_refl) LC). reflexivity.
  Qed.
End Infos.

(** * Scans *)
Lemma attrs_after : forall l a, valued (sget "attrs" l) -> sget "attrs" l = Some (Dict a) ->
  forall k, sget k (attr_items (attrs_img l)) = option_map (fun v => match v with Leaf x => Leaf (as_array x) | Dict d => Dict d end) (sget k a).
Proof.
  intros l a VA G k. unfold attrs_img, attrs_of. rewrite G in *. cbn [items]. destruct VA as [_ VA]. clear G. induction a as [|[b w] a]; auto. destruct (VA b w (or_introl eq_refl)) as (z & ->). cbn [flat_map snd fst List.app attr_items map dget].
  destruct (String.eqb k b); auto. apply IHa. intros; eapply VA; right; eauto.
Qed.
Lemma plot_top : forall c dl a k, NoDup (map fst (sn_entry c)) -> sget "data" (sn_entry c) = Some (Dict dl) -> sget "attrs" dl = Some (Dict a) -> plot_attr c k = match sget k a with Some v => Ok v | None => Err KeyError end.
Proof.
  intros c dl a k N GD GA. unfold plot_attr, get. cbn [snd]. change (split_on "/" "data") with ["data"]. set (e' := ddel String.eqb "DASlogs" (ddel String.eqb "SPICElogs" (sn_entry c))).
  assert (G : sget "data" e' = Some (Dict dl)). { unfold e'. rewrite !ddel_get; auto. apply ddel_nodup. auto. }
  clearbody e'. rewrite go_dict. assert (M : dmem String.eqb "data" e' = true). { unfold dmem. rewrite G. auto. } rewrite M. rewrite child_get, G. rewrite go_dict. rewrite GA. reflexivity.
Qed.

(** what is read holds the plot as it was *)
Lemma plot_kept : forall show e v c c' k w, savable (Dict e) -> plot_ready e -> restored show e v -> NoDup (map fst (sn_entry c)) -> NoDup (map fst (sn_entry c')) ->
  sget "data" e <> None -> sget "data" (sn_entry c) = sget "data" e -> sget "data" (sn_entry c') = sget "data" v -> (k = "signal" \/ k = "axes") -> plot_attr c k = Ok w -> plot_attr c' k = Ok w.
Proof.
  intros show e v c c' k w SV PR RS N N' HD EC EV K H. destruct (sget "data" e) as [dd|] eqn:GD; [|congruence].
  assert (ND : sget "dataset" e = None \/ sget "data" e = None). { inversion SV as [? x ? KK|]; subst; auto. destruct (KK "data" dd (sget_in _ _ _ GD)); discriminate. } destruct ND as [ND|]; [|congruence].
  assert (SD : savable dd). { inversion SV as [? x ? ? DX|? ? ? ? WM]; subst; [congruence|]. eapply WM; [eapply sget_in; eauto|discriminate]. } assert (DD : exists dl, dd = Dict dl) by (inversion SD; eauto). destruct DD as (dl & ->).
  destruct (PR dl GD) as (NDD & _ & (y & LY) & (x & LX) & _). assert (VA : valued (sget "attrs" dl)) by (inversion SD; auto).
  destruct (rs_data _ _ _ RS dl GD) as (l1 & l2 & dv & _ & _ & _ & _ & GV & GA & _). rewrite leaf_cons, GD in LY, LX.
  destruct (sget "attrs" dl) as [[?|a]|] eqn:GL; [destruct VA| |rewrite leaf_cons, GL in LY; discriminate]. rewrite (plot_top c dl a k) in H by congruence. rewrite (plot_top c' dv _ k) by (auto; try congruence; exact GA).
  rewrite (attrs_after dl a) by (rewrite ?GL; auto). rewrite leaf_cons, GL, leaf_cons in LX, LY. destruct K as [-> | ->].
  - destruct (sget "signal" a) as [u|]; [|discriminate]. destruct u; cbn in LY; [|discriminate]. injection LY as ->. auto.
  - destruct (sget "axes" a) as [u|]; [|discriminate]. destruct u; cbn in LX; [|discriminate]. injection LX as ->. auto.
Qed.

(** C73: a scan saved and read back has the same name, the same data under every name that is stored as it is read, and says the same about
    itself, its sample and its instrument. *)
Theorem C73_scan : forall show int_of name e stamp c, storable e -> scannable show e -> sget "data" e <> None -> (forall l, show l <> "crystal") -> new_scan name e = Ok c ->
  exists root c', to_nexus [name] e stamp (HGroup [] []) = Ok root /\ scan_from_nexus show root None = Ok c' /\ sn_name c' = sn_name c /\
    (forall k, solid show e k -> sget k (sn_data c') = sget k (sn_data c)) /\
    (forall i, scan_info int_of c = Ok i -> scan_info int_of c' = Ok (info_after show i)) /\
    (forall i, sample_ub_info c = Ok i -> sample_ub_info c' = Ok (sample_after show i)) /\
    (forall i, instrument_info c = Ok i -> instrument_info c' = Ok (instrument_after show i)).
Proof.
  intros show int_of name e stamp c ST [TE SL PT IN GR] HD SH NS. destruct (save_read show name e stamp ST) as (root & v & W & R & RS & _). destruct (storable_parts e ST) as (SV & ND & PR & AG).
  destruct (scan_kept show e v (restored_alike _ _ _ SV ND PR AG RS) TE (rs_tidy _ _ _ RS TE) PT IN GR SL name c NS) as (c' & NS' & EN & AL & DA & OT & _). exists root, c'. split; auto. split. { unfold scan_from_nexus. rewrite R. exact NS'. }
  split; auto. split; auto. pose proof (savable_nodup _ (al_e _ _ _ AL)) as N. pose proof (al_v _ _ _ AL) as N'.
  split; [|split; [intros; eapply sample_kept|intros; eapply instrument_kept]; eauto].
  intros i HI. eapply info_kept; eauto.
  - intros a GA. destruct (OT "attrs") as [E1 E2]; try discriminate. rewrite E1 in GA. exists (attr_items (attrs_img e)). split. { rewrite E2. apply RS. } apply attrs_after; auto. inversion SV; auto.
  - intros k w K P. destruct (OT "data") as [E1 E2]; try discriminate. exact (plot_kept show e v c c' k w SV PR RS N N' HD E1 E2 K P).
Qed.
Print Assumptions C73_scan.

(** C73: the same of a scan read by its number, but for what it says about itself. *)
Theorem C73_scan_number : forall show n e stamp c, storable e -> scannable show e -> (forall l, show l <> "crystal") -> new_scan (scan_name n) e = Ok c ->
  exists root c', to_nexus [scan_name n] e stamp (HGroup [] []) = Ok root /\ scan_from_nexus show root (Some n) = Ok c' /\ sn_name c' = sn_name c /\
    (forall k, solid show e k -> sget k (sn_data c') = sget k (sn_data c)) /\
    (forall i, sample_ub_info c = Ok i -> sample_ub_info c' = Ok (sample_after show i)) /\
    (forall i, instrument_info c = Ok i -> instrument_info c' = Ok (instrument_after show i)) /\
    sget "attrs" (sn_entry c') = None.
Proof.
  intros show n e stamp c ST [TE SL PT IN GR] SH NS. destruct (save_read show (scan_name n) e stamp ST) as (root & v & W & _ & RS & R & a & EV). specialize (R n eq_refl). destruct (storable_parts e ST) as (SV & ND & PR & AG).
  pose proof (restored_alike _ _ _ SV ND PR AG RS) as AL0. assert (NV := al_v _ _ _ AL0). assert (NA : ~ In "attrs" (map fst (tl v)) /\ NoDup (map fst (tl v))). { rewrite EV in NV. cbn [map fst] in NV. inversion NV; auto. } destruct NA as [NA NT].
  assert (AL : alike show e (tl v)). { destruct AL0 as [A B C D]. constructor; auto. rewrite EV in D. rewrite bares_cons in D. exact D. }
  assert (TT : forall k w, In (k, w) (tl v) -> k <> "attrs" -> k <> "data" -> tidy w). { intros k w I. apply (rs_tidy _ _ _ RS TE). rewrite EV. right. auto. }
  destruct (scan_kept show e (tl v) AL TE TT PT IN GR SL (scan_name n) c NS) as (c' & NS' & EN & AL' & DA & OT & _). exists root, c'. split; auto. split. { unfold scan_from_nexus. rewrite R. exact NS'. }
  split; auto. split; auto. split; [intros; eapply sample_kept; eauto|]. split; [intros; eapply instrument_kept; eauto|].
  destruct (OT "attrs") as [_ E2]; try discriminate. rewrite E2. apply in_none. auto.
Qed.
Print Assumptions C73_scan_number.
(** C73, a finding: a scan read by its number never says anything about itself, because the attributes of its entry are not read. *)
Theorem C73_scan_number_refuted : forall show int_of n e stamp c, storable e -> scannable show e -> new_scan (scan_name n) e = Ok c -> (forall l, show l <> "crystal") ->
  exists root c', to_nexus [scan_name n] e stamp (HGroup [] []) = Ok root /\ scan_from_nexus show root (Some n) = Ok c' /\ forall i, scan_info int_of c' <> Ok i.
Proof.
  intros show int_of n e stamp c ST SC NS SH. destruct (C73_scan_number show n e stamp c ST SC SH NS) as (root & c' & W & R & _ & _ & _ & _ & NA). exists root, c'. split; auto. split; auto. intros i H.
  unfold scan_info in H. apply bind_ok in H. destruct H as (ty & LT & H). apply bind_ok in H. destruct H as (pr & LP & H). rewrite NA in H. discriminate.
Qed.
Print Assumptions C73_scan_number_refuted.

(** C73: a file that holds no scan, or several, is refused if no number is given; so is a number that is not in the file. No other scan is read instead. *)
Theorem C73_which_scan : forall show a c,
  scan_from_nexus show (HGroup a []) None = Err ValueError /\
  (forall c1 c2 c3 n1 n2 a1 a2 m1 m2, c = c1 ++ (n1, HGroup a1 m1) :: c2 ++ (n2, HGroup a2 m2) :: c3 -> scan_from_nexus show (HGroup a c) None = Err ValueError) /\
  (forall n, ~ In (scan_name n) (map fst c) -> scan_from_nexus show (HGroup a c) (Some n) = Err KeyError) /\
  (forall n s, scan_from_nexus show (HGroup a c) (Some n) = Ok s -> sn_name s = scan_name n).
Proof.
  intros show a c. split; [|split; [|split]].
  - reflexivity.
  - intros c1 c2 c3 n1 n2 a1 a2 m1 m2 ->. unfold scan_from_nexus, from_nexus. cbn [at_path bind]. unfold read_members. rewrite read_group. cbn [items tl]. rewrite !read_all_app. cbn [read_all]. rewrite read_group. rewrite read_all_app. cbn [read_all]. rewrite read_group.
    destruct (read_all _ _ c1) as [|[? [|]] [|]]; cbn [List.app]; auto. destruct (read_all _ _ c2) as [|[? [|]] ?]; auto.
  - intros n N. unfold scan_from_nexus, from_nexus. cbn [at_path]. destruct (sget (scan_name n) c) as [v|] eqn:E; auto. exfalso. apply N. apply sget_in in E. apply in_map_iff. exists (scan_name n, v). auto.
  - intros n s H. unfold scan_from_nexus, from_nexus in H. cbn [at_path] in H. destruct (sget (scan_name n) c) as [[a' c'|a' d|q]|]; try discriminate H. cbn [bind] in H. unfold new_scan in H. destruct (get_dataset_names _) as [e' r]. apply bind_ok in H. destruct H as (l & _ & H). apply bind_ok in H. destruct H as (d & _ & H). apply Ok_inj in H. subst s. reflexivity.
Qed.
Print Assumptions C73_which_scan.

(** * An example *)
Fixpoint places (t : val) : list (list string * val) :=
  ([], t) :: match t with
             | Leaf _ => []
             | Dict l => (fix all (l : list (string * val)) : list (list string * val) := match l with [] => [] | (k, v) :: l' => map (fun pw => (k :: fst pw, snd pw)) (places v) ++ all l' end) l
             end.
Lemma places_all : forall t p w, follow p t = Some w -> In (p, w) (places t).
Proof.
  induction t as [x|l IH] using val_ind2; intros p w F; (destruct p as [|k p]; [injection F as <-; left; reflexivity|]); cbn [follow items] in F; [discriminate|]. destruct (sget k l) as [v|] eqn:G; [|discriminate]. right. cbn [places tl]. rewrite Forall_forall in IH.
  apply sget_in in G. revert G IH. generalize l. clear - F. induction l as [|[a u] l]; intros G IH; [destruct G|]. apply in_or_app. destruct G as [[= -> ->]|G].
  - left. apply in_map_iff. exists (p, w). split; auto. apply (IH (k, v)); auto. left. auto.
  - right. apply IHl; auto. intros x I. apply IH. right. auto.
Qed.
Section Example.
  Variables (a b : R) (preset h : R) (u1 u2 u3 u4 u5 u6 u7 u8 u9 : R).
  Definition ds (x : leaf) : val := Dict [("dataset", Leaf x)].
  Definition small : list (string * val) :=
    [("attrs", Dict [("dataset_name", Leaf (LStr "exp424"))]);
     ("data", Dict [("attrs", Dict [("signal", Leaf (LStr "detector")); ("axes", Leaf (LStr "s1"))])]);
     ("title", ds (LStr "a scan")); ("start_time", ds (LStr "t0")); ("end_time", ds (LStr "t1"));
     ("instrument", Dict [("monochromator", Dict [("type", ds (LStr "PG002")); ("sense", ds (LStr "-"))]);
                          ("goniometer", Dict [("sense", ds (LStr "+")); ("s1", Dict [("attrs", Dict [("type", Leaf (LStr "NX_FLOAT"))]); ("dataset", Leaf (LArr [a; b]))])]);
                          ("analyser", Dict [("type", ds (LStr "PG002")); ("sense", ds (LStr "-"))]);
                          ("collimator", Dict [("divergence_x", ds (LList [h; h; h; h]))]);
                          ("detector", Dict [("data", ds (LArr [b; a]))])]);
     ("monitor", Dict [("preset_type", ds (LStr "normal")); ("mode", ds (LStr "time")); ("preset", ds (LNum preset)); ("monitor", ds (LArr [b; b]))]);
     ("sample", Dict [("type", ds (LStr "powder")); ("mosaic", ds (LNum h)); ("orientation_matrix", ds (LArr [u1; u2; u3; u4; u5; u6; u7; u8; u9])); ("unit_cell", ds (LArr [h; h; h; h; h; h]));
                      ("name", ds (LStr "NiTiO3")); ("plane_normal", ds (LArr [h; h; h])); ("users", ds (LStrs ["a"; "b"]))]);
     ("Pt.", ds (LArr [a; a]))].
  Ltac cases F := apply places_all in F; cbn -[ds] in F; cbn in F; repeat (destruct F as [F|F]; [|]); try contradiction F.
  Example small_savable : savable (Dict small).
  Proof.
    unfold small, ds.
    repeat lazymatch goal with
    | |- savable (Dict ?l) => let r := eval cbn in (sget "dataset" l) in lazymatch r with Some _ => eapply Sv_dataset; [| |reflexivity| |] | None => apply Sv_group; [| reflexivity| |] end
    | |- NoDup _ => cbn; repeat (constructor; [cbn; intuition discriminate|]); constructor
    | |- valued _ => first [exact Logic.I | cbn; split; [repeat (constructor; [cbn; intuition discriminate|]); constructor|intros ? ? I; repeat (destruct I as [I|I]; [injection I as <- <-; eauto|]); destruct I]]
    | |- suits _ _ => split; [|split]; intros (? & S1 & S2); cbn in S1; try discriminate S1; injection S1 as <-; cbn in S2; try discriminate S2; cbn; auto
    | |- forall k v, In (k, v) _ -> k = _ \/ k = _ => intros k v I; cbn in I; intuition congruence
    | |- forall k v, In (k, v) _ -> k <> "attrs" -> savable v => let k := fresh in let v := fresh in let I := fresh in intros k v I N; repeat (destruct I as [I|I]; [injection I as <- <-; try contradiction|]); try destruct I; clear N
    end.
  Qed.
  Ltac ends E := symmetry in E; repeat match type of E with
    | ?p ++ _ = _ :: _ => destruct p; cbn [List.app] in E; [try discriminate E|injection E as ? E; subst]
    | _ :: ?p ++ _ = _ :: _ => injection E as ? E; subst
    | _ ++ _ = [] => destruct (app_eq_nil _ _ E); discriminate
    end.
  Example small_storable : storable small.
  Proof.
    assert (PD : forall d, plots small d -> d = "detector" \/ d = "s1"). { intros d [H|H]; cbn in H; injection H as <-; auto. }
    split; [apply small_savable|]. split; [intros H; apply H; reflexivity|]. split.
    - intros l G. cbn in G. injection G as <-. split; auto. split. { intros k v [I|[]] N. injection I as <- <-. contradiction. } split; [eexists; reflexivity|]. split; [eexists; reflexivity|].
      intros d p m P F. destruct (PD d P) as [-> | ->]; cbn [inside String.eqb Ascii.eqb Bool.eqb] in F; cases F; injection F as E F; try discriminate F; ends E; try discriminate; subst m; discriminate.
    - intros d p x P _ _ L. right. unfold leaf_at in L. destruct (follow _ _) as [w|] eqn:F; [|discriminate]. destruct (PD d P) as [-> | ->]; (split; [reflexivity|]); intros I; [discriminate|]. cbn [inside String.eqb Ascii.eqb Bool.eqb List.app] in F.
      assert (X : forall p w, follow (p ++ ["s1"; "dataset"]) (Dict small) = Some w -> p = ["instrument"; "goniometer"] /\ w = Leaf (LArr [a; b])). { clear. intros p w F. cases F; injection F as E F; ends E; try discriminate; subst; auto. }
      destruct (X p w F) as [-> ->]. injection L as <-. split. { split; [discriminate|]. split; discriminate. } intros q y _ _ _ LY. unfold leaf_at in LY. destruct (follow (q ++ _) _) as [w|] eqn:FQ; [|discriminate]. destruct (X q w FQ) as [_ ->]. injection LY as <-. auto.
  Qed.
  Example small_scannable : forall show, scannable show small.
  Proof.
    intros show. split.
    - unfold small, ds. repeat lazymatch goal with
      | |- tidy (Leaf _) => apply Tidy_leaf
      | |- tidy (Dict _) => apply Tidy_dict
      | |- forall a, In ("attrs", a) _ -> _ => let I := fresh in intros ? I; repeat (destruct I as [I|I]; [try discriminate I; injection I as <-; eexists; split; reflexivity|]); destruct I
      | |- forall k v, In (k, v) _ -> k <> _ -> tidy v => let I := fresh in let N := fresh in intros ? ? I N; repeat (destruct I as [I|I]; [injection I as <- <-; try contradiction|]); try destruct I; clear N
      end.
    - intros p k w F. cases F; injection F as E F; apply (f_equal (fun l => last l "")) in E; rewrite last_last in E; cbn in E; subst k; reflexivity.
    - intros p q x L. unfold leaf_at in L. destruct (follow _ _) as [w|] eqn:F; [|discriminate]. cases F; injection F as E F; subst w; try discriminate L; injection L as <-; try reflexivity; exfalso; assert (I : In "Pt." (p ++ "Pt." :: q ++ ["dataset"])) by (apply in_or_app; right; left; auto); rewrite <- E in I; cbn in I; intuition discriminate.
    - intros c x L. unfold leaf_at in L. cbn in L. repeat (match type of L with context [String.eqb c ?k] => destruct (String.eqb c k); cbn in L end; try discriminate).
    - split; reflexivity.
  Qed.
  (** the whole of C73_scan applies *)
  Example small_scan : forall show stamp, (forall l, show l <> "crystal") -> exists c root c', new_scan "scan0042" small = Ok c /\ to_nexus ["scan0042"] small stamp (HGroup [] []) = Ok root /\ scan_from_nexus show root None = Ok c' /\
    sget "s1" (sn_data c') = Some (Some (Leaf (LArr [a; b]))) /\ (exists i, instrument_info c' = Ok i /\ ii_sense i = "-+-" /\ ii_collimation i = Some (Leaf (LArr [h; h; h; h]))) /\
    exists i, scan_info (fun _ => Some 42%Z) c' = Ok i /\ in_y i = Leaf (LStr "detector").
  Proof.
    intros show stamp SH. assert (exists c, new_scan "scan0042" small = Ok c /\ sget "s1" (sn_data c) = Some (Some (Leaf (LArr [a; b]))) /\ (exists i, instrument_info c = Ok i /\ ii_sense i = "-+-" /\ ii_collimation i = Some (Leaf (LList [h; h; h; h]))) /\ exists i, scan_info (fun _ => Some 42%Z) c = Ok i /\ in_y i = Leaf (LStr "detector")) as (c & NS & D & (i & I & I1 & I2) & j & J & J1).
    { eexists. split; [vm_compute; reflexivity|]. split; [reflexivity|]. split; eexists; (split; [vm_compute; reflexivity|]); auto. }
    destruct (C73_scan show (fun _ => Some 42%Z) "scan0042" small stamp c small_storable (small_scannable show)) as (root & c' & W & R & _ & DD & II & _ & IN); auto; [discriminate|]. exists c, root, c'. split; auto. split; auto. split; auto. split.
    - rewrite DD; auto. intros p q x L. unfold leaf_at in L. destruct (follow _ _) as [w|] eqn:F; [|discriminate]. cases F; injection F as E F; subst w; try discriminate L; injection L as <-; try reflexivity; exfalso; assert (X : In "s1" (p ++ "s1" :: q ++ ["dataset"])) by (apply in_or_app; right; left; auto); rewrite <- E in X; cbn in X; intuition discriminate.
    - split; [exists (instrument_after show i)|exists (info_after show j)]; (split; [auto|]). + split; auto. unfold instrument_after. cbn [ii_collimation]. rewrite I2. reflexivity. + exact J1.
  Qed.
End Example.
