(** Property C72, continued: what a scan says about itself. *)
From Coq Require Import Reals List ZArith String Ascii Bool Lia Lra Decimal DecimalString.
From Verif Require Import Base PyStr S_Str L_Str LinAlg L_LinAlg M_UB M_ScanData M_Spice M_Project M_Tavi P_Tavi M_Nexus P_Nexus L_NexusFile L_NexusLinks M_Builder L_Builder P_Builder P_Builder2 P_Builder3 P_Builder4 P_Builder5 P_Builder6
  L_ScanFields P_Folder P_ScanFields L_Utilities M_ScanInfo L_ScanInfo P_ScanInfo.
Import ListNotations.
Open Scope string_scope.
Open Scope list_scope.

(** * Specification *)
(** The number a text of digits stands for, and a function that reads such texts as int() does. *)
Definition is_digit (c : ascii) : Prop := In c ["0"; "1"; "2"; "3"; "4"; "5"; "6"; "7"; "8"; "9"]%char.
Fixpoint value (acc : Z) (s : string) : Z := match s with "" => acc | String c s' => value (10 * acc + (Z.of_nat (nat_of_ascii c) - 48)) s' end.
Definition reads_digits (int_of : string -> option Z) : Prop := forall s, s <> "" -> every is_digit s -> int_of s = Some (value 0 s).
(** One channel of a count file, its position in the lists of the file, and what the scan shows for it. *)
Definition counts (L : logs) (n : nat) (row : string * R * string) : Prop :=
  let '(mode, preset, label) := row in
  mode <> "" /\ label <> "" /\ text_item L "norm_channels" n mode /\ number_item L "norm_vals" n preset /\ text_item L "labels" n label.
Definition shown_channels (rows : list (string * R * string)) : preset :=
  Several (map (fun r => Some (Leaf (LStr (fst (fst r))))) rows) (map (fun r => Some (Leaf (LNum (snd (fst r))))) rows) (map (fun r => Some (Leaf (LStr (snd r)))) rows).
(** The numbers of a matrix, row by row. *)
Definition nine (m : mat) : list R := let '(M a b c d e f g h i) := m in [a; b; c; d; e; f; g; h; i].

(** * Numbers *)
Lemma value_app : forall a b acc, value acc (a ++ b)%string = value (value acc a) b.
Proof. induction a; intros b acc; cbn; auto. Qed.
Lemma value_acc : forall s acc, every is_digit s -> (value acc s = acc * 10 ^ Z.of_nat (String.length s) + value 0 s /\ 0 <= value 0 s < 10 ^ Z.of_nat (String.length s))%Z.
Proof.
  induction s as [|c s]; intros acc D; cbn [value String.length]. { cbn. lia. }
  apply every_cons in D. destruct D as [DC DS].
  assert (R : (0 <= Z.of_nat (nat_of_ascii c) - 48 <= 9)%Z). { unfold is_digit in DC. cbn [In] in DC. repeat (destruct DC as [<-|DC]; [vm_compute; intuition discriminate|]). destruct DC. }
  set (v := (Z.of_nat (nat_of_ascii c) - 48)%Z) in *. clearbody v. rewrite Nat2Z.inj_succ, Z.pow_succ_r by lia.
  destruct (IHs (10 * acc + v)%Z DS) as [E1 B]. destruct (IHs (10 * 0 + v)%Z DS) as [E2 _]. rewrite E1, E2. set (p := (10 ^ Z.of_nat (String.length s))%Z) in *. clearbody p. split; [ring|]. nia.
Qed.
Lemma value_zeros : forall k s, value 0 (zeros k ++ s)%string = value 0 s.
Proof. induction k; intros s; cbn; auto. Qed.
Lemma value_uint_acc : forall u p, value (Z.pos p) (NilEmpty.string_of_uint u) = Z.pos (Pos.of_uint_acc u p).
Proof.
  induction u; intros p; cbn [NilEmpty.string_of_uint value Pos.of_uint_acc]; auto;
    match goal with |- value (10 * Z.pos p + ?v) _ = Z.pos (Pos.of_uint_acc _ ?y) => let w := eval vm_compute in v in change v with w; assert (E : (10 * Z.pos p + w = Z.pos y)%Z) by lia; rewrite E; apply IHu end.
Qed.
Lemma value_uint : forall u, value 0 (NilEmpty.string_of_uint u) = Z.of_uint u.
Proof.
  induction u; auto.
  all: cbn [NilEmpty.string_of_uint value]; unfold Z.of_uint; cbn [Pos.of_uint Z.of_N]; rewrite <- value_uint_acc; reflexivity.
Qed.
Lemma value_str : forall n, (0 <= n)%Z -> value 0 (str_of n) = n.
Proof. intros n N. destruct (str_of_nonneg n N) as (u & -> & E). destruct u; try (etransitivity; [exact (value_uint _)|exact E]). cbn in E. subst. reflexivity. Qed.
Lemma value_pad : forall n, (0 <= n)%Z -> value 0 (pad4 n) = n.
Proof. intros n N. unfold pad4. destruct (n <? 0)%Z eqn:Q; [lia|]. cbv zeta. rewrite value_zeros. apply value_str. auto. Qed.
Lemma zeros_length : forall k, String.length (zeros k) = k. Proof. induction k; cbn; auto. Qed.
Lemma pad_length : forall n, (0 <= n)%Z -> (4 <= String.length (pad4 n))%nat.
Proof. intros n N. unfold pad4. destruct (n <? 0)%Z eqn:Q; [lia|]. cbv zeta. rewrite slength_app, zeros_length. lia. Qed.
Lemma last4_app : forall a d, String.length d = 4%nat -> last4 (a ++ d)%string = d.
Proof.
  intros a d L. unfold last4. cbv zeta. rewrite slength_app, L. replace (String.length a + 4 - 4)%nat with (String.length a) by lia. destruct (Nat.leb_spec 4 (String.length a + 4)); [|lia]. rewrite <- L. apply substring_tail.
Qed.

(** * The scan of an entry *)
Section Monitor.
  Variable float_of : string -> option R.
  Variable int_of : string -> option Z.
  Variable repr : pv -> string.
  Variable date_of : string -> option string.
  Notation build := (spice_scan_to_nxdict float_of int_of repr date_of).
  Notation built := (built float_of int_of repr date_of).
  Ltac open B := destruct (built _ _ _ _ B) as (instrument & source & mono & ana & det & coll & slits & flipper & goni & monitor & sample & user & spice &
      (ES & EM & EA & ED & EC & ESL & EF & EG & EMN & ESA & EU & ESP) & (GS & GM & GA & GD & GC & GSL & GF & GG) & (GI & GMN & GSA & GU & GSP & GDA)).
  Lemma preset_field : forall L i s e, build L i s = Ok e ->
    (header L "preset_type" = Some "countfile" -> field_value e ["monitor"; "preset_type"] = Some (LStr "countfile")) /\
    (header L "preset_type" <> Some "countfile" -> header L "preset_type" <> Some "normal" -> field_value e ["monitor"; "preset_type"] = None).
  Proof.
    intros L i s e B. unfold field_value. open B. cbn [List.app]. rewrite leaf_cons, GMN. unfold nxmonitor in EMN. cbv zeta in EMN. split.
    - intros PT. assert (NT : is_text (meta L "preset_type") "normal" = false). { destruct (is_text _ "normal") eqn:Q; auto. apply is_text_spec in Q. congruence. }
      apply is_text_spec in PT. rewrite NT, PT in EMN. apply bind_ok in EMN. destruct EMN as (cf & CFT & EMN). apply bind_ok in EMN. destruct EMN as (ch & CH & EMN).
      destruct (part_field _ _ _ _ [("preset_type", PStr "countfile", [tchar]); ("countfile", PStrs (split_on ","%char cf), [tchar])] _ _ _ "preset_type" (PStr "countfile") [tchar] EMN) as (d & D & ->).
      + apply nodupb_ok. reflexivity.
      + left. auto.
      + rewrite map_app, in_app_iff. intros [I|I]; [|revert I; apply shape_only; discriminate]. apply mapM_Forall2 in CH.
        assert (POS : forall m, In m (channels L) -> (1 <= m)%Z). { intros m J. apply channels_in in J. apply J. }
        clear - CH I POS. induction CH as [|m fs l ch E F IH]; [destruct I|]. cbn [List.concat] in I. rewrite map_app, in_app_iff in I. destruct I as [I|I]; [|apply IH; auto; intros; apply POS; right; auto].
        unfold channel_fields in E. do 3 (apply bind_ok in E; destruct E as (? & _ & E)). apply Ok_inj in E. subst.
        assert (J : In "preset_type" (six_names m)) by exact I. unfold six_names in J. apply in_map_iff in J. destruct J as (w & Q & J). assert (M1 : (1 <= m)%Z) by (apply POS; left; auto).
        unfold six in J. cbn [In] in J. repeat (destruct J as [<-|J]; [try discriminate Q|]); [|destruct J]. unfold numbered in Q. cbn in Q. injection Q as Q. revert Q. apply str_of_word; auto.
      + discriminate.
      + destruct (dataset_leaf _ _ _ _ _ _ _ D) as (x & DX & ->). { intros [X|X]; discriminate. } cbn in DX. apply Ok_inj in DX. congruence.
    - intros N1 N2. assert (Q1 : is_text (meta L "preset_type") "normal" = false). { destruct (is_text _ "normal") eqn:Q; auto. apply is_text_spec in Q. congruence. }
      assert (Q2 : is_text (meta L "preset_type") "countfile" = false). { destruct (is_text _ "countfile") eqn:Q; auto. apply is_text_spec in Q. congruence. }
      rewrite Q1, Q2 in EMN. rewrite leaf_cons. rewrite in_none; auto. intros I. destruct (texts_keys _ _ _ _ _ _ _ _ EMN I) as [J|J]; [discriminate|]. rewrite map_app, in_app_iff in J. destruct J as [J|J].
      + cbn in J. intuition discriminate. + revert J. apply shape_only. discriminate.
  Qed.
  Lemma data_attrs : forall L i s e, build L i s = Ok e -> exists a, sget "data" e = Some (Dict [("attrs", Dict a)]) /\
    (forall y, header L "def_y" = Some y -> sget "signal" a = Some (Leaf (LStr y))) /\ (sget "def_y" (lg_meta L) = None -> sget "signal" a = None) /\
    (forall x, header L "def_x" = Some x -> exists t, axis_name x t /\ sget "axes" a = Some (Leaf (LStr t))) /\ (sget "def_x" (lg_meta L) = None -> sget "axes" a = None).
  Proof.
    intros L i s e B. destruct (C66_plot _ _ _ _ _ _ _ _ B) as [PY PX]. open B. unfold nxdata in GDA. rewrite GDA. eexists. split; [reflexivity|].
    assert (NM : forall k, sget k (lg_meta L) = None -> meta L k = PNone) by (intros k H; unfold meta; rewrite H; auto).
    assert (HM : forall k t, header L k = Some t -> meta L k = PStr t).
    { clear. intros k t H. unfold header in H. unfold meta. destruct (sget k (lg_meta L)) as [[[x|x|x]|x|]|]; try discriminate. injection H as ->. reflexivity. }
    split; [|split; [|split]].
    - intros y H. rewrite (HM _ _ H). reflexivity.
    - intros H. rewrite (NM _ H). cbn. destruct (meta L "def_x"); reflexivity.
    - intros x H. destruct (PX x H) as (t & AX & LF). exists t. split; auto. rewrite leaf_cons, GDA in LF. unfold leaf_at in LF. cbn [follow] in LF.
      rewrite (HM _ _ H) in *. destruct (meta L "def_y"); cbn in LF |- *; injection LF as <-; reflexivity.
    - intros H. rewrite (NM _ H). cbn. destruct (meta L "def_y"); reflexivity.
  Qed.
  (** A scan has no fields for channels it does not have. *)
  Lemma mode_absent : forall L i s e n, build L i s = Ok e -> (1 <= n)%Z -> ~ has_channel L n -> field_value e ["monitor"; numbered "mode" n] = None.
  Proof.
    intros L i s e n B N NC. unfold field_value. open B. cbn [List.app]. rewrite leaf_cons, GMN, leaf_cons. rewrite in_none; auto. intros I.
    assert (G : forall fs attrs, fill float_of int_of repr date_of fs (texts attrs) = Ok monitor -> In (numbered "mode" n) (map key_of fs)).
    { intros fs attrs F. destruct (texts_keys _ _ _ _ _ _ _ _ F I) as [J|J]; auto. discriminate. }
    unfold nxmonitor in EMN. cbv zeta in EMN.
    assert (SO : ~ In (numbered "mode" n) (map key_of (with_kw (fun _ => [tchar]) (filter (fun kv => String.eqb (fst kv) "shape") (params i "monitor"))))) by (apply shape_only; discriminate).
    destruct (is_text _ "normal"); [|destruct (is_text _ "countfile")].
    - apply G in EMN. rewrite !map_app, !in_app_iff in EMN. destruct EMN as [J|[J|J]]; [| |auto]; cbn in J; intuition discriminate.
    - apply bind_ok in EMN. destruct EMN as (cf & CFT & EMN). apply bind_ok in EMN. destruct EMN as (ch & CH & EMN). apply G in EMN. rewrite !map_app, !in_app_iff in EMN.
      destruct EMN as [J|[J|J]]; [cbn in J; intuition discriminate| |auto]. apply mapM_Forall2 in CH.
      assert (POS : forall m, In m (channels L) -> has_channel L m). { intros m K. apply channels_in in K. auto. } clear - CH J POS N NC.
      induction CH as [|m fs l ch E F IH]; [destruct J|]. cbn [List.concat] in J. rewrite map_app, in_app_iff in J. destruct J as [J|J]; [|apply IH; auto; intros; apply POS; right; auto].
      unfold channel_fields in E. do 3 (apply bind_ok in E; destruct E as (? & _ & E)). apply Ok_inj in E. subst.
      assert (K : In (numbered "mode" n) (six_names m)) by exact J. assert (H : has_channel L m) by (apply POS; left; auto). assert (n = m); [|subst; auto].
      apply (six_disjoint n m (numbered "mode" n)); auto; [apply H|]. left. auto.
    - apply G in EMN. rewrite !map_app, !in_app_iff in EMN. destruct EMN as [J|J]; [|auto]. cbn in J. intuition discriminate.
  Qed.
End Monitor.

Section C72.
  Variable float_of : string -> option R.
  Variable int_of : string -> option Z.
  Variable repr : pv -> string.
  Variable date_of : string -> option string.
  Notation build := (spice_scan_to_nxdict float_of int_of repr date_of).

  Section Made.
    Context (L : logs) (i : option config) (s : option (dict string pv)) (e e' : entry) (exp name : string) (c : scan).
    Hypothesis B : build L i s = Ok e.
    Hypothesis PC : plain_config i s.
    Hypothesis MK : marked exp e e'.
    Hypothesis NS : new_scan name e' = Ok c.
    Lemma same_entry : NoDup (map fst e) -> Forall2 alike e e'.
    Proof using MK. intros N. destruct MK as (G & K & _). apply alike_of; auto. Qed.
    Lemma shaped : exists instrument part, shape i s e instrument part /\ Forall2 alike e e' /\ sn_entry c = items (contents e') /\ sn_name c = name.
    Proof using B PC MK NS.
      destruct PC as [OC _]. destruct (built_shape float_of int_of repr date_of i s (config_named i s OC) L e B) as (instrument & part & SH & _). exists instrument, part.
      assert (AL : Forall2 alike e e') by (apply same_entry; apply (sh_e _ _ _ _ _ SH)). split; auto. split; auto. split; [|apply (new_scan_name _ _ _ NS)].
      unfold new_scan in NS. pose proof (entry_left i s OC e' instrument part (alike_shape _ _ _ _ _ _ AL SH)) as EL. destruct (get_dataset_names e') as [e1 r]. cbn in EL. subst e1.
      apply bind_ok in NS. destruct NS as (names & _ & H). apply bind_ok in H. destruct H as (d & _ & H). apply Ok_inj in H. subst c. reflexivity.
    Qed.
    Lemma look_eq : forall key k ks, field_path key false = k :: ks -> named k -> look c key = go (k :: ks) "dataset" (contents e) None.
    Proof using B PC MK NS.
      intros key k ks FP NK. destruct shaped as (instrument & part & SH & AL & EN & _). unfold look. rewrite EN. rewrite (get_again i s e' instrument part (alike_shape _ _ _ _ _ _ AL SH)). cbn [snd]. rewrite FP.
      apply alike_contents; eauto.
    Qed.
    Lemma look_g : forall g f, In g group_names -> named f -> every (fun c => c <> "/"%char) f -> look c (g ++ String "/" f)%string = Ok (as_val (field_value e [g; f])).
    Proof using B PC MK NS.
      intros g f I NF SL. destruct shaped as (instrument & part & SH & _). rewrite (look_eq _ g [f]).
      - eapply look_group; eauto.
      - unfold field_path. unfold group_names in I. cbn [In] in I. repeat (destruct I as [<-|I]; [cbn [append String.eqb Ascii.eqb Bool.eqb]; match goal with |- split_on _ ?x = [?g; _] => change x with (g ++ String "/" f)%string end;
          rewrite split_on_app by (repeat (apply every_cons; split; [discriminate|]); apply every_nil); rewrite split_on_one; auto|]). destruct I.
      - unfold group_names in I. cbn [In] in I. repeat (destruct I as [<-|I]; [split; discriminate|]). destruct I.
    Qed.
    Lemma look_c : forall g f, In g ["monochromator"; "analyser"; "goniometer"] -> In f ["type"; "sense"] -> look c (g ++ String "/" f)%string = Ok (as_val (field_value e ["instrument"; g; f])).
    Proof using B PC MK NS.
      intros g f I J. destruct shaped as (instrument & part & SH & _). rewrite (look_eq _ g [f]).
      - apply (look_component i s (proj2 PC) e instrument part SH); auto. cbn in J. destruct J as [<-|[<-|[]]]; split; discriminate.
      - cbn in I, J. repeat (destruct I as [<-|I]; [repeat (destruct J as [<-|J]; [reflexivity|]); destruct J|]). destruct I.
      - cbn in I. repeat (destruct I as [<-|I]; [split; discriminate|]). destruct I.
    Qed.
    Lemma look_t : forall f, In f ["title"; "start_time"; "end_time"] -> look c f = Ok (as_val (field_value e [f])).
    Proof using B PC MK NS.
      intros f I. destruct shaped as (instrument & part & SH & _). rewrite (look_eq _ f []).
      - apply (look_top i s (proj2 PC) e instrument part SH); auto.
      - cbn in I. repeat (destruct I as [<-|I]; [reflexivity|]). destruct I.
      - cbn in I. repeat (destruct I as [<-|I]; [split; discriminate|]). destruct I.
    Qed.
    Lemma look_preset_type : look c "preset_type" = Ok (as_val (field_value e ["monitor"; "preset_type"])).
    Proof using B PC MK NS.
      destruct shaped as (instrument & part & SH & _). rewrite (look_eq _ "preset_type" []); [|reflexivity|split; discriminate].
      apply (look_alone_group i s (proj2 PC) e instrument part SH); [vm_compute; tauto|vm_compute; tauto|vm_compute; intuition discriminate|].
      intros g I N. unfold all_parts, component_names_, group_names in I. cbn [In List.app] in I. repeat (destruct I as [<-|I]; [try contradiction; vm_compute; intuition discriminate|]). destruct I.
    Qed.
    Lemma look_divergence : look c "divergence_x" = Ok (as_val (field_value e ["instrument"; "collimator"; "divergence_x"])).
    Proof using B PC MK NS.
      destruct shaped as (instrument & part & SH & _). rewrite (look_eq _ "divergence_x" []); [|reflexivity|split; discriminate].
      apply (look_alone_component i s (proj2 PC) e instrument part SH); [vm_compute; tauto|vm_compute; tauto|vm_compute; intuition discriminate|].
      intros g I N. unfold all_parts, component_names_, group_names in I. cbn [In List.app] in I. repeat (destruct I as [<-|I]; [try contradiction; vm_compute; intuition discriminate|]). destruct I.
    Qed.
    Lemma plot_eq : forall a k, sget "data" e = Some (Dict [("attrs", Dict a)]) -> plot_attr c k = match sget k a with Some v => Ok v | None => Err KeyError end.
    Proof using B PC MK NS.
      intros a k G. destruct shaped as (instrument & part & SH & AL & EN & _). pose proof (alike_shape _ _ _ _ _ _ AL SH) as SH'. unfold plot_attr. rewrite EN.
      rewrite get_unfold by (eapply contents_nodup; eauto). assert (C : contents (items (contents e')) = contents e'). { unfold contents. cbn [items]. rewrite P_Nexus.filter_twice. auto. } rewrite C. cbn [snd].
      change (field_path "data" true) with ["data"]. change (item true) with "attrs". rewrite (alike_contents _ _ _ _ AL) by (exists "data", []; split; auto; split; discriminate).
      assert (T : sget "data" (items (contents e)) = Some (Dict [("attrs", Dict a)])) by (rewrite contents_sget; auto; discriminate).
      assert (GO : go ["data"] "attrs" (contents e) None = Ok (Some (Dict a))). { unfold contents in *. rewrite go_dict. unfold dmem. rewrite child_get. cbn [items] in T. rewrite T. reflexivity. }
      rewrite GO. cbn [bind]. destruct (sget k a); reflexivity.
    Qed.
    Lemma exp_eq : exists a, sget "attrs" (sn_entry c) = Some (Dict a) /\ sget "dataset_name" a = Some (Leaf (LStr exp)).
    Proof using B PC MK NS.
      destruct shaped as (instrument & part & SH & AL & EN & _). destruct MK as (_ & _ & a & a' & _ & G & D & _). exists a'. rewrite EN, contents_sget by discriminate. auto.
    Qed.

    (** ** The data *)
    Lemma name_path : forall instrument part n names, shape i s e instrument part -> ordinary_config i s ->
      (forall v, sget "name" instrument = Some v -> exists x a, v = Dict [("dataset", Leaf x); ("attrs", Dict a)] /\ sget "dataset" a = None) ->
      (do a <- component_names n instrument; do b <- get_names n (part "monitor"); do d <- get_names n (part "sample"); Ok (a ++ b ++ d)) = Ok names ->
      forall k, In k names -> exists k1 ks, field_path k false = k1 :: ks /\ named k1.
    Proof using.
      clear. intros instrument part n names SH OC NM H k I. apply bind_ok in H. destruct H as (a & A & H). apply bind_ok in H. destruct H as (b & Bb & H). apply bind_ok in H. destruct H as (d & D & H). apply Ok_inj in H. subst names.
      assert (GR : forall g v, In g parts -> In (k, v) (part g) -> k <> "attrs" -> exists k1 ks, field_path k false = k1 :: ks /\ named k1).
      { intros g v IG IK NA. pose proof (parts_all g IG) as IA. destruct (sh_keyed _ _ _ _ _ SH g IA) as [_ K]. destruct (K k (in_map fst _ _ IK)) as [Q|[Q|[Q|Q]]]; [contradiction| | |].
        - destruct (static_ok g k IG Q) as [(-> & _)|[(-> & _)|(NK & _ & F)]]; [exists "monitor", ["monitor"]|exists "sample", ["sample"]|exists k, []]; (split; [first [reflexivity|assumption]|]); auto; split; discriminate.
        - assert (W : exists w z, In w ["detector"; "mode"; "preset"; "time"; "monitor"; "mcu"; "label"] /\ (1 <= z)%Z /\ k = numbered w z).
          { destruct Q as [(_ & z & Z & ->)|(_ & w & z & Z & J & ->)]; [exists "detector", z|exists w, z]; repeat split; auto; [left; auto|right; exact J]. }
          destruct W as (w & z & W & Z & ->). destruct (numbered_free w z W Z) as (NF & _ & -> & _). eauto.
        - destruct (OC k Q) as (_ & N1 & N2 & N3 & SL). unfold field_path. apply String.eqb_neq in N3. rewrite N3. destruct (String.eqb k "monitor"); [exists "monitor", ["monitor"]; split; auto; split; discriminate|].
          destruct (String.eqb k "sample"); [exists "sample", ["sample"]; split; auto; split; discriminate|]. rewrite split_on_one by auto. exists k, []. split; auto. split; auto. }
      apply in_app_iff in I. destruct I as [I|I]; [|apply in_app_iff in I; destruct I as [I|I]].
      - apply (component_names_in _ _ _ A) in I. destruct I as (g & dd & IN & NA & [(_ & _ & ->)|(_ & ns & N & J)]). { exists "detector", ["data"]. split; auto. split; discriminate. }
        destruct (sh_below _ _ _ _ _ SH _ _ IN NA) as [IC|(-> & x & ad & E)].
        + pose proof (in_sget _ _ _ (sh_i _ _ _ _ _ SH) IN) as G. rewrite (sh_component _ _ _ _ _ SH) in G by auto. injection G as <-.
          assert (FL : flat (part g)) by (eapply part_flat; eauto; apply in_or_app; auto). apply (get_names_in _ _ _ FL N) in J. destruct J as (v & x & IV & NA' & _). eapply (GR g); eauto. apply in_or_app. auto.
        + clear E. pose proof (in_sget _ _ _ (sh_i _ _ _ _ _ SH) IN) as G. destruct (NM _ G) as (y & ay & E & AY). injection E as ->. exfalso. cbn in N. apply bind_ok in N. destruct N as (h & HH & N). rewrite AY in N. cbn in N.
          destruct y; try discriminate; cbn in HH; try (match type of HH with (if ?b then _ else _) = _ => destruct b end; [discriminate|]); apply Ok_inj in HH; subst h; apply Ok_inj in N; subst ns; destruct J.
      - assert (FL : flat (part "monitor")) by (eapply part_flat; eauto; vm_compute; tauto). apply (get_names_in _ _ _ FL Bb) in I. destruct I as (v & x & IV & NA' & _). eapply (GR "monitor"); eauto. vm_compute. tauto.
      - assert (FL : flat (part "sample")) by (eapply part_flat; eauto; vm_compute; tauto). apply (get_names_in _ _ _ FL D) in I. destruct I as (v & x & IV & NA' & _). eapply (GR "sample"); eauto. vm_compute. tauto.
    Qed.
  End Made.
  Definition points_len (p : option val) : result nat :=
    match p with
    | Some (Leaf (LArr a)) | Some (Leaf (LList a)) => Ok (List.length a)
    | Some (Leaf (LStrs a)) => Ok (List.length a)
    | Some (Leaf (LStr s)) => Ok (String.length s)
    | Some (Dict d) => Ok (List.length d)
    | Some (Leaf (LNum _)) | None => Err TypeError
    end.
  Lemma names_any : forall i s e instrument part, ordinary_config i s -> shape i s e instrument part ->
    get_dataset_names e = (items (contents e), do p <- go ["Pt."] "dataset" (contents e) None; do n <- points_len p;
      do a <- component_names n instrument; do b <- get_names n (part "monitor"); do d <- get_names n (part "sample"); Ok (a ++ b ++ d)).
  Proof using.
    clear. intros i s e instrument part OC SH. pose proof (entry_left i s OC e instrument part SH) as EL. rewrite (surjective_pairing (get_dataset_names e)), EL. f_equal. clear EL.
    unfold get_dataset_names. rewrite (get_eq i s e instrument part SH). change (field_path "Pt." false) with ["Pt."].
    destruct (go ["Pt."] "dataset" (contents e) None) as [p|x]; cbn [bind snd]; auto. fold (points_len p). destruct (points_len p) as [n|x]; cbn [bind snd]; auto.
    assert (C1 : child "instrument" (items (contents e)) = Ok instrument) by (unfold child; rewrite contents_sget by discriminate; rewrite (sh_instrument _ _ _ _ _ SH); auto).
    assert (C2 : child "monitor" (items (contents e)) = Ok (part "monitor")) by (unfold child; rewrite contents_sget by discriminate; rewrite (sh_group _ _ _ _ _ SH) by (vm_compute; tauto); auto).
    assert (C3 : child "sample" (items (contents e)) = Ok (part "sample")) by (unfold child; rewrite contents_sget by discriminate; rewrite (sh_group _ _ _ _ _ SH) by (vm_compute; tauto); auto).
    rewrite C1. cbn [bind]. destruct (component_names n instrument) as [a|x]; [|reflexivity]. cbn [bind]. rewrite C2. cbn [bind]. rewrite (get_again i s e instrument part SH).
    assert (Z : go (field_path "monitor/data" false) "dataset" (contents e) None = Ok None).
    { change (field_path "monitor/data" false) with ["monitor"; "data"].
      assert (T : sget "monitor" (items (contents e)) = Some (Dict (part "monitor"))) by (rewrite contents_sget by discriminate; apply (sh_group _ _ _ _ _ SH); vm_compute; tauto).
      unfold contents in *. rewrite (go_here _ _ _ _ T). rewrite go_dict, child_get. erewrite lacks; eauto.
      - apply in_parts'. vm_compute. tauto.
      - split; discriminate.
      - left. left. exists ["instrument"; "detector"], [("detector", "data", false)], "detector", false. split; [vm_compute; tauto|left; auto].
      - vm_compute. intuition discriminate.
      - intros [(Q & _)|(_ & w & z & _ & I & Q)]; [discriminate|]. unfold six in I. cbn [In] in I. repeat (destruct I as [<-|I]; [discriminate Q|]). destruct I. }
    rewrite Z. cbn [bind snd]. rewrite C2. cbn [bind]. rewrite C3. reflexivity.
  Qed.
  (** The name is the one given, and the data are those of the file (C67). *)
  Theorem C72_data : forall L i s e exp e' name, build L i s = Ok e -> plain_config i s -> marked exp e e' ->
    (forall c, new_scan name e' = Ok c -> sn_name c = name /\ scan_data e = Ok (sn_data c)) /\ (forall d, scan_data e = Ok d -> exists c, new_scan name e' = Ok c).
  Proof.
    intros L i s e exp e' name B PC MK. destruct PC as [OC IC]. destruct (built_shape float_of int_of repr date_of i s (config_named i s OC) L e B) as (instrument & part & SH & NM).
    assert (AL : Forall2 alike e e') by (eapply same_entry; eauto; apply (sh_e _ _ _ _ _ SH)). pose proof (alike_shape _ _ _ _ _ _ AL SH) as SH'.
    assert (E : new_scan name e' = do d <- scan_data e; Ok (Scan name (items (contents e')) d)).
    { unfold new_scan, scan_data. rewrite (names_any i s e instrument part OC SH), (names_any i s e' instrument part OC SH').
      rewrite (alike_contents ["Pt."] "dataset" e e' AL) by (exists "Pt.", []; split; auto; split; discriminate).
      match goal with |- bind ?r _ = _ => destruct r as [names|x] eqn:R end; [|reflexivity]. cbn [bind].
      assert (P : forall k, In k names -> exists k1 ks, field_path k false = k1 :: ks /\ named k1).
      { apply bind_ok in R. destruct R as (p & _ & R). apply bind_ok in R. destruct R as (n & _ & R). eapply name_path; eauto.
        intros v G. assert (X : exists x, is_field v x). { pose proof (sget_in _ _ _ G) as I. destruct (sh_below _ _ _ _ _ SH _ _ I) as [J|(_ & X)]; [discriminate| |exact X]. vm_compute in J. intuition discriminate. }
        destruct X as (x & X). destruct (NM _ _ G X) as (d & D & EV). destruct X as (a & ->). exists x, a. split; auto. injection EV as <-.
        unfold nxdataset in D. destruct (meta L "instrument") as [| [|c0 s0] | | | | |]; try discriminate D; apply bind_ok in D; destruct D as (y & _ & D); apply Ok_inj in D; injection D as _ <-; reflexivity. }
      clear R. generalize (@nil (string * option val)). induction names as [|k names IH]; intros acc; cbn [data_of]; [reflexivity|].
      rewrite (get_again i s e instrument part SH), (get_again i s e' instrument part SH'). rewrite (alike_contents _ "dataset" e e' AL) by (apply P; left; auto).
      destruct (go (field_path k false) "dataset" (contents e) None) as [v|x]; [|reflexivity]. cbn [bind]. apply IH. intros; apply P; right; auto. }
    rewrite E. split.
    - intros c H. apply bind_ok in H. destruct H as (d & D & H). apply Ok_inj in H. subst c. auto.
    - intros d ->. cbn [bind]. eauto.
  Qed.

  (** A scan made from the entry [e] of a file with logs [L], in the experiment [exp]. *)
  Definition scan_made (L : logs) (i : option config) (s : option (dict string pv)) (exp name : string) (e : entry) (c : scan) : Prop :=
    build L i s = Ok e /\ plain_config i s /\ exists e', marked exp e e' /\ new_scan name e' = Ok c.
  Lemma str_clean : forall k, (0 <= k)%Z -> every (fun c => c <> "/"%char) (str_of k).
  Proof using.
    clear. intros k K. assert (P : every (fun c => c <> "/"%char) (pad4 k)). { apply pad_clean; auto. intros c I. cbn [In] in I. repeat (destruct I as [<-|I]; [discriminate|]). destruct I. }
    unfold pad4 in P. destruct (k <? 0)%Z eqn:Q; [lia|]. cbv zeta in P. apply every_app in P. apply P.
  Qed.
  Definition row (e : entry) (k : Z) : option val * option val * option val :=
    (as_val (field_value e ["monitor"; numbered "mode" k]), as_val (field_value e ["monitor"; numbered "preset" k]), as_val (field_value e ["monitor"; numbered "label" k])).
  Lemma count_rows : forall L i s exp name e c, scan_made L i s exp name e c -> forall fuel k, (1 <= k)%Z ->
    exists m, (m <= fuel)%nat /\ count_channels c fuel k = Ok (map (fun n => row e (k + Z.of_nat n)) (seq 0 m)) /\
      (forall n, (n < m)%nat -> field_value e ["monitor"; numbered "mode" (k + Z.of_nat n)] <> None) /\ (m = fuel \/ field_value e ["monitor"; numbered "mode" (k + Z.of_nat m)] = None).
  Proof using.
    intros L i s exp name e c (B & PC & e' & MK & NS). induction fuel; intros k K. { exists 0%nat. cbn. split; auto. split; auto. split; [lia|auto]. }
    assert (LK : forall w, In w ["mode"; "preset"; "label"] -> look c ("monitor/" ++ numbered w k)%string = Ok (as_val (field_value e ["monitor"; numbered w k]))).
    { intros w W. pose proof (str_clean k ltac:(lia)) as CL. unfold numbered. apply (look_g L i s e e' exp name c B PC MK NS "monitor").
      - vm_compute. tauto.
      - cbn [In] in W. repeat (destruct W as [<-|W]; [split; discriminate|]). destruct W.
      - cbn [In] in W. repeat (destruct W as [<-|W]; [cbn [append]; repeat (apply every_cons; split; [discriminate|]); exact CL|]). destruct W. }
    cbn [count_channels].
    assert (E1 := LK "mode" ltac:(cbn; auto)). assert (E2 := LK "preset" ltac:(cbn; auto)). assert (E3 := LK "label" ltac:(cbn; auto)). clear LK.
    change ("monitor/" ++ numbered "mode" k)%string with ("monitor/mode_" ++ str_of k)%string in E1. change ("monitor/" ++ numbered "preset" k)%string with ("monitor/preset_" ++ str_of k)%string in E2.
    change ("monitor/" ++ numbered "label" k)%string with ("monitor/label_" ++ str_of k)%string in E3. rewrite E1, E2, E3. cbn [bind].
    destruct (field_value e ["monitor"; numbered "mode" k]) as [x|] eqn:F; cbn [as_val].
    - destruct (IHfuel (k + 1)%Z ltac:(lia)) as (m & M & C & FS & NX). rewrite C. cbn [bind]. exists (Datatypes.S m). split; [lia|]. split; [|split].
      + cbn [seq map]. f_equal. f_equal. { unfold row. rewrite Z.add_0_r, F. reflexivity. } rewrite <- seq_shift, map_map. apply map_ext. intros n. rewrite Nat2Z.inj_succ. f_equal. lia.
      + intros [|n] H. { rewrite Z.add_0_r. congruence. } rewrite Nat2Z.inj_succ. replace (k + Z.succ (Z.of_nat n))%Z with (k + 1 + Z.of_nat n)%Z by lia. apply FS. lia.
      + destruct NX as [->|NX]; [auto|right]. rewrite Nat2Z.inj_succ. replace (k + Z.succ (Z.of_nat m))%Z with (k + 1 + Z.of_nat m)%Z by lia. auto.
    - exists 0%nat. split; [lia|]. split; auto. split; [lia|]. right. rewrite Z.add_0_r. auto.
  Qed.

  (** ** The scan *)
  (** All the look-ups of scan_info at once. *)
  Definition preset_of (e : entry) (rows : list (option val * option val * option val)) : option preset :=
    if equals_text (as_val (field_value e ["monitor"; "preset_type"])) "normal" then Some (Single (as_val (field_value e ["monitor"; "mode"])) (as_val (field_value e ["monitor"; "preset"])))
    else if equals_text (as_val (field_value e ["monitor"; "preset_type"])) "countfile" then Some (Several (map (fun x => fst (fst x)) rows) (map (fun x => snd (fst x)) rows) (map snd rows))
    else None.
  Lemma scan_info_eq : forall L i s exp name e c, scan_made L i s exp name e c -> exists a m, sget "data" e = Some (Dict [("attrs", Dict a)]) /\
    (m <= 12)%nat /\ (forall n, (n < m)%nat -> field_value e ["monitor"; numbered "mode" (1 + Z.of_nat n)] <> None) /\ (m = 12%nat \/ field_value e ["monitor"; numbered "mode" (1 + Z.of_nat m)] = None) /\
    scan_info int_of c =
      (do num <- (match int_of (last4 name) with Some z => Ok z | None => Err ValueError end);
       do y <- (match sget "signal" a with Some v => Ok v | None => Err KeyError end);
       do x <- (match sget "axes" a with Some v => Ok v | None => Err KeyError end);
       match preset_of e (map (fun n => row e (1 + Z.of_nat n)) (seq 0 m)) with
       | None => Err UnboundLocalError
       | Some p => Ok (Info (Some (Leaf (LStr exp))) num (as_val (field_value e ["title"])) y x (as_val (field_value e ["start_time"])) (as_val (field_value e ["end_time"])) (as_val (field_value e ["monitor"; "preset_type"])) p)
       end).
  Proof using.
    intros L i s exp name e c SM. pose proof SM as (B & PC & e' & MK & NS). destruct (data_attrs _ _ _ _ _ _ _ _ B) as (a & DA & _). destruct (count_rows _ _ _ _ _ _ _ SM 12 1 ltac:(lia)) as (m & M & CR & FS & NX).
    exists a, m. repeat (split; [assumption|]). unfold scan_info. rewrite (look_preset_type L i s e e' exp name c B PC MK NS). cbn [bind].
    assert (LG : forall f, In f ["mode"; "preset"] -> look c ("monitor" ++ String "/" f)%string = Ok (as_val (field_value e ["monitor"; f]))).
    { intros f F. apply (look_g L i s e e' exp name c B PC MK NS "monitor"); [vm_compute; tauto| |].
      - cbn [In] in F. repeat (destruct F as [<-|F]; [split; discriminate|]). destruct F.
      - cbn [In] in F. repeat (destruct F as [<-|F]; [repeat (apply every_cons; split; [discriminate|]); apply every_nil|]). destruct F. }
    assert (E1 := LG "mode" ltac:(cbn; auto)). assert (E2 := LG "preset" ltac:(cbn; auto)). cbn [append] in E1, E2. rewrite E1, E2, CR. clear LG E1 E2 CR. cbn [bind].
    destruct (exp_eq L i s e e' exp name c B PC MK NS) as (at_ & AT & DN). rewrite AT, DN.
    assert (SN : sn_name c = name) by (destruct (shaped L i s e e' exp name c B PC MK NS) as (? & ? & _ & _ & _ & Q); exact Q). rewrite SN.
    rewrite (look_t L i s e e' exp name c B PC MK NS "title"), (look_t L i s e e' exp name c B PC MK NS "start_time"), (look_t L i s e e' exp name c B PC MK NS "end_time") by (cbn; tauto).
    rewrite !(plot_eq L i s e e' exp name c B PC MK NS a) by exact DA. unfold preset_of.
    destruct (equals_text _ "normal"); [|destruct (equals_text _ "countfile")]; cbn [bind]; destruct (int_of (last4 name)); cbn [bind]; auto; destruct (sget "signal" a); cbn [bind]; auto; destruct (sget "axes" a); cbn [bind]; auto.
  Qed.
  Lemma as_val_some : forall x o, as_val o = Some (Leaf x) <-> o = Some x.
  Proof using. clear. intros x [y|]; cbn; split; congruence. Qed.
  (** The experiment, the number, the title, the axes and the times are those of the file. *)
  Theorem C72_info : forall L i s exp name e c inf, scan_made L i s exp name e c -> scan_info int_of c = Ok inf ->
    in_exp inf = Some (Leaf (LStr exp)) /\
    (forall stem digits, name = (stem ++ digits)%string -> String.length digits = 4%nat -> int_of digits = Some (in_num inf)) /\
    shows_text L "scan_title" (in_title inf) /\
    (forall y, header L "def_y" = Some y -> in_y inf = Leaf (LStr y)) /\
    (forall x, header L "def_x" = Some x -> exists t, axis_name x t /\ in_x inf = Leaf (LStr t)) /\
    (forall d t, header L "date" = Some d -> header L "time" = Some t -> exists x, date_of (d ++ " " ++ t) = Some x /\ in_start inf = Some (Leaf (LStr x))) /\
    (forall t, header L "end_time" = Some t -> t <> "" -> exists x, date_of t = Some x /\ in_end inf = Some (Leaf (LStr x))) /\
    (header L "end_time" = Some "" \/ sget "end_time" (lg_meta L) = None -> in_end inf = None).
  Proof using.
    intros L i s exp name e c inf SM H. destruct (scan_info_eq _ _ _ _ _ _ _ SM) as (a & m & DA & M & FS & NX & E). rewrite E in H. clear E. pose proof SM as (B & PC & _).
    apply bind_ok in H. destruct H as (num & NU & H). apply bind_ok in H. destruct H as (y & Y & H). apply bind_ok in H. destruct H as (x & X & H). destruct (preset_of _ _) as [p|]; [|discriminate]. apply Ok_inj in H. subst inf. cbn [in_exp in_num in_title in_y in_x in_start in_end].
    destruct (data_attrs _ _ _ _ _ _ _ _ B) as (a' & DA' & SY & _ & SX & _). rewrite DA in DA'. injection DA' as <-.
    destruct (C66_times _ _ _ _ _ _ _ _ B) as (T1 & T2 & T3).
    split; auto. split; [|split; [|split; [|split; [|split; [|split]]]]].
    - intros stem digits -> D. rewrite last4_app in NU by auto. destruct (int_of digits); [|discriminate]. apply Ok_inj in NU. congruence.
    - destruct (C66_texts _ _ _ _ _ _ _ _ B "scan_title" ["title"]) as [A1 A2]. { vm_compute. tauto. } { intros (k & v & []). }
      split. { intros t T. rewrite (A1 t T). destruct (String.eqb t ""); reflexivity. } intros T. rewrite (A2 T). reflexivity.
    - intros t T. rewrite (SY t T) in Y. apply Ok_inj in Y. congruence.
    - intros t T. destruct (SX t T) as (w & AX & G). exists w. rewrite G in X. apply Ok_inj in X. split; congruence.
    - intros d t D T. destruct (T1 d t D T) as (w & DW & G). exists w. rewrite G. auto.
    - intros t T N. destruct (T2 t T N) as (w & DW & G). exists w. rewrite G. auto.
    - intros T. rewrite (T3 T). reflexivity.
  Qed.
  (** The number of a scan named by its number is read back modulo 10000, *)
  Theorem C72_number : forall L i s exp n e c inf, scan_made L i s exp (scan_name n) e c -> scan_info int_of c = Ok inf -> reads_digits int_of -> (0 <= n)%Z -> in_num inf = (n mod 10000)%Z.
  Proof using.
    intros L i s exp n e c inf SM H RD N. destruct (C72_info _ _ _ _ _ _ _ _ SM H) as (_ & NU & _).
    destruct (cut (String.length (pad4 n) - 4) (pad4 n)) as (a & b & E & LA); [lia|]. pose proof (pad_length n N) as PL.
    assert (LB : String.length b = 4%nat). { pose proof (slength_app a b) as Q. rewrite <- E in Q. lia. }
    assert (DG : every is_digit (pad4 n)) by (apply pad_clean; auto). rewrite E in DG. apply every_app in DG. destruct DG as [_ DB].
    specialize (NU ("scan" ++ a)%string b). rewrite RD in NU; auto; [|destruct b; discriminate].
    assert (V : value 0 b = in_num inf). { assert (Q : Some (value 0 b) = Some (in_num inf)). { apply NU; auto. unfold scan_name. rewrite E. clear. cbn. reflexivity. } injection Q as Q. exact Q. }
    rewrite <- V. pose proof (value_pad n N) as VP. rewrite E, value_app in VP. destruct (value_acc b (value 0 a) DB) as [VA VB]. rewrite VA, LB in VP. rewrite LB in VB. change (10 ^ Z.of_nat 4)%Z with 10000%Z in *.
    rewrite <- VP. rewrite Z.add_comm, Z_mod_plus_full. rewrite Z.mod_small; auto.
  Qed.
  (** so from scan 10000 on it is not the number of the scan. *)
  Theorem C72_number_refuted : forall L i s exp n e c inf, scan_made L i s exp (scan_name n) e c -> scan_info int_of c = Ok inf -> reads_digits int_of -> (10000 <= n)%Z -> in_num inf <> n.
  Proof using.
    intros L i s exp n e c inf SM H RD N. rewrite (C72_number _ _ _ _ _ _ _ _ SM H RD) by lia. pose proof (Z.mod_pos_bound n 10000). lia.
  Qed.
  Lemma preset_in : forall L i s exp name e c inf, scan_made L i s exp name e c -> scan_info int_of c = Ok inf ->
    exists m, (m <= 12)%nat /\ (forall n, (n < m)%nat -> field_value e ["monitor"; numbered "mode" (1 + Z.of_nat n)] <> None) /\ (m = 12%nat \/ field_value e ["monitor"; numbered "mode" (1 + Z.of_nat m)] = None) /\
    in_type inf = as_val (field_value e ["monitor"; "preset_type"]) /\ preset_of e (map (fun n => row e (1 + Z.of_nat n)) (seq 0 m)) = Some (in_preset inf).
  Proof using.
    intros L i s exp name e c inf SM H. destruct (scan_info_eq _ _ _ _ _ _ _ SM) as (a & m & DA & M & FS & NX & E). rewrite E in H. clear E. exists m. repeat (split; [assumption|]).
    apply bind_ok in H. destruct H as (num & NU & H). apply bind_ok in H. destruct H as (y & Y & H). apply bind_ok in H. destruct H as (x & X & H). destruct (preset_of _ _) as [p|]; [|discriminate]. apply Ok_inj in H. subst inf. auto.
  Qed.
  (** How the scan was counted: one channel and its preset, *)
  Theorem C72_preset : forall L i s exp name e c inf, scan_made L i s exp name e c -> scan_info int_of c = Ok inf -> header L "preset_type" = Some "normal" ->
    in_type inf = Some (Leaf (LStr "normal")) /\ exists channel value, in_preset inf = Single channel value /\
    (forall t, header L "preset_channel" = Some t -> t <> "" -> channel = Some (Leaf (LStr t))) /\
    (forall t, header L "preset_value" = Some t -> t <> "" -> ~ occurs "," t -> exists x, float_of t = Some x /\ value = Some (Leaf (LNum x))).
  Proof using.
    intros L i s exp name e c inf SM H PT. destruct (preset_in _ _ _ _ _ _ _ _ SM H) as (m & _ & _ & _ & TY & P). destruct SM as (B & _). destruct (C66_preset _ _ _ _ _ _ _ _ B PT) as (F & P1 & P2).
    unfold preset_of in P. rewrite F in TY, P. cbn in TY, P. injection P as P. rewrite <- P. split; auto. do 2 eexists. split; [reflexivity|]. split.
    - intros t T N. rewrite (P1 t T N). reflexivity.
    - intros t T N O. destruct (P2 t T N O) as (x & X & G). exists x. rewrite G. auto.
  Qed.
  (** or the channels of a count file, each with its preset and label, up to twelve; *)
  Theorem C72_channels : forall L i s exp name e c inf rows, scan_made L i s exp name e c -> scan_info int_of c = Ok inf -> by_countfile L ->
    (forall n r, nth_error rows n = Some r -> has_channel L (Z.of_nat n + 1) /\ counts L n r) ->
    List.length rows = 12%nat \/ (List.length rows < 12)%nat /\ ~ has_channel L (Z.of_nat (List.length rows) + 1) ->
    in_type inf = Some (Leaf (LStr "countfile")) /\ in_preset inf = shown_channels rows.
  Proof using.
    intros L i s exp name e c inf rows SM H BC RW LN. destruct (preset_in _ _ _ _ _ _ _ _ SM H) as (m & M & FS & NX & TY & P). destruct SM as (B & _).
    assert (PT : header L "preset_type" = Some "countfile") by (unfold header; rewrite BC; auto). destruct (preset_field _ _ _ _ _ _ _ _ B) as [PF _]. specialize (PF PT).
    unfold preset_of in P. rewrite PF in TY, P. set (rs := map _ (seq 0 m)) in P. cbn in TY, P. injection P as P. split; auto. rewrite <- P. clear P TY. subst rs.
    assert (RR : forall n r, nth_error rows n = Some r -> row e (1 + Z.of_nat n) = (Some (Leaf (LStr (fst (fst r)))), Some (Leaf (LNum (snd (fst r)))), Some (Leaf (LStr (snd r))))).
    { intros n [[mo x] la] G. destruct (RW n _ G) as (HC & NM & NL & T1 & T2 & T3). destruct (C66_channels _ _ _ _ _ _ _ _ B BC _ HC) as (_ & C1 & C2 & C3).
      replace (Z.to_nat (Z.of_nat n + 1 - 1)) with n in * by lia. unfold row. rewrite Z.add_comm. cbn [fst snd]. set (z := (Z.of_nat n + 1)%Z) in *. change (numbered "mode" z) with ("mode_" ++ str_of z)%string. change (numbered "preset" z) with ("preset_" ++ str_of z)%string.
      change (numbered "label" z) with ("label_" ++ str_of z)%string. rewrite (C1 _ T1 NM), (C2 _ T2), (C3 _ T3 NL). reflexivity. }
    assert (ML : m = List.length rows).
    { destruct (Nat.lt_trichotomy m (List.length rows)) as [Q|[Q|Q]]; auto.
      - destruct NX as [->|NX]; [lia|]. destruct (nth_error rows m) as [r|] eqn:G; [|apply nth_error_None in G; lia]. specialize (RR m r G). unfold row in RR. rewrite NX in RR. discriminate.
      - destruct LN as [LN|[LN NC]]; [lia|]. exfalso. apply (FS (List.length rows) Q). eapply mode_absent; eauto; [lia|]. rewrite Z.add_comm. auto. }
    subst m. assert (E : map (fun n => row e (1 + Z.of_nat n)) (seq 0 (List.length rows)) = map (fun r => (Some (Leaf (LStr (fst (fst r)))), Some (Leaf (LNum (snd (fst r)))), Some (Leaf (LStr (snd r))))) rows).
    { clear - RR. assert (G : forall l k, (forall n r, nth_error l n = Some r -> row e (1 + Z.of_nat (k + n)) = (Some (Leaf (LStr (fst (fst r)))), Some (Leaf (LNum (snd (fst r)))), Some (Leaf (LStr (snd r))))) ->
        map (fun n => row e (1 + Z.of_nat n)) (seq k (List.length l)) = map (fun r => (Some (Leaf (LStr (fst (fst r)))), Some (Leaf (LNum (snd (fst r)))), Some (Leaf (LStr (snd r))))) l).
      { induction l as [|r l]; intros k Q; cbn [List.length seq map]; auto. f_equal. { rewrite <- (Q 0%nat r eq_refl). rewrite Nat.add_0_r. auto. }
        apply IHl. intros n r' G. rewrite <- (Q (Datatypes.S n) r' G). f_equal. f_equal. f_equal. lia. }
      apply G. intros n r Q. apply RR. auto. }
    rewrite E, !map_map. reflexivity.
  Qed.
  (** of a scan with more channels only twelve are reported. *)
  Theorem C72_channels_refuted : forall L i s exp name e c inf, scan_made L i s exp name e c -> scan_info int_of c = Ok inf -> by_countfile L -> has_channel L 13 ->
    exists channels values labels, in_preset inf = Several channels values labels /\ (List.length channels < 13)%nat.
  Proof using.
    intros L i s exp name e c inf SM H BC HC. destruct (preset_in _ _ _ _ _ _ _ _ SM H) as (m & M & FS & NX & TY & P). destruct SM as (B & _).
    assert (PT : header L "preset_type" = Some "countfile") by (unfold header; rewrite BC; auto). destruct (preset_field _ _ _ _ _ _ _ _ B) as [PF _]. specialize (PF PT).
    unfold preset_of in P. rewrite PF in P. cbn in P. injection P as P. rewrite <- P. do 3 eexists. split; [reflexivity|]. rewrite !map_length, seq_length. lia.
  Qed.
  (** A scan describes itself if the file says how it was counted and gives both axes; *)
  Theorem C72_info_given : forall L i s exp name e c x y z, scan_made L i s exp name e c -> In (header L "preset_type") [Some "normal"; Some "countfile"] -> header L "def_x" = Some x -> header L "def_y" = Some y ->
    int_of (last4 name) = Some z -> exists inf, scan_info int_of c = Ok inf.
  Proof using.
    intros L i s exp name e c x y z SM PT X Y N. destruct (scan_info_eq _ _ _ _ _ _ _ SM) as (a & m & DA & M & FS & NX & E). rewrite E. clear E. destruct SM as (B & _). rewrite N. cbn [bind].
    destruct (data_attrs _ _ _ _ _ _ _ _ B) as (a' & DA' & SY & _ & SX & _). rewrite DA in DA'. injection DA' as <-. rewrite (SY _ Y). destruct (SX _ X) as (t & _ & ->). cbn [bind].
    assert (Q : exists p, preset_of e (map (fun n => row e (1 + Z.of_nat n)) (seq 0 m)) = Some p); [|destruct Q as (p & ->); eauto].
    unfold preset_of. destruct PT as [PT|[PT|[]]]; symmetry in PT. { destruct (C66_preset _ _ _ _ _ _ _ _ B PT) as (-> & _). cbn. eauto. }
    destruct (preset_field _ _ _ _ _ _ _ _ B) as [PF _]. rewrite (PF PT). cbn. eauto.
  Qed.
  (** without either it raises an error instead: *)
  Theorem C72_no_preset_refuted : forall L i s exp name e c, scan_made L i s exp name e c -> ~ In (header L "preset_type") [Some "normal"; Some "countfile"] ->
    (forall inf, scan_info int_of c <> Ok inf) /\
    (forall x y z, header L "def_x" = Some x -> header L "def_y" = Some y -> int_of (last4 name) = Some z -> scan_info int_of c = Err UnboundLocalError).
  Proof using.
    intros L i s exp name e c SM PT. destruct (scan_info_eq _ _ _ _ _ _ _ SM) as (a & m & DA & M & FS & NX & E). rewrite E. clear E. destruct SM as (B & _).
    destruct (preset_field _ _ _ _ _ _ _ _ B) as [_ PF]. assert (F : field_value e ["monitor"; "preset_type"] = None) by (apply PF; intros Q; apply PT; rewrite Q; cbn; auto).
    unfold preset_of. rewrite F. cbn [as_val equals_text]. split.
    - intros inf H. apply bind_ok in H. destruct H as (num & NU & H). apply bind_ok in H. destruct H as (y & Y & H). apply bind_ok in H. destruct H as (x & X & H). discriminate.
    - intros x y z X Y N. rewrite N. cbn [bind]. destruct (data_attrs _ _ _ _ _ _ _ _ B) as (a' & DA' & SY & _ & SX & _). rewrite DA in DA'. injection DA' as <-. rewrite (SY _ Y). destruct (SX _ X) as (t & _ & ->). reflexivity.
  Qed.
  Theorem C72_no_axes_refuted : forall L i s exp name e c z, scan_made L i s exp name e c -> sget "def_x" (lg_meta L) = None \/ sget "def_y" (lg_meta L) = None -> int_of (last4 name) = Some z ->
    scan_info int_of c = Err KeyError.
  Proof using.
    intros L i s exp name e c z SM PT N. destruct (scan_info_eq _ _ _ _ _ _ _ SM) as (a & m & DA & M & FS & NX & E). rewrite E. clear E. destruct SM as (B & _). rewrite N. cbn [bind].
    destruct (data_attrs _ _ _ _ _ _ _ _ B) as (a' & DA' & _ & SY & _ & SX). rewrite DA in DA'. injection DA' as <-. destruct PT as [Q|Q].
    - rewrite (SX Q). destruct (sget "signal" a); reflexivity.
    - rewrite (SY Q). reflexivity.
  Qed.

  (** ** The instrument *)
  Lemma sense_text : forall L i s exp name e c m a g, scan_made L i s exp name e c -> field_value e ["instrument"; "monochromator"; "sense"] = Some (LStr m) ->
    field_value e ["instrument"; "goniometer"; "sense"] = Some (LStr g) -> field_value e ["instrument"; "analyser"; "sense"] = Some (LStr a) ->
    instrument_info c = Ok (InstrumentInfo "" (as_val (field_value e ["instrument"; "monochromator"; "type"])) (as_val (field_value e ["instrument"; "analyser"; "type"])) (m ++ g ++ a)%string
      (as_val (field_value e ["instrument"; "collimator"; "divergence_x"]))).
  Proof using.
    intros L i s exp name e c m a g (B & PC & e' & MK & NS) FM FG FA. unfold instrument_info. pose proof (look_c L i s e e' exp name c B PC MK NS) as LC.
    assert (E1 := LC "monochromator" "type" ltac:(cbn; auto) ltac:(cbn; auto)). assert (E2 := LC "analyser" "type" ltac:(cbn; auto) ltac:(cbn; auto)).
    assert (E3 := LC "monochromator" "sense" ltac:(cbn; auto) ltac:(cbn; auto)). assert (E4 := LC "goniometer" "sense" ltac:(cbn; auto) ltac:(cbn; auto)). assert (E5 := LC "analyser" "sense" ltac:(cbn; auto) ltac:(cbn; auto)).
    cbn [append] in E1, E2, E3, E4, E5. rewrite E1, E2, E3, E4, E5, FM, FG, FA, (look_divergence L i s e e' exp name c B PC MK NS). cbn [bind as_val add_text append].
    assert (AS : forall x y z, ((x ++ y) ++ z)%string = (x ++ (y ++ z))%string) by (induction x; intros; cbn; congruence). rewrite AS. reflexivity.
  Qed.
  (** The crystals, the senses (the first three characters of the header) and the collimation are those of the file; the name of the instrument is not filled in. *)
  Theorem C72_instrument : forall L i s exp name e c, scan_made L i s exp name e c ->
    ~ configured i s ["instrument"; "monochromator"; "sense"] -> ~ configured i s ["instrument"; "analyser"; "sense"] ->
    exists inf, instrument_info c = Ok inf /\ ii_name inf = "" /\
      (~ configured i s ["instrument"; "monochromator"; "type"] -> shows_text L "monochromator" (ii_mono inf)) /\ (~ configured i s ["instrument"; "analyser"; "type"] -> shows_text L "analyzer" (ii_ana inf)) /\
      (exists rest, header L "sense" = Some (ii_sense inf ++ rest)%string /\ String.length (ii_sense inf) = 3%nat) /\
      (gives_none i "h" -> exists t ps xs, header L "collimation" = Some t /\ pieces "-"%char t ps /\ Forall2 (fun a x => float_of a = Some x) ps xs /\ ii_collimation inf = Some (Leaf (LList xs))) /\
      (forall ys, gives_four i "h" ys -> ii_collimation inf = Some (Leaf (LList ys))).
  Proof using.
    intros L i s exp name e c SM NM NA. pose proof SM as (B & _). destruct (C66_senses _ _ _ _ _ _ _ _ B) as (a & b & d & rest & HS & S1 & S2 & S3).
    rewrite (sense_text _ _ _ _ _ _ _ _ _ _ SM (S1 NM) S2 (S3 NA)). eexists. split; [reflexivity|]. cbn [ii_name ii_mono ii_ana ii_sense ii_collimation append]. split; auto.
    assert (TX : forall k p, In (k, p) text_headers -> ~ configured i s p -> shows_text L k (as_val (field_value e p))).
    { intros k p I NC. destruct (C66_texts _ _ _ _ _ _ _ _ B k p I NC) as [A1 A2]. split. { intros t T. rewrite (A1 t T). destruct (String.eqb t ""); reflexivity. } intros T. rewrite (A2 T). reflexivity. }
    destruct (C66_collimation _ _ _ _ _ _ _ _ B) as ((t & ps & xs & HT & P & F & C1) & C2 & _).
    split; [|split; [|split; [|split]]].
    - apply TX. vm_compute. tauto.
    - apply TX. vm_compute. tauto.
    - exists rest. split; auto.
    - intros G. exists t, ps, xs. rewrite (C1 G). auto.
    - intros ys G. rewrite (C2 ys G). reflexivity.
  Qed.

  (** ** The sample *)
  Lemma sample_look : forall L i s exp name e c f, scan_made L i s exp name e c -> In f ["type"; "mosaic"; "orientation_matrix"; "unit_cell"; "name"; "plane_normal"] ->
    look c ("sample/" ++ f)%string = Ok (as_val (field_value e ["sample"; f])).
  Proof using.
    intros L i s exp name e c f (B & PC & e' & MK & NS) F. apply (look_g L i s e e' exp name c B PC MK NS "sample"); [vm_compute; tauto| |].
    - cbn [In] in F. repeat (destruct F as [<-|F]; [split; discriminate|]). destruct F.
    - cbn [In] in F. repeat (destruct F as [<-|F]; [repeat (apply every_cons; split; [discriminate|]); apply every_nil|]). destruct F.
  Qed.
  Lemma sample_eq : forall L i s exp name e c, scan_made L i s exp name e c -> sample_ub_info c =
    do ub <- reshape33 (as_val (field_value e ["sample"; "orientation_matrix"]));
    do uv <- (if equals_text (as_val (field_value e ["sample"; "type"])) "crystal" then do p <- ub_matrix_to_uv (mm t_spice_to_mantid ub); Ok (Some p) else Ok None);
    Ok (SampleInfo (as_val (field_value e ["sample"; "name"])) (as_val (field_value e ["sample"; "unit_cell"])) (as_val (field_value e ["sample"; "mosaic"])) ub
          (as_val (field_value e ["sample"; "type"])) uv (as_val (field_value e ["sample"; "plane_normal"]))).
  Proof using.
    intros L i s exp name e c SM. unfold sample_ub_info. pose proof (fun f => sample_look L i s exp name e c f SM) as SL.
    assert (E1 := SL "type" ltac:(cbn; tauto)). assert (E2 := SL "mosaic" ltac:(cbn; tauto)). assert (E3 := SL "orientation_matrix" ltac:(cbn; tauto)). assert (E4 := SL "unit_cell" ltac:(cbn; tauto)).
    assert (E5 := SL "name" ltac:(cbn; tauto)). assert (E6 := SL "plane_normal" ltac:(cbn; tauto)). cbn [append] in E1, E2, E3, E4, E5, E6. rewrite E1, E2, E3, E4, E5, E6. cbn [bind].
    destruct (reshape33 _); cbn [bind]; auto.
  Qed.
  Lemma reshape_nine : forall o m, reshape33 o = Ok m <-> o = Some (Leaf (LArr (nine m))).
  Proof using.
    clear. intros o m. split.
    - intros H. destruct o as [[[x|x|x|x|x]|]|]; try discriminate. do 9 (destruct x as [|? x]; [discriminate|]). destruct x; [|discriminate]. cbn in H. apply Ok_inj in H. subst m. reflexivity.
    - intros ->. destruct m. reflexivity.
  Qed.
  (** The name, type, lattice, UB matrix (three rows of three) and plane normal of the sample are those of the file, or of the sample file; for a crystal the vectors u and v
      are those along which Q is (0, 0, 1) and (1, 0, 0) in the convention of Mantid, that is (0, -1, 0) and (1, 0, 0) in that of the file. *)
  Theorem C72_sample : forall L i s exp name e c inf, scan_made L i s exp name e c -> sample_ub_info c = Ok inf ->
    (~ configured i s ["sample"; "name"] -> shows_text L "samplename" (sa_name inf)) /\
    (~ configured i s ["sample"; "type"] -> shows_text L "sampletype" (sa_type inf)) /\
    (forall k f o, In (k, f, o) [("latticeconstants", "unit_cell", sa_cell inf); ("plane_normal", "plane_normal", sa_normal inf); ("ubmatrix", "orientation_matrix", Some (Leaf (LArr (nine (sa_ub inf)))))] -> ~ configured i s ["sample"; f] ->
       forall t, header L k = Some t -> occurs "," t -> exists ps xs, pieces ","%char t ps /\ Forall2 (fun a x => float_of a = Some x) ps xs /\ o = Some (Leaf (LArr xs))) /\
    (forall d v, s = Some d -> NoDup (map fst d) -> ~ In "orientation_matrix" (map fst d) -> In ("ub_matrix", v) d -> v = PList (nine (sa_ub inf)) \/ v = PArr (nine (sa_ub inf))) /\
    (sa_type inf = Some (Leaf (LStr "crystal")) -> exists u v, sa_uv inf = Some (u, v) /\ mv (sa_ub inf) u = V 0 (-1) 0 /\ mv (sa_ub inf) v = V 1 0 0) /\
    (sa_type inf <> Some (Leaf (LStr "crystal")) -> sa_uv inf = None).
  Proof using.
    intros L i s exp name e c inf SM H. rewrite (sample_eq _ _ _ _ _ _ _ SM) in H. pose proof SM as (B & _). apply bind_ok in H. destruct H as (ub & UB & H). apply bind_ok in H. destruct H as (uv & UV & H). apply Ok_inj in H. subst inf.
    cbn [sa_name sa_cell sa_mosaic sa_ub sa_type sa_uv sa_normal]. apply reshape_nine in UB.
    assert (TX : forall k p, In (k, p) text_headers -> ~ configured i s p -> shows_text L k (as_val (field_value e p))).
    { intros k p I NC. destruct (C66_texts _ _ _ _ _ _ _ _ B k p I NC) as [A1 A2]. split. { intros t T. rewrite (A1 t T). destruct (String.eqb t ""); reflexivity. } intros T. rewrite (A2 T). reflexivity. }
    split; [|split; [|split; [|split; [|split]]]].
    - apply TX. vm_compute. tauto.
    - apply TX. vm_compute. tauto.
    - intros k f o I NC t T O. assert (J : In (k, ["sample"; f]) number_headers /\ o = as_val (field_value e ["sample"; f])).
      { cbn [In] in I. destruct I as [I|[I|[I|[]]]]; injection I as <- <- <-; (split; [vm_compute; tauto|auto]). }
      destruct J as [J ->]. destruct (C66_numbers _ _ _ _ _ _ _ _ B k _ J NC) as [A _]. destruct (A t T O) as (ps & xs & P & F & ->). exists ps, xs. auto.
    - intros d v -> ND NO I. destruct (C66_sample_file _ _ _ _ _ _ _ _ B ND NO) as (_ & _ & A). destruct (A v I) as (l & VL & _ & F). rewrite F in UB. cbn in UB. injection UB as ->. destruct VL; auto.
    - intros T. rewrite T in UV. cbn in UV. apply bind_ok in UV. destruct UV as ([u v] & UV & Q). apply Ok_inj in Q. subst uv. exists u, v. split; auto.
      unfold ub_matrix_to_uv in UV. apply bind_ok in UV. destruct UV as (k & K & UV). apply Ok_inj in UV. injection UV as <- <-. destruct (minv_spec _ _ K) as (_ & IV). destruct IV as [_ IR].
      assert (G : forall w, mv ub (mv k w) = mv t_mantid_to_spice w).
      { intros w. assert (Q : mv t_spice_to_mantid (mv ub (mv k w)) = w) by (rewrite <- !mv_mm, IR, mv_id; auto).
        rewrite <- Q at 2. rewrite <- (mv_mm t_mantid_to_spice t_spice_to_mantid). destruct t_inverse as [_ ->]. rewrite mv_id. auto. }
      rewrite !G. split; unfold t_mantid_to_spice, mv, dot, row0, row1, row2; cbn; f_equal; ring.
    - intros T. destruct (equals_text _ "crystal") eqn:Q; [|apply Ok_inj in UV; auto]. exfalso. apply T. destruct (field_value e ["sample"; "type"]) as [[]|]; try discriminate. cbn in Q. apply String.eqb_eq in Q. subst. reflexivity.
  Qed.
  (** Nine numbers are enough, unless the sample is a crystal and they are a singular matrix; *)
  Theorem C72_sample_given : forall L i s exp name e c t ps m, scan_made L i s exp name e c -> ~ configured i s ["sample"; "orientation_matrix"] ->
    header L "ubmatrix" = Some t -> pieces ","%char t ps -> Forall2 (fun a x => float_of a = Some x) ps (nine m) ->
    ((exists inf, sample_ub_info c = Ok inf) <-> (det m <> 0)%R \/ field_value e ["sample"; "type"] <> Some (LStr "crystal")).
  Proof using.
    intros L i s exp name e c t ps m SM NC T P F. rewrite (sample_eq _ _ _ _ _ _ _ SM). pose proof SM as (B & _).
    destruct (C66_numbers _ _ _ _ _ _ _ _ B "ubmatrix" _ ltac:(vm_compute; tauto) NC) as [A _].
    assert (O : occurs "," t).
    { destruct ps as [|p1 [|p2 ps]]. { destruct m. inversion F. } { destruct m. inversion F; subst. match goal with H : Forall2 _ [] _ |- _ => inversion H end. }
      destruct P as (_ & -> & _). exists p1. eexists. cbn. reflexivity. }
    destruct (A t T O) as (ps' & xs & P' & F' & E). assert (ps' = ps) by (apply pieces_unique in P, P'; congruence). subst ps'.
    assert (xs = nine m). { clear - F F'. revert F F'. generalize (nine m). intros l F. revert xs. induction F; intros xs F'; inversion F'; subst; auto. f_equal; [congruence|auto]. } subst xs.
    rewrite E. cbn [as_val]. assert (RS : reshape33 (Some (Leaf (LArr (nine m)))) = Ok m) by (apply reshape_nine; auto). rewrite RS. cbn [bind].
    assert (D : det (mm t_spice_to_mantid m) = det m). { rewrite det_mm. unfold t_spice_to_mantid at 1. destruct m. unfold det. cbn. ring. }
    destruct (equals_text _ "crystal") eqn:Q.
    - assert (C : field_value e ["sample"; "type"] = Some (LStr "crystal")). { destruct (field_value e ["sample"; "type"]) as [[]|]; try discriminate. cbn in Q. apply String.eqb_eq in Q. subst. reflexivity. }
      rewrite C. unfold ub_matrix_to_uv. split.
      + intros (inf & H). left. rewrite <- D. apply bind_ok in H. destruct H as (uv & H & _). apply bind_ok in H. destruct H as (p & H & _). apply bind_ok in H. destruct H as (k & K & _). apply (minv_spec _ _ K).
      + intros [N|N]; [|congruence]. rewrite minv_ok by congruence. cbn [bind]. eauto.
    - split; [|intros _; cbn [bind]; eauto]. intros _. right. intros C. rewrite C in Q. discriminate.
  Qed.
  (** without a UB matrix the sample cannot be described at all. *)
  Theorem C72_no_ub_refuted : forall L i s exp name e c, scan_made L i s exp name e c -> ~ configured i s ["sample"; "orientation_matrix"] -> sget "ubmatrix" (lg_meta L) = None ->
    sample_ub_info c = Err AttributeError.
  Proof using.
    intros L i s exp name e c SM NC T. rewrite (sample_eq _ _ _ _ _ _ _ SM). pose proof SM as (B & _).
    destruct (C66_numbers _ _ _ _ _ _ _ _ B "ubmatrix" _ ltac:(vm_compute; tauto) NC) as [_ A]. rewrite (A T). reflexivity.
  Qed.
End C72.
Print Assumptions C72_data.
Print Assumptions C72_info.
Print Assumptions C72_number.
Print Assumptions C72_number_refuted.
Print Assumptions C72_preset.
Print Assumptions C72_channels.
Print Assumptions C72_channels_refuted.
Print Assumptions C72_info_given.
Print Assumptions C72_no_preset_refuted.
Print Assumptions C72_no_axes_refuted.
Print Assumptions C72_instrument.
Print Assumptions C72_sample.
Print Assumptions C72_sample_given.
Print Assumptions C72_no_ub_refuted.

(** * Examples *)
Definition ex_digits (s : string) : option Z := Some (value 0 s).
Definition ex_float2 (s : string) : option R := if String.eqb s "0" then Some 0%R else if String.eqb s "0.2" then Some 0.2%R else if String.eqb s "-0.2" then Some (-0.2)%R else ex_float s.
Definition more_meta (m : dict string aval) : dict string aval :=
  m ++ [("scan_title", AMeta (MStr "map")); ("sampletype", AMeta (MStr "crystal")); ("ubmatrix", AMeta (MStr "0.2,0,0,0,0,0.2,0,-0.2,0"))].
Definition ex_made_logs : logs := Logs (more_meta ex_meta) (lg_data ex_logs).
Definition ex_count_made : logs := Logs (more_meta (lg_meta ex_count_logs)) (lg_data ex_count_logs).
Definition mark (exp : string) (e : entry) : entry := match sget "attrs" e with Some (Dict a) => sset "attrs" (Dict (sset "dataset_name" (Leaf (LStr exp)) a)) e | _ => e end.
Definition ex_build L i := spice_scan_to_nxdict ex_float2 ex_digits ex_repr ex_date L i None.
Lemma ex_plain : plain_config ex_config None.
Proof.
  split; [apply C67_ordinary_example|]. intros k [(c & name & d & v & E & G & I)|(d & v & E & _)]; [|discriminate]. injection E as <-. cbn [ex_config dget] in G.
  destruct (String.eqb name "monochromator"). { injection G as <-. destruct I as [I|[I|[]]]; injection I as <- _; cbn; intuition discriminate. }
  destruct (String.eqb name "source"); [|discriminate]. injection G as <-. destruct I as [I|[]]; injection I as <- _; cbn; intuition discriminate.
Qed.
Lemma ex_plain_none : plain_config None None.
Proof. split; intros k [(c & name & d & v & E & _)|(d & v & E & _)]; discriminate. Qed.
Lemma mark_marked : forall exp e a, sget "attrs" e = Some (Dict a) -> marked exp e (mark exp e).
Proof.
  intros exp e a G. unfold mark. rewrite G. split; [|split].
  - intros k N. rewrite sget_sset. destruct (String.eqb k "attrs") eqn:Q; auto. apply String.eqb_eq in Q. contradiction.
  - apply sset_keys_in. destruct (in_dec string_dec "attrs" (map fst e)); auto. apply in_none in n. congruence.
  - do 2 eexists. split; [exact G|]. split. { rewrite sget_sset, String.eqb_refl. reflexivity. } split. { rewrite sget_sset, String.eqb_refl. reflexivity. }
    intros k N. rewrite sget_sset. destruct (String.eqb k "dataset_name") eqn:Q; auto. apply String.eqb_eq in Q. contradiction.
Qed.
Example C72_example : exists e c inf ins smp, ex_build ex_made_logs ex_config = Ok e /\ new_scan "scan0042" (mark "IPTS1_HB1_exp7" e) = Ok c /\
  scan_made ex_float2 ex_digits ex_repr ex_date ex_made_logs ex_config None "IPTS1_HB1_exp7" "scan0042" e c /\ reads_digits ex_digits /\
  scan_info ex_digits c = Ok inf /\ in_num inf = 42%Z /\ in_title inf = Some (Leaf (LStr "map")) /\ in_x inf = Leaf (LStr "en") /\ in_preset inf = Single (Some (Leaf (LStr "time"))) (Some (Leaf (LNum 30))) /\
  instrument_info c = Ok ins /\ ii_sense ins = "-+-" /\ ii_collimation ins = Some (Leaf (LList [48; 40; 40; 120]%R)) /\
  (sget "ubmatrix" (lg_meta ex_made_logs) <> None /\ look c "sample/type" = Ok (Some (Leaf (LStr "crystal")))) /\ sample_ub_info c = Ok smp /\ sa_ub smp = M 0.2 0 0 0 0 0.2 0 (-0.2) 0.
Proof.
  assert (X : exists e, ex_build ex_made_logs ex_config = Ok e /\ exists c, new_scan "scan0042" (mark "IPTS1_HB1_exp7" e) = Ok c /\ (exists a, sget "attrs" e = Some (Dict a)) /\
    look c "sample/type" = Ok (Some (Leaf (LStr "crystal"))) /\ field_value e ["sample"; "orientation_matrix"] = Some (LArr (nine (M 0.2 0 0 0 0 0.2 0 (-0.2) 0)))).
  { eexists. split; [cbv -[trunc IZR Q2R Ropp]; reflexivity|]. eexists. split; [cbv -[trunc IZR Q2R Ropp]; reflexivity|]. split; [eexists; reflexivity|]. split; reflexivity. }
  destruct X as (e & B & c & NS & (a & A) & TY & OM).
  assert (SM : scan_made ex_float2 ex_digits ex_repr ex_date ex_made_logs ex_config None "IPTS1_HB1_exp7" "scan0042" e c) by (split; [exact B|]; split; [exact ex_plain|]; eexists; split; [eapply mark_marked; eauto|exact NS]).
  assert (RD : reads_digits ex_digits) by (intros s _ _; reflexivity).
  destruct (C72_info_given _ _ _ _ _ _ _ _ _ _ _ "e" "detector" 42%Z SM) as (inf & I); [left; reflexivity|reflexivity|reflexivity|reflexivity|].
  destruct (C72_info _ _ _ _ _ _ _ _ _ _ _ _ SM I) as (_ & NU & (TI & _) & _ & DX & _).
  destruct (C72_preset _ _ _ _ _ _ _ _ _ _ _ _ SM I eq_refl) as (_ & ch & v & P & P1 & P2).
  destruct (C72_instrument _ _ _ _ _ _ _ _ _ _ _ SM) as (ins & IN & _ & _ & _ & (rest & SE & LS) & CO & _).
  { intros (k & v0 & E & cc & d & Q & G & J). injection Q as <-. cbn in G. injection G as <-. destruct J as [J|[J|[]]]; injection J as J _; subst; discriminate. }
  { intros (k & v0 & E & cc & d & Q & G & J). injection Q as <-. discriminate. }
  destruct (C72_sample_given _ _ _ _ _ _ _ _ _ _ _ "0.2,0,0,0,0,0.2,0,-0.2,0" ["0.2"; "0"; "0"; "0"; "0"; "0.2"; "0"; "-0.2"; "0"] (M 0.2 0 0 0 0 0.2 0 (-0.2) 0) SM) as (_ & SG).
  { intros (k & v0 & d & Q & _). discriminate. } { reflexivity. }
  { split; [discriminate|]. split; [reflexivity|]. repeat constructor; repeat (apply every_cons; split; [discriminate|]); apply every_nil. } { repeat constructor. }
  destruct SG as (smp & SI). { left. unfold det. cbn. lra. }
  exists e, c, inf, ins, smp. repeat (split; [assumption|]). split. { specialize (NU "scan" "0042" eq_refl eq_refl). injection NU as NU. symmetry. exact NU. }
  split; [exact (TI "map" eq_refl)|]. split. { destruct (DX "e" eq_refl) as (t & AX & ->). inversion AX; subst; auto. exfalso. cbn in H. tauto. }
  split. { rewrite P, (P1 "time" eq_refl) by discriminate. destruct (P2 "30" eq_refl) as (x & Q & ->); [discriminate|intros (q1 & q2 & Q)|].
    - destruct q1 as [|? [|? [|]]]; discriminate.
    - cbn in Q. injection Q as <-. reflexivity. }
  split; auto. split. { cbn in SE. injection SE as SE. destruct (ii_sense ins) as [|x1 [|x2 [|x3 [|]]]]; try discriminate. cbn in SE. injection SE as <- <- <- _. reflexivity. }
  split. { destruct CO as (t & ps & xs & T & PI & F & ->). { intros d (c0 & Q & E). injection Q as <-. discriminate. } cbn in T. injection T as <-. apply pieces_unique in PI. subst ps. cbn in F.
    repeat match goal with H : Forall2 _ _ _ |- _ => inversion H; clear H; subst end. repeat match goal with H : _ = Some _ |- _ => cbn in H; injection H as <- end. reflexivity. }
  split. { split; [discriminate|exact TY]. } split; auto.
  rewrite (sample_eq _ _ _ _ _ _ _ _ _ _ _ SM) in SI. apply bind_ok in SI. destruct SI as (ub & U & SI). apply reshape_nine in U. rewrite OM in U. destruct ub. cbn in U. injection U as <- <- <- <- <- <- <- <- <-.
  apply bind_ok in SI. destruct SI as (uv & _ & SI). apply Ok_inj in SI. subst smp. reflexivity.
Qed.
(** A count file with two channels: both are shown. *)
Example C72_count_example : exists e c inf, scan_made ex_float2 ex_digits ex_repr ex_date ex_count_made None None "IPTS1_HB1_exp7" "scan0042" e c /\ by_countfile ex_count_made /\
  scan_info ex_digits c = Ok inf /\ in_preset inf = shown_channels [("time", 5%R, "Px, on"); ("monitor", 1000%R, "Px, off")] /\
  in_preset inf = Several [Some (Leaf (LStr "time")); Some (Leaf (LStr "monitor"))] [Some (Leaf (LNum 5)); Some (Leaf (LNum 1000))] [Some (Leaf (LStr "Px, on")); Some (Leaf (LStr "Px, off"))].
Proof.
  assert (X : exists e, ex_build ex_count_made None = Ok e /\ exists c, new_scan "scan0042" (mark "IPTS1_HB1_exp7" e) = Ok c /\ (exists a, sget "attrs" e = Some (Dict a))).
  { eexists. split; [cbv -[trunc IZR Q2R Ropp]; reflexivity|]. eexists. split; [cbv -[trunc IZR Q2R Ropp]; reflexivity|]. eexists; reflexivity. }
  destruct X as (e & B & c & NS & a & A).
  assert (SM : scan_made ex_float2 ex_digits ex_repr ex_date ex_count_made None None "IPTS1_HB1_exp7" "scan0042" e c) by (split; [exact B|]; split; [exact ex_plain_none|]; eexists; split; [eapply mark_marked; eauto|exact NS]).
  destruct (C72_info_given _ _ _ _ _ _ _ _ _ _ _ "e" "detector" 42%Z SM) as (inf & I); [right; left; reflexivity|reflexivity|reflexivity|reflexivity|].
  assert (P : in_preset inf = shown_channels [("time", 5%R, "Px, on"); ("monitor", 1000%R, "Px, off")]).
  { eapply C72_channels; eauto; [reflexivity| |right; split; [cbn; lia|]].
    - intros [|[|n]] r G; cbn in G; [| |destruct n; discriminate]; injection G as <-; (split; [split; [lia|]; intros j J; assert (j = 1 \/ j = 2)%Z as [-> | ->] by lia; eexists; reflexivity|]).
      + split; [discriminate|]. split; [discriminate|]. split; [left; eexists; split; reflexivity|]. split; [eexists; split; reflexivity|left; eexists; split; reflexivity].
      + split; [discriminate|]. split; [discriminate|]. split; [left; eexists; split; reflexivity|]. split; [eexists; split; reflexivity|left; eexists; split; reflexivity].
    - intros [_ H]. destruct (H 3%Z) as (l & Q); [cbn; lia|discriminate]. }
  exists e, c, inf. split; auto. split; [reflexivity|]. split; auto.
Qed.
(** A scan of a folder. *)
Example C72_folder_example : exists c, scan_from_spice ex_float ex_digits ex_repr ex_date ex_text (fun _ => None) ex_folder ["exp1"] ex_listing 10 None None = Ok c /\ sn_name c = "scan0010" /\
  sget "detector" (sn_data c) = Some (Some (Leaf (LArr [trunc 12]))) /\ NoDup ex_listing /\ one_file_per_scan ex_listing (Some 10%Z).
Proof.
  eexists. split; [cbv -[trunc IZR Q2R]; reflexivity|]. split; [reflexivity|]. split; [reflexivity|]. split; [apply nodupb_ok; vm_compute; reflexivity|].
  apply (C67_standard_folder "HB1" "exp0001"); try (repeat (apply every_cons; split; [discriminate|]); apply every_nil).
  intros f (I & stem & E). cbn in I. destruct I as [<-|[<-|[<-|[]]]].
  - exists 10%Z. split; [lia|reflexivity].
  - exfalso. do 10 (destruct stem as [|? stem]; [discriminate E|]). discriminate E.
  - exists 2%Z. split; [lia|reflexivity].
Qed.
