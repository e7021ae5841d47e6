(** Property C66, continued: counters, counting channels and logs. *)
From Coq Require Import Reals List ZArith String Ascii Bool Lia DecimalString.
From Verif Require Import Base PyStr S_Str L_Str M_ScanData M_Spice M_Project M_Tavi P_Tavi M_Nexus P_Nexus L_NexusFile M_Builder L_Builder P_Builder P_Builder2 P_Builder3 P_Builder4.
Import ListNotations.
Open Scope string_scope.
Open Scope list_scope.

(** * Specification *)
(** The item of a header that is a list of texts, or a character of a header that is one text. *)
Definition text_item (L : logs) (k : string) (n : nat) (s : string) : Prop :=
  (exists l, sget k (lg_meta L) = Some (AMeta (MStrs l)) /\ nth_error l n = Some s) \/ (exists l, sget k (lg_meta L) = Some (AList l) /\ nth_error l n = Some s).
Definition number_item (L : logs) (k : string) (n : nat) (x : R) : Prop := exists l, sget k (lg_meta L) = Some (AMeta (MNums l)) /\ nth_error l n = Some x.

(** * Channel names *)
Lemma numbered_inj : forall n i j, (1 <= i)%Z -> (1 <= j)%Z -> numbered n i = numbered n j -> i = j.
Proof. intros n i j I J H. unfold numbered in H. apply append_inj_l in H. apply (append_inj_l "_") in H. apply str_of_inj in H; lia. Qed.
Lemma str_of_word : forall i w, (1 <= i)%Z -> NilEmpty.uint_of_string w = None -> str_of i <> w.
Proof. intros i w I N H. pose proof (pad_read 0 i ltac:(lia)) as P. cbn [zeros] in P. change ("" ++ str_of i)%string with (str_of i) in P. rewrite H, N in P. discriminate. Qed.
Lemma count_up_in : forall L fuel i z, In z (count_up L fuel i) <-> (i <= z < i + Z.of_nat fuel)%Z /\ forall j, (i <= j <= z)%Z -> has_column L (numbered "detector" j).
Proof.
  intros L. induction fuel; intros i z; cbn [count_up]. { split; [intros []|intros [H _]; lia]. }
  unfold has_column in *. unfold dmem. destruct (sget (numbered "detector" i) (lg_data L)) as [l|] eqn:E.
  - cbn [In]. rewrite IHfuel. split.
    + intros [<-|[H K]]. { split; [lia|]. intros j J. assert (j = i) by lia. subst. eauto. }
      split; [lia|]. intros j J. destruct (Z.eq_dec j i); [subst; eauto|]. apply K. lia.
    + intros [H K]. destruct (Z.eq_dec i z); [auto|right]. split; [lia|]. intros j J. apply K. lia.
  - split; [intros []|]. intros [H K]. destruct (K i) as [l Q]; [lia|]. congruence.
Qed.
Lemma count_up_nodup : forall L fuel i, NoDup (count_up L fuel i).
Proof.
  intros L. induction fuel; intros i; cbn [count_up]; [constructor|]. destruct (dmem _ _ _); [|constructor]. constructor; auto. intros I. apply count_up_in in I. lia.
Qed.
(** The loop visits exactly the channels of the scan. *)
Lemma channels_in : forall L i, In i (channels L) <-> has_channel L i.
Proof.
  intros L i. unfold channels. rewrite count_up_in. unfold has_channel. change (fun j => has_column L ("detector_" ++ str_of j)) with (fun j => has_column L (numbered "detector" j)).
  split; [intros [H K]; split; [lia|exact K]|]. intros [H K]. split; [|exact K]. split; [lia|].
  (* the names detector_1, ..., detector_i are different keys *)
  set (names := map (fun n => numbered "detector" (Z.of_nat n)) (seq 1 (Z.to_nat i))).
  assert (ND : NoDup names).
  { unfold names. assert (G : forall l, NoDup l -> (forall n, In n l -> (1 <= n)%nat) -> NoDup (map (fun n => numbered "detector" (Z.of_nat n)) l)).
    { induction l as [|a l]; intros N P; cbn [map]; [constructor|]. inversion N; subst. constructor; [|apply IHl; auto; intros; apply P; right; auto].
      intros I. apply in_map_iff in I. destruct I as (b & Q & I). apply numbered_inj in Q; [|specialize (P b); cbn in P; specialize (P (or_intror I)); lia|specialize (P a (or_introl eq_refl)); lia].
      apply Nat2Z.inj in Q. subst. auto. }
    apply G; [apply seq_NoDup|]. intros n I. apply in_seq in I. lia. }
  assert (IN : incl names (map fst (lg_data L))).
  { intros x I. unfold names in I. apply in_map_iff in I. destruct I as (n & <- & I). apply in_seq in I. destruct (K (Z.of_nat n)) as [l Q]; [lia|].
    destruct (in_dec string_dec (numbered "detector" (Z.of_nat n)) (map fst (lg_data L))) as [|NI]; auto. apply in_none in NI. change ("detector_" ++ str_of (Z.of_nat n))%string with (numbered "detector" (Z.of_nat n)) in Q. congruence. }
  pose proof (NoDup_incl_length ND IN) as LE. unfold names in LE. rewrite map_length, seq_length, map_length in LE. lia.
Qed.

Lemma NoDup_flat_map : forall {A B} (f : A -> list B) l, NoDup l -> (forall a, In a l -> NoDup (f a)) -> (forall a b x, In a l -> In b l -> In x (f a) -> In x (f b) -> a = b) -> NoDup (flat_map f l).
Proof.
  intros A B f. induction l as [|a l]; intros N F D; cbn; [constructor|]. inversion N; subst.
  assert (G : forall l1 l2 : list B, NoDup l1 -> NoDup l2 -> (forall x, In x l1 -> ~ In x l2) -> NoDup (l1 ++ l2)).
  { clear. induction l1; intros l2 H1 H2 X; cbn; auto. inversion H1; subst. constructor. { rewrite in_app_iff. intros [I|I]; auto. apply (X a); cbn; auto. } apply IHl1; auto. intros x I. apply X. cbn. auto. }
  apply G; [apply F; cbn; auto|apply IHl; auto; intros; [apply F|eapply D]; cbn; eauto|].
  intros x I J. apply in_flat_map in J. destruct J as (b & IB & J). assert (a = b) by (eapply D; cbn; eauto). subst. auto.
Qed.
Definition six : list string := ["mode"; "preset"; "time"; "monitor"; "mcu"; "label"].
Definition six_names (i : Z) : list string := map (fun n => numbered n i) six.
Lemma six_nodup : forall i, NoDup (six_names i).
Proof. intros. unfold six_names, six, numbered. cbn. repeat (constructor; [cbn; intuition discriminate|]). constructor. Qed.
Lemma six_disjoint : forall i j x, (1 <= i)%Z -> (1 <= j)%Z -> In x (six_names i) -> In x (six_names j) -> i = j.
Proof.
  intros i j x I J A B. unfold six_names in A, B. apply in_map_iff in A. destruct A as (n & <- & A). apply in_map_iff in B. destruct B as (m & Q & B).
  assert (n = m); [|subst; symmetry; eapply numbered_inj; eauto].
  unfold six in A, B. cbn [In] in A, B. unfold numbered in Q.
  repeat (destruct A as [<-|A]; [repeat (destruct B as [<-|B]; [first [reflexivity|cbn in Q; discriminate Q]|]); destruct B|]). destruct A.
Qed.

Section C66.
  Variable float_of : string -> option R.
  Variable int_of : string -> option Z.
  Variable repr : pv -> string.
  Variable date_of : string -> option string.
  Notation nxdataset := (nxdataset float_of int_of repr date_of).
  Notation fill := (fill float_of int_of repr date_of).
  Notation build := (spice_scan_to_nxdict float_of int_of repr date_of).
  Notation built := (built float_of int_of repr date_of).
  Notation part_field := (part_field float_of int_of repr date_of).
  Notation part_column := (part_column float_of int_of repr date_of).
  Notation dataset_leaf := (dataset_leaf float_of int_of repr date_of).
  Ltac distinct := apply nodupb_ok; vm_compute; reflexivity.
  Ltac open B := destruct (built _ _ _ _ B) as (instrument & source & mono & ana & det & coll & slits & flipper & goni & monitor & sample & user & spice &
      (ES & EM & EA & ED & EC & ESL & EF & EG & EMN & ESA & EU & ESP) & (GS & GM & GA & GD & GC & GSL & GF & GG) & (GI & GMN & GSA & GU & GSP & GDA)).

  Lemma shape_only : forall i k, k <> "shape" -> ~ In k (map key_of (with_kw (fun _ => [tchar]) (filter (fun kv => String.eqb (fst kv) "shape") (params i "monitor")))).
  Proof using.
    clear. intros i k N I. rewrite with_kw_keys in I. apply in_map_iff in I. destruct I as ([k0 v0] & <- & I). apply filter_In in I. destruct I as [_ I]. apply String.eqb_eq in I. cbn in I. auto.
  Qed.
  Lemma is_text_spec : forall L k s, is_text (meta L k) s = true <-> header L k = Some s.
  Proof using.
    clear. intros. unfold is_text, meta, header. destruct (sget k (lg_meta L)) as [[[x|x|x]|x|]|]; cbn; try (split; discriminate). rewrite String.eqb_eq. split; congruence.
  Qed.
  (** Time, monitor and monitor-count-unit columns of a scan counted without a count file. *)
  Theorem C66_counting : forall L i s e, build L i s = Ok e -> ~ by_countfile L -> forall c k keep, In (c, k, keep) counting -> holds_column L e ["monitor"; k] c keep.
  Proof.
    intros L i s e B NC c k keep I. unfold holds_column. open B. cbn [List.app]. rewrite leaf_cons, GMN. unfold nxmonitor in EMN. cbv zeta in EMN.
    assert (NT : is_text (meta L "preset_type") "countfile" = false).
    { destruct (is_text _ "countfile") eqn:Q; auto. apply is_text_spec in Q. exfalso. apply NC. unfold by_countfile. unfold header in Q. destruct (sget "preset_type" (lg_meta L)) as [[[x|x|x]|x|]|]; try discriminate. congruence. }
    rewrite NT in EMN. clear NT NC.
    assert (KN : k <> "attrs" /\ k <> "shape"). { cbn in I. destruct I as [I|[I|[I|[]]]]; injection I as <- <- <-; split; discriminate. }
    assert (X : exists kw, In (k, col L c, kw) (counters L) /\ sget "type" kw = Some (kind keep)).
    { cbn in I. destruct I as [I|[I|[I|[]]]]; injection I as <- <- <-; (eexists; split; [member|reflexivity]). }
    destruct X as (kw & X & T). destruct (is_text _ "normal").
    - rewrite app_assoc in EMN. eapply part_column; [exact EMN|distinct| |apply shape_only; tauto|tauto|exact T]. apply in_app_iff. right. exact X.
    - eapply part_column; [exact EMN|distinct|exact X|apply shape_only; tauto|tauto|exact T].
  Qed.
  (** How a scan is counted: the channel and the preset value. *)
  Theorem C66_preset : forall L i s e, build L i s = Ok e -> header L "preset_type" = Some "normal" ->
    field_value e ["monitor"; "preset_type"] = Some (LStr "normal") /\
    (forall t, header L "preset_channel" = Some t -> t <> "" -> field_value e ["monitor"; "mode"] = Some (LStr t)) /\
    (forall t, header L "preset_value" = Some t -> t <> "" -> ~ occurs "," t -> exists x, float_of t = Some x /\ field_value e ["monitor"; "preset"] = Some (LNum x)).
  Proof.
    intros L i s e B PT. unfold field_value. open B. cbn [List.app].
    assert (PX : forall k, leaf_at ["monitor"; k; "dataset"] (Dict e) = leaf_at [k; "dataset"] (Dict monitor)). { intros k. rewrite leaf_cons, GMN. auto. }
    rewrite !PX. unfold nxmonitor in EMN. cbv zeta in EMN. apply is_text_spec in PT. rewrite PT in EMN. rewrite app_assoc in EMN. split; [|split].
    - destruct (part_field _ _ _ _ "preset_type" (PStr "normal") [tchar] EMN) as (d & D & ->); [distinct|member|apply shape_only; discriminate|discriminate|].
      destruct (dataset_leaf _ _ _ D) as (x & DX & ->). { intros [X|X]; discriminate. } cbn in DX. apply Ok_inj in DX. congruence.
    - intros t H NE. destruct (part_field _ _ _ _ "mode" (meta L "preset_channel") [tchar; req] EMN) as (d & D & ->); [distinct|member|apply shape_only; discriminate|discriminate|].
      destruct (text_leaf _ _ _ _ _ _ _ _ D eq_refl) as [A _]. rewrite (A t H). destruct (String.eqb_spec t ""); [contradiction|auto].
    - intros t H NE NO. destruct (part_field _ _ _ _ "preset" (meta L "preset_value") [tfloat; req] EMN) as (d & D & ->); [distinct|member|apply shape_only; discriminate|discriminate|].
      assert (M : meta L "preset_value" = PStr t). { unfold header in H. unfold meta. destruct (sget "preset_value" (lg_meta L)) as [[[x|x|x]|x|]|]; try discriminate. injection H as ->. reflexivity. }
      rewrite M in D. destruct (dataset_leaf _ _ _ D) as (x & DX & ->). { intros [X|X]; [discriminate|]. injection X as ->. contradiction. }
      unfold dataset_of in DX. change (sget "type" [tfloat; req]) with (Some "NX_FLOAT") in DX. cbn in DX. apply contains_false in NO. rewrite NO in DX.
      destruct (isnumeric (no_dots t)); [|discriminate]. destruct (float_of t) as [y|]; [|discriminate]. cbn in DX. apply Ok_inj in DX. exists y. subst. auto.
  Qed.
  (** A preset value with any character other than digits and dots makes the conversion fail: a negative preset, or one with an exponent. *)
  Theorem C66_signed_preset_refuted : forall L i s t, header L "preset_type" = Some "normal" -> header L "preset_value" = Some t -> ~ occurs "," t ->
    (exists c, occurs (String c "") t /\ c <> "."%char /\ ascii_digit c = false) -> forall e, build L i s <> Ok e.
  Proof.
    intros L i s t PT H NO (c & OC & ND & DG) e B. open B. unfold nxmonitor in EMN. cbv zeta in EMN. apply is_text_spec in PT. rewrite PT in EMN. rewrite app_assoc in EMN.
    destruct (part_field _ _ _ _ "preset" (meta L "preset_value") [tfloat; req] EMN) as (d & D & _); [distinct|member|apply shape_only; discriminate|discriminate|].
    assert (M : meta L "preset_value" = PStr t). { unfold header in H. unfold meta. destruct (sget "preset_value" (lg_meta L)) as [[[x|x|x]|x|]|]; try discriminate. injection H as ->. reflexivity. }
    rewrite M in D. destruct (dataset_leaf _ _ _ D) as (x & DX & _). { intros [X|X]; [discriminate|]. injection X as ->. destruct OC as (a & b & Q). destruct a; discriminate. }
    unfold dataset_of in DX. change (sget "type" [tfloat; req]) with (Some "NX_FLOAT") in DX. cbn in DX. apply contains_false in NO. rewrite NO in DX.
    assert (IN : isnumeric (no_dots t) = false).
    { destruct OC as (a & b & ->). change (String c "" ++ b)%string with (String c b). assert (G : all_digits (no_dots (a ++ String c b)) = false).
      { clear - ND DG. induction a as [|x a]; cbn [append no_dots].
        - destruct (Ascii.eqb_spec c "."%char); [contradiction|]. cbn. rewrite DG. reflexivity.
        - destruct (Ascii.eqb x "."); [exact IHa|]. cbn [all_digits]. rewrite IHa. apply andb_false_r. }
      unfold isnumeric. destruct (no_dots _); auto. }
    rewrite IN in DX. discriminate.
  Qed.

  (** ** Counting channels *)
  Theorem C66_detector_channels : forall L i s e, build L i s = Ok e -> forall n, has_channel L n ->
    holds_column L e ["instrument"; "detector"; ("detector_" ++ str_of n)%string] ("detector_" ++ str_of n)%string false.
  Proof.
    intros L i s e B n C. unfold holds_column. open B. cbn [List.app]. rewrite leaf_cons, GI, leaf_cons, GD. unfold nxdet in ED. apply channels_in in C.
    change ("detector_" ++ str_of n)%string with (numbered "detector" n).
    assert (CH : forall m, In m (channels L) -> (1 <= m)%Z). { intros m I. apply channels_in in I. apply I. }
    destruct (in_split _ _ C) as (l1 & l2 & Q).
    assert (NI : ~ In (numbered "detector" n) (map key_of (map (fun i0 => (numbered "detector" i0, col L (numbered "detector" i0), [tint; units "counts"])) l2))).
    { rewrite map_map. intros I. apply in_map_iff in I. destruct I as (m & E & I). unfold key_of in E. cbn [fst] in E. apply numbered_inj in E; [|apply CH; rewrite Q; apply in_or_app; right; right; auto|apply CH; auto].
      subst. pose proof (count_up_nodup L (S (List.length (lg_data L))) 1) as ND. change (count_up _ _ _) with (channels L) in ND. rewrite Q in ND. apply NoDup_remove_2 in ND. apply ND. rewrite in_app_iff. auto. }
    rewrite Q, map_app in ED. cbn [map] in ED. rewrite !app_assoc in ED.
    destruct (fill_last _ _ _ _ _ _ _ _ _ _ _ ED NI) as (d & e1 & _ & D & G).
    rewrite leaf_cons, G. rewrite <- (col_leaf _ _ _ _ _ _ _ _ false D eq_refl).
    assert (Z : d <> []). { intros ->. apply C39_empty_dataset in D. unfold col in D. apply channels_in in C. destruct C as [C0 C]. destruct (C n) as [l EL]; [lia|]. change ("detector_" ++ str_of n)%string with (numbered "detector" n) in EL.
      rewrite EL in D. destruct D; discriminate. }
    destruct d as [|q d]; [contradiction|]. rewrite leaf_cons. destruct (sget "dataset" (q :: d)) as [[|]|]; reflexivity.
  Qed.

  Lemma item_text : forall L k n s v, text_item L k n s -> meta_item L k n = Ok v -> v = PStr s.
  Proof using. clear. intros L k n s v [(l & E & N)|(l & E & N)] H; unfold meta_item, meta in H; rewrite E in H; cbn in H; rewrite N in H; apply Ok_inj in H; auto. Qed.
  Lemma item_number : forall L k n x v, number_item L k n x -> meta_item L k n = Ok v -> v = PNum x.
  Proof using. clear. intros L k n s v (l & E & N) H; unfold meta_item, meta in H; rewrite E in H; cbn in H; rewrite N in H; apply Ok_inj in H; auto. Qed.
  (** The fields of one channel of a count file: its three columns, how it is counted and its label. *)
  Theorem C66_channels : forall L i s e, build L i s = Ok e -> by_countfile L -> forall n, has_channel L n ->
    (forall c k keep, In (c, k, keep) counting -> holds_column L e ["monitor"; (k ++ "_" ++ str_of n)%string] (c ++ "_" ++ str_of n)%string keep) /\
    (forall t, text_item L "norm_channels" (Z.to_nat (n - 1)) t -> t <> "" -> field_value e ["monitor"; ("mode_" ++ str_of n)%string] = Some (LStr t)) /\
    (forall x, number_item L "norm_vals" (Z.to_nat (n - 1)) x -> field_value e ["monitor"; ("preset_" ++ str_of n)%string] = Some (LNum x)) /\
    (forall t, text_item L "labels" (Z.to_nat (n - 1)) t -> t <> "" -> field_value e ["monitor"; ("label_" ++ str_of n)%string] = Some (LStr t)).
  Proof.
    intros L i s e B CF n C. unfold holds_column, field_value. open B. cbn [List.app].
    assert (PX : forall k, leaf_at ["monitor"; k; "dataset"] (Dict e) = leaf_at [k; "dataset"] (Dict monitor)). { intros k. rewrite leaf_cons, GMN. auto. }
    unfold nxmonitor in EMN. cbv zeta in EMN.
    assert (T1 : is_text (meta L "preset_type") "normal" = false). { unfold by_countfile in CF. unfold meta. rewrite CF. reflexivity. }
    assert (T2 : is_text (meta L "preset_type") "countfile" = true). { unfold by_countfile in CF. unfold meta. rewrite CF. reflexivity. }
    rewrite T1, T2 in EMN. clear T1 T2. apply bind_ok in EMN. destruct EMN as (cf & CFT & EMN). apply bind_ok in EMN. destruct EMN as (ch & CH & EMN).
    rewrite app_assoc in EMN. apply mapM_Forall2 in CH.
    assert (POS : forall m, In m (channels L) -> (1 <= m)%Z). { intros m I. apply channels_in in I. apply I. }
    (* the keys *)
    assert (KEYS : map key_of (List.concat ch) = flat_map six_names (channels L)).
    { clear - CH. induction CH as [|m fs l ch E F IH]; cbn; auto. rewrite map_app, IH. f_equal. unfold channel_fields in E.
      do 3 (apply bind_ok in E; destruct E as (? & _ & E)). apply Ok_inj in E. subst. reflexivity. }
    assert (ND : NoDup (map key_of ([("preset_type", PStr "countfile", [tchar]); ("countfile", PStrs (split_on ","%char cf), [tchar])] ++ List.concat ch))).
    { rewrite map_app. match goal with |- NoDup (_ ++ ?x) => replace x with (flat_map six_names (channels L)) by (symmetry; exact KEYS) end. cbn [map key_of fst List.app].
      assert (OUT : forall w, (forall m n, In n six -> (1 <= m)%Z -> numbered n m <> w) -> ~ In w (flat_map six_names (channels L))).
      { intros w W I. apply in_flat_map in I. destruct I as (m & IM & I). unfold six_names in I. apply in_map_iff in I. destruct I as (nm & Q & I). apply (W m nm); auto. }
      constructor; [cbn [In]; intros [X|X]; [discriminate|]; revert X; apply OUT|constructor; [apply OUT|apply NoDup_flat_map; [apply count_up_nodup|intros; apply six_nodup|intros; eapply six_disjoint; eauto]]].
      - intros m nm I P Q. unfold six in I. cbn [In] in I. unfold numbered in Q. repeat (destruct I as [<-|I]; [cbn in Q; try discriminate Q|]); [|destruct I].
        injection Q as Q. revert Q. apply str_of_word; auto.
      - intros m nm I P Q. unfold six in I. cbn [In] in I. unfold numbered in Q. repeat (destruct I as [<-|I]; [cbn in Q; discriminate Q|]). destruct I. }
    apply channels_in in C.
    assert (FS : exists fs, channel_fields L n = Ok fs /\ incl fs (List.concat ch)).
    { clear - CH C. induction CH as [|m fs l ch E F IH]; [destruct C|]. destruct C as [->|C]; cbn.
      - exists fs. split; auto. apply incl_appl, incl_refl.
      - destruct (IH C) as (gs & G & I). exists gs. split; auto. apply incl_appr. auto. }
    destruct FS as (fs & CFS & INC). unfold channel_fields in CFS.
    apply bind_ok in CFS. destruct CFS as (mode & MO & CFS). apply bind_ok in CFS. destruct CFS as (preset & PR & CFS). apply bind_ok in CFS. destruct CFS as (lab & LA & CFS). apply Ok_inj in CFS.
    assert (IN : forall f, In f fs -> In f ([("preset_type", PStr "countfile", [tchar]); ("countfile", PStrs (split_on ","%char cf), [tchar])] ++ List.concat ch)).
    { intros f I. apply in_or_app. right. apply INC. auto. }
    subst fs. clear INC KEYS CH.
    assert (TX : forall k t kw, In (k, PStr t, kw) ([("preset_type", PStr "countfile", [tchar]); ("countfile", PStrs (split_on ","%char cf), [tchar])] ++ List.concat ch) ->
      t <> "" -> kw = [tchar] -> k <> "shape" -> k <> "attrs" -> leaf_at [k; "dataset"] (Dict monitor) = Some (LStr t)).
    { intros k t kw I NE -> NS NA. destruct (part_field _ _ _ _ _ _ _ EMN ND I) as (d & D & ->); [apply shape_only; auto|auto|].
      destruct (dataset_leaf _ _ _ D) as (x & DX & ->). { intros [X|X]; [discriminate|]. injection X as ->. contradiction. } cbn in DX. apply Ok_inj in DX. congruence. }
    split; [|split; [|split]].
    - intros c k keep I. rewrite PX.
      assert (X : exists kw, In (numbered k n, col L (numbered c n), kw) ([("preset_type", PStr "countfile", [tchar]); ("countfile", PStrs (split_on ","%char cf), [tchar])] ++ List.concat ch) /\ sget "type" kw = Some (kind keep) /\ numbered k n <> "shape" /\ numbered k n <> "attrs").
      { cbn in I. destruct I as [I|[I|[I|[]]]]; injection I as <- <- <-; (eexists; split; [apply IN; member|split; [reflexivity|split; discriminate]]). }
      destruct X as (kw & X & T & NS & NA). eapply part_column; [exact EMN|exact ND|exact X|apply shape_only; exact NS|exact NA|exact T].
    - intros t IT NE. rewrite PX. rewrite (item_text _ _ _ _ _ IT MO) in IN. eapply TX; [apply IN; left; reflexivity|auto|reflexivity|discriminate|discriminate].
    - intros x IT. rewrite PX. rewrite (item_number _ _ _ _ _ IT PR) in IN.
      destruct (part_field _ _ _ _ ("preset_" ++ str_of n)%string (PNum x) [tfloat] EMN ND) as (d & D & ->); [apply IN; right; left; reflexivity|apply shape_only; discriminate|discriminate|].
      destruct (dataset_leaf _ _ _ D) as (y & DX & ->). { intros [X|X]; discriminate. } cbn in DX. apply Ok_inj in DX. congruence.
    - intros t IT NE. rewrite PX. rewrite (item_text _ _ _ _ _ IT LA) in IN. eapply TX; [apply IN; do 5 right; left; reflexivity|auto|reflexivity|discriminate|discriminate].
  Qed.

  (** ** The logs *)
  (** Every column is in SPICElogs as it is (a column called attrs would be lost in the attributes); every header with a value is one of its attributes. *)
  Theorem C66_logs : forall L i s e, build L i s = Ok e -> NoDup (map fst (lg_data L)) -> forall c l, c <> "attrs" -> sget c (lg_data L) = Some l ->
    leaf_at ["SPICElogs"; c; "dataset"] (Dict e) = Some (LArr l).
  Proof.
    intros L i s e B ND c l NA E. open B. rewrite leaf_cons, GSP. unfold formatted_spicelogs in ESP. apply bind_ok in ESP. destruct ESP as (e0 & _ & F).
    assert (I : In (c, PArr l, []) (map (fun kl : string * list R => (fst kl, PArr (snd kl), [] : list (string * string))) (lg_data L))).
    { assert (J : In (c, l) (lg_data L)). { clear - E. induction (lg_data L) as [|[a b] d]; [discriminate|]. cbn in E. destruct (String.eqb_spec c a); [injection E as ->; subst; left; auto|right; auto]. }
      apply in_map_iff. exists (c, l). auto. }
    destruct (fill_in _ _ _ _ _ c (PArr l) [] _ _ F) as (d & D & G). { rewrite map_map. exact ND. } { exact I. }
    destruct (dataset_leaf _ _ _ D) as (x & DX & DL). { intros [X|X]; discriminate. } cbn in DX. apply Ok_inj in DX. subst x.
    destruct d as [|q d]; [discriminate|]. rewrite leaf_cons, G, at_data. auto.
  Qed.
  Definition log_value (a : aval) (x : leaf) : Prop :=
    match a with AMeta (MStr t) => t <> "" /\ x = LStr t | AMeta (MNums l) => l <> [] /\ x = LList l | AMeta (MStrs l) | AList l => l <> [] /\ x = LStrs l | ANone => False end.
  Theorem C66_log_headers : forall L i s e, build L i s = Ok e -> NoDup (map fst (lg_meta L)) -> ~ In "attrs" (map fst (lg_data L)) ->
    forall k a x, sget k (lg_meta L) = Some a -> log_value a x -> leaf_at ["SPICElogs"; "attrs"; k] (Dict e) = Some x.
  Proof.
    intros L i s e B ND NC k a x E V. open B. rewrite leaf_cons, GSP. unfold formatted_spicelogs in ESP. apply bind_ok in ESP. destruct ESP as (e0 & A & F).
    assert (O : sget "attrs" spice = sget "attrs" e0). { apply (fill_other _ _ _ _ _ _ _ _ F). rewrite map_map. exact NC. }
    rewrite leaf_cons, O. clear - A ND E V.
    assert (ST : forall k0 y e1 e2, add_attribute k0 y e1 = Ok e2 -> forall k1, k1 <> k0 -> leaf_at ["attrs"; k1] (Dict e2) = leaf_at ["attrs"; k1] (Dict e1)).
    { intros k0 y e1 e2 H k1 N. unfold add_attribute in H. apply bind_ok in H. destruct H as (f & _ & H). destruct f; [apply Ok_inj in H; subst; auto|]. destruct (sget "attrs" e1) as [[|w]|] eqn:Q; try discriminate. apply Ok_inj in H. subst.
      rewrite !leaf_cons, sget_sset_eq, Q. rewrite !leaf_cons. rewrite sget_sset_ne by auto. auto. }
    assert (SV : forall k0 y e1 e2, add_attribute k0 y e1 = Ok e2 -> falsy y = Ok false -> leaf_at ["attrs"; k0] (Dict e2) = Some y).
    { intros k0 y e1 e2 H N. unfold add_attribute in H. rewrite N in H. cbn in H. destruct (sget "attrs" e1) as [[|w]|] eqn:Q; try discriminate. apply Ok_inj in H. subst.
      rewrite leaf_cons, sget_sset_eq, leaf_cons, sget_sset_eq. reflexivity. }
    assert (KEEP : forall l e1 e2, add_attributes l e1 = Ok e2 -> ~ In k (map fst l) -> leaf_at ["attrs"; k] (Dict e2) = leaf_at ["attrs"; k] (Dict e1)).
    { induction l as [|[k0 b] l]; intros e1 e2 H N; cbn [add_attributes] in H. { apply Ok_inj in H. subst. auto. } apply bind_ok in H. destruct H as (e3 & H & G). cbn in N.
      rewrite (IHl _ _ G) by tauto. destruct (pv_of b); first [apply Ok_inj in H; subst; reflexivity | eapply ST; [exact H|intros ->; tauto]]. }
    transitivity (leaf_at ["attrs"; k] (Dict e0)); [rewrite leaf_cons; reflexivity|].
    revert A. generalize (texts [("NX_class", "NXcollection"); ("EX_required", "false")]).
    induction (lg_meta L) as [|[k0 b] l]; intros e1 A; [discriminate|]. cbn [add_attributes] in A. apply bind_ok in A. destruct A as (e3 & H & G). cbn in ND. inversion ND; subst.
    cbn in E. destruct (String.eqb_spec k k0) as [->|N].
    - injection E as ->. rewrite (KEEP _ _ _ G) by auto.
      destruct a as [[t|t|t]|t|]; cbn [log_value pv_of plain] in V, H; try contradiction; destruct V as [V ->]; apply (SV _ _ _ _ H); cbn; try (destruct t; [contradiction|reflexivity]).
    - eapply IHl; eauto.
  Qed.
End C66.
Print Assumptions C66_counting.
Print Assumptions C66_preset.
Print Assumptions C66_signed_preset_refuted.
Print Assumptions C66_detector_channels.
Print Assumptions C66_channels.
Print Assumptions C66_logs.
Print Assumptions C66_log_headers.
