(** Property C67, continued: the data of a scan are the columns of its file. *)
From Coq Require Import Reals List ZArith String Ascii Bool Lia DecimalString.
From Verif Require Import Base PyStr S_Str L_Str M_ScanData M_Spice M_Project M_Tavi P_Tavi M_Nexus P_Nexus L_NexusFile M_Builder L_Builder P_Builder P_Builder2 P_Builder3 P_Builder4 P_Builder5 P_Builder6
  L_ScanFields P_Folder.
Import ListNotations.
Open Scope string_scope.
Open Scope list_scope.

(** * Specification *)
(** Names of fields for columns: those of the tables [placement] and [counting] (P_Builder2.v), and those of the channels of a count file. *)
Definition field_name (k : string) : Prop :=
  (exists part rows c keep, In (part, rows) placement /\ In (c, k, keep) rows) \/ (exists c keep, In (c, k, keep) counting)
  \/ exists w z, In w ["detector"; "mode"; "preset"; "time"; "monitor"; "mcu"; "label"] /\ (1 <= z)%Z /\ k = (w ++ "_" ++ str_of z)%string.
(** The configuration files use other names ([config_key]: a key of a section of the instrument file, or of the sample file). *)
Definition ordinary_config (i : option config) (s : option (dict string pv)) : Prop :=
  forall k, config_key i s k -> ~ field_name k /\ k <> "attrs" /\ k <> "dataset" /\ k <> "detector" /\ every (fun c => c <> "/"%char) k.
(** The name under which a field is shown: the counts of the detector are called detector. *)
Definition shown (f : string) : string := if String.eqb f "data" then "detector" else f.
(** The scan shows the numbers of a column under a name. *)
Definition shows (L : logs) (d : dict string (option val)) (c name : string) (keep : bool) : Prop :=
  forall pts l, sget "Pt." (lg_data L) = Some pts -> sget c (lg_data L) = Some l -> List.length l = List.length pts ->
    sget name d = Some (Some (Leaf (LArr (if keep then l else map trunc l)))).
Definition has_points (L : logs) : Prop := exists pts, sget "Pt." (lg_data L) = Some pts.

(** * Names *)
Definition all_parts : list string := component_names_ ++ group_names.
Definition free (f : string) : bool :=
  negb (existsb (fun w => prefixb (w ++ "_")%string f) ("detector" :: six)) && negb (contains "/" f) && negb (existsb (String.eqb f) ("attrs" :: "dataset" :: headings)).
Definition alone (p f : string) : bool := forallb (fun g => String.eqb g p || negb (existsb (String.eqb f) (static g))) all_parts.
Definition tables : list (string * string) :=
  filter (fun pf => negb (String.eqb (snd pf) "data" || String.eqb (snd pf) "sample" || String.eqb (snd pf) "monitor"))
    (flat_map (fun pr => map (fun r => (last (fst pr) "", snd (fst r))) (snd pr)) placement ++ map (fun r => ("monitor", snd (fst r))) counting).
Lemma tables_ok : forall p f, In (p, f) tables -> free f = true /\ alone p f = true.
Proof.
  assert (T : forallb (fun pf => free (snd pf) && alone (fst pf) (snd pf)) tables = true) by (vm_compute; reflexivity). rewrite forallb_forall in T.
  intros p f I. specialize (T _ I). apply andb_true_iff in T. auto.
Qed.
Lemma free_spec : forall f, free f = true -> named f /\ ~ In f headings /\ field_path f false = [f] /\ forall g, ~ numbered_key g f.
Proof.
  intros f H. unfold free in H. rewrite !andb_true_iff, !negb_true_iff in H. destruct H as [[P S] X].
  assert (NX : forall x, In x ("attrs" :: "dataset" :: headings) -> f <> x).
  { intros x I ->. assert (T : existsb (String.eqb x) ("attrs" :: "dataset" :: headings) = true) by (apply existsb_exists; exists x; split; [auto|apply String.eqb_refl]). congruence. }
  split; [split; apply NX; cbn; tauto|]. split. { intros I. apply (NX f); [right; right; auto|auto]. } split.
  - unfold field_path. assert (A : f <> "detector" /\ f <> "monitor" /\ f <> "sample") by (repeat split; apply NX; vm_compute; tauto). destruct A as (A & B & C). apply String.eqb_neq in A, B, C. rewrite A, B, C.
    apply split_on_one. apply contains1. auto.
  - intros g N. assert (Q : exists w z, In w ("detector" :: six) /\ f = numbered w z).
    { destruct N as [(_ & z & _ & ->)|(_ & w & z & _ & I & ->)]; [exists "detector", z; split; [left|]; auto|exists w, z; split; [right|]; auto]. }
    destruct Q as (w & z & I & ->). assert (T : existsb (fun w0 => prefixb (w0 ++ "_")%string (numbered w z)) ("detector" :: six) = true); [|congruence].
    apply existsb_exists. exists w. split; auto. apply prefixb_spec. exists (str_of z). unfold numbered. rewrite L_Str.sapp_assoc. auto.
Qed.
Lemma alone_spec : forall p f g, alone p f = true -> In g all_parts -> g <> p -> ~ In f (static g).
Proof.
  intros p f g A I N J. unfold alone in A. rewrite forallb_forall in A. specialize (A _ I). apply orb_true_iff in A. destruct A as [A|A]. { apply String.eqb_eq in A. contradiction. }
  apply negb_true_iff in A. assert (T : existsb (String.eqb f) (static g) = true); [|congruence]. apply existsb_exists. exists f. split; auto. apply String.eqb_refl.
Qed.
Lemma table_field : forall p f, In (p, f) tables -> field_name f.
Proof.
  intros p f I. unfold tables in I. apply filter_In in I. destruct I as [I _]. apply in_app_iff in I. destruct I as [I|I].
  - apply in_flat_map in I. destruct I as ([part rows] & IP & I). apply in_map_iff in I. destruct I as ([[c k] keep] & Q & I). cbn in Q. injection Q as _ <-. left. exists part, rows, c, keep. auto.
  - apply in_map_iff in I. destruct I as ([[c k] keep] & Q & I). cbn in Q. injection Q as _ <-. right. left. exists c, keep. auto.
Qed.
Lemma field_in : forall part rows c k keep, In (part, rows) placement -> In (c, k, keep) rows -> k <> "data" -> k <> "sample" -> k <> "monitor" -> In (last part "", k) tables.
Proof.
  intros part rows c k keep IP I A B C. unfold tables. apply filter_In. split. { apply in_or_app. left. apply in_flat_map. exists (part, rows). split; auto. apply in_map_iff. exists (c, k, keep). auto. }
  cbn [snd]. apply String.eqb_neq in A, B, C. rewrite A, B, C. reflexivity.
Qed.
Lemma counter_in : forall c k keep, In (c, k, keep) counting -> k <> "monitor" -> In ("monitor", k) tables.
Proof.
  intros c k keep I A. unfold tables. apply filter_In. split. { apply in_or_app. right. apply in_map_iff. exists (c, k, keep). auto. }
  cbn [snd]. apply String.eqb_neq in A. rewrite A. unfold counting in I. cbn [In] in I. repeat (destruct I as [I|I]; [injection I as <- <- <-; reflexivity|]). destruct I.
Qed.
Lemma numbered_free : forall w z, In w ["detector"; "mode"; "preset"; "time"; "monitor"; "mcu"; "label"] -> (1 <= z)%Z -> named (numbered w z) /\ ~ In (numbered w z) headings /\ field_path (numbered w z) false = [numbered w z] /\
  forall g, ~ In (numbered w z) (static g).
Proof.
  intros w z I Z.
  assert (PR : prefixb (w ++ "_")%string (numbered w z) = true) by (apply prefixb_spec; exists (str_of z); unfold numbered; rewrite L_Str.sapp_assoc; auto).
  assert (OUT : forall l, forallb (fun x => negb (prefixb (w ++ "_")%string x)) l = true -> ~ In (numbered w z) l). { intros l F J. rewrite forallb_forall in F. specialize (F _ J). rewrite PR in F. discriminate. }
  assert (ST : forall p l, In (p, l) (map (fun g => (g, static g)) all_parts) -> ~ (w = "preset" /\ p = "monitor") -> forallb (fun x => negb (prefixb (w ++ "_")%string x)) l = true).
  { intros p l J NP. cbn [In] in I. assert (T : forallb (fun pl => String.eqb w "preset" && String.eqb (fst pl) "monitor" || forallb (fun x => negb (prefixb (w ++ "_")%string x)) (snd pl)) (map (fun g => (g, static g)) all_parts) = true).
    { repeat (destruct I as [<-|I]; [vm_compute; reflexivity|]). destruct I. }
    rewrite forallb_forall in T. specialize (T _ J). cbn [fst snd] in T. apply orb_true_iff in T. destruct T as [T|T]; auto. apply andb_true_iff in T. rewrite !String.eqb_eq in T. tauto. }
  split. { cbn [In] in I. repeat (destruct I as [<-|I]; [split; discriminate|]). destruct I. }
  assert (HD : ~ In (numbered w z) headings). { apply OUT. cbn [In] in I. repeat (destruct I as [<-|I]; [vm_compute; reflexivity|]). destruct I. }
  split; [exact HD|]. split.
  - unfold field_path. assert (NX : forall x, In x ["detector"; "monitor"; "sample"] -> String.eqb (numbered w z) x = false). { intros x J. apply String.eqb_neq. intros E. apply HD. rewrite E. revert J. apply all_in. vm_compute. reflexivity. }
    rewrite !NX by (cbn; tauto). apply split_on_one. unfold numbered. rewrite !every_app. split; [|split].
    + cbn [In] in I. repeat (destruct I as [<-|I]; [repeat (apply every_cons; split; [discriminate|]); apply every_nil|]). destruct I.
    + apply every_cons. split; [discriminate|apply every_nil].
    + destruct (str_of_nonneg z ltac:(lia)) as (u & -> & _). destruct u; try (apply digits_clean with (u := _ _); intros c J; cbn in J; repeat (destruct J as [<-|J]; [discriminate|]); destruct J).
      unfold NilZero.string_of_uint. apply every_cons; split; [discriminate|apply every_nil].
  - intros g. destruct (in_dec String.string_dec g all_parts) as [J|J].
    + destruct (String.string_dec w "preset") as [->|N]; [|apply OUT; eapply (ST g); [apply in_map_iff; eauto|tauto]].
      destruct (String.string_dec g "monitor") as [->|N]; [|apply OUT; eapply (ST g); [apply in_map_iff; eauto|tauto]].
      intros K. vm_compute in K. repeat (destruct K as [K|K]; [try discriminate K|]); [|destruct K]. injection K as K. symmetry in K. revert K. apply str_of_word; auto.
    + intros K. apply J. unfold static in K. match type of K with In _ (match sget g ?t with _ => _ end) => destruct (sget g t) as [l|] eqn:E end; [|destruct K]. apply sget_in in E. apply (in_map fst) in E. cbn [fst] in E. revert E. apply all_in. vm_compute. reflexivity.
Qed.

(** * Names of data sets *)
Definition size_is (n : nat) (x : leaf) : Prop := (exists l, x = LArr l /\ List.length l = n) \/ (exists l, x = LStrs l /\ List.length l = n).
Lemma get_names_in : forall n d names, flat d -> get_names n d = Ok names -> forall k, In k names <-> exists v x, In (k, v) d /\ k <> "attrs" /\ is_field v x /\ size_is n x.
Proof.
  intros n. induction d as [|[k0 v0] d]; intros names F H k; cbn [get_names] in H.
  { apply Ok_inj in H. subst. cbn. split; [tauto|]. intros (v & x & [] & _). }
  apply bind_ok in H. destruct H as (here & HH & H). apply bind_ok in H. destruct H as (rest & HR & H). apply Ok_inj in H. subst names.
  assert (F' : flat d) by (intros a b I; apply F; right; auto). rewrite in_app_iff, (IHd rest F' HR k). clear IHd HR.
  assert (X : In k here <-> k = k0 /\ k0 <> "attrs" /\ exists x, is_field v0 x /\ size_is n x).
  { destruct (F k0 v0 (or_introl eq_refl)) as [(-> & a & -> & A)|([NA _] & x & a & ->)].
    - rewrite A in HH. apply Ok_inj in HH. subst here. cbn. split; [tauto|]. intros (_ & X & _). contradiction.
    - cbn [dget String.eqb Ascii.eqb Bool.eqb] in HH. assert (U : forall x', is_field (Dict [("dataset", Leaf x); ("attrs", Dict a)]) x' -> x' = x). { intros x' (a' & E). injection E as -> _. auto. }
      assert (FX : is_field (Dict [("dataset", Leaf x); ("attrs", Dict a)]) x) by (eexists; reflexivity).
      destruct x as [t|r|l|l|l]; apply Ok_inj in HH; subst here.
      + split; [intros []|]. intros (_ & _ & x' & E & SZ). apply U in E. subst. destruct SZ as [(l & Q & _)|(l & Q & _)]; discriminate.
      + split; [intros []|]. intros (_ & _ & x' & E & SZ). apply U in E. subst. destruct SZ as [(l & Q & _)|(l & Q & _)]; discriminate.
      + destruct (Nat.eqb_spec (List.length l) n) as [E|E].
        * split; [intros [->|[]]|intros (-> & _); left; auto]. split; auto. split; auto. exists (LArr l). split; auto. left. eauto.
        * split; [intros []|]. intros (_ & _ & x' & FE & SZ). apply U in FE. subst. destruct SZ as [(l' & Q & Z)|(l' & Q & Z)]; [injection Q as ->; contradiction|discriminate].
      + destruct (Nat.eqb_spec (List.length l) n) as [E|E].
        * split; [intros [->|[]]|intros (-> & _); left; auto]. split; auto. split; auto. exists (LStrs l). split; auto. right. eauto.
        * split; [intros []|]. intros (_ & _ & x' & FE & SZ). apply U in FE. subst. destruct SZ as [(l' & Q & Z)|(l' & Q & Z)]; [discriminate|injection Q as ->; contradiction].
      + split; [intros []|]. intros (_ & _ & x' & E & SZ). apply U in E. subst. destruct SZ as [(l' & Q & _)|(l' & Q & _)]; discriminate. }
  rewrite X. split.
  - intros [(-> & NA & x & E & SZ)|(v & x & I & NA & E & SZ)]; [exists v0, x|exists v, x]; split; auto; [left|right]; auto.
  - intros (v & x & [I|I] & NA & E & SZ); [injection I as -> ->; left; split; auto; split; eauto|right; exists v, x; auto].
Qed.
Lemma get_names_total : forall n d, flat d -> exists names, get_names n d = Ok names.
Proof.
  intros n. induction d as [|[k v] d]; intros F; cbn [get_names]; eauto. destruct IHd as (r & ->). { intros a b I; apply F; right; auto. } cbn [bind].
  assert (H : exists h, (match v with Dict d0 => match sget "dataset" d0 with Some (Leaf (LArr a)) => Ok (if Nat.eqb (List.length a) n then [k] else []) | Some (Leaf (LStrs a)) => Ok (if Nat.eqb (List.length a) n then [k] else []) | _ => Ok [] end
    | Leaf (LStr s) => if contains "dataset" s then Err TypeError else Ok [] | Leaf (LNum _) => Err TypeError | Leaf _ => Ok [] end) = Ok h).
  { destruct (F k v (or_introl eq_refl)) as [(_ & a & -> & ->)|(_ & x & a & ->)]; eauto. cbn [dget String.eqb Ascii.eqb Bool.eqb]. destruct x; eauto. }
  destruct H as (h & ->). cbn [bind]. eauto.
Qed.
Lemma component_names_in : forall n l names, component_names n l = Ok names -> forall k, In k names <->
  exists c d, In (c, Dict d) l /\ c <> "attrs" /\ ((c = "detector" /\ dmem String.eqb "data" d = true /\ k = "detector") \/ (~ (c = "detector" /\ dmem String.eqb "data" d = true) /\ exists ns, get_names n d = Ok ns /\ In k ns)).
Proof.
  intros n. induction l as [|[c v] l]; intros names H k; cbn [component_names] in H.
  { apply Ok_inj in H. subst. split; [intros []|]. intros (c & d & [] & _). }
  apply bind_ok in H. destruct H as (here & HH & H). apply bind_ok in H. destruct H as (rest & HR & H). apply Ok_inj in H. subst names. rewrite in_app_iff, (IHl rest HR k). clear IHl HR.
  assert (X : In k here <-> c <> "attrs" /\ exists d, v = Dict d /\ ((c = "detector" /\ dmem String.eqb "data" d = true /\ k = "detector") \/ (~ (c = "detector" /\ dmem String.eqb "data" d = true) /\ exists ns, get_names n d = Ok ns /\ In k ns))).
  { destruct (String.eqb_spec c "attrs") as [->|NA]. { apply Ok_inj in HH. subst here. split; [intros []|]. intros (N & _). contradiction. }
    destruct v as [x|d]; [discriminate|]. destruct (String.eqb_spec c "detector") as [->|ND].
    - destruct (dmem String.eqb "data" d) eqn:M.
      + apply Ok_inj in HH. subst here. split.
        * intros [<-|[]]. split; auto. exists d. auto.
        * intros (_ & d' & E & [(_ & _ & ->)|(N & _)]); [left; auto|]. injection E as <-. exfalso. apply N. auto.
      + apply bind_ok in HH. destruct HH as (a & GA & HH). apply Ok_inj in HH. subst here. rewrite in_app_iff. split.
        * intros I. split; auto. exists d. split; auto. right. split; [rewrite M; intros [_ Q]; discriminate|]. exists a. tauto.
        * intros (_ & d' & E & Q). injection E as <-. rewrite M in Q. destruct Q as [(_ & Q & _)|(_ & ns & G & I)]; [discriminate|]. rewrite GA in G. apply Ok_inj in G. subst. auto.
    - split.
      + intros I. split; auto. exists d. split; auto. right. split; [tauto|]. eauto.
      + intros (_ & d' & E & [(Q & _)|(_ & ns & G & I)]); [contradiction|]. injection E as <-. rewrite HH in G. apply Ok_inj in G. subst. auto. }
  rewrite X. split.
  - intros [(NA & d & -> & Q)|(c' & d & I & Q)]; [exists c, d; split; [left; auto|auto]|exists c', d; split; [right; auto|auto]].
  - intros (c' & d & [I|I] & NA & Q); [injection I as -> ->; left; split; auto; exists d; auto|right; exists c', d; auto].
Qed.

Section Scan.
  Variable i : option config.
  Variable s : option (dict string pv).
  Hypothesis OC : ordinary_config i s.
  Lemma config_named : forall k, config_key i s k -> named k.
  Proof using OC. intros k H. destruct (OC k H) as (_ & A & B & _). split; auto. Qed.
  Context (e instrument : entry) (part : string -> entry) (SH : shape i s e instrument part).

  Lemma lacks : forall g f, In g all_parts -> named f -> field_name f \/ f = "detector" -> ~ In f (static g) -> ~ numbered_key g f -> sget f (part g) = None.
  Proof using OC SH.
    intros g f I [NA _] FN NS NN. apply in_none. intros J. destruct (sh_keyed _ _ _ _ _ SH g I) as [_ K]. destruct (K f J) as [Q|[Q|[Q|Q]]]; [contradiction|contradiction|contradiction|].
    destruct (OC f Q) as (X & _ & _ & Y & _). destruct FN; contradiction.
  Qed.
  Lemma get_eq : forall k, get e k false None = (items (contents e), go (field_path k false) "dataset" (contents e) None).
  Proof using SH.
    intros k. rewrite get_unfold by (apply (sh_e _ _ _ _ _ SH)). f_equal. unfold item. destruct (go (field_path k false) "dataset" (contents e) None) as [[|]|]; reflexivity.
  Qed.
  Lemma get_again : forall k, get (items (contents e)) k false None = (items (contents e), go (field_path k false) "dataset" (contents e) None).
  Proof using SH.
    intros k. assert (C : contents (items (contents e)) = contents e). { unfold contents. cbn [items]. rewrite filter_twice. auto. }
    rewrite get_unfold by (eapply contents_nodup; eauto). rewrite C. f_equal. unfold item. destruct (go (field_path k false) "dataset" (contents e) None) as [[|]|]; reflexivity.
  Qed.
  Lemma data_of_spec : forall names acc d, data_of names (items (contents e)) acc = Ok d ->
    (forall k, In k names -> exists v, go (field_path k false) "dataset" (contents e) None = Ok v /\ sget k d = Some v) /\ (forall k, ~ In k names -> sget k d = sget k acc).
  Proof using SH.
    induction names as [|k0 names]; intros acc d H; cbn [data_of] in H. { apply Ok_inj in H. subst. split; [intros k []|auto]. }
    rewrite get_again in H. apply bind_ok in H. destruct H as (v & G & H). destruct (IHnames _ _ H) as [A B]. split.
    - intros k I. destruct (in_dec String.string_dec k names) as [J|J]; [auto|]. destruct I as [->|I]; [|contradiction]. exists v. split; auto. rewrite B by auto. apply sget_sset_eq.
    - intros k N. rewrite B; [|intros I; apply N; right; auto]. apply sget_sset_ne. intros ->. apply N. left. auto.
  Qed.
  Lemma data_of_total : forall names, (forall k, In k names -> exists v, go (field_path k false) "dataset" (contents e) None = Ok v) -> forall acc, exists d, data_of names (items (contents e)) acc = Ok d.
  Proof using SH.
    induction names as [|k0 names]; intros A acc; cbn [data_of]; eauto. rewrite get_again. destruct (A k0) as (v & ->); [left; auto|]. cbn [bind]. apply IHnames. intros; apply A; right; auto.
  Qed.
  Lemma in_parts : forall c, In c component_names_ -> In c all_parts. Proof using. intros. apply in_or_app. auto. Qed.
  Lemma in_parts' : forall c, In c group_names -> In c all_parts. Proof using. intros. apply in_or_app. auto. Qed.

  (** What is found for a field that is in one part only. *)
  Lemma find_component : forall c f v x, In c component_names_ -> named f -> ~ In f headings -> (forall g, In g all_parts -> g <> c -> sget f (part g) = None) -> sget f (part c) = Some v -> is_field v x ->
    go [f] "dataset" (contents e) None = Ok (Some (Leaf x)).
  Proof using SH.
    intros c f v x I NF NH A G X. destruct (no_heading _ _ _ _ _ SH f NH NF) as [T1 T2].
    assert (NG : forall g, In g group_names -> g <> c). { intros g J ->. unfold component_names_, group_names in *. cbn [In] in I, J. repeat (destruct J as [<-|J]; [repeat (destruct I as [I|I]; [discriminate I|]); destruct I|]). destruct J. }
    eapply in_instrument; eauto; [|intros g J; apply A; [apply in_parts'; auto|auto]]. eapply in_component; eauto.
    - rewrite (go_here f [] _ _ G). eapply go_at_field; eauto.
    - intros c' J N. apply A; auto. apply in_parts. auto.
  Qed.
  Lemma find_group : forall c f v x, In c group_names -> named f -> ~ In f headings -> (forall g, In g all_parts -> g <> c -> sget f (part g) = None) -> sget f (part c) = Some v -> is_field v x ->
    go [f] "dataset" (contents e) None = Ok (Some (Leaf x)).
  Proof using SH.
    intros c f v x I NF NH A G X. destruct (no_heading _ _ _ _ _ SH f NH NF) as [T1 T2].
    assert (NG : forall g, In g component_names_ -> g <> c). { intros g J ->. unfold component_names_, group_names in *. cbn [In] in I, J. repeat (destruct I as [<-|I]; [repeat (destruct J as [J|J]; [discriminate J|]); destruct J|]). destruct I. }
    eapply in_group; eauto.
    - rewrite (go_here f [] _ _ G). eapply go_at_field; eauto.
    - intros c' J. apply A; auto. apply in_parts. auto.
    - intros g' J N. apply A; auto. apply in_parts'. auto.
  Qed.
  Lemma find_detector : forall v x, sget "data" (part "detector") = Some v -> is_field v x -> go ["detector"; "data"] "dataset" (contents e) None = Ok (Some (Leaf x)).
  Proof using OC SH.
    intros v x G X. assert (ND : named "detector") by (split; discriminate).
    assert (T1 : sget "detector" (items (contents e)) = None).
    { destruct (sget "detector" (items (contents e))) as [w|] eqn:E; auto. exfalso. apply sget_in in E. destruct (top_value _ _ _ _ _ SH _ _ E ND) as [(Q & _)|[(J & _)|(J & _)]]; [discriminate| |]; vm_compute in J; intuition discriminate. }
    eapply in_instrument; eauto.
    - assert (GD : sget "detector" instrument = Some (Dict (part "detector"))) by (apply (sh_component _ _ _ _ _ SH); vm_compute; tauto).
      rewrite (go_here _ _ _ _ GD). rewrite go_dict, child_get, G. eapply go_at_field; eauto.
    - intros g J. apply lacks; auto; [apply in_parts'; auto| |].
      + unfold group_names in J. cbn [In] in J. repeat (destruct J as [<-|J]; [vm_compute; intuition discriminate|]). destruct J.
      + intros [(-> & z & _ & Q)|(_ & w & z & _ & I & Q)]; [discriminate|]. unfold six in I. cbn [In] in I. repeat (destruct I as [<-|I]; [discriminate Q|]). destruct I.
  Qed.
  Lemma find_own : forall g v x, In g ["monitor"; "sample"] -> sget g (part g) = Some v -> is_field v x -> go [g; g] "dataset" (contents e) None = Ok (Some (Leaf x)).
  Proof using SH.
    intros g v x I G X. assert (T : sget g (items (contents e)) = Some (Dict (part g))).
    { rewrite contents_sget; [apply (sh_group _ _ _ _ _ SH)| |]; cbn in I; destruct I as [<-|[<-|[]]]; try discriminate; vm_compute; tauto. }
    unfold contents in *. rewrite (go_here _ _ _ _ T). rewrite go_dict, child_get, G. eapply go_at_field; eauto.
  Qed.
  Lemma leaf_field : forall d f x, flat d -> named f -> leaf_at [f; "dataset"] (Dict d) = Some x -> exists v, sget f d = Some v /\ is_field v x.
  Proof using.
    clear. intros d f x F [NA ND] H. rewrite leaf_cons in H. destruct (sget f d) as [v|] eqn:G; [|discriminate]. exists v. split; auto. apply sget_in in G. destruct (F f v G) as [(-> & _)|(_ & y & a & ->)]; [contradiction|].
    unfold leaf_at in H. cbn in H. injection H as ->. eexists. reflexivity.
  Qed.
  Lemma leaf_component : forall c f x, In c component_names_ -> named f -> leaf_at ["instrument"; c; f; "dataset"] (Dict e) = Some x -> exists v, sget f (part c) = Some v /\ is_field v x.
  Proof using SH.
    intros c f x I NF H. rewrite leaf_cons, (sh_instrument _ _ _ _ _ SH), leaf_cons, (sh_component _ _ _ _ _ SH) in H by auto. apply leaf_field; auto. eapply part_flat; eauto. apply in_parts. auto.
  Qed.
  Lemma leaf_group : forall c f x, In c group_names -> named f -> leaf_at [c; f; "dataset"] (Dict e) = Some x -> exists v, sget f (part c) = Some v /\ is_field v x.
  Proof using SH.
    intros c f x I NF H. rewrite leaf_cons, (sh_group _ _ _ _ _ SH) in H by auto. apply leaf_field; auto. eapply part_flat; eauto. apply in_parts'. auto.
  Qed.

  (** The names of the data sets, once the points are found. *)
  Lemma names_eq : forall p, go ["Pt."] "dataset" (contents e) None = Ok (Some (Leaf (LArr p))) ->
    get_dataset_names e = (items (contents e), do a <- component_names (List.length p) instrument; do b <- get_names (List.length p) (part "monitor"); do c <- get_names (List.length p) (part "sample"); Ok (a ++ b ++ c)).
  Proof using OC SH.
    intros p G. unfold get_dataset_names. rewrite get_eq. change (field_path "Pt." false) with ["Pt."]. rewrite G. cbn [bind].
    assert (C1 : child "instrument" (items (contents e)) = Ok instrument) by (unfold child; rewrite contents_sget by discriminate; rewrite (sh_instrument _ _ _ _ _ SH); auto).
    assert (C2 : child "monitor" (items (contents e)) = Ok (part "monitor")) by (unfold child; rewrite contents_sget by discriminate; rewrite (sh_group _ _ _ _ _ SH) by (vm_compute; tauto); auto).
    assert (C3 : child "sample" (items (contents e)) = Ok (part "sample")) by (unfold child; rewrite contents_sget by discriminate; rewrite (sh_group _ _ _ _ _ SH) by (vm_compute; tauto); auto).
    rewrite C1. cbn [bind]. destruct (component_names (List.length p) instrument) as [a|x]; [|reflexivity]. cbn [bind]. rewrite C2. cbn [bind]. rewrite get_again.
    assert (Z : go (field_path "monitor/data" false) "dataset" (contents e) None = Ok None).
    { change (field_path "monitor/data" false) with ["monitor"; "data"].
      assert (T : sget "monitor" (items (contents e)) = Some (Dict (part "monitor"))) by (rewrite contents_sget by discriminate; apply (sh_group _ _ _ _ _ SH); vm_compute; tauto).
      unfold contents in *. rewrite (go_here _ _ _ _ T). rewrite go_dict, child_get. rewrite lacks; auto.
      - apply in_parts'. vm_compute. tauto.
      - split; discriminate.
      - left. left. exists ["instrument"; "detector"], [("detector", "data", false)], "detector", false. split; [vm_compute; tauto|left; auto].
      - vm_compute. intuition discriminate.
      - intros [(Q & _)|(_ & w & z & _ & I & Q)]; [discriminate|]. unfold six in I. cbn [In] in I. repeat (destruct I as [<-|I]; [discriminate Q|]). destruct I. }
    rewrite Z. cbn [bind]. rewrite C2. cbn [bind]. rewrite C3. reflexivity.
  Qed.
End Scan.

Lemma in_some : forall {A} k (l : list (string * A)), In k (map fst l) -> sget k l <> None.
Proof.
  intros A k l. induction l as [|[a v] l]; intros I; [destruct I|]. cbn [dget]. destruct (String.eqb_spec k a) as [->|N]; [discriminate|]. apply IHl. destruct I as [I|I]; auto. cbn in I. congruence.
Qed.
Definition parts : list string := component_names_ ++ ["monitor"; "sample"].
Lemma parts_all : forall g, In g parts -> In g all_parts.
Proof. intros g I. unfold parts in I. apply in_app_iff in I. apply in_or_app. destruct I as [I|I]; auto. right. cbn in I. destruct I as [<-|[<-|[]]]; vm_compute; tauto. Qed.
Lemma static_ok : forall g k, In g parts -> In k (static g) -> (k = "monitor" /\ g = "monitor") \/ (k = "sample" /\ g = "sample") \/ (named k /\ k <> "detector" /\ field_path k false = [k]).
Proof.
  assert (T : forallb (fun g => forallb (fun k => (String.eqb k "monitor" && String.eqb g "monitor") || (String.eqb k "sample" && String.eqb g "sample") ||
    negb (existsb (String.eqb k) ["attrs"; "dataset"; "detector"; "monitor"; "sample"]) && negb (contains "/" k)) (static g)) parts = true) by (vm_compute; reflexivity).
  intros g k IG IK. rewrite forallb_forall in T. specialize (T _ IG). rewrite forallb_forall in T. specialize (T _ IK). rewrite !orb_true_iff, !andb_true_iff, !negb_true_iff, !String.eqb_eq in T.
  destruct T as [[T|T]|[T1 T2]]; auto. right. right. cbn [existsb] in T1. rewrite !orb_false_iff, !String.eqb_neq in T1. destruct T1 as (A & B & C & D & E & _). split; [split; auto|]. split; auto.
  unfold field_path. apply String.eqb_neq in C, D, E. rewrite C, D, E. apply split_on_one. apply contains1. auto.
Qed.
Section C67.
  Variable float_of : string -> option R.
  Variable int_of : string -> option Z.
  Variable repr : pv -> string.
  Variable date_of : string -> option string.
  Notation build := (spice_scan_to_nxdict float_of int_of repr date_of).

  Lemma unconfigured : forall i s part rows c f keep, ordinary_config i s -> In (part, rows) placement -> In (c, f, keep) rows -> ~ configured i s (part ++ [f]).
  Proof using.
    clear. intros i s part rows c f keep OC IP IR (k & v & H).
    assert (FN : field_name f) by (left; exists part, rows, c, keep; auto).
    assert (NO : f <> "orientation_matrix").
    { intros ->. assert (T : forallb (fun pr => forallb (fun r => negb (String.eqb (snd (fst r)) "orientation_matrix")) (snd pr)) placement = true) by (vm_compute; reflexivity).
      rewrite forallb_forall in T. specialize (T _ IP). rewrite forallb_forall in T. specialize (T _ IR). discriminate. }
    assert (K : config_key i s f).
    { unfold placement in IP. cbn [In] in IP. repeat (destruct IP as [IP|IP]; [injection IP as <- _; cbn [List.app] in H|]); [..|destruct IP];
        try (destruct H as (-> & c0 & d & E & G & I); left; eexists c0, _, d, v; eauto).
      destruct H as (d & E & I & [->|(_ & Q)]); [|contradiction]. right. exists d, v. auto. }
    destruct (OC f K) as (N & _). contradiction.
  Qed.
  Lemma pt_row : In (["sample"], [("h", "qh", true); ("k", "qk", true); ("l", "ql", true); ("e", "en", true); ("q", "q", true); ("Pt.", "Pt.", false)]
                 ++ same ["temp"; "temp_a"; "temp_2"; "coldtip"; "tsample"; "sample"; "vti"; "dr_tsample"; "dr_temp"; "lt"; "ht"; "sorb_temp"; "sorb"; "sample_ht"; "persistent_field"; "mag_i"]) placement.
  Proof using. unfold placement. do 6 right. left. reflexivity. Qed.
  (** A field of a table is found. *)
  Lemma table_find : forall i s e instrument part p f v x, ordinary_config i s -> shape i s e instrument part -> In (p, f) tables -> In p all_parts -> sget f (part p) = Some v -> is_field v x ->
    go (field_path f false) "dataset" (contents e) None = Ok (Some (Leaf x)).
  Proof using.
    clear. intros i s e instrument part p f v x OC SH I IP G X. destruct (tables_ok _ _ I) as [F A]. destruct (free_spec _ F) as (NF & NH & -> & NN).
    assert (LK : forall g, In g all_parts -> g <> p -> sget f (part g) = None). { intros g J N. eapply lacks; eauto. { left. eapply table_field; eauto. } eapply alone_spec; eauto. }
    unfold all_parts in IP. apply in_app_iff in IP. destruct IP as [IP|IP]; [eapply find_component|eapply find_group]; eauto.
  Qed.
  Lemma numbered_find : forall i s e instrument part p w z v x, ordinary_config i s -> shape i s e instrument part -> (1 <= z)%Z -> p = "detector" /\ w = "detector" \/ p = "monitor" /\ In w six ->
    sget (numbered w z) (part p) = Some v -> is_field v x -> go (field_path (numbered w z) false) "dataset" (contents e) None = Ok (Some (Leaf x)).
  Proof using.
    clear. intros i s e instrument part p w z v x OC SH Z P G X.
    assert (W : In w ["detector"; "mode"; "preset"; "time"; "monitor"; "mcu"; "label"]). { destruct P as [(_ & ->)|(_ & I)]; [left; auto|right; exact I]. }
    destruct (numbered_free w z W Z) as (NF & NH & -> & NS).
    assert (LK : forall g, In g all_parts -> g <> p -> sget (numbered w z) (part g) = None).
    { intros g J N. eapply lacks; eauto. { left. right. right. exists w, z. auto. } intros [(-> & z' & Z' & Q)|(-> & w' & z' & Z' & I & Q)].
      - destruct P as [(-> & ->)|(-> & I)]; [contradiction|]. unfold six in I. cbn [In] in I. repeat (destruct I as [<-|I]; [discriminate Q|]). destruct I.
      - destruct P as [(-> & ->)|(-> & _)]; [|contradiction]. unfold six in I. cbn [In] in I. repeat (destruct I as [<-|I]; [discriminate Q|]). destruct I. }
    destruct P as [(-> & ->)|(-> & I)]; [eapply find_component|eapply find_group]; eauto; vm_compute; tauto.
  Qed.
  Lemma points_found : forall L i s e instrument part pts, build L i s = Ok e -> ordinary_config i s -> shape i s e instrument part -> sget "Pt." (lg_data L) = Some pts ->
    go ["Pt."] "dataset" (contents e) None = Ok (Some (Leaf (LArr (map trunc pts)))).
  Proof.
    intros L i s e instrument part pts B OC SH P.
    assert (IR : In ("Pt.", "Pt.", false) ([("h", "qh", true); ("k", "qk", true); ("l", "ql", true); ("e", "en", true); ("q", "q", true); ("Pt.", "Pt.", false)]
                 ++ same ["temp"; "temp_a"; "temp_2"; "coldtip"; "tsample"; "sample"; "vti"; "dr_tsample"; "dr_temp"; "lt"; "ht"; "sorb_temp"; "sorb"; "sample_ht"; "persistent_field"; "mag_i"])) by (do 5 right; left; auto).
    pose proof (C66_columns _ _ _ _ L i s e B _ _ pt_row _ _ _ IR (unconfigured _ _ _ _ _ _ _ OC pt_row IR)) as H. unfold holds_column in H. rewrite P in H. cbn [List.app] in H.
    destruct (leaf_group _ _ _ _ _ SH "sample" "Pt." _ ltac:(vm_compute; tauto) ltac:(split; discriminate) H) as (v & G & X).
    apply (table_find i s e instrument part "sample" "Pt." v _ OC SH); auto.
    - apply (field_in _ _ _ _ _ pt_row IR); discriminate.
    - vm_compute. tauto.
  Qed.
  Lemma scan_names : forall L i s e d pts instrument part, build L i s = Ok e -> ordinary_config i s -> shape i s e instrument part -> sget "Pt." (lg_data L) = Some pts -> scan_data e = Ok d ->
    exists a b c, component_names (List.length pts) instrument = Ok a /\ get_names (List.length pts) (part "monitor") = Ok b /\ get_names (List.length pts) (part "sample") = Ok c /\
      (forall k, In k (a ++ b ++ c) -> exists v, go (field_path k false) "dataset" (contents e) None = Ok v /\ sget k d = Some v) /\ (forall k, ~ In k (a ++ b ++ c) -> sget k d = None).
  Proof.
    intros L i s e d pts instrument part B OC SH P SD. unfold scan_data in SD. rewrite (names_eq i s OC e instrument part SH _ (points_found _ _ _ _ _ _ _ B OC SH P)) in SD. rewrite map_length in SD.
    apply bind_ok in SD. destruct SD as (names & N & SD). apply bind_ok in N. destruct N as (a & A & N). apply bind_ok in N. destruct N as (b & Bb & N). apply bind_ok in N. destruct N as (c & C & N). apply Ok_inj in N. subst names.
    exists a, b, c. split; auto. split; auto. split; auto. apply (data_of_spec _ _ _ _ _ SH) in SD. destruct SD as [X Y]. split; auto.
  Qed.
  (** A field with as many numbers as points is among the data, if it is found. *)
  Lemma shown_component : forall L i s e d pts instrument part c f v l, build L i s = Ok e -> ordinary_config i s -> shape i s e instrument part -> sget "Pt." (lg_data L) = Some pts -> scan_data e = Ok d ->
    In c component_names_ -> (c = "detector" -> sget "data" (part "detector") = None) -> named f -> sget f (part c) = Some v -> is_field v (LArr l) -> List.length l = List.length pts ->
    go (field_path f false) "dataset" (contents e) None = Ok (Some (Leaf (LArr l))) -> sget f d = Some (Some (Leaf (LArr l))).
  Proof.
    intros L i s e d pts instrument part c f v l B OC SH P SD I ND [NA _] G X LN GO. destruct (scan_names _ _ _ _ _ _ _ _ B OC SH P SD) as (a & b & c0 & A & _ & _ & K & _).
    destruct (K f) as (v' & GO' & ->); [|congruence]. apply in_or_app. left. apply (component_names_in _ _ _ A). destruct (component_member _ _ _ _ _ SH c I) as [M NC].
    exists c, (part c). split; auto. split; [apply NC|]. right. split.
    - intros [-> D]. unfold dmem in D. rewrite ND in D by auto. discriminate.
    - assert (F : flat (part c)) by (eapply part_flat; eauto; apply in_parts; auto). destruct (get_names_total (List.length pts) (part c) F) as (ns & N). exists ns. split; auto.
      apply (get_names_in _ _ _ F N). exists v, (LArr l). split; [apply sget_in; auto|]. split; auto. split; auto. left. eauto.
  Qed.
  Lemma shown_group : forall L i s e d pts instrument part c f v l, build L i s = Ok e -> ordinary_config i s -> shape i s e instrument part -> sget "Pt." (lg_data L) = Some pts -> scan_data e = Ok d ->
    In c ["monitor"; "sample"] -> named f -> sget f (part c) = Some v -> is_field v (LArr l) -> List.length l = List.length pts ->
    go (field_path f false) "dataset" (contents e) None = Ok (Some (Leaf (LArr l))) -> sget f d = Some (Some (Leaf (LArr l))).
  Proof.
    intros L i s e d pts instrument part c f v l B OC SH P SD I [NA _] G X LN GO. destruct (scan_names _ _ _ _ _ _ _ _ B OC SH P SD) as (a & b & c0 & _ & A & A' & K & _).
    destruct (K f) as (v' & GO' & ->); [|congruence].
    assert (IC : In c all_parts) by (cbn in I; destruct I as [<-|[<-|[]]]; vm_compute; tauto). pose proof (part_flat _ _ _ _ _ SH c IC) as F.
    apply in_or_app. right. apply in_or_app. cbn in I. destruct I as [<-|[<-|[]]]; [left; apply (get_names_in _ _ _ F A)|right; apply (get_names_in _ _ _ F A')];
      exists v, (LArr l); (split; [apply sget_in; auto|]); (split; auto); (split; auto); left; eauto.
  Qed.

  (** Every column with a place is shown under the name of its field, with its numbers. *)
  Theorem C67_columns_shown : forall L i s e d, build L i s = Ok e -> ordinary_config i s -> scan_data e = Ok d ->
    forall part rows c f keep, In (part, rows) placement -> In (c, f, keep) rows -> shows L d c (shown f) keep.
  Proof.
    intros L i s e d B OC SD pt rows c f keep IP IR pts l P C LN.
    destruct (built_shape float_of int_of repr date_of i s (config_named i s OC) L e B) as (instrument & part & SH & _).
    pose proof (C66_columns _ _ _ _ L i s e B _ _ IP _ _ _ IR (unconfigured _ _ _ _ _ _ _ OC IP IR)) as H. unfold holds_column in H. rewrite C in H. set (l' := if keep then l else map trunc l) in *.
    assert (LN' : List.length l' = List.length pts) by (unfold l'; destruct keep; rewrite ?map_length; auto). clearbody l'.
    assert (Q : (exists p, pt = ["instrument"; p] /\ In p component_names_ /\ (p = "detector" -> f = "data") /\ (f = "data" -> p = "detector") /\ f <> "sample" /\ f <> "monitor") \/ (pt = ["sample"] /\ f <> "data" /\ f <> "monitor")).
    { assert (T : forallb (fun pr => match fst pr with ["instrument"; p] => existsb (String.eqb p) component_names_ && forallb (fun r => Bool.eqb (String.eqb p "detector") (String.eqb (snd (fst r)) "data") && negb (String.eqb (snd (fst r)) "sample") && negb (String.eqb (snd (fst r)) "monitor")) (snd pr)
        | ["sample"] => forallb (fun r => negb (String.eqb (snd (fst r)) "data") && negb (String.eqb (snd (fst r)) "monitor")) (snd pr) | _ => false end) placement = true) by (vm_compute; reflexivity).
      rewrite forallb_forall in T. specialize (T _ IP). cbn [fst snd] in T.
      assert (CS : (exists p, pt = ["instrument"; p]) \/ pt = ["sample"]). { unfold placement in IP. cbn [In] in IP. repeat (destruct IP as [IP|IP]; [injection IP as <- _; first [left; eexists; reflexivity|right; reflexivity]|]). destruct IP. }
      destruct CS as [(p & ->)| ->].
      - left. exists p. cbn [List.app] in T. apply andb_true_iff in T. destruct T as [T1 T2]. rewrite forallb_forall in T2. specialize (T2 _ IR). cbn [fst snd] in T2. rewrite !andb_true_iff, !negb_true_iff, eqb_true_iff, !String.eqb_neq in T2.
        apply existsb_exists in T1. destruct T1 as (x & T1 & E). apply String.eqb_eq in E. subst x. destruct T2 as [[T2 T3] T4]. repeat split; auto.
        + intros ->. rewrite String.eqb_refl in T2. symmetry in T2. apply String.eqb_eq. auto. + intros ->. rewrite String.eqb_refl in T2. apply String.eqb_eq. auto.
      - right. rewrite forallb_forall in T. specialize (T _ IR). cbn [fst snd] in T. rewrite !andb_true_iff, !negb_true_iff, !String.eqb_neq in T. tauto. }
    assert (NF : named f).
    { assert (T : forallb (fun pr => forallb (fun r => negb (String.eqb (snd (fst r)) "attrs" || String.eqb (snd (fst r)) "dataset")) (snd pr)) placement = true) by (vm_compute; reflexivity).
      rewrite forallb_forall in T. specialize (T _ IP). rewrite forallb_forall in T. specialize (T _ IR). apply not_reserved. apply negb_true_iff. exact T. }
    unfold shown. destruct Q as [(p & -> & I & D1 & D2 & N1 & N2)|(-> & N1 & N2)].
    - cbn [List.app] in H. destruct (leaf_component _ _ _ _ _ SH p f _ I NF H) as (v & G & X). destruct (String.eqb_spec f "data") as [->|ND].
      + rewrite (D2 eq_refl) in *. destruct (scan_names _ _ _ _ _ _ _ _ B OC SH P SD) as (a & b & c0 & A & _ & _ & K & _).
        destruct (K "detector") as (v' & GO' & ->).
        * apply in_or_app. left. apply (component_names_in _ _ _ A). destruct (component_member _ _ _ _ _ SH "detector" I) as [M NC]. exists "detector", (part "detector"). split; auto. split; [apply NC|]. left. unfold dmem. rewrite G. auto.
        * change (field_path "detector" false) with ["detector"; "data"] in GO'. rewrite (find_detector i s OC e instrument part SH v _ G X) in GO'. apply Ok_inj in GO'. congruence.
      + eapply (shown_component _ _ _ _ _ _ _ _ p f v); eauto. { intros E. exfalso. auto. }
        eapply (table_find i s e instrument part p f); eauto. { exact (field_in _ _ _ _ _ IP IR ND N1 N2). } apply in_parts. auto.
    - cbn [List.app] in H. destruct (leaf_group _ _ _ _ _ SH "sample" f _ ltac:(vm_compute; tauto) NF H) as (v & G & X). destruct (String.eqb_spec f "data") as [->|ND]; [contradiction|].
      eapply (shown_group _ _ _ _ _ _ _ _ "sample" f v); eauto; [right; left; auto|]. destruct (String.string_dec f "sample") as [->|NS].
      + change (field_path "sample" false) with ["sample"; "sample"]. eapply find_own; eauto. right. left. auto.
      + eapply (table_find i s e instrument part "sample" f); eauto. { exact (field_in _ _ _ _ _ IP IR ND NS N2). } vm_compute. tauto.
  Qed.
  (** The counters, of a scan counted without a count file. *)
  Theorem C67_counters_shown : forall L i s e d, build L i s = Ok e -> ordinary_config i s -> scan_data e = Ok d -> ~ by_countfile L -> forall c f keep, In (c, f, keep) counting -> shows L d c f keep.
  Proof.
    intros L i s e d B OC SD NC c f keep IR pts l P C LN.
    destruct (built_shape float_of int_of repr date_of i s (config_named i s OC) L e B) as (instrument & part & SH & _).
    pose proof (C66_counting _ _ _ _ L i s e B NC _ _ _ IR) as H. unfold holds_column in H. rewrite C in H. set (l' := if keep then l else map trunc l) in *.
    assert (LN' : List.length l' = List.length pts) by (unfold l'; destruct keep; rewrite ?map_length; auto). clearbody l'.
    assert (NF : named f) by (cbn in IR; destruct IR as [IR|[IR|[IR|[]]]]; injection IR as <- <- <-; split; discriminate).
    cbn [List.app] in H. destruct (leaf_group _ _ _ _ _ SH "monitor" f _ ltac:(vm_compute; tauto) NF H) as (v & G & X).
    eapply (shown_group _ _ _ _ _ _ _ _ "monitor" f v); eauto; [left; auto|]. destruct (String.string_dec f "monitor") as [->|NS].
    - change (field_path "monitor" false) with ["monitor"; "monitor"]. eapply find_own; eauto. left. auto.
    - eapply (table_find i s e instrument part "monitor" f); eauto. { eapply counter_in; eauto. } vm_compute. tauto.
  Qed.
  (** The columns of the channels of a count file: the counters of each, *)
  Theorem C67_channels_shown : forall L i s e d, build L i s = Ok e -> ordinary_config i s -> scan_data e = Ok d -> by_countfile L -> forall n, has_channel L n ->
    forall c f keep, In (c, f, keep) counting -> shows L d (c ++ "_" ++ str_of n)%string (f ++ "_" ++ str_of n)%string keep.
  Proof.
    intros L i s e d B OC SD CF n HC c f keep IR pts l P C LN.
    destruct (built_shape float_of int_of repr date_of i s (config_named i s OC) L e B) as (instrument & part & SH & _).
    pose proof (proj1 (C66_channels _ _ _ _ L i s e B CF n HC) _ _ _ IR) as H. unfold holds_column in H. rewrite C in H. set (l' := if keep then l else map trunc l) in *.
    assert (LN' : List.length l' = List.length pts) by (unfold l'; destruct keep; rewrite ?map_length; auto). clearbody l'.
    assert (Z : (1 <= n)%Z) by apply HC. assert (W : In f six) by (cbn in IR; destruct IR as [IR|[IR|[IR|[]]]]; injection IR as <- <- <-; vm_compute; tauto).
    change (f ++ "_" ++ str_of n)%string with (numbered f n) in *. destruct (numbered_free f n (or_intror W) Z) as (NF & _).
    cbn [List.app] in H. destruct (leaf_group _ _ _ _ _ SH "monitor" _ _ ltac:(vm_compute; tauto) NF H) as (v & G & X).
    eapply (shown_group _ _ _ _ _ _ _ _ "monitor" _ v); eauto; [left; auto|]. eapply numbered_find; eauto.
  Qed.
  (** and its detector counts, when the file has no detector column: *)
  Theorem C67_detectors_shown : forall L i s e d, build L i s = Ok e -> ordinary_config i s -> scan_data e = Ok d -> forall n, has_channel L n -> sget "detector" (lg_data L) = None ->
    shows L d ("detector_" ++ str_of n)%string ("detector_" ++ str_of n)%string false.
  Proof.
    intros L i s e d B OC SD n HC ND pts l P C LN.
    destruct (built_shape float_of int_of repr date_of i s (config_named i s OC) L e B) as (instrument & part & SH & _).
    pose proof (C66_detector_channels _ _ _ _ L i s e B n HC) as H. unfold holds_column in H. rewrite C in H.
    assert (LN' : List.length (map trunc l) = List.length pts) by (rewrite map_length; auto).
    assert (Z : (1 <= n)%Z) by apply HC. change ("detector_" ++ str_of n)%string with (numbered "detector" n) in *. destruct (numbered_free "detector" n (or_introl eq_refl) Z) as (NF & _).
    cbn [List.app] in H. destruct (leaf_component _ _ _ _ _ SH "detector" _ _ ltac:(vm_compute; tauto) NF H) as (v & G & X).
    eapply (shown_component _ _ _ _ _ _ _ _ "detector" _ v); eauto; [vm_compute; tauto| |eapply numbered_find; eauto].
    intros _. assert (IR : In ("detector", "data", false) [("detector", "data", false)]) by (left; auto). assert (IP : In (["instrument"; "detector"], [("detector", "data", false)]) placement) by (do 2 right; left; auto).
    pose proof (C66_columns _ _ _ _ L i s e B _ _ IP _ _ _ IR (unconfigured _ _ _ _ _ _ _ OC IP IR)) as HD. unfold holds_column in HD. rewrite ND in HD. cbn [List.app] in HD.
    rewrite leaf_cons, (sh_instrument _ _ _ _ _ SH), leaf_cons, (sh_component _ _ _ _ _ SH), leaf_cons in HD by (vm_compute; tauto). destruct (sget "data" (part "detector")) as [w|] eqn:E; auto. exfalso.
    apply sget_in in E. destruct (part_flat _ _ _ _ _ SH "detector" ltac:(vm_compute; tauto) _ _ E) as [(Q & _)|(_ & x & a & ->)]; [discriminate|]. discriminate.
  Qed.

  (** The name of the instrument gives no data. *)
  Lemma name_names : forall L instrument n d, (forall v x, sget "name" instrument = Some v -> is_field v x -> exists d, nxdataset float_of int_of repr date_of (meta L "instrument") [tchar] = Ok d /\ v = Dict d) ->
    sget "name" instrument = Some (Dict d) -> (exists x, is_field (Dict d) x) -> forall ns, get_names n d = Ok ns -> ns = [].
  Proof.
    intros L instrument n d NM G (x & X) ns GN. destruct (NM _ _ G X) as (d' & E & Q). injection Q as <-. destruct X as (a & X). injection X as ->.
    assert (A : a = [("type", Leaf (LStr "NX_CHAR"))]). { unfold nxdataset in E. destruct (meta L "instrument") as [| [|] | | | | |]; try discriminate E; apply bind_ok in E; destruct E as (y & _ & E); apply Ok_inj in E; injection E as _ <-; reflexivity. }
    subst a. cbn [get_names] in GN. apply bind_ok in GN. destruct GN as (h & HH & GN). cbn in GN. apply Ok_inj in GN. subst ns. rewrite app_nil_r.
    destruct x; try discriminate; try (apply Ok_inj in HH; auto). destruct (contains "dataset" s); [discriminate|]. apply Ok_inj in HH. auto.
  Qed.
  (** Where the names come from. *)
  Lemma names_spec : forall L i s e d pts, build L i s = Ok e -> ordinary_config i s -> sget "Pt." (lg_data L) = Some pts -> scan_data e = Ok d -> exists instrument part, shape i s e instrument part /\
    forall k, sget k d <> None -> (k = "detector" /\ exists v, sget "data" (part "detector") = Some v) \/
      exists g v x, In g (component_names_ ++ ["monitor"; "sample"]) /\ ~ (g = "detector" /\ dmem String.eqb "data" (part g) = true) /\ In (k, v) (part g) /\ k <> "attrs" /\ is_field v x /\ size_is (List.length pts) x.
  Proof.
    intros L i s e d pts B OC P SD. destruct (built_shape float_of int_of repr date_of i s (config_named i s OC) L e B) as (instrument & part & SH & NM). exists instrument, part. split; auto.
    destruct (scan_names _ _ _ _ _ _ _ _ B OC SH P SD) as (a & b & c & A & Bb & C & _ & K). intros k NK.
    assert (I : In k (a ++ b ++ c)). { destruct (in_dec String.string_dec k (a ++ b ++ c)) as [I|I]; auto. apply K in I. contradiction. }
    clear K NK. assert (GR : forall g ns, In g ["monitor"; "sample"] -> get_names (List.length pts) (part g) = Ok ns -> In k ns ->
      exists g v x, In g (component_names_ ++ ["monitor"; "sample"]) /\ ~ (g = "detector" /\ dmem String.eqb "data" (part g) = true) /\ In (k, v) (part g) /\ k <> "attrs" /\ is_field v x /\ size_is (List.length pts) x).
    { intros g ns IG GN IN. assert (J : In g (component_names_ ++ group_names)) by (cbn in IG; destruct IG as [<-|[<-|[]]]; vm_compute; tauto). apply (get_names_in _ _ _ (part_flat _ _ _ _ _ SH g J) GN) in IN.
      destruct IN as (v & x & IN & NA & X & Z). exists g, v, x. split. { apply in_or_app. auto. } split; auto. intros [-> _]. cbn in IG. destruct IG as [Q|[Q|[]]]; discriminate. }
    rewrite !in_app_iff in I. destruct I as [I|[I|I]].
    - apply (component_names_in _ _ _ A) in I. destruct I as (c0 & d0 & I & NA & Q). pose proof (in_sget _ _ _ (sh_i _ _ _ _ _ SH) I) as G. destruct (sh_below _ _ _ _ _ SH _ _ I NA) as [J|(-> & x & X)].
      + rewrite (sh_component _ _ _ _ _ SH) in G by auto. injection G as <-. destruct Q as [(-> & D & ->)|(ND & ns & GN & IN)].
        * left. split; auto. unfold dmem in D. destruct (sget "data" (part "detector")) as [v|]; [eauto|discriminate].
        * right. assert (J' : In c0 (component_names_ ++ group_names)) by (apply in_or_app; auto). apply (get_names_in _ _ _ (part_flat _ _ _ _ _ SH c0 J') GN) in IN.
          destruct IN as (v & x & IN & NA' & X & Z). exists c0, v, x. split. { apply in_or_app. auto. } split; auto.
      + destruct Q as [(Q & _)|(_ & ns & GN & IN)]; [discriminate|]. rewrite (name_names L instrument _ _ NM G ltac:(eauto) _ GN) in IN. destruct IN.
    - right. eapply GR; [|exact Bb|exact I]. left. auto.
    - right. eapply GR; [|exact C|exact I]. right. left. auto.
  Qed.
  (** with a detector column they are not among the data. *)
  Theorem C67_detectors_refuted : forall L i s e d, build L i s = Ok e -> ordinary_config i s -> scan_data e = Ok d -> has_points L -> forall n, has_channel L n -> forall l, sget "detector" (lg_data L) = Some l ->
    sget ("detector_" ++ str_of n)%string d = None.
  Proof.
    intros L i s e d B OC SD (pts & P) n HC l DC. destruct (names_spec _ _ _ _ _ _ B OC P SD) as (instrument & part & SH & K). assert (Z : (1 <= n)%Z) by apply HC.
    change ("detector_" ++ str_of n)%string with (numbered "detector" n). destruct (sget (numbered "detector" n) d) as [w|] eqn:E; auto. exfalso.
    destruct (numbered_free "detector" n (or_introl eq_refl) Z) as (NF & NH & _ & NS).
    destruct (K (numbered "detector" n)) as [(Q & _)|(g & v & x & IG & ND & I & _)]; [congruence|discriminate Q|]. clear K.
    assert (J : In g all_parts). { unfold all_parts. apply in_app_iff in IG. destruct IG as [IG|IG]; [apply in_or_app; auto|]. cbn in IG. destruct IG as [<-|[<-|[]]]; vm_compute; tauto. }
    destruct (String.string_dec g "detector") as [->|NG].
    - apply ND. split; auto. assert (IR : In ("detector", "data", false) [("detector", "data", false)]) by (left; auto). assert (IP : In (["instrument"; "detector"], [("detector", "data", false)]) placement) by (do 2 right; left; auto).
      pose proof (C66_columns _ _ _ _ L i s e B _ _ IP _ _ _ IR (unconfigured _ _ _ _ _ _ _ OC IP IR)) as HD. unfold holds_column in HD. rewrite DC in HD. cbn [List.app] in HD.
      destruct (leaf_component _ _ _ _ _ SH "detector" "data" _ ltac:(vm_compute; tauto) ltac:(split; discriminate) HD) as (w' & G & _). unfold dmem. rewrite G. auto.
    - assert (LK : sget (numbered "detector" n) (part g) = None); [|apply (in_map fst) in I; cbn [fst] in I; exact (in_some _ _ I LK)].
      eapply lacks; eauto. { left. right. right. exists "detector", n. split; [left|]; auto. } intros [(-> & _)|(-> & w' & z' & Z' & I' & Q)]; [contradiction|]. unfold six in I'. cbn [In] in I'. repeat (destruct I' as [<-|I']; [discriminate Q|]). destruct I'.
  Qed.
  (** Every name in the data is the detector, or names a field of a component, of the monitor or of the sample with as many elements as the scan has points. *)
  Theorem C67_only : forall L i s e d pts, build L i s = Ok e -> ordinary_config i s -> sget "Pt." (lg_data L) = Some pts -> scan_data e = Ok d -> forall k v, sget k d = Some v ->
    k = "detector" \/ exists path x, (In path (map (fun c => ["instrument"; c]) component_names_) \/ path = ["monitor"] \/ path = ["sample"]) /\ leaf_at (path ++ [k; "dataset"]) (Dict e) = Some x /\ size_is (List.length pts) x.
  Proof.
    intros L i s e d pts B OC P SD k v G. destruct (names_spec _ _ _ _ _ _ B OC P SD) as (instrument & part & SH & K). destruct (K k) as [(-> & _)|(g & w & x & IG & _ & I & NA & X & SZ)]; [congruence|auto|]. right.
    pose proof (parts_all g IG) as IA. pose proof (in_sget _ _ _ (part_nodup _ _ _ _ _ SH g IA) I) as GK. destruct X as (a & ->). apply in_app_iff in IG. destruct IG as [IG|IG].
    - exists ["instrument"; g], x. split. { left. apply (in_map (fun c => ["instrument"; c])). auto. } split; auto. cbn [List.app]. rewrite leaf_cons, (sh_instrument _ _ _ _ _ SH), leaf_cons, (sh_component _ _ _ _ _ SH), leaf_cons, GK by auto. reflexivity.
    - exists [g], x. split. { right. cbn in IG. destruct IG as [<-|[<-|[]]]; auto. } split; auto. assert (J : In g group_names) by (cbn in IG; destruct IG as [<-|[<-|[]]]; vm_compute; tauto).
      cbn [List.app]. rewrite leaf_cons, (sh_group _ _ _ _ _ SH), leaf_cons, GK by auto. reflexivity.
  Qed.
  (** The data can be read, unless the name of the instrument has the word dataset in it. *)
  Theorem C67_total : forall L i s e, build L i s = Ok e -> ordinary_config i s -> has_points L -> (forall n, meta L "instrument" = PStr n -> contains "dataset" n = false) -> exists d, scan_data e = Ok d.
  Proof.
    intros L i s e B OC (pts & P) NI. destruct (built_shape float_of int_of repr date_of i s (config_named i s OC) L e B) as (instrument & part & SH & NM).
    unfold scan_data. rewrite (names_eq i s OC e instrument part SH _ (points_found _ _ _ _ _ _ _ B OC SH P)). rewrite map_length. set (n := List.length pts).
    assert (CN : exists a, component_names n instrument = Ok a).
    { assert (A : forall k v, In (k, v) instrument -> k = "attrs" \/ exists d, v = Dict d /\ exists ns, get_names n d = Ok ns).
      { intros k v I. destruct (String.string_dec k "attrs") as [|NA]; auto. right. pose proof (in_sget _ _ _ (sh_i _ _ _ _ _ SH) I) as G. destruct (sh_below _ _ _ _ _ SH _ _ I NA) as [J|(-> & x & X)].
        - rewrite (sh_component _ _ _ _ _ SH) in G by auto. injection G as <-. eexists. split; auto. apply get_names_total. eapply part_flat; eauto. apply in_or_app. auto.
        - destruct (NM _ _ G X) as (d & E & ->). exists d. split; auto. unfold nxdataset in E. destruct (meta L "instrument") as [| [|c0 s0] | | | | |] eqn:M; try (apply Ok_inj in E; subst; eexists; reflexivity); apply bind_ok in E; destruct E as (y & Y & E); apply Ok_inj in E; subst d;
            try (cbn in Y; apply Ok_inj in Y; subst y).
          all: try (exfalso; unfold meta in M; destruct (sget "instrument" (lg_meta L)) as [[[]| |]|]; discriminate).
          all: try (eexists; reflexivity).
          cbn [get_names map fst snd tchar dget String.eqb Ascii.eqb Bool.eqb]. rewrite (NI _ eq_refl). cbn [bind]. eauto. }
      clear - A. induction instrument as [|[k v] l]; cbn [component_names]; eauto. destruct IHl as (r & ->). { intros; apply A; right; auto. }
      destruct (A k v (or_introl eq_refl)) as [->|(d & -> & ns & E)]. { cbn. eauto. } destruct (String.eqb k "attrs"); [cbn; eauto|]. rewrite E. destruct (String.eqb k "detector"); [destruct (dmem _ _ _)|]; cbn [bind]; eauto. }
    destruct CN as (a & A). rewrite A. cbn [bind].
    destruct (get_names_total n (part "monitor")) as (b & Bb). { eapply part_flat; eauto. vm_compute. tauto. } destruct (get_names_total n (part "sample")) as (c & C). { eapply part_flat; eauto. vm_compute. tauto. }
    rewrite Bb, C. cbn [bind]. apply (data_of_total _ _ _ _ _ SH). intros k I.
    assert (ONE : named k -> field_path k false = [k] -> exists v, go (field_path k false) "dataset" (contents e) None = Ok v). { intros NK ->. apply go_groups; auto. eapply contents_groups; eauto. }
    assert (GR : forall g v x, In g parts -> In (k, v) (part g) -> k <> "attrs" -> is_field v x -> exists v, go (field_path k false) "dataset" (contents e) None = Ok v).
    { intros g v x IG IK NA X. pose proof (parts_all g IG) as IA. destruct (sh_keyed _ _ _ _ _ SH g IA) as [[_ ND] K]. destruct (K k (in_map fst _ _ IK)) as [Q|[Q|[Q|Q]]]; [contradiction| | |].
      - destruct (static_ok g k IG Q) as [(-> & ->)|[(-> & ->)|(NK & _ & F)]]; [..|auto]; apply (in_sget _ _ _ ND) in IK; eexists; [change (field_path "monitor" false) with ["monitor"; "monitor"]|change (field_path "sample" false) with ["sample"; "sample"]];
          eapply (find_own i s e instrument part SH); eauto; cbn; auto.
      - destruct Q as [(-> & z & Z & ->)|(-> & w & z & Z & W & ->)].
        + destruct (numbered_free "detector" z (or_introl eq_refl) Z) as (NF & _ & F & _). auto.
        + destruct (numbered_free w z (or_intror W) Z) as (NF & _ & F & _). auto.
      - destruct (OC k Q) as (NF & NA' & ND' & NDE & SL). apply ONE; [split; auto|]. assert (NM1 : k <> "monitor") by (intros ->; apply NF; right; left; exists "monitor"; eexists; vm_compute; eauto). assert (NS : k <> "sample").
        { intros ->. apply NF. left. exists ["sample"]. eexists. exists "sample", true. split; [exact pt_row|]. apply in_or_app. right. vm_compute. tauto. }
        unfold field_path. apply String.eqb_neq in NDE, NM1, NS. rewrite NDE, NM1, NS. apply split_on_one. auto. }
    rewrite !in_app_iff in I. destruct I as [I|[I|I]].
    - apply (component_names_in _ _ _ A) in I. destruct I as (c0 & d0 & I & NA & Q). pose proof (in_sget _ _ _ (sh_i _ _ _ _ _ SH) I) as G. destruct (sh_below _ _ _ _ _ SH _ _ I NA) as [J|(-> & x & X)].
      + rewrite (sh_component _ _ _ _ _ SH) in G by auto. injection G as <-. assert (IA : In c0 all_parts) by (apply in_or_app; auto). destruct Q as [(-> & D & ->)|(ND & ns & GN & IN)].
        * unfold dmem in D. destruct (sget "data" (part "detector")) as [v|] eqn:E; [|discriminate]. destruct (part_flat _ _ _ _ _ SH "detector" IA _ _ (sget_in _ _ _ E)) as [(Q & _)|(_ & x & X)]; [discriminate|].
          change (field_path "detector" false) with ["detector"; "data"]. eexists. eapply find_detector; eauto.
        * apply (get_names_in _ _ _ (part_flat _ _ _ _ _ SH c0 IA) GN) in IN. destruct IN as (v & x & IN & NA' & X & _). eapply (GR c0); eauto. apply in_or_app. auto.
      + destruct Q as [(Q & _)|(_ & ns & GN & IN)]; [discriminate|]. rewrite (name_names L instrument _ _ NM G ltac:(eauto) _ GN) in IN. destruct IN.
    - assert (IA : In "monitor" all_parts) by (vm_compute; tauto). apply (get_names_in _ _ _ (part_flat _ _ _ _ _ SH _ IA) Bb) in I. destruct I as (v & x & IN & NA' & X & _). eapply (GR "monitor"); eauto. vm_compute. tauto.
    - assert (IA : In "sample" all_parts) by (vm_compute; tauto). apply (get_names_in _ _ _ (part_flat _ _ _ _ _ SH _ IA) C) in I. destruct I as (v & x & IN & NA' & X & _). eapply (GR "sample"); eauto. vm_compute. tauto.
  Qed.
  (** A scan without the column of its points has no data. *)
  Theorem C67_points_needed : forall L i s e, build L i s = Ok e -> ordinary_config i s -> sget "Pt." (lg_data L) = None -> scan_data e = Err TypeError.
  Proof.
    intros L i s e B OC P. destruct (built_shape float_of int_of repr date_of i s (config_named i s OC) L e B) as (instrument & part & SH & _).
    assert (IR : In ("Pt.", "Pt.", false) ([("h", "qh", true); ("k", "qk", true); ("l", "ql", true); ("e", "en", true); ("q", "q", true); ("Pt.", "Pt.", false)]
                 ++ same ["temp"; "temp_a"; "temp_2"; "coldtip"; "tsample"; "sample"; "vti"; "dr_tsample"; "dr_temp"; "lt"; "ht"; "sorb_temp"; "sorb"; "sample_ht"; "persistent_field"; "mag_i"])) by (do 5 right; left; auto).
    pose proof (C66_columns _ _ _ _ L i s e B _ _ pt_row _ _ _ IR (unconfigured _ _ _ _ _ _ _ OC pt_row IR)) as H. unfold holds_column in H. rewrite P in H. cbn [List.app] in H.
    assert (T : In ("sample", "Pt.") tables) by (apply (field_in _ _ _ _ _ pt_row IR); discriminate). destruct (tables_ok _ _ T) as [F A]. destruct (free_spec _ F) as (NF & NH & FP & NN). destruct (no_heading _ _ _ _ _ SH _ NH NF) as [NT NI].
    assert (G : go ["Pt."] "dataset" (contents e) None = Ok None).
    { apply (nowhere _ _ _ _ _ SH); auto. intros g J. destruct (String.string_dec g "sample") as [->|NG].
      - rewrite leaf_cons, (sh_group _ _ _ _ _ SH), leaf_cons in H by (vm_compute; tauto). destruct (sget "Pt." (part "sample")) as [w|] eqn:E; auto. exfalso.
        apply sget_in in E. destruct (part_flat _ _ _ _ _ SH "sample" J _ _ E) as [(Q & _)|(_ & x & a & ->)]; [discriminate|]. discriminate.
      - eapply lacks; eauto. { left. left. exists ["sample"]. eexists. exists "Pt.", false. split; [exact pt_row|exact IR]. } eapply alone_spec; eauto. }
    unfold scan_data, get_dataset_names. rewrite (get_eq i s e instrument part SH). rewrite FP, G. reflexivity.
  Qed.
End C67.
Print Assumptions C67_columns_shown.
Print Assumptions C67_counters_shown.
Print Assumptions C67_channels_shown.
Print Assumptions C67_detectors_shown.
Print Assumptions C67_detectors_refuted.
Print Assumptions C67_only.
Print Assumptions C67_total.
Print Assumptions C67_points_needed.

(** ** Examples *)
(** The configuration of the example of C66 is ordinary; *)
Example C67_ordinary_example : ordinary_config ex_config None.
Proof.
  assert (NO : forall k, In k ["mosaic_h"; "curved_h"; "shape"] -> ~ field_name k /\ k <> "attrs" /\ k <> "dataset" /\ k <> "detector" /\ every (fun c => c <> "/"%char) k).
  { intros k I. assert (SL : contains "/" k = false) by (cbn in I; destruct I as [<-|[<-|[<-|[]]]]; reflexivity). apply contains1 in SL. split; [|cbn in I; destruct I as [<-|[<-|[<-|[]]]]; repeat split; try discriminate; auto].
    intros [(part & rows & c & keep & IP & IR)|[(c & keep & IR)|(w & z & W & Z & E)]].
    - assert (T : forallb (fun pr => forallb (fun r => negb (existsb (String.eqb (snd (fst r))) ["mosaic_h"; "curved_h"; "shape"])) (snd pr)) placement = true) by (vm_compute; reflexivity).
      rewrite forallb_forall in T. specialize (T _ IP). rewrite forallb_forall in T. specialize (T _ IR). cbn [fst snd] in T. apply negb_true_iff in T.
      assert (Q : existsb (String.eqb k) ["mosaic_h"; "curved_h"; "shape"] = true); [|congruence]. apply existsb_exists. exists k. split; auto. apply String.eqb_refl.
    - cbn in IR, I. destruct IR as [IR|[IR|[IR|[]]]]; injection IR as _ <- _; destruct I as [Q|[Q|[Q|[]]]]; discriminate.
    - cbn in W, I. repeat (destruct W as [<-|W]; [destruct I as [Q|[Q|[Q|[]]]]; rewrite E in Q; discriminate Q|]). destruct W. }
  intros k [(c & name & d & v & E & G & I)|(d & v & E & _)]; [|discriminate]. injection E as <-. cbn [ex_config dget] in G.
  destruct (String.eqb name "monochromator"). { injection G as <-. apply NO. destruct I as [I|[I|[]]]; injection I as <- _; cbn; auto. }
  destruct (String.eqb name "source"); [|discriminate]. injection G as <-. apply NO. destruct I as [I|[]]; injection I as <- _; cbn; auto.
Qed.
(** its data are its five columns; *)
Example C67_data_example : exists e d, spice_scan_to_nxdict ex_float ex_int ex_repr ex_date ex_logs ex_config None = Ok e /\ scan_data e = Ok d /\ has_points ex_logs /\ ~ by_countfile ex_logs /\
  (forall n, meta ex_logs "instrument" = PStr n -> contains "dataset" n = false) /\
  d = [("detector", Some (Leaf (LArr (map trunc [10; 12; 11]%R)))); ("time", Some (Leaf (LArr [30; 30; 30]%R))); ("monitor", Some (Leaf (LArr (map trunc [100; 101; 99]%R)))); ("en", Some (Leaf (LArr [0; 1; 2]%R))); ("Pt.", Some (Leaf (LArr (map trunc [1; 2; 3]%R))))].
Proof.
  eexists. eexists. split; [cbv -[trunc IZR Q2R]; reflexivity|]. split; [cbv -[trunc IZR Q2R]; reflexivity|]. split; [eexists; reflexivity|]. split; [discriminate|]. split; [discriminate|]. reflexivity.
Qed.
(** a count file gives the columns of its channels; *)
Example C67_channel_example : exists e d, spice_scan_to_nxdict ex_float ex_int ex_repr ex_date ex_count_logs None None = Ok e /\ scan_data e = Ok d /\ has_points ex_count_logs /\ by_countfile ex_count_logs /\ has_channel ex_count_logs 2 /\
  ordinary_config None None /\ sget "detector_2" d = Some (Some (Leaf (LArr (map trunc [7; 8]%R)))) /\ sget "monitor_2" d = Some (Some (Leaf (LArr (map trunc [1000; 1000]%R)))).
Proof.
  eexists. eexists. split; [cbv -[trunc IZR Q2R]; reflexivity|]. split; [cbv -[trunc IZR Q2R]; reflexivity|]. split; [eexists; reflexivity|]. split; [reflexivity|]. split.
  { split; [lia|]. intros j J. assert (j = 1%Z \/ j = 2%Z) as [-> | ->] by lia; eexists; reflexivity. }
  split; [|split; reflexivity]. intros k [(c & name & d & v & E & _)|(d & v & E & _)]; discriminate.
Qed.
(** With six points, as many as there are lattice constants, the unit cell turns up among the data; a column without a place does not. *)
Definition six_logs : logs := Logs ex_meta [("Pt.", [1; 2; 3; 4; 5; 6]%R); ("e", [0; 1; 2; 3; 4; 5]%R); ("hot_stage", [0; 1; 2; 3; 4; 5]%R)].
Theorem C67_data_refuted : exists e d, spice_scan_to_nxdict ex_float ex_int ex_repr ex_date six_logs ex_config None = Ok e /\ scan_data e = Ok d /\
  sget "unit_cell" d = Some (Some (Leaf (LArr [5.5; 5.5; 5.5; 90; 90; 90]%R))) /\ sget "unit_cell" (lg_data six_logs) = None /\ sget "hot_stage" d = None /\ sget "hot_stage" (lg_data six_logs) <> None.
Proof.
  eexists. eexists. split; [cbv -[trunc IZR Q2R]; reflexivity|]. split; [cbv -[trunc IZR Q2R]; reflexivity|]. repeat split; try reflexivity. discriminate.
Qed.
Print Assumptions C67_data_refuted.
