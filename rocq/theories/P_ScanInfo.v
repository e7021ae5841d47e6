(** Property C72: loading one scan, and what a scan says about itself. *)
From Coq Require Import Reals List ZArith String Ascii Bool Lia Sorted DecimalString.
From Verif Require Import Base PyStr PySort L_Sort S_Str L_Str LinAlg L_LinAlg M_UB M_ScanData M_Spice M_Project M_Tavi P_Tavi M_Nexus P_Nexus L_NexusFile M_Builder L_Builder P_Builder P_Builder2 P_Builder3 P_Builder4 P_Builder5 P_Builder6
  L_ScanFields P_Folder P_ScanFields M_ScanInfo L_ScanInfo.
Import ListNotations.
Open Scope string_scope.
Open Scope list_scope.

(** * Specification *)
(** The configuration files do not use the names a scan looks for elsewhere. *)
Definition plain_config (i : option config) (s : option (dict string pv)) : Prop :=
  ordinary_config i s /\ forall k, config_key i s k -> ~ In k ["monochromator"; "analyser"; "goniometer"; "preset_type"; "divergence_x"; "title"; "start_time"; "end_time"].
(** The last file of a folder, by name. *)
Definition last_file (listing : list string) (scan_num : option Z) (f : string) : Prop :=
  data_file listing scan_num f /\ forall g, data_file listing scan_num g -> String.leb g f = true.
(** What a scan shows for a text of the file: nothing if it is empty or missing. *)
Definition shows_text (L : logs) (k : string) (o : option val) : Prop :=
  (forall t, header L k = Some t -> o = if String.eqb t "" then None else Some (Leaf (LStr t))) /\ (sget k (lg_meta L) = None -> o = None).

(** * One scan *)
Lemma new_scan_name : forall name e c, new_scan name e = Ok c -> sn_name c = name.
Proof.
  intros name e c H. unfold new_scan in H. destruct (get_dataset_names e) as [e' r]. apply bind_ok in H. destruct H as (names & _ & H). apply bind_ok in H. destruct H as (d & _ & H). apply Ok_inj in H. subst. reflexivity.
Qed.
Section Load.
  Variable float_of : string -> option R.
  Variable int_of : string -> option Z.
  Variable repr : pv -> string.
  Variable date_of : string -> option string.
  Variable genfromtxt : list string -> result (list (list num)).
  Variable xml_matrix : string -> option (option string).
  Notation scan_file := (scan_file float_of int_of repr date_of genfromtxt xml_matrix).
  Notation convert := (convert float_of int_of repr date_of genfromtxt xml_matrix).
  Notation spice_data_to_nxdict := (spice_data_to_nxdict float_of int_of repr date_of genfromtxt xml_matrix).
  Notation from_spice := (from_spice float_of int_of repr date_of genfromtxt xml_matrix).
  Notation scan_from_spice := (scan_from_spice float_of int_of repr date_of genfromtxt xml_matrix).
  Notation build := (spice_scan_to_nxdict float_of int_of repr date_of).
  Notation read := (read_spice_datafile float_of genfromtxt).

  Lemma from_spice_inv : forall fs folder listing n i s d, from_spice fs folder listing n i s = Ok d -> spice_data_to_nxdict fs (folder ++ ["Datafiles"]) listing n i s = Ok d.
  Proof using.
    intros fs folder listing n i s d H. unfold M_Builder.from_spice in H. destruct (negb (is_dir fs folder)). { destruct (is_file fs folder); discriminate. }
    destruct (negb _); [discriminate|auto].
  Qed.
  (** A scan that loads comes from the one file of its number, under the name of the scan, marked with the experiment of that file; *)
  Theorem C72_one_file : forall fs folder listing n i s c, scan_from_spice fs folder listing n i s = Ok c -> NoDup listing -> one_file_per_scan listing (Some n) ->
    exists f instrument exp scan sf e e',
      (forall g, data_file listing (Some n) g <-> g = f) /\ scan_of f (sn_name c) /\ pieces "_"%char f [instrument; exp; scan] /\
      read fs ((folder ++ ["Datafiles"]) ++ [f]) = Ok sf /\ scan_file fs ((folder ++ ["Datafiles"]) ++ [f]) i s = Ok e /\
      let proposal := match mget "proposal" (sf_metadata sf) with Some (MStr p) => p | Some _ => "" | None => "UNKNOWN" end in
      marked ("IPTS" ++ proposal ++ "_" ++ instrument ++ "_" ++ exp)%string e e' /\ new_scan (sn_name c) e' = Ok c.
  Proof using.
    intros fs folder listing n i s c H ND U. unfold M_ScanInfo.scan_from_spice in H. apply bind_ok in H. destruct H as (d & FS & H). apply bind_ok in H. destruct H as ([k e'] & O & H). cbn [fst snd] in H.
    apply from_spice_inv in FS. destruct d as [|x [|]]; try discriminate. cbn in O. apply Ok_inj in O. subst x.
    destruct (C67_folder _ _ _ _ _ _ _ _ _ _ _ _ _ FS ND U) as (files & first & instrument & exp & scan & sf & IN & NF & SS & FF & P & RD & F). cbv zeta in F.
    inversion F as [|f ? files' ? FX F']; subst. inversion F'; subst. cbn [fst snd] in FX. destruct FX as (SO & e & SF & MK).
    assert (f = first). { apply proj1 in FF. apply IN in FF. destruct FF as [->|[]]. auto. } subst first.
    pose proof (new_scan_name _ _ _ H) as NM. rewrite NM.
    exists f, instrument, exp, scan, sf, e, e'. split; [|auto 10]. intros g. rewrite <- IN. cbn. intuition.
  Qed.
  Lemma scan_file_built : forall fs p i s e, scan_file fs p i s = Ok e -> exists L, build L i s = Ok e.
  Proof using. intros fs p i s e H. unfold M_Builder.scan_file in H. apply bind_ok in H. destruct H as (sl & _ & H). apply bind_ok in H. destruct H as (L & _ & H). eauto. Qed.
  (** in a folder of files with standard names, it is the scan of the number asked for. *)
  Theorem C72_standard : forall fs folder listing n i s c instrument exp, scan_from_spice fs folder listing n i s = Ok c -> NoDup listing -> (0 <= n)%Z ->
    every (fun c => c <> "_"%char) instrument -> every (fun c => c <> "_"%char) exp ->
    (forall f, data_file listing (Some n) f -> exists m, (0 <= m)%Z /\ f = standard_name instrument exp m) ->
    data_file listing (Some n) (standard_name instrument exp n) /\ (forall g, data_file listing (Some n) g -> g = standard_name instrument exp n) /\ sn_name c = scan_name n.
  Proof using.
    intros fs folder listing n i s c instrument exp H ND N A B ST.
    destruct (C72_one_file _ _ _ _ _ _ _ H ND (C67_standard_folder _ _ _ _ A B ST)) as (f & ins & ex & sc & sf & e & e' & ONE & SO & _).
    assert (DF : data_file listing (Some n) f) by (apply ONE; auto). destruct (ST f DF) as (m & M & ->). pose proof (C67_one_scan _ _ _ _ _ N M DF). subst m.
    split; auto. split. { intros g G. apply ONE. auto. } apply C67_scan_name in SO; auto.
  Qed.
  Lemma convert_keys : forall fs dir name i s names acc d, convert fs dir name i s names acc = Ok d ->
    (forall k, In k (dkeys acc) -> In k (dkeys d)) /\ forall f, In f names -> exists key, scan_of f key /\ In key (dkeys d).
  Proof using.
    intros fs dir name i s. induction names as [|f names IH]; intros acc d H; cbn [M_Builder.convert] in H. { apply Ok_inj in H. subst. split; [auto|intros f []]. }
    destruct (split_on "_"%char f) as [|a [|b [|c r]]] eqn:SP; try discriminate. apply bind_ok in H. destruct H as (e & _ & H). apply bind_ok in H. destruct H as (at_ & _ & H). cbv zeta in H.
    destruct (IH _ _ H) as [K1 K2]. split.
    - intros k I. apply K1. unfold dkeys. rewrite sset_keys. auto.
    - intros g [->|I]; [|auto]. eexists. split; [eapply scan_split; eauto|]. apply K1. unfold dkeys. rewrite sset_keys. auto.
  Qed.
  (** If two data files of the number stand for different scans the scan does not load: *)
  Theorem C72_ambiguous : forall fs folder listing n i s f g k k' d, from_spice fs folder listing (Some n) i s = Ok d ->
    data_file listing (Some n) f -> data_file listing (Some n) g -> scan_of f k -> scan_of g k' -> k <> k' -> scan_from_spice fs folder listing n i s = Err ValueError.
  Proof using.
    intros fs folder listing n i s f g k k' d FS DF DG SF SG NE. unfold M_ScanInfo.scan_from_spice. rewrite FS. cbn [bind].
    apply from_spice_inv in FS. unfold M_Builder.spice_data_to_nxdict in FS. cbv zeta in FS. fold (name_end (Some n)) in FS. apply data_files in DF. apply data_files in DG.
    destruct (sort (filter (ends_str (name_end (Some n))) listing)) as [|first files] eqn:FL; [discriminate|]. apply bind_ok in FS. destruct FS as (sf & _ & FS).
    destruct (split_on "_"%char first) as [|a [|b [|c0 [|]]]]; try discriminate. apply convert_keys in FS. destruct FS as [_ K].
    destruct (K f DF) as (k1 & S1 & I1). destruct (K g DG) as (k2 & S2 & I2). rewrite (scan_unique _ _ _ S1 SF) in I1. rewrite (scan_unique _ _ _ S2 SG) in I2.
    destruct d as [|[x ex] [|y d]]; try reflexivity. exfalso. cbn in I1, I2. destruct I1 as [<-|[]]. destruct I2 as [<-|[]]. auto.
  Qed.
  Lemma convert_last : forall fs dir name i s key names acc d, (forall f, In f names -> scan_of f key) -> (acc = [] \/ exists e, acc = [(key, e)]) -> convert fs dir name i s names acc = Ok d ->
    (names = [] /\ d = acc) \/ exists g e e', (exists l, names = l ++ [g]) /\ scan_file fs (dir ++ [g]) i s = Ok e /\ marked name e e' /\ d = [(key, e')].
  Proof using.
    intros fs dir name i s key. induction names as [|f names IH]; intros acc d A AC H; cbn [M_Builder.convert] in H. { apply Ok_inj in H. auto. }
    right. destruct (split_on "_"%char f) as [|a [|b [|c r]]] eqn:SP; try discriminate. apply bind_ok in H. destruct H as (e & SF & H). apply bind_ok in H. destruct H as (at_ & AT & H). cbv zeta in H.
    destruct (sget "attrs" e) as [[|at']|] eqn:G; try discriminate. apply Ok_inj in AT. subst at'.
    pose proof (scan_unique _ _ _ (scan_split _ _ _ _ _ SP) (A f (or_introl eq_refl))) as K. rewrite K in H. apply IH in H; [|intros; apply A; right; auto|].
    - destruct H as [(-> & ->)|(g & e1 & e1' & (l & ->) & SF1 & MK1 & ->)].
      + exists f, e. eexists. split; [exists []; reflexivity|]. split; [auto|]. split; [apply mark; eauto|]. destruct AC as [-> | (e0 & ->)]; cbn; rewrite ?String.eqb_refl; reflexivity.
      + exists g, e1, e1'. split; [exists (f :: l); reflexivity|auto].
    - right. destruct AC as [-> | (e0 & ->)]; cbn; rewrite ?String.eqb_refl; eauto.
  Qed.
  (** if they stand for the same scan, the last of them is loaded, silently, and marked with the experiment of the first. *)
  Theorem C72_last_file_refuted : forall fs folder listing n i s c key f g, scan_from_spice fs folder listing n i s = Ok c ->
    (forall h, data_file listing (Some n) h -> scan_of h key) -> first_file listing (Some n) f -> last_file listing (Some n) g ->
    exists instrument exp scan sf e e', pieces "_"%char f [instrument; exp; scan] /\ read fs ((folder ++ ["Datafiles"]) ++ [f]) = Ok sf /\
      scan_file fs ((folder ++ ["Datafiles"]) ++ [g]) i s = Ok e /\
      let proposal := match mget "proposal" (sf_metadata sf) with Some (MStr p) => p | Some _ => "" | None => "UNKNOWN" end in
      marked ("IPTS" ++ proposal ++ "_" ++ instrument ++ "_" ++ exp)%string e e' /\ new_scan key e' = Ok c.
  Proof using.
    intros fs folder listing n i s c key f g H A FF LF. unfold M_ScanInfo.scan_from_spice in H. apply bind_ok in H. destruct H as (d & FS & H).
    apply from_spice_inv in FS. unfold M_Builder.spice_data_to_nxdict in FS. cbv zeta in FS. fold (name_end (Some n)) in FS.
    set (files := sort (filter (ends_str (name_end (Some n))) listing)) in *.
    assert (IN : forall f, In f files <-> data_file listing (Some n) f) by apply data_files. assert (SS : StronglySorted sle files) by apply sort_sorted. clearbody files.
    destruct files as [|f0 fl]; [discriminate|].
    assert (f0 = f). { apply sle_antisym; [|apply (proj2 FF), IN; left; auto]. pose proof (proj1 FF) as DF. apply IN in DF. destruct DF as [->|DF]; [apply sle_refl|].
      inversion SS as [|? ? _ FA]; subst. rewrite Forall_forall in FA. apply FA. auto. } subst f0.
    apply bind_ok in FS. destruct FS as (sf & RD & FS). destruct (split_on "_"%char f) as [|instrument [|exp [|scan [|]]]] eqn:SP; try discriminate.
    apply (convert_last _ _ _ _ _ key) in FS; [|intros h I; apply A, IN; auto|auto]. destruct FS as [(E & _)|(g' & e & e' & (l & E) & SF & MK & ->)]; [discriminate|]. rewrite E in *.
    assert (g' = g). { apply sle_antisym; [apply (proj2 LF), IN; apply in_or_app; right; left; auto|]. pose proof (proj1 LF) as DG. apply IN in DG. clear - SS DG.
      induction l as [|a l]; cbn in *. { destruct DG as [->|[]]. apply sle_refl. } inversion SS as [|? ? SS' FA]; subst. destruct DG as [->|DG]; [|auto]. rewrite Forall_forall in FA. apply FA. apply in_or_app. right. left. auto. }
    subst g'. cbn in H. exists instrument, exp, scan, sf, e, e'. split; [apply pieces_iff; auto|]. auto 10.
  Qed.
End Load.
Print Assumptions C72_one_file.
Print Assumptions C72_standard.
Print Assumptions C72_ambiguous.
Print Assumptions C72_last_file_refuted.
