(** Property C76: a folder of SPICE files turned into NeXus files. *)
From Coq Require Import Reals List ZArith String Ascii Bool Lia Lra Sorted.
From Verif Require Import Base PyStr PySort L_Sort S_Str L_Str M_ScanData M_Spice P_Spice2 M_Project M_Tavi P_Tavi M_Nexus P_Nexus L_NexusFile L_NexusLinks P_NexusFile M_Builder L_Builder P_Builder P_Builder2 P_Builder3 P_Builder4 P_Builder5 P_Builder6
  L_ScanFields P_Folder P_ScanFields M_ScanInfo L_ScanInfo P_ScanInfo P_ScanInfo2 S_Save P_Save M_Convert S_Convert L_Convert L_Convert2.
Import ListNotations.
Open Scope string_scope.
Open Scope list_scope.

(** * Writing *)
Definition file_of (folder k : string) : string := (folder ++ k ++ ".h5")%string.
Lemma append_cancel : forall a b c, (a ++ b = a ++ c)%string -> b = c.
Proof. induction a; cbn; intros b c H; auto. injection H as H. auto. Qed.
Lemma append_tail : forall b c t, (b ++ t = c ++ t)%string -> b = c.
Proof.
  assert (LA : forall x y, String.length (x ++ y)%string = (String.length x + String.length y)%nat) by (induction x; intros; cbn; auto).
  induction b as [|x b IH]; intros [|y c] t H; cbn in H; auto.
  - apply (f_equal String.length) in H. cbn in H. rewrite LA in H. lia.
  - apply (f_equal String.length) in H. cbn in H. rewrite LA in H. lia.
  - injection H as -> H. f_equal. eauto.
Qed.
Lemma file_inj : forall folder k k', file_of folder k = file_of folder k' -> k = k'.
Proof. intros folder k k' H. unfold file_of in H. apply append_cancel in H. eapply append_tail; eauto. Qed.
Lemma written : forall folder stamp scans d, NoDup (map fst scans) -> (forall k e, In (k, e) scans -> storable e) -> (forall k, In k (map fst scans) -> sget (file_of folder k) d = None) ->
  exists d', write_scans folder stamp scans d = (d', Ok tt) /\
    (forall k e, In (k, e) scans -> exists root, to_nexus [k] e (stamp (file_of folder k)) (HGroup [] []) = Ok root /\ sget (file_of folder k) d' = Some root) /\
    (forall p, (forall k, In k (map fst scans) -> p <> file_of folder k) -> sget p d' = sget p d).
Proof.
  intros folder stamp. induction scans as [|[k e] scans IH]; intros d N ST FR. { exists d. split; [reflexivity|]. split; [intros k e []|auto]. }
  cbn [map fst] in N. inversion N as [|? ? NK N']; subst. destruct (save_read (fun _ => "") k e (stamp (file_of folder k)) (ST k e (or_introl eq_refl))) as (root & _ & W & _).
  cbn [write_scans]. cbv zeta. fold (file_of folder k). unfold opened. rewrite (FR k (or_introl eq_refl)), W.
  destruct (IH (sset (file_of folder k) root d) N') as (d' & E & WR & OT).
  - intros k' e' I. apply (ST k' e'). right. auto.
  - intros k' I. rewrite sget_sset_ne. { apply FR. right. auto. } intros Q. apply file_inj in Q. subst. auto.
  - exists d'. split; auto. split.
    + intros k' e' [X|I]; [|eauto]. injection X as <- <-. exists root. split; auto. rewrite OT. { apply sget_sset_eq. } intros k' I Q. apply file_inj in Q. subst. auto.
    + intros p NP. rewrite OT. { apply sget_sset_ne. apply (NP k). left. auto. } intros k' I. apply NP. right. auto.
Qed.
Lemma target_of : forall spice given name folder, nexus_folder spice given name = folder <-> target spice given name folder.
Proof.
  assert (CC : forall l x y, l <> [] -> String.concat x (l ++ [y]) = (String.concat x l ++ x ++ y)%string).
  { induction l as [|a l IH]; intros x y N; [contradiction|]. destruct l as [|b l]; [reflexivity|]. change (String.concat x ((a :: b :: l) ++ [y])) with (a ++ x ++ String.concat x ((b :: l) ++ [y]))%string.
    change (String.concat x (a :: b :: l)) with (a ++ x ++ String.concat x (b :: l))%string. rewrite IH by discriminate. rewrite !sapp_assoc. reflexivity. }
  assert (FW : forall spice given name folder, target spice given name folder -> nexus_folder spice given name = folder).
  { intros spice given name folder []; subst; unfold nexus_folder; auto.
    - change (parent ++ "/" ++ last)%string with (parent ++ String "/" last)%string. rewrite split_on_app2. match goal with H : slash_free last |- _ => rewrite (split_on_one _ _ H) end. rewrite removelast_last. rewrite CC by apply split_on_ne.
      rewrite split_on_concat. reflexivity.
    - match goal with H : slash_free spice |- _ => rewrite (split_on_one _ _ H) end. reflexivity. }
  intros spice given name folder. split; [|apply FW]. intros <-. destruct given as [g|]; [constructor; auto|].
  destruct (exists_last (split_on_ne "/"%char spice)) as (init & lst & Q). pose proof (split_on_clean "/"%char spice) as CL. rewrite Q in CL. apply Forall_app in CL. destruct CL as [_ CL]. inversion CL as [|? ? SF _]; subst.
  destruct init as [|i0 init].
  - pose proof (split_on_concat "/"%char spice) as SC. rewrite Q in SC. cbn in SC. subst lst. replace (nexus_folder spice None name) with (name ++ "/")%string by (unfold nexus_folder; rewrite Q; reflexivity). apply T_here; auto.
  - pose proof (split_on_concat "/"%char spice) as SC. rewrite Q, CC in SC by discriminate. set (parent := String.concat (String "/" "") (i0 :: init)) in *. symmetry in SC. assert (TB : target spice None name (parent ++ "/" ++ name ++ "/")) by (eapply T_beside; eauto).
    rewrite (FW _ _ _ _ TB). exact TB.
Qed.

Section C76.
  Variable float_of : string -> option R.
  Variable int_of : string -> option Z.
  Variable repr : pv -> string.
  Variable date_of : string -> option string.
  Variable genfromtxt : list string -> result (list (list num)).
  Variable xml_matrix : string -> option (option string).
  Notation build := (spice_scan_to_nxdict float_of int_of repr date_of).
  Notation from_spice := (from_spice float_of int_of repr date_of genfromtxt xml_matrix).
  Notation logs_at := (logs_at float_of int_of genfromtxt xml_matrix).
  Notation data_set := (data_set float_of genfromtxt).
  Notation convert_spice_to_nexus := (convert_spice_to_nexus float_of int_of repr date_of genfromtxt xml_matrix).

  (** The data files of the folder can be converted: plain names, and something to plot. *)
  Definition fit_files (fs : files) (folder : path) (listing : list string) (i : option config) (s : option (dict string pv)) : Prop :=
    plain_config i s /\ simple_config i s /\ forall f L, data_file listing None f -> logs_at fs ((folder ++ ["Datafiles"]) ++ [f]) L -> plain_names L /\ says_axes L i s.

  Lemma convert_ne : forall fs dir name i s names acc d, convert float_of int_of repr date_of genfromtxt xml_matrix fs dir name i s names acc = Ok d -> acc <> [] \/ names <> [] -> d <> [].
  Proof.
    intros fs dir name i s. induction names as [|f names IH]; intros acc d H N; cbn [M_Builder.convert] in H. { apply Ok_inj in H. subst d. destruct N; auto. }
    destruct (split_on "_"%char f) as [|a [|b [|c r]]]; try discriminate. apply bind_ok in H. destruct H as (e & _ & H). apply bind_ok in H. destruct H as (at_ & _ & H). cbv zeta in H. apply (IH _ _ H). left.
    destruct acc as [|[k v] acc]; [discriminate|]. cbn [dset]. destruct (String.eqb _ k); discriminate.
  Qed.
  Lemma from_origin : forall fs folder listing i s scans, from_spice fs folder listing None i s = Ok scans -> exists name, data_set fs folder listing name /\ NoDup (map fst scans) /\ scans <> [] /\
    forall k v, In (k, v) scans -> exists f L e a, data_file listing None f /\ scan_of f k /\ logs_at fs ((folder ++ ["Datafiles"]) ++ [f]) L /\ build L i s = Ok e /\ sget "attrs" e = Some (Dict a) /\ v = stamped name a e.
  Proof.
    intros fs folder listing i s scans H. unfold M_Builder.from_spice in H. destruct (is_dir fs folder); [|destruct (is_file fs folder); discriminate]. destruct (is_dir fs (folder ++ ["Datafiles"])); [|discriminate]. cbn [negb] in H.
    unfold spice_data_to_nxdict in H. change ".dat" with (name_end None) in H. destruct (sort (filter (ends_str (name_end None)) listing)) as [|first rest] eqn:FL; [discriminate|]. cbv zeta in H.
    apply bind_ok in H. destruct H as (sf & RS & H). destruct (split_on "_"%char first) as [|a [|b [|c [|]]]] eqn:SP; try discriminate.
    set (name := ("IPTS" ++ _)%string) in H. exists name. split; [|split; [|split]].
    - exists first, a, b, c, sf. split; [|split; [apply pieces_iff; auto|split; auto]].
      assert (IN : forall f, In f (first :: rest) <-> data_file listing None f) by (rewrite <- FL; apply data_files). assert (SS : StronglySorted sle (first :: rest)) by (rewrite <- FL; apply sort_sorted).
      split; [apply IN; left; auto|]. intros g G. apply IN in G. destruct G as [<-|G]. { apply sle_refl. } inversion SS as [|? ? _ FA]; subst. rewrite Forall_forall in FA. apply FA. auto.
    - apply (convert_origin _ _ _ _ _ _ _ _ _ _ _ (first :: rest) _ _ _ (incl_refl _) H); [intros k v []|constructor].
    - eapply convert_ne; [exact H|right; discriminate].
    - intros k v I. destruct (convert_origin _ _ _ _ _ _ _ _ _ _ _ (first :: rest) _ _ _ (incl_refl _) H) as [_ O]; [intros ? ? []|constructor|]. destruct (O k v I) as (f & e & at_ & J & SO & SF & GA & ->).
      apply scan_file_logs in SF. destruct SF as (L & LA & B). exists f, L, e, at_. split; [|auto]. rewrite <- FL in J. apply data_files. exact J.
  Qed.
  (** ** One file per scan *)
  (** The scan read from a file answers like the scan it was written from. *)
  Definition same_scan (show : list string -> string) (L : logs) (c c' : scan) : Prop :=
    sn_name c' = sn_name c /\ (forall q, kept_name L q -> sget q (sn_data c') = sget q (sn_data c)) /\
    (forall n, scan_info int_of c = Ok n -> scan_info int_of c' = Ok (info_after show n)) /\
    (forall n, sample_ub_info c = Ok n -> sample_ub_info c' = Ok (sample_after show n)) /\
    (forall n, instrument_info c = Ok n -> instrument_info c' = Ok (instrument_after show n)).
  Lemma origin_entire : forall fs folder listing i s scans name k v f L e a, fit_files fs folder listing i s -> from_spice fs folder listing None i s = Ok scans -> data_file listing None f -> logs_at fs ((folder ++ ["Datafiles"]) ++ [f]) L ->
    build L i s = Ok e -> sget "attrs" e = Some (Dict a) -> v = stamped name a e -> In (k, v) scans -> says_axes L i s /\ marked name e v /\ exists instrument part spice da, entire i s L v instrument part spice da.
  Proof.
    intros fs folder listing i s scans name k v f L e a ((OC & _) & SC & FF) _ DF LA B GA -> _. destruct (FF f L DF LA) as [PN SA].
    destruct (built_entire float_of int_of repr date_of i s OC SC L (plain_of float_of int_of date_of genfromtxt xml_matrix _ _ _ LA PN) e B) as (instrument & part & spice & da & EN).
    destruct (marked_entire _ _ _ _ _ _ _ _ name a EN GA) as [MK EN']. split; auto. split; auto. exists instrument, part, spice, da. exact EN'.
  Qed.
  Theorem C76_written : forall show fs spice listing given i s stamp d scans, from_spice fs (path_of spice) listing None i s = Ok scans -> fit_files fs (path_of spice) listing i s ->
    (forall p, sget p d = None) \/ (forall name folder k, data_set fs (path_of spice) listing name -> target spice given name folder -> In k (map fst scans) -> sget (folder ++ k ++ ".h5")%string d = None) ->
    (forall l, show l <> "crystal") ->
    exists name folder d', data_set fs (path_of spice) listing name /\ target spice given name folder /\ convert_spice_to_nexus fs spice listing given i s stamp d = (d', Ok tt) /\
      (forall k e, In (k, e) scans -> exists f L root, data_file listing None f /\ scan_of f k /\ logs_at fs ((path_of spice ++ ["Datafiles"]) ++ [f]) L /\ sget (folder ++ k ++ ".h5")%string d' = Some root /\
         forall c, new_scan k e = Ok c -> exists c', scan_from_nexus show root None = Ok c' /\ same_scan show L c c') /\
      (forall p, (forall k, In k (map fst scans) -> p <> (folder ++ k ++ ".h5")%string) -> sget p d' = sget p d).
  Proof.
    intros show fs spice listing given i s stamp d scans FS FF FR SH. destruct (from_origin _ _ _ _ _ _ FS) as (name & DS & ND & NE & OR).
    set (folder := nexus_folder spice given name). assert (TG : target spice given name folder) by (apply target_of; reflexivity). exists name, folder.
    assert (FR' : forall k, In k (map fst scans) -> sget (file_of folder k) d = None) by (intros k I; destruct FR as [FR|FR]; [apply FR|eapply FR; eauto]).
    destruct (written folder stamp scans d ND) as (d' & W & WR & OT); auto.
    - intros k v I. destruct (OR k v I) as (f & L & e & a & DF & SO & LA & B & GA & Q). destruct (origin_entire _ _ _ _ _ _ _ _ _ _ _ _ _ FF FS DF LA B GA Q I) as (SA & _ & instrument & part & spice0 & da & EN). eapply built_storable; eauto.
    - exists d'. split; auto. split; auto. split; [|split; [|exact OT]].
      + unfold M_Convert.convert_spice_to_nexus. rewrite FS. destruct scans as [|[k0 v0] rest]; [contradiction|].
        destruct (OR k0 v0 (or_introl eq_refl)) as (f & L & e & a & _ & _ & _ & _ & _ & ->). assert (DN : dataset_name (stamped name a e) = Ok name). { unfold dataset_name, stamped. rewrite sget_sset_eq. rewrite sget_sset_eq. reflexivity. } rewrite DN. exact W.
      + intros k v I. destruct (OR k v I) as (f & L & e & a & DF & SO & LA & B & GA & Q). destruct (origin_entire _ _ _ _ _ _ _ _ _ _ _ _ _ FF FS DF LA B GA Q I) as (SA & _ & instrument & part & spice0 & da & EN).
        destruct (WR k v I) as (root & TN & GR). exists f, L, root. split; auto. split; auto. split; auto. split; [exact GR|].
        intros c NS. assert (SDT : sget "data" v <> None) by (rewrite (en_data _ _ _ _ _ _ _ _ EN); discriminate).
        destruct (C73_scan show int_of k v (stamp (file_of folder k)) c (built_storable _ _ _ _ _ _ _ _ EN SA) (built_scannable _ _ _ _ _ _ _ _ EN show) SDT SH NS) as (root' & c' & TN' & SN & N1 & N2 & N3 & N4 & N5).
        assert (root' = root) by congruence. subst root'. exists c'. split; auto. split; [auto|]. split; [|auto]. intros q [K1 K2]. apply N2. eapply built_solid; eauto.
  Qed.

  (** ** The columns of a SPICE file in the scan read from the NeXus file *)
  Lemma kept_placement : forall L part rows c f keep, In (part, rows) placement -> In (c, f, keep) rows -> kept_name L (shown f).
  Proof.
    assert (T : forallb (fun pr => forallb (fun r => let '(c, f, keep) := r in negb (existsb (String.eqb (shown f)) ["instrument"; "collimator"; "divergence_x"; "divergence_y"; "user"; "name"; "countfile"; "monitor"])) (snd pr)) placement = true) by (vm_compute; reflexivity).
    intros L part rows c f keep I J. rewrite forallb_forall in T. specialize (T _ I). cbn [snd] in T. rewrite forallb_forall in T. specialize (T _ J). cbn beta iota in T. apply negb_true_iff in T.
    assert (N : ~ In (shown f) ["instrument"; "collimator"; "divergence_x"; "divergence_y"; "user"; "name"; "countfile"; "monitor"]).
    { intros K. assert (X : existsb (String.eqb (shown f)) ["instrument"; "collimator"; "divergence_x"; "divergence_y"; "user"; "name"; "countfile"; "monitor"] = true) by (apply existsb_exists; exists (shown f); split; [auto|apply String.eqb_refl]). congruence. }
    split; [intros K; apply N; cbn in K |- *; tauto|]. intros Q. exfalso. apply N. rewrite Q. cbn. tauto.
  Qed.
  Theorem C76_columns : forall show fs spice listing given i s stamp d scans, from_spice fs (path_of spice) listing None i s = Ok scans -> fit_files fs (path_of spice) listing i s ->
    (forall p, sget p d = None) -> (forall l, show l <> "crystal") -> NoDup listing -> one_file_per_scan listing None ->
    exists name folder d', data_set fs (path_of spice) listing name /\ target spice given name folder /\ convert_spice_to_nexus fs spice listing given i s stamp d = (d', Ok tt) /\
      forall f k L, data_file listing None f -> scan_of f k -> logs_at fs ((path_of spice ++ ["Datafiles"]) ++ [f]) L -> has_points L -> (forall n, meta L "instrument" = PStr n -> contains "dataset" n = false) ->
        exists root c, sget (folder ++ k ++ ".h5")%string d' = Some root /\ scan_from_nexus show root None = Ok c /\ sn_name c = k /\
          (forall part rows col f0 keep, In (part, rows) placement -> In (col, f0, keep) rows -> shows L (sn_data c) col (shown f0) keep) /\
          (~ by_countfile L -> forall col f0 keep, In (col, f0, keep) counting -> shows L (sn_data c) col f0 keep) /\
          (by_countfile L -> forall n, has_channel L n -> forall col f0 keep, In (col, f0, keep) counting -> shows L (sn_data c) (col ++ "_" ++ str_of n)%string (f0 ++ "_" ++ str_of n)%string keep) /\
          (forall n, has_channel L n -> sget "detector" (lg_data L) = None -> shows L (sn_data c) ("detector_" ++ str_of n)%string ("detector_" ++ str_of n)%string false).
  Proof.
    intros show fs spice listing given i s stamp d scans FS FF FR SH NDL ONE. destruct (C76_written show fs spice listing given i s stamp d scans FS FF (or_introl FR) SH) as (name & folder & d' & DS & TG & CV & WR & _).
    exists name, folder, d'. split; auto. split; auto. split; auto. intros f k L DF SO LA HP IN.
    assert (X : exists v, In (k, v) scans).
    { pose proof FS as FS'. unfold M_Builder.from_spice in FS'. destruct (is_dir fs (path_of spice)); [|destruct (is_file fs (path_of spice)); discriminate]. destruct (is_dir fs (path_of spice ++ ["Datafiles"])); [|discriminate]. cbn [negb] in FS'.
      destruct (C67_folder _ _ _ _ _ _ _ _ _ _ _ _ _ FS' NDL ONE) as (files & first & instrument & exp & scan & sf & IF & _ & _ & _ & _ & _ & F2). cbv zeta in F2. apply IF in DF. clear - F2 DF SO. induction F2 as [|g [k0 v] files scans [SG _] F2 IH]; [destruct DF|].
      destruct DF as [->|DF]. - exists v. left. cbn [fst] in SG. f_equal. destruct (scan_split_inv _ _ SO) as (? & ? & ? & ? & Q1 & ->). destruct (scan_split_inv _ _ SG) as (? & ? & ? & ? & Q2 & ->). congruence.
      - destruct (IH DF) as (w & J). exists w. right. auto. }
    destruct X as (v & I). destruct (WR k v I) as (f' & L' & root & DF' & SO' & LA' & GR & RD). assert (f' = f) by (apply (ONE f' f k); auto). subst f'. assert (L' = L) by (eapply logs_once; eauto). subst L'.
    destruct (from_origin _ _ _ _ _ _ FS) as (name0 & _ & _ & _ & OR). destruct (OR k v I) as (f'' & L'' & e & a & DF'' & SO'' & LA'' & B & GA & Q). assert (f'' = f) by (apply (ONE f'' f k); auto). subst f''. assert (L'' = L) by (eapply logs_once; eauto). subst L''.
    destruct (origin_entire _ _ _ _ _ _ _ _ _ _ _ _ _ FF FS DF LA B GA Q I) as (_ & MK & _). destruct FF as (PC & _). pose proof (proj1 PC) as OC.
    destruct (C67_total _ _ _ _ _ _ _ _ B OC HP IN) as (dd & SD). destruct (C72_data _ _ _ _ _ _ _ _ _ _ k B PC MK) as [D1 D2]. destruct (D2 dd SD) as (c & NS). destruct (D1 c NS) as [NM SD2]. assert (dd = sn_data c) by congruence. subst dd.
    destruct (RD c NS) as (c' & SN & N1 & N2 & _). exists root, c'. split; auto. split; auto. split; [congruence|].
    assert (TR : forall col q keep, kept_name L q -> shows L (sn_data c) col q keep -> shows L (sn_data c') col q keep). { intros col q keep K S pts l P G LN. rewrite N2 by auto. eapply S; eauto. }
    assert (KC : forall col f0 keep n, In (col, f0, keep) counting -> kept_name L (f0 ++ "_" ++ str_of n)%string). { intros col f0 keep n J. cbn [counting In] in J. destruct J as [J|[J|[J|[]]]]; injection J as <- <- <-; (split; [cbn; intuition discriminate|discriminate]). }
    split; [|split; [|split]].
    - intros part rows col f0 keep I1 I2. apply TR. { eapply kept_placement; eauto. } eapply C67_columns_shown; eauto.
    - intros NB col f0 keep J. apply TR. { cbn [counting In] in J. destruct J as [J|[J|[J|[]]]]; injection J as <- <- <-; (split; [cbn; intuition discriminate|auto]). } eapply C67_counters_shown; eauto.
    - intros BC n HC col f0 keep J. apply TR; [eapply KC; eauto|]. eapply C67_channels_shown; eauto.
    - intros n HC GD. apply TR. { split; [cbn; intuition discriminate|discriminate]. } eapply C67_detectors_shown; eauto.
  Qed.
End C76.
Print Assumptions C76_written.
Print Assumptions C76_columns.

(** ** Where the files are *)
Lemma path_slash : forall a b, path_of (a ++ "/" ++ b) = path_of a ++ path_of b.
Proof. intros a b. unfold path_of. change (a ++ "/" ++ b)%string with (a ++ String "/" b)%string. rewrite split_on_app2. apply filter_app. Qed.
Lemma path_one : forall a, slash_free a -> a <> "" -> path_of a = [a].
Proof. intros a S N. unfold path_of. rewrite (split_on_one _ _ S). cbn. apply String.eqb_neq in N. rewrite N. reflexivity. Qed.
Lemma slash_free_app : forall a b, slash_free a -> slash_free b -> slash_free (a ++ b).
Proof. unfold slash_free. induction a as [|c a IH]; intros b A B; cbn; auto. apply every_cons in A. destruct A. apply every_cons. auto. Qed.
Lemma slash_free_h5 : slash_free ".h5".
Proof. unfold slash_free. repeat (apply every_cons; split; [discriminate|]). apply every_nil. Qed.
Lemma app_ne : forall k, (k ++ ".h5")%string <> "".
Proof. destruct k; discriminate. Qed.
(** Without a folder given, the files are in a folder beside that of the SPICE files, named like the data set. *)
Theorem C76_beside : forall parent last name folder k, slash_free last -> last <> "" -> slash_free name -> name <> "" -> slash_free k -> target (parent ++ "/" ++ last) None name folder ->
  path_of (parent ++ "/" ++ last) = path_of parent ++ [last] /\ path_of (folder ++ k ++ ".h5") = path_of parent ++ [name; (k ++ ".h5")%string].
Proof.
  intros parent last name folder k SL NL SN NN SK T. split. { rewrite path_slash, (path_one last); auto. }
  apply target_of in T. assert (T' : target (parent ++ "/" ++ last) None name (parent ++ "/" ++ name ++ "/")) by (eapply T_beside; eauto). apply target_of in T'. rewrite T' in T. subst folder.
  rewrite !sapp_assoc. rewrite path_slash. change ("/" ++ k ++ ".h5")%string with ("/" ++ (k ++ ".h5"))%string. rewrite path_slash, (path_one name), (path_one (k ++ ".h5")); auto. { apply slash_free_app; auto using slash_free_h5. } apply app_ne.
Qed.
Print Assumptions C76_beside.
(** A folder given with its final slash. *)
Theorem C76_inside : forall spice g name folder k, slash_free k -> target spice (Some (g ++ "/")%string) name folder -> path_of (folder ++ k ++ ".h5") = path_of g ++ [(k ++ ".h5")%string].
Proof.
  intros spice g name folder k SK T. apply target_of in T. cbn in T. subst folder. rewrite !sapp_assoc. rewrite path_slash, (path_one (k ++ ".h5")); auto. { apply slash_free_app; auto using slash_free_h5. } apply app_ne.
Qed.
Print Assumptions C76_inside.
(** Without it, no file is in the folder given: they are all beside it. *)
Theorem C76_given_refuted : forall spice parent last name folder k, slash_free last -> last <> "" -> slash_free k -> target spice (Some (parent ++ "/" ++ last)%string) name folder ->
  path_of (parent ++ "/" ++ last) = path_of parent ++ [last] /\ path_of (folder ++ k ++ ".h5") = path_of parent ++ [(last ++ k ++ ".h5")%string].
Proof.
  intros spice parent last name folder k SL NL SK T. split. { rewrite path_slash, (path_one last); auto. }
  apply target_of in T. cbn [nexus_folder] in T. subst folder. rewrite sapp_assoc. change (("/" ++ last) ++ k ++ ".h5")%string with ("/" ++ (last ++ k ++ ".h5"))%string. rewrite path_slash, (path_one (last ++ k ++ ".h5")); auto. { repeat apply slash_free_app; auto using slash_free_h5. } destruct last; [contradiction|discriminate].
Qed.
Print Assumptions C76_given_refuted.
(** A final slash of the SPICE folder moves the new folder into it. *)
Theorem C76_trailing_slash_refuted : forall spice name folder k, slash_free name -> name <> "" -> slash_free k -> target (spice ++ "/") None name folder ->
  path_of (spice ++ "/") = path_of spice /\ path_of (folder ++ k ++ ".h5") = path_of (spice ++ "/") ++ [name; (k ++ ".h5")%string].
Proof.
  intros spice name folder k SN NN SK T. assert (E : path_of (spice ++ "/") = path_of spice). { change (spice ++ "/")%string with (spice ++ "/" ++ "")%string. rewrite path_slash. unfold path_of at 2. cbn. apply app_nil_r. } split; auto. rewrite E.
  apply target_of in T. assert (T' : target (spice ++ "/") None name (spice ++ "/" ++ name ++ "/")) by (apply (T_beside _ _ _ spice ""); auto; apply every_nil). apply target_of in T'. rewrite T' in T. subst folder.
  rewrite !sapp_assoc. rewrite path_slash. change ("/" ++ k ++ ".h5")%string with ("/" ++ (k ++ ".h5"))%string. rewrite path_slash, (path_one name), (path_one (k ++ ".h5")); auto. { apply slash_free_app; auto using slash_free_h5. } apply app_ne.
Qed.
Print Assumptions C76_trailing_slash_refuted.

(** ** Whatever happens, no other file is touched *)
Lemma write_touched : forall folder stamp scans d d' r p, write_scans folder stamp scans d = (d', r) -> sget p d' = sget p d \/ exists k, In k (map fst scans) /\ p = (folder ++ k ++ ".h5")%string.
Proof.
  intros folder stamp. induction scans as [|[k e] scans IH]; intros d d' r p H; cbn [write_scans] in H. { injection H as <- <-. auto. }
  cbv zeta in H. destruct (to_nexus [k] e _ _) as [root|x]; [|injection H as <- <-; auto]. destruct (IH _ _ _ p H) as [E|(k' & I & E)].
  - rewrite sget_sset in E. destruct (String.eqb p (folder ++ k ++ ".h5")) eqn:Q; [|auto]. apply String.eqb_eq in Q. right. exists k. split; auto. left. auto.
  - right. exists k'. split; auto. right. auto.
Qed.
Theorem C76_others_kept : forall float_of int_of repr date_of genfromtxt xml_matrix fs spice listing given i s stamp d d' r p,
  convert_spice_to_nexus float_of int_of repr date_of genfromtxt xml_matrix fs spice listing given i s stamp d = (d', r) ->
  sget p d' = sget p d \/ exists name folder f k, target spice given name folder /\ data_file listing None f /\ scan_of f k /\ p = (folder ++ k ++ ".h5")%string.
Proof.
  intros float_of int_of repr date_of genfromtxt xml_matrix fs spice listing given i s stamp d d' r p H. unfold convert_spice_to_nexus in H.
  destruct (from_spice float_of int_of repr date_of genfromtxt xml_matrix fs (path_of spice) listing None i s) as [[|[k e] rest]|x] eqn:FS; try (injection H as <- <-; auto; fail).
  destruct (dataset_name e) as [name|x]; [|injection H as <- <-; auto]. destruct (write_touched _ _ _ _ _ _ p H) as [E|(k' & I & E)]; auto. right.
  destruct (from_origin _ _ _ _ _ _ _ _ _ _ _ _ FS) as (nm & _ & _ & _ & OR). apply in_map_iff in I. destruct I as ([k1 v] & Q & I). cbn in Q. subst k1. destruct (OR k' v I) as (f & _ & _ & _ & DF & SO & _).
  exists name, (nexus_folder spice given name), f, k'. split; [apply target_of; auto|auto].
Qed.
Print Assumptions C76_others_kept.

(** ** Examples *)
(** The folder of C67. *)
Lemma ex_slash_free : forall k, forallb (fun c => negb (Ascii.eqb c "/"%char)) (list_ascii_of_string k) = true -> slash_free k.
Proof. unfold slash_free. induction k as [|c k IH]; intros H; [apply every_nil|]. cbn in H. apply andb_true_iff in H. destruct H as [H1 H2]. apply every_cons. split; auto. apply negb_true_iff, Ascii.eqb_neq in H1. auto. Qed.
Lemma ex_fit : fit_files ex_float ex_digits ex_text (fun _ => None) ex_folder (path_of "/exp1") ex_listing None None.
Proof.
  split; [exact ex_plain_none|]. split. { split; intros; discriminate. }
  intros f L (I & stem & E) (sl & CS & LO). cbn in I. destruct I as [<-|[<-|[<-|[]]]].
  2:{ exfalso. do 10 (destruct stem as [|? stem]; [discriminate E|]). discriminate E. }
  all: revert CS; cbv -[trunc IZR Q2R]; intros CS; injection CS as <-; revert LO; cbv -[trunc IZR Q2R]; intros LO; injection LO as <-.
  all: (split; [split; [intros k a J|intros c l J]; cbn in J; repeat (destruct J as [J|J]; [injection J as <- <-; repeat split; try discriminate; apply ex_slash_free; reflexivity|]); destruct J|]).
  all: exists "e", "detector", "en"; (split; [reflexivity|]); (split; [reflexivity|]); (split; [constructor|]).
  all: split; (split; [intros J; cbn in J; repeat (destruct J as [J|J]; [discriminate|]); destruct J|]); intros K; unfold config_key in K; firstorder discriminate.
Qed.
Definition ex_convert given d := convert_spice_to_nexus ex_float ex_digits ex_repr ex_date ex_text (fun _ => None) ex_folder "/exp1" ex_listing given None None (fun _ => []) d.
Example C76_example : exists scans d' r2 r10 c10, M_Builder.from_spice ex_float ex_digits ex_repr ex_date ex_text (fun _ => None) ex_folder (path_of "/exp1") ex_listing None None None = Ok scans /\
  map fst scans = ["scan0002"; "scan0010"] /\ fit_files ex_float ex_digits ex_text (fun _ => None) ex_folder (path_of "/exp1") ex_listing None None /\
  ex_convert None [] = (d', Ok tt) /\ d' = [("/IPTS1234_HB1_exp0001/scan0002.h5", r2); ("/IPTS1234_HB1_exp0001/scan0010.h5", r10)] /\
  scan_from_nexus (fun _ => "") r10 None = Ok c10 /\ sn_name c10 = "scan0010" /\ sget "detector" (sn_data c10) = Some (Some (Leaf (LArr [12%R]))) /\
  target "/exp1" None "IPTS1234_HB1_exp0001" "/IPTS1234_HB1_exp0001/".
Proof.
  do 5 eexists. split; [cbv -[trunc IZR Q2R]; reflexivity|]. split; [reflexivity|]. split; [exact ex_fit|]. split; [cbv -[trunc IZR Q2R]; reflexivity|]. split; [reflexivity|].
  split; [cbv -[trunc IZR Q2R]; reflexivity|]. split; [reflexivity|]. split; [transitivity (Some (Some (Leaf (LArr [trunc (trunc 12)])))); [reflexivity|]; rewrite !trunc_int; reflexivity|]. apply (T_beside "/exp1" None "IPTS1234_HB1_exp0001" "" "exp1"); auto. apply ex_slash_free; reflexivity.
Qed.
Example C76_columns_example : NoDup ex_listing /\ one_file_per_scan ex_listing None /\ exists L, data_file ex_listing None "HB1_exp0001_scan0010.dat" /\ scan_of "HB1_exp0001_scan0010.dat" "scan0010" /\
  logs_at ex_float ex_digits ex_text (fun _ => None) ex_folder ((path_of "/exp1" ++ ["Datafiles"]) ++ ["HB1_exp0001_scan0010.dat"]) L /\ has_points L /\ (forall n, meta L "instrument" = PStr n -> contains "dataset" n = false).
Proof.
  split; [apply nodupb_ok; vm_compute; reflexivity|]. split.
  { apply (C67_standard_folder "HB1" "exp0001"); try (repeat (apply every_cons; split; [discriminate|]); apply every_nil).
    intros f (I & stem & E). cbn in I. destruct I as [<-|[<-|[<-|[]]]].
    - exists 10%Z. split; [lia|reflexivity].
    - exfalso. do 10 (destruct stem as [|? stem]; [discriminate E|]). discriminate E.
    - exists 2%Z. split; [lia|reflexivity]. }
  eexists. split. { split; [left; reflexivity|]. exists "HB1_exp0001_scan0010". reflexivity. } split. { exists "HB1", "exp0001", "scan0010.dat", [], ["dat"]. split; apply pieces_iff; reflexivity. }
  split. { eexists. split; cbv -[trunc IZR Q2R]; reflexivity. } split; [|intros n H; injection H as <-; reflexivity].
  eexists. reflexivity.
Qed.
(** A given folder without its final slash: the files are beside it. *)
Example C76_given_example : exists d' r2 r10, ex_convert (Some "/out") [] = (d', Ok tt) /\ d' = [("/outscan0002.h5", r2); ("/outscan0010.h5", r10)].
Proof. do 3 eexists. split; [cbv -[trunc IZR Q2R]; reflexivity|reflexivity]. Qed.
(** A scan whose file does not say what to plot stops the conversion: the scans before it are written, it and those after it are not. *)
Definition ex_silent : files := Files (fun p =>
  let name := show_path p in
  if String.eqb name "/exp1/Datafiles/HB1_exp0001_scan0002.dat" then Some (ex_scan "2" "10")
  else if String.eqb name "/exp1/Datafiles/HB1_exp0001_scan0003.dat" then Some (filter (fun l => negb (String.eqb l "# def_y = detector")) (ex_scan "3" "12"))
  else if String.eqb name "/exp1/Datafiles/HB1_exp0001_scan0010.dat" then Some (ex_scan "10" "12")
  else if String.eqb name "/exp1/UBConf/ub1.ini" then Some ["[UBMode]"; "Mode=1"] else None)
  (fun p => String.eqb (show_path p) "/exp1" || String.eqb (show_path p) "/exp1/Datafiles").
Theorem C76_silent_scan_refuted : exists fs listing scans d r2, M_Builder.from_spice ex_float ex_digits ex_repr ex_date ex_text (fun _ => None) fs ["exp1"] listing None None None = Ok scans /\
  map fst scans = ["scan0002"; "scan0003"; "scan0010"] /\ (forall k e, In (k, e) scans -> exists c, new_scan k e = Ok c) /\
  convert_spice_to_nexus ex_float ex_digits ex_repr ex_date ex_text (fun _ => None) fs "/exp1" listing None None None (fun _ => []) [] = (d, Err KeyError) /\
  d = [("/IPTS1234_HB1_exp0001/scan0002.h5", r2)].
Proof.
  exists ex_silent, ["HB1_exp0001_scan0002.dat"; "HB1_exp0001_scan0003.dat"; "HB1_exp0001_scan0010.dat"].
  do 3 eexists. split; [cbv -[trunc IZR Q2R]; reflexivity|]. split; [reflexivity|]. split.
  { intros k e [E|[E|[E|[]]]]; injection E as <- <-; eexists; cbv -[trunc IZR Q2R]; reflexivity. }
  split; [cbv -[trunc IZR Q2R]; reflexivity|reflexivity].
Qed.
Print Assumptions C76_silent_scan_refuted.
