(** Property C85, continued: converting a folder again. *)
From Coq Require Import Reals List ZArith String Ascii Bool Lia.
From Verif Require P_Convert P_Builder6 P_Folder P_ScanInfo2 L_Convert2.
From Verif Require Import Base PyStr M_ScanData M_Spice M_Tavi P_Tavi M_Nexus P_Nexus L_NexusFile L_NexusLinks P_NexusFile M_Builder M_Convert S_Convert S_Save P_Save L_Rewrite M_Interrupt P_Interrupt P_Rewrite L_Plain.
Import ListNotations.
Open Scope string_scope.
Open Scope list_scope.

(** ** Specification *)
(** What a value is read as: an attribute, or the content of a field (see S_Save). *)
Definition as_read (show : list string -> string) (q : list string) (x : leaf) : leaf := if in_dec string_dec "attrs" q then as_array x else after show x.
(** [v] gives back [e]: every value that writing leaves alone. *)
Definition returned (show : list string -> string) (e : list (string * val)) (v : val) : Prop := forall q, ~ touched e q -> leaf_at q v = option_map (as_read show q) (leaf_at q (Dict e)).
(** A run of the conversion is not interrupted, or is at the scan [n] when all before it and a beginning of it are written. *)
Inductive run_of (scans : dict string entry) : option failure -> Prop :=
| Whole : run_of scans None
| Broken_off : forall n e e' a c x, In (n, e) scans -> beginning e e' -> write_group (Dict e') ([], []) = Ok (a, c) -> run_of scans (Some (Failure "" n (HGroup [] [(n, HGroup a c)]) x)).

Lemma inattrs_in : forall p, inattrs p = true <-> In "attrs" p.
Proof. intros p. unfold inattrs. rewrite existsb_exists. split; [intros (k & I & E); apply String.eqb_eq in E; subst; auto|intros I; exists "attrs"; auto]. Qed.
Lemma touched_flat : forall show e q, touched (plains show false e) q <-> touched e q.
Proof. intros. unfold touched. split; intros (d & P & H); exists d; (split; [apply (plots_flat show)|]); auto. Qed.
Lemma kept_flat : forall show e v, kept (plains show false e) v -> returned show e v.
Proof.
  intros show e v K q T. rewrite K by (rewrite touched_flat; auto). rewrite <- plain_dict, plain_leaf_at. cbn [orb]. unfold as_read, form. destruct (in_dec string_dec "attrs" q) as [I|I].
  - apply inattrs_in in I. rewrite I. auto.
  - destruct (inattrs q) eqn:E; auto. apply inattrs_in in E. contradiction.
Qed.
Lemma shown_flat : forall show e v, shown (plains show false e) v -> shown e v.
Proof.
  intros show e v S d P p1 FP F. destruct (S d (proj2 (plots_flat show e d) P) p1 FP) as (p0 & F0 & R). { rewrite <- plain_dict, plain_follow. destruct (follow (p1 ++ [d]) (Dict e)); [discriminate|auto]. }
  exists p0. split. { rewrite <- plain_dict, plain_follow in F0. destruct (follow (p0 ++ [d]) (Dict e)); [discriminate|auto]. }
  intros l FL r. eapply R. rewrite <- plain_dict, plain_follow, FL. cbn [option_map]. rewrite plain_dict. reflexivity.
Qed.
Lemma again : forall show name e stamp root, storable e -> ready (plains show false e) name (hplain show root) ->
  exists root' vs v, to_nexus [name] e stamp root = Ok root' /\ from_nexus show root' [] None = Ok vs /\ sget name vs = Some v /\ returned show e v /\ shown e v /\ ready (plains show false e) name (hplain show root').
Proof.
  intros show name e stamp root ST RD. destruct (storable_parts e ST) as (SV & D0 & PR & _). destruct ST as (_ & ND & _ & _).
  destruct (C85_write_again show name _ stamp _ (ready_plain show e SV ND PR) RD) as (r0 & vs & v & TN & FN & G & K & S & RD' & _). rewrite to_plain in TN by auto. destruct (to_nexus [name] e stamp root) as [root'|]; [|discriminate]. cbn [then1 bind] in TN. apply Ok_inj in TN. subst r0.
  exists root', vs, v. rewrite from_plain in FN. split; auto. split; auto. split; auto. split; [apply kept_flat; auto|]. split; auto. eapply shown_flat; eauto.
Qed.
Lemma resume : forall show folder stamp scans d, NoDup (map fst scans) -> (forall k e, In (k, e) scans -> storable e /\ forall r, sget (folder ++ k ++ ".h5")%string d = Some r -> ready (plains show false e) k (hplain show r)) ->
  exists d', write_scans folder stamp scans d = (d', Ok tt) /\ forall k e, In (k, e) scans ->
    exists root vs v, sget (folder ++ k ++ ".h5")%string d' = Some root /\ from_nexus show root [] None = Ok vs /\ sget k vs = Some v /\ returned show e v /\ shown e v /\ ready (plains show false e) k (hplain show root).
Proof.
  intros show folder stamp. induction scans as [|[k e] scans IH]; intros d N H; cbn [write_scans]. { exists d. split; auto. intros k e []. }
  cbn [map fst] in N. inversion N as [|? ? NK N']; subst. destruct (H k e (or_introl eq_refl)) as [ST RD]. set (p := (folder ++ k ++ ".h5")%string) in *.
  assert (R0 : ready (plains show false e) k (hplain show (opened d p))). { unfold opened. destruct (sget p d) as [r|]; auto. exists [], []. split; auto. split; [constructor|]. intros; discriminate. }
  destruct (again show k e (stamp p) _ ST R0) as (root & vs & v & TN & FN & GV & K & S & RD'). rewrite TN.
  assert (DIFF : forall k', In k' (map fst scans) -> (folder ++ k' ++ ".h5")%string <> p) by (intros k' I E; apply P_Convert.file_inj in E; subst; contradiction).
  destruct (IH (sset p root d) N') as (d' & W & RR). { intros k' e' I. destruct (H k' e' (or_intror I)) as [CF' R']. split; auto. intros r G. rewrite sget_sset in G. assert (Q : (folder ++ k' ++ ".h5")%string <> p) by (apply DIFF; apply (in_map fst) in I; auto). apply String.eqb_neq in Q. rewrite Q in G. auto. }
  exists d'. split; auto. intros k' e' [[= <- <-]|I]; auto. exists root, vs, v. split; [|auto].
  pose proof (write_kept None folder stamp scans (sset p root d) p) as WK. rewrite write_none, W in WK. cbn [fst] in WK. fold p. rewrite WK. { rewrite sget_sset, String.eqb_refl. auto. } intros k' I E. apply (DIFF k' I). auto.
Qed.
Lemma begin_plain2 : forall show b l l', beginning l l' -> beginning (plains show b l) (plains show b l').
Proof.
  intros show b l l' B. revert b. induction B as [l1 l2|l1 k m m' l2 C B IH]; intros b; unfold plains; rewrite !map_app. { constructor. } cbn [map fst snd]. rewrite !plain_dict. apply (B_inside _ k _ _ _).
  - destruct C as [C|C]; auto. right. rewrite plain_is_dataset. auto.
  - apply IH.
Qed.
Lemma begin_valued : forall m m', beginning m m' -> valued (Some (Dict m)) -> valued (Some (Dict m')).
Proof.
  intros m m' B [N P]. split; [eapply begin_names; eauto|]. destruct B as [l1 l2|l1 k l l' l2 C B]; intros k0 v I.
  - apply (P k0). apply in_app_iff. auto.
  - exfalso. destruct (P k (Dict l)) as (x & E); [apply in_app_iff; right; left; auto|discriminate].
Qed.
Lemma begin_savable : forall l l', beginning l l' -> savable (Dict l) -> ~ is_dataset l -> savable (Dict l').
Proof.
  induction 1 as [l1 l2|l1 k m m' l2 C B IH]; intros W ND.
  all: inversion W as [? ? ? ? D|? N _ PA WM]; subst; [exfalso; apply ND; unfold is_dataset; rewrite D; discriminate|].
  - assert (B0 : beginning (l1 ++ l2) l1) by constructor. apply Sv_group; [eapply begin_names; eauto|eapply begin_dataset; eauto| |].
    + rewrite sget_app in PA. destruct (sget "attrs" l1); auto. exact I.
    + intros k v I KA. apply (WM k v); auto. apply in_app_iff. auto.
  - assert (B0 : beginning (l1 ++ (k, Dict m) :: l2) (l1 ++ [(k, Dict m')])) by (constructor; auto). apply Sv_group; [eapply begin_names; eauto|eapply begin_dataset; eauto| |].
    + rewrite sget_app in *. destruct (sget "attrs" l1); auto. cbn [dget] in *. destruct (String.eqb "attrs" k); [eapply begin_valued; eauto|exact I].
    + intros k0 v I KA. apply in_app_iff in I. destruct I as [I|[[= <- <-]|[]]]. { apply (WM k0 v); auto. apply in_app_iff. auto. }
      destruct C as [C|C]; [contradiction|]. apply IH; auto. apply (WM k (Dict m)); auto. apply in_app_iff. right. left. auto.
Qed.
Lemma left_ready : forall show e e' n a c, storable e -> beginning e e' -> write_group (Dict e') ([], []) = Ok (a, c) -> ready (plains show false e) n (hplain show (HGroup [] [(n, HGroup a c)])).
Proof.
  intros show e e' n a c ST B WG. destruct (storable_parts e ST) as (SV & D0 & PR & _). destruct ST as (_ & ND & _ & _).
  destruct (C85_broken_off _ _ n (ready_plain show e SV ND PR) (begin_plain2 show false _ _ B)) as (a' & c' & WG' & ST').
  pose proof (write_plain show (Dict e') (begin_savable _ _ B SV ND) e' eq_refl (begin_dataset _ _ B ND) [] []) as E. rewrite plain_dict in E. assert (E2 : Ok (a', c') = thenp show (Ok (a, c))). { rewrite <- WG, <- WG'. exact E. } cbn [thenp bind fst snd] in E2. apply Ok_inj in E2. injection E2 as -> ->.
  rewrite hplain_group. exists [], (hplains show [(n, HGroup a c)]). split; auto. split; [repeat constructor; auto|]. intros s G. rewrite hplains_get in G. cbn [dget] in G. rewrite String.eqb_refl in G. cbn [option_map] in G. rewrite hplain_group in G. injection G as <-. exact ST'.
Qed.
Lemma write_run : forall show folder stamp scans w d, NoDup (map fst scans) -> (forall k e, In (k, e) scans -> storable e /\ sget (folder ++ k ++ ".h5")%string d = None) -> run_of scans w ->
  forall k e r, In (k, e) scans -> sget (folder ++ k ++ ".h5")%string (fst (write_scans_f w folder stamp scans d)) = Some r -> ready (plains show false e) k (hplain show r).
Proof.
  intros show folder stamp scans w d N H R k e r I G.
  destruct (resume show folder stamp scans d N) as (whole & WW & RW). { intros k0 e0 I0. destruct (H k0 e0 I0) as [ST F]. split; auto. rewrite F. intros; discriminate. }
  assert (DONE : sget (folder ++ k ++ ".h5")%string whole = Some r -> ready (plains show false e) k (hplain show r)). { intros GW. destruct (RW k e I) as (root & vs & v & GR & _ & _ & _ & _ & RD). rewrite GW in GR. injection GR as <-. auto. }
  destruct R as [|n en e' a c x In_ B WG]. { rewrite write_none, WW in G. auto. }
  destruct (in_split _ _ In_) as (s1 & s2 & ES). subst scans. destruct (write_interrupted folder stamp s1 n en s2 (HGroup [] [(n, HGroup a c)]) x d whole N WW) as (d1 & W1 & L1 & S1 & O1). rewrite W1 in G. cbn [fst] in G.
  destruct (in_dec string_dec k (map fst s1)) as [I1|I1]. { apply DONE. rewrite <- S1; auto. }
  destruct (string_dec k n) as [->|KN].
  - rewrite L1 in G. injection G as <-. assert (E0 : e = en). { assert (X : sget n (s1 ++ (n, en) :: s2) = Some e) by (apply in_sget; auto). assert (Y : sget n (s1 ++ (n, en) :: s2) = Some en) by (apply in_sget; auto; apply in_app_iff; right; left; auto). congruence. } subst en.
    eapply left_ready; eauto. apply (H n e I).
  - rewrite O1 in G; [destruct (H k e I); congruence| |]. { intros k' I' E. apply P_Convert.file_inj in E. subst. contradiction. } { intros E. apply P_Convert.file_inj in E. contradiction. }
Qed.

Section Again.
  Variable float_of : string -> option R.
  Variable int_of : string -> option Z.
  Variable repr : pv -> string.
  Variable date_of : string -> option string.
  Variable genfromtxt : list string -> result (list (list num)).
  Variable xml_matrix : string -> option (option string).
  Notation from_spice := (from_spice float_of int_of repr date_of genfromtxt xml_matrix).
  Notation data_set := (data_set float_of genfromtxt).
  Notation fit_files := (P_Convert.fit_files float_of int_of genfromtxt xml_matrix).
  Notation convert_f := (convert_f float_of int_of repr date_of genfromtxt xml_matrix).
  Notation convert_spice_to_nexus := (convert_spice_to_nexus float_of int_of repr date_of genfromtxt xml_matrix).
  (** The conversion run once more for each of [stamps], until one of them raises. *)
  Fixpoint reruns fs spice listing given i s (stamps : list (string -> dict string leaf)) (d : disk) : disk * result unit :=
    match stamps with
    | [] => (d, Ok tt)
    | stamp :: stamps' => let (d', z) := convert_spice_to_nexus fs spice listing given i s stamp d in match z with Ok _ => reruns fs spice listing given i s stamps' d' | Err x => (d', Err x) end
    end.

  Lemma convert_writes : forall fs spice listing given i s scans, from_spice fs (path_of spice) listing None i s = Ok scans -> fit_files fs (path_of spice) listing i s ->
    exists name folder, data_set fs (path_of spice) listing name /\ target spice given name folder /\ NoDup (map fst scans) /\ scans <> [] /\ (forall k e, In (k, e) scans -> storable e) /\
      (forall w stamp d, convert_f w fs spice listing given i s stamp d = write_scans_f w folder stamp scans d) /\ (forall stamp d, convert_spice_to_nexus fs spice listing given i s stamp d = write_scans folder stamp scans d).
  Proof.
    intros fs spice listing given i s scans FS FF. destruct (P_Convert.from_origin _ _ _ _ _ _ _ _ _ _ _ _ FS) as (name & DS & ND & NE & OR). exists name, (nexus_folder spice given name). split; auto. split; [apply P_Convert.target_of; auto|]. split; auto. split; auto. split.
    { intros k v I. destruct (OR k v I) as (f & L & e & a & DF & SO & LA & B & GA & Q). destruct (P_Convert.origin_entire _ _ _ _ _ _ _ _ _ _ _ _ _ _ _ _ _ _ _ FF FS DF LA B GA Q I) as (SA & _ & instrument & part & spice0 & da & EN). eapply L_Convert2.built_storable; eauto. }
    assert (DN : forall k0 e0, In (k0, e0) scans -> dataset_name e0 = Ok name).
    { intros k0 e0 I. destruct (OR k0 e0 I) as (f & L & e' & a & _ & _ & _ & _ & _ & ->). unfold dataset_name, L_Convert2.stamped. rewrite P_Tavi.sget_sset, String.eqb_refl. rewrite P_Tavi.sget_sset, String.eqb_refl. reflexivity. }
    assert (CF : forall w stamp d, convert_f w fs spice listing given i s stamp d = write_scans_f w (nexus_folder spice given name) stamp scans d).
    { intros w stamp d. unfold M_Interrupt.convert_f. rewrite FS. destruct scans as [|[k0 e0] rest]; [destruct NE; auto|]. rewrite (DN k0 e0 (or_introl eq_refl)). reflexivity. }
    split; auto. intros stamp d. rewrite <- write_none, <- CF. symmetry. apply C85_convert_no_failure.
  Qed.
  (** C85: a conversion into a folder without these files, interrupted or not, and run again once or any number of times: no run raises, and
      every scan is read back with every value, as if it were written for the first time; other files are not touched. *)
  Theorem C85_convert_again : forall show fs spice listing given i s scans w stamp stamps d, from_spice fs (path_of spice) listing None i s = Ok scans -> fit_files fs (path_of spice) listing i s ->
    (forall name folder k, data_set fs (path_of spice) listing name -> target spice given name folder -> In k (map fst scans) -> sget (folder ++ k ++ ".h5")%string d = None) ->
    run_of scans w -> stamps <> [] ->
    exists name folder d', data_set fs (path_of spice) listing name /\ target spice given name folder /\
      reruns fs spice listing given i s stamps (fst (convert_f w fs spice listing given i s stamp d)) = (d', Ok tt) /\
      (forall k e, In (k, e) scans -> exists root vs v, sget (folder ++ k ++ ".h5")%string d' = Some root /\ from_nexus show root [] None = Ok vs /\ sget k vs = Some v /\ returned show e v /\ shown e v) /\
      (forall p, (forall k, In k (map fst scans) -> p <> (folder ++ k ++ ".h5")%string) -> sget p d' = sget p d).
  Proof.
    intros show fs spice listing given i s scans w stamp stamps d FS FF FR RN NE. destruct (convert_writes fs spice listing given i s scans FS FF) as (name & folder & DS & TG & ND & _ & ST & CF & CW). exists name, folder.
    assert (RD : forall k e r, In (k, e) scans -> sget (folder ++ k ++ ".h5")%string (fst (convert_f w fs spice listing given i s stamp d)) = Some r -> ready (plains show false e) k (hplain show r)).
    { intros k e r I. rewrite CF. apply (write_run show folder stamp scans w d ND); auto. intros k0 e0 I0. split; [eauto|]. eapply FR; eauto. apply (in_map fst) in I0. auto. }
    assert (OT : forall p, (forall k, In k (map fst scans) -> p <> (folder ++ k ++ ".h5")%string) -> sget p (fst (convert_f w fs spice listing given i s stamp d)) = sget p d) by (intros p NP; rewrite CF; apply write_kept; auto).
    revert RD OT. generalize (fst (convert_f w fs spice listing given i s stamp d)). clear RN w stamp. intros d1 RD OT.
    assert (G : forall stamps d1, (forall k e r, In (k, e) scans -> sget (folder ++ k ++ ".h5")%string d1 = Some r -> ready (plains show false e) k (hplain show r)) -> stamps <> [] ->
      exists d', reruns fs spice listing given i s stamps d1 = (d', Ok tt) /\ (forall k e, In (k, e) scans -> exists root vs v, sget (folder ++ k ++ ".h5")%string d' = Some root /\ from_nexus show root [] None = Ok vs /\ sget k vs = Some v /\ returned show e v /\ shown e v) /\
        (forall p, (forall k, In k (map fst scans) -> p <> (folder ++ k ++ ".h5")%string) -> sget p d' = sget p d1)).
    { clear stamps NE d1 RD OT. induction stamps as [|stamp stamps IH]; intros d1 RD NE; [destruct NE; auto|]. cbn [reruns]. destruct (resume show folder stamp scans d1 ND) as (d2 & W & RR). { intros k e I. split; eauto. }
      rewrite CW, W. pose proof (write_kept None folder stamp scans d1) as WK. rewrite write_none, W in WK. cbn [fst] in WK.
      destruct stamps as [|st2 stamps].
      - exists d2. split; auto. split; auto. intros k e I. destruct (RR k e I) as (root & vs & v & A1 & A2 & A3 & A4 & A5 & _). exists root, vs, v. auto.
      - destruct (IH d2) as (d' & RE & RS & OT); [|discriminate|]. { intros k e r I G. destruct (RR k e I) as (root & vs & v & A1 & _ & _ & _ & _ & A6). congruence. }
        exists d'. split; auto. split; auto. intros p NP. rewrite OT by auto. auto. }
    destruct (G stamps d1 RD NE) as (d' & RE & RS & OT'). exists d'. split; auto. split; auto. split; auto. split; auto. intros p NP. rewrite OT' by auto. auto.
  Qed.
End Again.
Print Assumptions C85_convert_again.

(** Every beginning of a scan that can be stored can be what was written. *)
Lemma beginning_written : forall e e', storable e -> beginning e e' -> exists a c, write_group (Dict e') ([], []) = Ok (a, c).
Proof.
  intros e e' ST B. destruct (storable_parts e ST) as (SV & D0 & PR & _). destruct ST as (_ & ND & _ & _). set (show := fun _ : list string => "").
  destruct (C85_broken_off _ _ "" (ready_plain show e SV ND PR) (begin_plain2 show false _ _ B)) as (a' & c' & WG' & _).
  pose proof (write_plain show (Dict e') (begin_savable _ _ B SV ND) e' eq_refl (begin_dataset _ _ B ND) [] []) as E. rewrite plain_dict in E. assert (E2 : Ok (a', c') = thenp show (write_group (Dict e') ([], []))). { rewrite <- WG'. exact E. }
  unfold thenp in E2. destruct (write_group (Dict e') ([], [])) as [[a c]|]; [eauto|discriminate].
Qed.
(** The folder of C67 with its two scans: the conversion breaks off after any beginning of the second one. *)
Example C85_convert_again_example : exists scans, from_spice P_Builder6.ex_float P_ScanInfo2.ex_digits P_Builder6.ex_repr P_Builder6.ex_date P_Folder.ex_text (fun _ => None) P_Folder.ex_folder (path_of "/exp1") P_Folder.ex_listing None None None = Ok scans /\
  map fst scans = ["scan0002"; "scan0010"] /\ P_Convert.fit_files P_Builder6.ex_float P_ScanInfo2.ex_digits P_Folder.ex_text (fun _ => None) P_Folder.ex_folder (path_of "/exp1") P_Folder.ex_listing None None /\
  forall e e', In ("scan0010", e) scans -> beginning e e' -> exists left_, run_of scans (Some (Failure "" "scan0010" left_ OSError)).
Proof.
  destruct P_Convert.C76_example as (scans & d' & r2 & r10 & c10 & FS & NM & FF & _). exists scans. split; [exact FS|]. split; auto. split; auto. intros e e' I B.
  destruct (convert_writes _ _ _ _ _ _ _ _ _ None _ _ _ FS FF) as (_ & _ & _ & _ & _ & _ & ST & _). destruct (beginning_written e e' (ST _ _ I) B) as (a & c & WG). eexists. econstructor; eauto.
Qed.
