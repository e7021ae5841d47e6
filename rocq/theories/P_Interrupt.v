(** Property C85: what is left when saving or converting is interrupted. *)
From Coq Require Import Reals Qreals List String Bool Lia.
From Verif Require P_Convert P_Builder6 P_Folder P_ScanInfo2 L_Convert2.
From Verif Require Import Base PyStr M_ScanData M_Spice M_Project M_Tavi P_Tavi L_Str M_Nexus L_NexusFile L_NexusLinks P_NexusFile M_Builder M_Convert S_Convert M_Interrupt.
Import ListNotations.
Open Scope string_scope.
Open Scope list_scope.

Lemma save_scans_none : forall exp l stamp root, save_scans_f None exp l stamp root = (fst (save_scans_f None exp l stamp root), do _ <- save_scans true exp l stamp root; Ok tt) /\
  (forall r, save_scans true exp l stamp root = Ok r -> fst (save_scans_f None exp l stamp root) = r).
Proof.
  intros exp l stamp. induction l as [|[n e] l IH]; intros root; cbn [save_scans_f save_scans fails]. { split; auto. intros r [= <-]. auto. }
  destruct (to_nexus _ e stamp root) as [r|x]; cbn [bind]; [apply IH|]. split; auto. discriminate.
Qed.
Lemma save_exps_none : forall d stamp root r, save_exps true d stamp root = Ok r -> save_exps_f None d stamp root = (r, Ok tt).
Proof.
  induction d as [|[exp l] d IH]; intros stamp root r H; cbn [save_exps save_exps_f] in *. { injection H as <-. auto. }
  destruct (in_group _ empty_group root) as [r1|]; cbn [bind] in H; [|discriminate]. destruct (save_scans true exp l stamp r1) as [r2|] eqn:S; cbn [bind] in H; [|discriminate].
  destruct (save_scans_none exp l stamp r1) as (A & B). rewrite (B _ S), S in A. cbn [bind] in A. rewrite A. auto.
Qed.
(** Without a failure this is the save of C59. *)
Theorem C85_no_failure : forall p d stamp files root, save true d stamp = Ok root -> save_to true None p d stamp files = (sset p root files, Ok tt).
Proof.
  intros p d stamp files root H. unfold save in H. destruct (save_exps true d stamp _) as [r|] eqn:E; cbn [bind] in H; [|discriminate].
  unfold save_to, save_f. rewrite (save_exps_none _ _ _ _ E). destruct r; try discriminate. injection H as <-. auto.
Qed.
Print Assumptions C85_no_failure.

Lemma NoDup_app_one : forall (l : list string) x, NoDup l -> ~ In x l -> NoDup (l ++ [x]).
Proof. induction l as [|y l IH]; intros x N I; cbn; [constructor; auto; constructor|]. inversion N; subst. constructor; [|apply IH; auto; intros K; apply I; right; auto]. rewrite in_app_iff. cbn. intros [K|[->|[]]]; auto. apply I. left. auto. Qed.
Lemma NoDup_app_left : forall (l m : list string), NoDup (l ++ m) -> NoDup l.
Proof. induction l as [|y l IH]; intros m N; [constructor|]. cbn in N. inversion N as [|? ? A B]; subst. constructor; [|eapply IH; eauto]. intros I. apply A. apply in_app_iff. auto. Qed.
Lemma read_all_app : forall show resolve c1 c2, read_all show resolve (c1 ++ c2) = read_all show resolve c1 ++ read_all show resolve c2.
Proof. intros show resolve c1 c2. induction c1 as [|[k v] c1 IH]; cbn [List.app read_all]; auto. destruct (read_node show resolve v); cbn; rewrite IH; auto. Qed.
(** The scans of a group that are read from the file (the part of C59 about one experiment). *)
Lemma read_scans : forall show root exp S, at_path ["data"; exp] root = Some (HGroup [] S) -> NoDup (map fst S) -> forall l1 S1, scans_in exp l1 S1 -> (forall x, In x S1 -> In x S) ->
  Forall2 (fun s t => fst s = fst t /\ kept (snd s) (snd t) /\ shown (snd s) (snd t)) l1 (read_all show (resolve_in root) S1).
Proof.
  intros show root exp S AE NS l1 S1 SI1. induction SI1 as [|[n e] [n' s] l1 S1 [EN EI] SI1 IH1]; intros SUB1; cbn [read_all]; [constructor|]. cbn [fst snd] in EN, EI. subst n'.
  assert (AS : at_path ["data"; exp; n] root = Some s).
  { change (at_path (["data"; exp] ++ [n]) root = Some s). rewrite at_app, AE. cbn [at_path]. rewrite (in_sget n S s NS); [auto|]. apply SUB1. left. auto. }
  destruct (entry_read e _ s show root EI AS) as (v & R & K & SHN). rewrite R. constructor; auto. apply IH1. intros; apply SUB1; right; auto.
Qed.
Lemma scans_names : forall exp l S, scans_in exp l S -> map fst S = map fst l.
Proof. intros exp l S SI. induction SI as [|x y l S [Q _] F IH]; cbn in *; auto. congruence. Qed.
Lemma exps_names : forall d X, exps_in d X -> map fst X = map fst d.
Proof. intros d X F. induction F as [|x y d X [Q _] F IH]; cbn in *; auto. congruence. Qed.
Lemma open_app : forall show root xs ys, open_exps show root (xs ++ ys) = do a <- open_exps show root xs; do b <- open_exps show root ys; Ok (a ++ b).
Proof.
  intros show root xs ys. induction xs as [|x xs IH]; cbn [List.app open_exps bind]. { destruct (open_exps show root ys); auto. }
  destruct (from_nexus show root _ None); cbn [bind]; [|auto]. rewrite IH. destruct (open_exps show root xs); cbn [bind]; [|auto]. destruct (open_exps show root ys); auto.
Qed.
Lemma open_spec : forall show root X, at_path ["data"] root = Some (HGroup [] X) -> NoDup (map fst X) -> forall d1 X1, exps_in d1 X1 -> (forall x, In x X1 -> In x X) -> (forall e l, In (e, l) d1 -> NoDup (map fst l)) ->
  exists d', open_exps show root (map fst X1) = Ok d' /\ same_project d1 d'.
Proof.
  intros show root X AD NX d1 X1 F1. induction F1 as [|[exp l] [exp' ex] d1 X1 [EQ (S & ES & SI)] F1 IH]; intros SUB ND; cbn [map fst snd open_exps] in *.
  { exists []. split; auto. constructor. }
  subst exp' ex.
  assert (AE : at_path ["data"; exp] root = Some (HGroup [] S)).
  { change (at_path (["data"] ++ [exp]) root = Some (HGroup [] S)). rewrite at_app, AD. cbn [at_path]. rewrite (in_sget exp X (HGroup [] S) NX); [auto|]. apply SUB. left. auto. }
  unfold from_nexus. rewrite AE. cbn [bind]. destruct IH as (d' & OE & SP). { intros; apply SUB; right; auto. } { intros; eapply ND; right; eauto. }
  rewrite OE. cbn [bind]. eexists. split; [reflexivity|]. constructor; auto. cbn [fst snd]. split; auto. rewrite read_members_all.
  apply (read_scans show root exp S); auto. rewrite (scans_names _ _ _ SI). apply (ND exp l). left. auto.
Qed.

(** the failing save, up to the failure *)
Lemma scans_before : forall w exp l1 rest stamp root r, (forall n, In n (map fst l1) -> fails w exp n = None) -> save_scans true exp l1 stamp root = Ok r ->
  save_scans_f w exp (l1 ++ rest) stamp root = save_scans_f w exp rest stamp r.
Proof.
  intros w exp l1. induction l1 as [|[n e] l1 IH]; intros rest stamp root r N H; cbn [save_scans List.app save_scans_f] in *. { injection H as <-. auto. }
  rewrite (N n) by (left; auto). destruct (to_nexus _ e stamp root) as [r1|]; cbn [bind] in H; [|discriminate]. apply IH; auto. intros k K. apply N. right. auto.
Qed.
Lemma exps_before : forall w d1 rest stamp root r, (forall exp n, In exp (map fst d1) -> fails w exp n = None) -> save_exps true d1 stamp root = Ok r ->
  save_exps_f w (d1 ++ rest) stamp root = save_exps_f w rest stamp r.
Proof.
  intros w d1. induction d1 as [|[exp l] d1 IH]; intros rest stamp root r N H; cbn [save_exps List.app save_exps_f] in *. { injection H as <-. auto. }
  destruct (in_group _ empty_group root) as [r1|]; cbn [bind] in H; [|discriminate]. destruct (save_scans true exp l stamp r1) as [r2|] eqn:S; cbn [bind] in H; [|discriminate].
  rewrite <- (app_nil_r l). rewrite (scans_before w exp l [] stamp r1 r2); auto; [|intros; apply N; left; auto]. cbn [save_scans_f]. apply IH; auto. intros; apply N; right; auto.
Qed.

Lemma interrupted_root : forall stamp d1 exp l1 n e l2 d2 a c x, let d := d1 ++ (exp, l1 ++ (n, e) :: l2) :: d2 in let w := Some (Failure exp n (HGroup a c) x) in
  well_formed d ->
  (exists X S a2, fst (save_f w d stamp) = file_of a2 (X ++ [(exp, HGroup [] (S ++ [(n, HGroup a c)]))]) /\ exps_in d1 X /\ scans_in exp l1 S /\
    NoDup (map fst (X ++ [(exp, HGroup [] (S ++ [(n, HGroup a c)]))])) /\ NoDup (map fst (S ++ [(n, HGroup a c)])) /\ well_formed d1) /\
  save_f w d stamp = (fst (save_f w d stamp), Err x).
Proof.
  intros stamp d1 exp l1 n e l2 d2 a c x d w (ND & WF).
  assert (N1 : ~ In exp (map fst d1) /\ NoDup (map fst d1)).
  { subst d. rewrite map_app in ND. cbn [map fst] in ND. apply NoDup_remove in ND. destruct ND as (A & B). rewrite in_app_iff in B. split; [tauto|]. eapply NoDup_app_left; eauto. }
  destruct (WF exp (l1 ++ (n, e) :: l2)) as (NL & CL). { subst d. apply in_app_iff. right. left. auto. }
  assert (N2 : ~ In n (map fst l1) /\ NoDup (map fst l1)).
  { rewrite map_app in NL. cbn [map fst] in NL. apply NoDup_remove in NL. destruct NL as (A & B). rewrite in_app_iff in B. split; [tauto|]. eapply NoDup_app_left; eauto. }
  destruct N1 as (NE & ND1). destruct N2 as (NN & NL1).
  assert (WF1 : well_formed d1). { split; auto. intros e0 l0 I. apply (WF e0 l0). subst d. apply in_app_iff. auto. }
  destruct (save_exps_spec stamp d1 WF1 [] []) as (X & a1 & E1 & F1). { intros ? []. } cbn [List.app] in E1.
  pose proof (exps_names _ _ F1) as NMX.
  assert (G : in_group ["data"; exp] empty_group (file_of a1 X) = Ok (file_of a1 (X ++ [(exp, HGroup [] [])]))).
  { unfold file_of. cbn [in_group]. cbn [dget]. cbn [in_group]. change (String.eqb "data" "data") with true. cbv iota. rewrite in_none by (rewrite NMX; auto). cbn [empty_group bind]. rewrite (sset_fresh exp) by (rewrite NMX; auto). reflexivity. }
  destruct (save_scans_spec stamp exp X l1) with (S := @nil (string * h5)) (a := a1) as (S & a2 & E2 & F2); auto. { rewrite NMX. auto. } { intros n0 e0 I. apply (CL n0 e0). apply in_app_iff. auto. }
  cbn [List.app] in E2. pose proof (scans_names _ _ _ F2) as NMS.
  assert (LV : leave ["data"; exp; n] (HGroup a c) (file_of a2 (X ++ [(exp, HGroup [] S)])) = file_of a2 (X ++ [(exp, HGroup [] (S ++ [(n, HGroup a c)]))])).
  { unfold leave, file_of. cbn [in_group]. cbn [dget]. cbn [in_group]. change (String.eqb "data" "data") with true. cbv iota. rewrite sget_last by (rewrite NMX; auto). cbn [bind].
    rewrite (sset_fresh n) by (rewrite NMS; auto). rewrite (sset_last exp) by (rewrite NMX; auto). reflexivity. }
  set (root := file_of a2 (X ++ [(exp, HGroup [] (S ++ [(n, HGroup a c)]))])) in *.
  assert (SV : save_f w d stamp = (root, Err x)).
  { unfold save_f. change (HGroup [] [("data", HGroup [] [])]) with (file_of [] []). subst d. rewrite (exps_before w d1 _ stamp _ (file_of a1 X)); auto.
    2:{ intros e0 k I. unfold fails, w. cbn [f_exp f_scan]. destruct (String.eqb_spec e0 exp); [subst; contradiction|reflexivity]. }
    cbn [save_exps_f]. rewrite G. rewrite (scans_before w exp l1 _ stamp _ (file_of a2 (X ++ [(exp, HGroup [] S)]))); auto.
    2:{ intros k K. unfold fails, w. cbn [f_exp f_scan]. destruct (String.eqb_spec k n); [subst; contradiction|]. rewrite andb_false_r. reflexivity. }
    cbn [save_scans_f]. unfold fails, w. cbn [f_exp f_scan f_left f_exn]. rewrite !String.eqb_refl. cbn [andb]. rewrite LV. reflexivity. }
  assert (NX : NoDup (map fst (X ++ [(exp, HGroup [] (S ++ [(n, HGroup a c)]))]))). { rewrite map_app, NMX. cbn [map fst]. apply NoDup_app_one; auto. }
  assert (NS : NoDup (map fst (S ++ [(n, HGroup a c)]))). { rewrite map_app, NMS. cbn [map fst]. apply NoDup_app_one; auto. }
  rewrite SV. cbn [fst]. split; auto. exists X, S, a2. split; [reflexivity|]. split; [exact F1|]. split; [exact F2|]. split; [exact NX|]. split; [exact NS|exact WF1].
Qed.
(** An exception while one scan is written leaves a file that opens: it has the experiments and scans written before, in order and with
    their contents, and below the name of the failing scan at most what was written of it. Nothing of the later ones. *)
Theorem C85_interrupted : forall show stamp d1 exp l1 n e l2 d2 a c x p files, let d := d1 ++ (exp, l1 ++ (n, e) :: l2) :: d2 in let w := Some (Failure exp n (HGroup a c) x) in
  well_formed d ->
  exists root d1' l1' part, sget p (fst (save_to true w p d stamp files)) = Some root /\ open_file show root = Ok (d1' ++ [(exp, l1' ++ part)]) /\
    same_project (d1 ++ [(exp, l1)]) (d1' ++ [(exp, l1')]) /\ (forall k v, In (k, v) part -> k = n).
Proof.
  intros show stamp d1 exp l1 n e l2 d2 a c x p files d w WFD.
  destruct (interrupted_root stamp d1 exp l1 n e l2 d2 a c x WFD) as ((X & S & a2 & RT & F1 & F2 & NX & NS & WF1) & SV). fold d in RT, SV. fold w in RT, SV.
  set (root := file_of a2 (X ++ [(exp, HGroup [] (S ++ [(n, HGroup a c)]))])) in *. rewrite RT in SV.
  assert (AD : at_path ["data"] root = Some (HGroup [] (X ++ [(exp, HGroup [] (S ++ [(n, HGroup a c)]))]))) by reflexivity.
  destruct (open_spec show root _ AD NX d1 X F1) as (d1' & O1 & SP1). { intros y Y. apply in_app_iff. auto. } { intros e0 l0 I. apply (proj2 WF1 e0 l0 I). }
  assert (AE : at_path ["data"; exp] root = Some (HGroup [] (S ++ [(n, HGroup a c)]))).
  { change (at_path (["data"] ++ [exp]) root = Some (HGroup [] (S ++ [(n, HGroup a c)]))). rewrite at_app, AD. cbn [at_path]. rewrite (in_sget exp _ (HGroup [] (S ++ [(n, HGroup a c)])) NX); [auto|]. apply in_app_iff. right. left. auto. }
  exists root, d1', (read_all show (resolve_in root) S), (read_all show (resolve_in root) [(n, HGroup a c)]).
  split; [|split; [|split]].
  - unfold save_to. rewrite SV. cbn [fst]. rewrite P_Tavi.sget_sset. rewrite String.eqb_refl. auto.
  - unfold open_file. rewrite AD. rewrite map_app, open_app, O1. cbn [bind map fst open_exps]. unfold from_nexus at 1. rewrite AE. cbn [bind]. rewrite read_members_all, read_all_app. reflexivity.
  - apply Forall2_app; auto. constructor; [|constructor]. cbn [fst snd]. split; auto. apply (read_scans show root exp (S ++ [(n, HGroup a c)])); auto. intros y Y. apply in_app_iff. auto.
  - intros k v I. cbn [read_all] in I. destruct (read_node _ _ _) in I; cbn in I; [destruct I as [[= <- _]|[]]; auto|destruct I].
Qed.
Print Assumptions C85_interrupted.

(** What save raises: the exception, unless it is an OSError. *)
Theorem C85_raised : forall stamp d1 exp l1 n e l2 d2 a c x p files, let d := d1 ++ (exp, l1 ++ (n, e) :: l2) :: d2 in
  well_formed d -> snd (save_to true (Some (Failure exp n (HGroup a c) x)) p d stamp files) = match x with OSError => Ok tt | _ => Err x end.
Proof.
  intros stamp d1 exp l1 n e l2 d2 a c x p files d WF. unfold save_to. pose proof (proj2 (interrupted_root stamp d1 exp l1 n e l2 d2 a c x WF)) as E. cbn zeta in E. fold d in E. rewrite E. destruct x; reflexivity.
Qed.
Print Assumptions C85_raised.
(** One expects a save that returns to have saved the project. Whatever scan the disk is full at, it returns; so it does when the
    file cannot even be created. *)
Theorem C85_silent_refuted : forall stamp d1 exp l1 n e l2 d2 a c p files, let d := d1 ++ (exp, l1 ++ (n, e) :: l2) :: d2 in
  well_formed d -> snd (save_to true (Some (Failure exp n (HGroup a c) OSError)) p d stamp files) = Ok tt /\ save_to false None p d stamp files = (files, Ok tt).
Proof. intros stamp d1 exp l1 n e l2 d2 a c p files d WF. split; [|reflexivity]. apply (C85_raised stamp d1 exp l1 n e l2 d2 a c OSError p files WF). Qed.
Print Assumptions C85_silent_refuted.
(** One expects the file of an earlier save to survive a save that fails. What it held has no influence on what is left. *)
Theorem C85_earlier_save_refuted : forall w p d stamp files old,
  sget p (fst (save_to true w p d stamp (sset p old files))) = sget p (fst (save_to true w p d stamp files)).
Proof. intros w p d stamp files old. unfold save_to. destruct (save_f w d stamp) as [r z]. cbn [fst]. rewrite !P_Tavi.sget_sset, String.eqb_refl. auto. Qed.
Print Assumptions C85_earlier_save_refuted.
(** Other files are never touched. *)
Theorem C85_other_files : forall creatable w p d stamp files q, q <> p -> sget q (fst (save_to creatable w p d stamp files)) = sget q files.
Proof.
  intros creatable w p d stamp files q N. unfold save_to. destruct creatable; auto. destruct (save_f w d stamp) as [r z]. cbn [fst]. rewrite P_Tavi.sget_sset. destruct (String.eqb_spec q p); [contradiction|auto].
Qed.
Print Assumptions C85_other_files.

(** ** Converting a folder *)
Lemma write_none : forall folder stamp scans d, write_scans_f None folder stamp scans d = write_scans folder stamp scans d.
Proof. intros folder stamp. induction scans as [|[k e] scans IH]; intros d; cbn [write_scans_f write_scans fails]; auto. destruct (to_nexus _ _ _ _); auto. Qed.
Theorem C85_convert_no_failure : forall float_of int_of repr date_of genfromtxt xml_matrix fs spice listing given i s stamp d,
  convert_f float_of int_of repr date_of genfromtxt xml_matrix None fs spice listing given i s stamp d = convert_spice_to_nexus float_of int_of repr date_of genfromtxt xml_matrix fs spice listing given i s stamp d.
Proof.
  intros. unfold convert_f, convert_spice_to_nexus. destruct (from_spice _ _ _ _ _ _ _ _ _ _ _ _) as [[|[k e] rest]|]; auto. destruct (dataset_name e); auto. apply write_none.
Qed.
Print Assumptions C85_convert_no_failure.

Lemma file_inj : forall folder k k', (folder ++ k ++ ".h5" = folder ++ k' ++ ".h5")%string -> k = k'.
Proof. intros folder k k'. apply (P_Convert.file_inj folder k k'). Qed.
Lemma write_kept : forall w folder stamp scans d q, (forall k, In k (map fst scans) -> q <> (folder ++ k ++ ".h5")%string) -> sget q (fst (write_scans_f w folder stamp scans d)) = sget q d.
Proof.
  intros w folder stamp. induction scans as [|[k e] scans IH]; intros d q N; cbn [write_scans_f fst]; auto.
  assert (NK : q <> (folder ++ k ++ ".h5")%string) by (apply N; left; auto). apply String.eqb_neq in NK.
  destruct (fails w "" k) as [[part x]|]; cbn [fst]. { rewrite P_Tavi.sget_sset, NK. auto. }
  destruct (to_nexus _ _ _ _) as [r|]; cbn [fst]; auto. rewrite IH. { rewrite P_Tavi.sget_sset, NK. auto. } intros; apply N; right; auto.
Qed.
(** A conversion that fails at one scan has made the files of the scans before as the whole conversion makes them, and has not touched
    those of the scans after, nor any other file. *)
Lemma write_interrupted : forall folder stamp s1 n e s2 part x d whole, NoDup (map fst (s1 ++ (n, e) :: s2)) -> write_scans folder stamp (s1 ++ (n, e) :: s2) d = (whole, Ok tt) ->
  exists d', write_scans_f (Some (Failure "" n part x)) folder stamp (s1 ++ (n, e) :: s2) d = (d', Err x) /\ sget (folder ++ n ++ ".h5")%string d' = Some part /\
  (forall k, In k (map fst s1) -> sget (folder ++ k ++ ".h5")%string d' = sget (folder ++ k ++ ".h5")%string whole) /\
  (forall q, (forall k, In k (map fst s1) -> q <> (folder ++ k ++ ".h5")%string) -> q <> (folder ++ n ++ ".h5")%string -> sget q d' = sget q d).
Proof.
  intros folder stamp s1 n e s2 part x d whole ND H. set (w := Some (Failure "" n part x)).
  revert d H. induction s1 as [|[k1 e1] s1 IH]; intros d H; cbn [List.app write_scans_f write_scans] in *.
  - unfold fails, w. cbn [f_exp f_scan f_left f_exn]. rewrite !String.eqb_refl. cbn [andb]. eexists. split; [reflexivity|]. split; [rewrite P_Tavi.sget_sset, String.eqb_refl; auto|]. split; [intros k []|].
    intros q _ Q. rewrite P_Tavi.sget_sset. apply String.eqb_neq in Q. rewrite Q. auto.
  - cbn [map fst] in ND. inversion ND as [|? ? NK ND']; subst. assert (K1 : k1 <> n). { intros ->. apply NK. rewrite map_app, in_app_iff. right. left. auto. }
    assert (FN : fails w "" k1 = None). { unfold fails, w. cbn [f_exp f_scan]. apply String.eqb_neq in K1. rewrite K1. reflexivity. } rewrite FN.
    destruct (to_nexus _ _ _ _) as [r1|]; [|discriminate]. destruct (IH ND' _ H) as (d' & WI & B & C & D).
    pose proof (write_kept w folder stamp (s1 ++ (n, e) :: s2) (sset (folder ++ k1 ++ ".h5")%string r1 d) (folder ++ k1 ++ ".h5")%string) as WK. rewrite WI in WK. cbn [fst] in WK.
    pose proof (write_kept None folder stamp (s1 ++ (n, e) :: s2) (sset (folder ++ k1 ++ ".h5")%string r1 d) (folder ++ k1 ++ ".h5")%string) as WK0. rewrite write_none, H in WK0. cbn [fst] in WK0.
    assert (DIFF : forall k, In k (map fst (s1 ++ (n, e) :: s2)) -> (folder ++ k1 ++ ".h5" <> folder ++ k ++ ".h5")%string). { intros k K Q. apply file_inj in Q. subst. contradiction. }
    exists d'. split; auto. split; auto. split.
    + intros k [<-|K]; [|apply C; exact K]. cbn [fst]. rewrite WK by auto. rewrite WK0 by auto. reflexivity.
    + intros q Q1 Q2. rewrite D; auto. 2:{ intros k K. apply Q1. right. auto. } rewrite P_Tavi.sget_sset. assert (Q3 : q <> (folder ++ k1 ++ ".h5")%string) by (apply Q1; left; auto). apply String.eqb_neq in Q3. rewrite Q3. auto.
Qed.
Theorem C85_convert_interrupted : forall float_of int_of repr date_of genfromtxt xml_matrix fs spice listing given i s stamp d whole s1 n e s2 part x,
  from_spice float_of int_of repr date_of genfromtxt xml_matrix fs (path_of spice) listing None i s = Ok (s1 ++ (n, e) :: s2) ->
  convert_spice_to_nexus float_of int_of repr date_of genfromtxt xml_matrix fs spice listing given i s stamp d = (whole, Ok tt) ->
  exists name folder d', data_set float_of genfromtxt fs (path_of spice) listing name /\ target spice given name folder /\
    convert_f float_of int_of repr date_of genfromtxt xml_matrix (Some (Failure "" n part x)) fs spice listing given i s stamp d = (d', Err x) /\
    sget (folder ++ n ++ ".h5")%string d' = Some part /\
    (forall k, In k (map fst s1) -> sget (folder ++ k ++ ".h5")%string d' = sget (folder ++ k ++ ".h5")%string whole) /\
    (forall q, (forall k, In k (map fst s1) -> q <> (folder ++ k ++ ".h5")%string) -> q <> (folder ++ n ++ ".h5")%string -> sget q d' = sget q d).
Proof.
  intros float_of int_of repr date_of genfromtxt xml_matrix fs spice listing given i s stamp d whole s1 n e s2 part x FS H.
  destruct (P_Convert.from_origin _ _ _ _ _ _ _ _ _ _ _ _ FS) as (name & DS & ND & NE & OR). exists name, (nexus_folder spice given name).
  assert (DN : forall k0 e0, In (k0, e0) (s1 ++ (n, e) :: s2) -> dataset_name e0 = Ok name).
  { intros k0 e0 I. destruct (OR k0 e0 I) as (f & L & e' & a & _ & _ & _ & _ & _ & ->). unfold dataset_name, L_Convert2.stamped. rewrite P_Tavi.sget_sset, String.eqb_refl. rewrite P_Tavi.sget_sset, String.eqb_refl. reflexivity. }
  unfold convert_spice_to_nexus in H. unfold convert_f. rewrite FS in *.
  assert (W : write_scans (nexus_folder spice given name) stamp (s1 ++ (n, e) :: s2) d = (whole, Ok tt)). { destruct (s1 ++ (n, e) :: s2) as [|[k0 e0] rest]; [destruct NE; auto|]. rewrite (DN k0 e0 (or_introl eq_refl)) in H. exact H. }
  destruct (write_interrupted _ stamp s1 n e s2 part x d whole ND W) as (d' & E & R). exists d'. split; auto. split; [apply P_Convert.target_of; auto|]. split; [|exact R].
  destruct (s1 ++ (n, e) :: s2) as [|[k0 e0] rest]; [destruct NE; auto|]. rewrite (DN k0 e0 (or_introl eq_refl)). exact E.
Qed.
Print Assumptions C85_convert_interrupted.

Example C85_example : let d := [] ++ ("IPTS1", [("scan0001", sample_entry)] ++ ("scan0002", sample_entry) :: []) :: [("IPTS2", [("scan0001", sample_entry)])] in
  well_formed d /\ exists root, sget "t.h5" (fst (save_to true (Some (Failure "IPTS1" "scan0002" (HGroup [] []) KeyError)) "t.h5" d [] [])) = Some root.
Proof. split; [exact C59_example|]. destruct (C85_interrupted (fun _ => "") [] [] "IPTS1" [("scan0001", sample_entry)] "scan0002" sample_entry [] [("IPTS2", [("scan0001", sample_entry)])] [] [] KeyError "t.h5" [] C59_example) as (root & _ & _ & _ & S & _). eauto. Qed.
Lemma two_names : forall {V} (l : list (string * V)) a b, map fst l = [a; b] -> exists x y, l = [(a, x)] ++ (b, y) :: [].
Proof. intros V l a b H. destruct l as [|[k1 e1] [|[k2 e2] [|]]]; try discriminate H. cbn [map fst] in H. injection H as -> ->. exists e1, e2. reflexivity. Qed.
(** The folder of C67 can be converted; its second scan is one at which this can fail. *)
Example C85_convert_example : exists s1 e whole, from_spice P_Builder6.ex_float P_ScanInfo2.ex_digits P_Builder6.ex_repr P_Builder6.ex_date P_Folder.ex_text (fun _ => None) P_Folder.ex_folder (path_of "/exp1") P_Folder.ex_listing None None None = Ok (s1 ++ ("scan0010", e) :: []) /\
  map fst s1 = ["scan0002"] /\ convert_spice_to_nexus P_Builder6.ex_float P_ScanInfo2.ex_digits P_Builder6.ex_repr P_Builder6.ex_date P_Folder.ex_text (fun _ => None) P_Folder.ex_folder "/exp1" P_Folder.ex_listing None None None (fun _ => []) [] = (whole, Ok tt).
Proof.
  destruct P_Convert.C76_example as (scans & d' & r2 & r10 & c10 & FS & NM & _ & CV & _). destruct (two_names scans _ _ NM) as (e1 & e2 & E). exists [("scan0002", e1)], e2, d'. rewrite E in FS.
  split; [exact FS|]. split; [reflexivity|exact CV].
Qed.
