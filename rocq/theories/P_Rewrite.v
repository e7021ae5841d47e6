(** Property C85, continued: doing again what was interrupted, or what was done already. *)
From Coq Require Import Reals List String Ascii Bool Lia.
From Verif Require Import Base PyStr M_Tavi P_Tavi M_Nexus P_Nexus L_NexusFile L_NexusLinks P_NexusFile M_Builder M_Convert L_Rewrite M_Interrupt P_Interrupt.
Import ListNotations.
Open Scope string_scope.
Open Scope list_scope.

(** ** Specification *)
(** The beginning of an entry: what comes first, in the order of the entry; the last group of it may have been begun only. *)
Inductive beginning : list (string * val) -> list (string * val) -> Prop :=
| B_here : forall l1 l2, beginning (l1 ++ l2) l1
| B_inside : forall l1 k l l' l2, k = "attrs" \/ ~ is_dataset l -> beginning l l' -> beginning (l1 ++ (k, Dict l) :: l2) (l1 ++ [(k, Dict l')]).
(** What the group of an entry may hold when the entry is written: nothing that is not of the entry. *)
Definition started (e : list (string * val)) (name : string) (s : h5) : Prop := hok s /\ (exists a c, s = HGroup a c) /\ part (plot_link e [name]) (Dict e) s.
(** A file in which the entry may be written under a name. *)
Definition ready (e : list (string * val)) (name : string) (root : h5) : Prop :=
  exists a c, root = HGroup a c /\ NoDup (map fst c) /\ forall s, sget name c = Some s -> started e name s.

(** ** Writing once more *)
Lemma empty_started : forall e name, ~ is_dataset e -> started e name (HGroup [] []).
Proof.
  intros e name ND. split; [constructor; cbn; auto; [constructor|intros ? ? []]|]. split; [eauto|]. intros [|k p] _; cbn; auto. exists e. split; auto. split; [|intros; discriminate].
  unfold is_dataset in ND. destruct (sget "dataset" e); auto. exfalso. apply ND. discriminate.
Qed.
(** C85: an entry written into a file that holds any part of it already, or all of it, is there afterwards as if it were written for
    the first time; everything else in the file is as before; and it can be written again. *)
Theorem C85_write_again : forall show name e stamp root, conforming e -> ready e name root ->
  exists root' vs v, to_nexus [name] e stamp root = Ok root' /\ from_nexus show root' [] None = Ok vs /\ sget name vs = Some v /\ kept e v /\ shown e v /\
    ready e name root' /\ forall other q, other <> name -> at_path (other :: q) root' = at_path (other :: q) root.
Proof.
  intros show name e stamp root CF (a & c & -> & N & ST).
  set (s0 := match sget name c with Some m => m | None => HGroup [] [] end).
  assert (S0 : started e name s0). { unfold s0. destruct (sget name c) eqn:G; auto. apply empty_started. apply CF. }
  destruct S0 as (H0 & G0 & P0). destruct (rewrite_spec e [name] CF s0 G0 H0 P0) as (s' & W & EI & P').
  set (root' := HGroup (dupdate String.eqb a stamp) (sset name s' c)).
  assert (TN : to_nexus [name] e stamp (HGroup a c) = Ok root'). { unfold to_nexus. cbn [in_group]. fold s0. change (write_entry [name] e s0) with (write_entry [name] e s0) in W. rewrite W. reflexivity. }
  assert (A : at_path [name] root' = Some s'). { cbn. rewrite sget_sset, String.eqb_refl. auto. }
  assert (N' : NoDup (map fst (sset name s' c))). { destruct (in_dec string_dec name (map fst c)) as [I|I]; [rewrite sset_keys_in; auto|]. rewrite sset_fresh, map_app by auto. apply nodup_snoc; auto. }
  destruct (entry_read e [name] s' show root' EI A) as (v & R & K & S).
  exists root', (read_all show (resolve_in root') (sset name s' c)), v. split; auto. split. { unfold from_nexus. cbn [at_path]. unfold root' at 1. rewrite read_members_all. reflexivity. }
  split. { apply in_sget. - clear - N'. revert N'. generalize (sset name s' c). induction d as [|[k n] d IH]; intros N; cbn [read_all]; [constructor|]. inversion N; subst. destruct (read_node _ _ n); cbn [map fst]; auto. constructor; auto.
      intros I. apply H1. clear - I. induction d as [|[k' n'] d IH]; cbn [read_all] in I; [destruct I|]. destruct (read_node _ _ n'); cbn in *; tauto.
    - assert (I : In (name, s') (sset name s' c)). { apply sget_in. rewrite sget_sset, String.eqb_refl. auto. } clear - I R. revert I. generalize (sset name s' c). induction d as [|[k n] d IH]; intros I; [destruct I|]. cbn [read_all]. destruct I as [[= -> ->]|I]; [rewrite R; left; auto|].
      destruct (read_node _ _ n); [right|]; auto. }
  split; auto. split; auto. split.
  - exists (dupdate String.eqb a stamp), (sset name s' c). split; auto. split; auto. intros s G. rewrite sget_sset, String.eqb_refl in G. injection G as <-. split; [apply EI|]. split; [apply EI|exact P'].
  - intros other q NE. exact (C38_other_entries_kept name e stamp (HGroup a c) root' other q TN NE).
Qed.
Print Assumptions C85_write_again.

(** ** A write that was broken off leaves such a part *)
Lemma begin_get : forall l l' k v', beginning l l' -> sget k l' = Some v' -> sget k l = Some v' \/ exists m m', sget k l = Some (Dict m) /\ v' = Dict m' /\ (k = "attrs" \/ ~ is_dataset m) /\ beginning m m'.
Proof.
  intros l l' k v' B G. destruct B as [l1 l2|l1 k0 m m' l2 C B']. { left. rewrite sget_app, G. auto. }
  rewrite sget_app in G. rewrite sget_app. destruct (sget k l1) as [w|]; auto. cbn [dget] in *. destruct (String.eqb k k0) eqn:Q; [|discriminate]. apply String.eqb_eq in Q. subst. injection G as <-. right. exists m, m'. auto.
Qed.
Lemma begin_dataset : forall l l', beginning l l' -> ~ is_dataset l -> sget "dataset" l' = None.
Proof.
  intros l l' B ND. destruct (sget "dataset" l') eqn:G; auto. exfalso. apply ND. unfold is_dataset. destruct (begin_get _ _ _ _ B G) as [E|(m & m' & E & _)]; rewrite E; discriminate.
Qed.
Lemma begin_follow : forall p v l l', ~ In "attrs" p -> beginning l l' -> follow p (Dict l') = Some (Dict v) -> exists m, follow p (Dict l) = Some (Dict m) /\ ((m = v /\ p <> []) \/ ((p = [] \/ ~ is_dataset m) /\ beginning m v)).
Proof.
  induction p as [|k p]; intros v l l' NA B F. { cbn in *. injection F as <-. exists l. split; auto. }
  cbn [follow items] in *. destruct (sget k l') as [w|] eqn:G; [|discriminate]. destruct (begin_get _ _ _ _ B G) as [E|(m & m' & E & -> & C & B')].
  - rewrite E. exists v. split; auto. left. split; [auto|discriminate].
  - rewrite E. assert (KA : k <> "attrs") by (intros ->; apply NA; left; auto). destruct C as [C|C]; [contradiction|]. assert (NA' : ~ In "attrs" p) by (intros I; apply NA; right; auto).
    destruct (IHp v m m' NA' B' F) as (m2 & F2 & [[-> _]|[D2 B2]]).
    + exists v. split; auto. left. split; [auto|discriminate].
    + exists m2. split; auto. right. split; auto. right. destruct D2 as [->|D2]; auto. cbn in F2. injection F2 as <-. auto.
Qed.
Lemma begin_leaf : forall p l l' x, beginning l l' -> leaf_at p (Dict l') = Some x -> leaf_at p (Dict l) = Some x.
Proof.
  induction p as [|k p]; intros l l' x B F; [discriminate|]. rewrite leaf_cons in *. destruct (sget k l') as [w|] eqn:G; [|discriminate]. destruct (begin_get _ _ _ _ B G) as [E|(m & m' & E & -> & C & B')]; rewrite E; eauto.
Qed.
Lemma begin_names : forall l l', beginning l l' -> NoDup (map fst l) -> NoDup (map fst l').
Proof.
  intros l l' B N. destruct B as [l1 l2|l1 k m m' l2 _ _].
  - rewrite map_app in N. clear - N. induction (map fst l1) as [|x xs IH]; [constructor|]. cbn in N. inversion N; subst. constructor; auto. intros I. apply H1. apply in_app_iff. auto.
  - rewrite map_app in *. cbn [map fst] in *. replace (map fst l1 ++ k :: map fst l2) with ((map fst l1 ++ [k]) ++ map fst l2) in N by (rewrite <- app_assoc; auto). clear - N. induction (map fst l1 ++ [k]) as [|x xs IH]; [constructor|]. cbn in N. inversion N; subst. constructor; auto. intros I. apply H1. apply in_app_iff. auto.
Qed.
Lemma begin_plain : forall l l', beginning l l' -> plain_attrs (Some (Dict l)) -> plain_attrs (Some (Dict l')).
Proof.
  intros l l' B [N P]. split; [eapply begin_names; eauto|]. intros k v I. apply in_sget in I; [|eapply begin_names; eauto]. destruct (begin_get _ _ _ _ B I) as [E|(m & m' & E & _)].
  - apply (P k). apply sget_in. auto.
  - apply sget_in in E. destruct (P _ _ E) as (x & E' & _). discriminate.
Qed.
Lemma begin_writable : forall l l', beginning l l' -> writable (Dict l) -> ~ is_dataset l -> writable (Dict l').
Proof.
  induction 1 as [l1 l2|l1 k m m' l2 C B IH]; intros W ND.
  all: inversion W as [? ? ? ? D|? N _ PA WM]; subst; [exfalso; apply ND; unfold is_dataset; rewrite D; discriminate|].
  - assert (B0 : beginning (l1 ++ l2) l1) by constructor. apply W_group; [eapply begin_names; eauto|eapply begin_dataset; eauto| |].
    + rewrite sget_app in PA. destruct (sget "attrs" l1); auto. exact I.
    + intros k v I KA. apply (WM k v); auto. apply in_app_iff. auto.
  - assert (B0 : beginning (l1 ++ (k, Dict m) :: l2) (l1 ++ [(k, Dict m')])) by (constructor; auto). apply W_group; [eapply begin_names; eauto|eapply begin_dataset; eauto| |].
    + rewrite sget_app in *. destruct (sget "attrs" l1); auto. cbn [dget] in *. destruct (String.eqb "attrs" k); [eapply begin_plain; eauto|exact I].
    + intros k0 v I KA. apply in_app_iff in I. destruct I as [I|[[= <- <-]|[]]]. { apply (WM k0 v); auto. apply in_app_iff. auto. }
      destruct C as [C|C]; [contradiction|]. apply IH; auto. apply (WM k (Dict m)); auto. apply in_app_iff. right. left. auto.
Qed.
(** C85: when the writing of an entry into a new file was broken off after any beginning of it, what is left is such a part. *)
Theorem C85_broken_off : forall e e' name, conforming e -> beginning e e' ->
  exists a c, write_group (Dict e') ([], []) = Ok (a, c) /\ started e name (HGroup a c).
Proof.
  intros e e' name (W & ND & PL) B. pose proof (begin_writable _ _ B W ND) as W'. pose proof (begin_dataset _ _ B ND) as D'.
  assert (D0 : sget "dataset" e = None) by (unfold is_dataset in ND; destruct (sget "dataset" e); auto; exfalso; apply ND; discriminate).
  destruct (empty_started e' name) as (H0 & _ & P0). { unfold is_dataset. rewrite D'. auto. }
  assert (P1 : part (fun _ _ => False) (Dict e') (HGroup [] [])). { intros [|k p] _; cbn; auto. exists e'. split; auto. split; auto. intros; discriminate. }
  destruct (over_spec (Dict e') W' e' eq_refl D' (fun _ _ => False) [] [] H0 P1) as (a & c & WG & HK & F & L). exists a, c. split; auto. split; auto. split; [eauto|].
  assert (L' : forall q, hleaf (fun _ => "") (fun _ => None) q (HGroup a c) = leaf_at q (Dict e')) by (intros q; destruct (L (fun _ => "") (fun _ => None) q) as [E|(? & ? & ? & _ & [])]; auto).
  assert (DK : forall p m v, follow p (Dict e) = Some (Dict m) -> (m = v /\ p <> []) \/ ((p = [] \/ ~ is_dataset m) /\ beginning m v) -> (sget "dataset" m = None <-> sget "dataset" v = None)).
  { intros p m v FM [[-> _]|[C BM]]; [tauto|]. assert (NM : ~ is_dataset m). { destruct C as [->|C]; auto. cbn in FM. injection FM as <-. auto. } pose proof (begin_dataset _ _ BM NM). unfold is_dataset in NM. destruct (sget "dataset" m); [exfalso; apply NM; discriminate|tauto]. }
  intros p NA. specialize (F p NA). destruct (at_path p (HGroup a c)) as [[a1 c1|a1 x1|t]|] eqn:A; auto.
  - destruct (follow p (Dict e')) as [[z|v]|] eqn:FO; try (destruct F; fail). destruct (begin_follow p v e e' NA B FO) as (m & FM & C). exists m. split; auto. split; [apply (DK p m v FM C); auto|].
    intros k x G. assert (E : leaf_at (p ++ ["attrs"; k]) (Dict e') = Some x). { rewrite <- L', (hleaf_app _ _ p _ _ ["attrs"; k] A NA). cbn [hleaf]. rewrite String.eqb_refl. auto. }
    apply (begin_leaf _ e) in E; auto. unfold leaf_at in E. rewrite follow_app, FM in E. exact E.
  - destruct (follow p (Dict e')) as [[z|v]|] eqn:FO; try (destruct F; fail). destruct (begin_follow p v e e' NA B FO) as (m & FM & C). exists m. split; auto. intros E. apply F. apply (DK p m v FM C). auto.
  - destruct (follow p (Dict e')) as [[z|v]|]; destruct F.
Qed.
Print Assumptions C85_broken_off.

(** ** The files of a conversion written again *)
(** C85: when the file of every scan is missing or holds a part of the scan, writing all of them makes every one complete. *)
Theorem C85_resume : forall show folder stamp scans d, NoDup (map fst scans) -> (forall k e, In (k, e) scans -> conforming e /\ forall r, sget (folder ++ k ++ ".h5")%string d = Some r -> ready e k r) ->
  exists d', write_scans folder stamp scans d = (d', Ok tt) /\ forall k e, In (k, e) scans ->
    exists root vs v, sget (folder ++ k ++ ".h5")%string d' = Some root /\ from_nexus show root [] None = Ok vs /\ sget k vs = Some v /\ kept e v /\ shown e v /\ ready e k root.
Proof.
  intros show folder stamp. induction scans as [|[k e] scans IH]; intros d N H; cbn [write_scans]. { exists d. split; auto. intros k e []. }
  cbn [map fst] in N. inversion N as [|? ? NK N']; subst. destruct (H k e (or_introl eq_refl)) as [CF RD]. set (p := (folder ++ k ++ ".h5")%string) in *.
  assert (R0 : ready e k (opened d p)). { unfold opened. destruct (sget p d) as [r|]; auto. exists [], []. split; auto. split; [constructor|]. intros; discriminate. }
  destruct (C85_write_again show k e (stamp p) _ CF R0) as (root & vs & v & TN & FN & GV & K & S & RD' & _). rewrite TN.
  assert (DIFF : forall k', In k' (map fst scans) -> (folder ++ k' ++ ".h5")%string <> p) by (intros k' I E; apply file_inj in E; subst; contradiction).
  destruct (IH (sset p root d) N') as (d' & W & RR). { intros k' e' I. destruct (H k' e' (or_intror I)) as [CF' R']. split; auto. intros r G. rewrite sget_sset in G. assert (Q : (folder ++ k' ++ ".h5")%string <> p) by (apply DIFF; apply (in_map fst) in I; auto). apply String.eqb_neq in Q. rewrite Q in G. auto. }
  exists d'. split; auto. intros k' e' [[= <- <-]|I]; auto. exists root, vs, v. split; [|auto].
  pose proof (write_kept None folder stamp scans (sset p root d) p) as WK. rewrite write_none, W in WK. cbn [fst] in WK. fold p. rewrite WK. { rewrite sget_sset, String.eqb_refl. auto. } intros k' I E. apply (DIFF k' I). auto.
Qed.
Print Assumptions C85_resume.
(** So a conversion that was broken off and is started again gives all scans: whatever the disk held of them, a part of the scan at which
    it was broken off is left and the rest is done by the second run. *)
Theorem C85_second_run : forall show folder stamp s1 n e s2 d e' x a c, let scans := s1 ++ (n, e) :: s2 in
  NoDup (map fst scans) -> (forall k e, In (k, e) scans -> conforming e /\ sget (folder ++ k ++ ".h5")%string d = None) ->
  beginning e e' -> write_group (Dict e') ([], []) = Ok (a, c) -> let left_ := HGroup [] [(n, HGroup a c)] in
  exists d1 d2, write_scans_f (Some (Failure "" n left_ x)) folder stamp scans d = (d1, Err x) /\ sget (folder ++ n ++ ".h5")%string d1 = Some left_ /\
    write_scans folder stamp scans d1 = (d2, Ok tt) /\
    forall k e, In (k, e) scans -> exists root vs v, sget (folder ++ k ++ ".h5")%string d2 = Some root /\ from_nexus show root [] None = Ok vs /\ sget k vs = Some v /\ kept e v /\ shown e v.
Proof.
  intros show folder stamp s1 n e s2 d e' x a c scans N H B WG left_.
  destruct (C85_resume show folder stamp scans d N) as (whole & WW & RW). { intros k e0 I. destruct (H k e0 I) as [CF G]. split; auto. rewrite G. intros; discriminate. }
  destruct (write_interrupted folder stamp s1 n e s2 left_ x d whole N WW) as (d1 & W1 & L1 & S1 & O1).
  assert (NN : ~ In n (map fst s1)). { unfold scans in N. rewrite map_app in N. cbn [map fst] in N. apply NoDup_remove_2 in N. intros I. apply N. apply in_app_iff. auto. }
  destruct (C85_resume show folder stamp scans d1 N) as (d2 & W2 & R2).
  { intros k e0 I. destruct (H k e0 I) as [CF G]. split; auto. intros r GR. destruct (in_dec string_dec k (map fst s1)) as [I1|I1].
    - rewrite S1 in GR by auto. destruct (RW k e0 I) as (root & vs & v & GW & _ & _ & _ & _ & RD). rewrite GW in GR. injection GR as <-. auto.
    - destruct (string_dec k n) as [->|KN].
      + rewrite L1 in GR. injection GR as <-. assert (E0 : e0 = e). { assert (X : sget n scans = Some e0) by (apply in_sget; auto). assert (Y : sget n scans = Some e) by (apply in_sget; auto; apply in_app_iff; right; left; auto). congruence. } subst e0.
        destruct (C85_broken_off e e' n CF B) as (a' & c' & WG' & ST). rewrite WG in WG'. apply Ok_inj in WG'. injection WG' as <- <-. exists [], [(n, HGroup a c)]. split; auto. split; [repeat constructor; auto|]. intros s GS. cbn in GS. rewrite String.eqb_refl in GS. injection GS as <-. auto.
      + rewrite O1 in GR; [congruence| |]. { intros k' I' E. apply file_inj in E. subst. contradiction. } { intros E. apply file_inj in E. contradiction. } }
  exists d1, d2. split; auto. split; auto. split; auto. intros k e0 I. destruct (R2 k e0 I) as (root & vs & v & A1 & A2 & A3 & A4 & A5 & _). exists root, vs, v. auto.
Qed.
Print Assumptions C85_second_run.

(** ** An example *)
(** The entry of C38, of which all before the sample and the beginning of the sample's group were written. *)
Example C85_again_example : conforming sample_entry /\ ready sample_entry "scan0001" (HGroup [] []) /\
  exists e', beginning sample_entry e' /\ map fst e' = ["attrs"; "instrument"; "sample"] /\ sget "sample" e' = Some (Dict []) /\ exists a c, write_group (Dict e') ([], []) = Ok (a, c) /\ map fst c = ["instrument"; "sample"].
Proof.
  split; [exact C38_example|]. split. { exists [], []. split; auto. split; [constructor|]. intros; discriminate. }
  eexists. split. { refine (B_inside [_; _] "sample" _ [] [_] _ (B_here [] _)). right. intros H. apply H. reflexivity. }
  split; [reflexivity|]. split; [reflexivity|]. do 2 eexists. split; reflexivity.
Qed.

(** ** What does not hold *)
(** One expects an entry written over another one to be what is read afterwards. What the new one does not have stays: here the second
    entry says nothing of the title, and the title of the first is read with it. *)
Theorem C85_stale_refuted : exists e1 e2 root1 root2 v, conforming e1 /\ conforming e2 /\ to_nexus ["scan0001"] e1 [] (HGroup [] []) = Ok root1 /\ to_nexus ["scan0001"] e2 [] root1 = Ok root2 /\
  (forall show, from_nexus show root2 [] None = Ok [("scan0001", v)]) /\ leaf_at ["title"; "dataset"] (Dict e2) = None /\ leaf_at ["title"; "dataset"] v = Some (LStr "old").
Proof.
  set (old := ("title", Dict [("attrs", Dict [("type", Leaf (LStr "NX_CHAR"))]); ("dataset", Leaf (LStr "old"))])). set (new := ("start", Dict [("attrs", Dict [("type", Leaf (LStr "NX_CHAR"))]); ("dataset", Leaf (LStr "today"))])).
  assert (C : forall k s, k <> "data" -> k <> "dataset" -> k <> "attrs" -> conforming [(k, Dict [("attrs", Dict [("type", Leaf (LStr "NX_CHAR"))]); ("dataset", Leaf (LStr s))])]).
  { intros k s K1 K2 K3. apply not_eq_sym, String.eqb_neq in K1, K2, K3. assert (GD : forall x, String.eqb x k = false -> sget x [(k, Dict [("attrs", Dict [("type", Leaf (LStr "NX_CHAR"))]); ("dataset", Leaf (LStr s))])] = None) by (intros x E; cbn [dget]; rewrite E; auto).
    split; [|split].
    - apply W_group; [nodup|apply GD; auto|rewrite GD by auto; exact I|]. intros k0 v [E|[]] _. injection E as <- <-. apply W_dataset with (x := LStr s); auto; [nodup|each|split; [nodup|each]|]. exists s. auto.
    - unfold is_dataset. rewrite GD by auto. auto.
    - left. cbn [follow items]. rewrite GD by auto. auto. }
  exists [old], [new]. do 2 eexists. exists (Dict [("attrs", Dict []); old; new]). split; [apply C; discriminate|]. split; [apply C; discriminate|]. split; [reflexivity|]. split; [reflexivity|]. split; [reflexivity|]. split; reflexivity.
Qed.
Print Assumptions C85_stale_refuted.
