(** Lemmas for C76: the entries the builder makes can be saved. *)
From Coq Require Import Reals List ZArith String Ascii Bool Lia DecimalString.
From Verif Require Import Base PyStr S_Str L_Str M_ScanData M_Spice M_Project M_Tavi P_Tavi M_Nexus P_Nexus L_NexusFile L_NexusLinks P_NexusFile M_Builder L_Builder P_Builder P_Builder2 P_Builder3 P_Builder4 P_Builder5 P_Builder6
  L_ScanFields P_Folder P_ScanFields M_ScanInfo L_ScanInfo P_ScanInfo P_ScanInfo2 S_Save S_Convert.
Import ListNotations.
Open Scope string_scope.
Open Scope list_scope.

(** * Trees that can be saved *)
Definition clean (k : string) : Prop := split_on "/" k = [k].
Definition tame (a : entry) : Prop := NoDup (map fst a) /\ sget "dataset" a = None /\ forall k v, In (k, v) a -> clean k /\ exists x, v = Leaf x.
Definition field_val (x : leaf) (a : entry) : val := Dict [("dataset", Leaf x); ("attrs", Dict a)].
Inductive good : val -> Prop :=
| Good_field : forall x a, tame a -> suits (Some (Dict a)) x -> good (field_val x a)
| Good_group : forall l, NoDup (map fst l) -> (forall v, In ("attrs", v) l -> exists a, v = Dict a /\ tame a) -> (forall k v, In (k, v) l -> k <> "dataset" /\ clean k) -> (forall k v, In (k, v) l -> k <> "attrs" -> good v) -> good (Dict l).
Lemma slash_clean : forall k, slash_free k -> clean k.
Proof. intros k H. apply split_on_one. auto. Qed.
Lemma tame_valued : forall a, tame a -> valued (Some (Dict a)).
Proof. intros a (N & _ & P). split; auto. intros k v I. apply (P k v I). Qed.
Lemma no_key : forall {A} k (l : list (string * A)), (forall v, ~ In (k, v) l) -> sget k l = None.
Proof. intros A k l H. destruct (sget k l) as [v|] eqn:E; auto. apply sget_in in E. destruct (H v E). Qed.
Lemma good_savable : forall v, good v -> savable v.
Proof.
  induction 1 as [x a T S|l N A K G IH].
  - eapply Sv_dataset; [| |reflexivity|apply tame_valued; auto|exact S]. { repeat constructor; cbn; intuition discriminate. } intros k v [E|[E|[]]]; injection E as <- _; auto.
  - apply Sv_group; auto. { apply no_key. intros v I. destruct (K _ _ I) as [X _]. contradiction. } destruct (sget "attrs" l) as [v|] eqn:E; [|exact Logic.I]. destruct (A v (sget_in _ _ _ E)) as (a & -> & T). apply tame_valued. auto.
Qed.
Lemma good_tidy : forall v, good v -> tidy v.
Proof.
  induction 1 as [x a T S|l N A K G IH].
  - apply Tidy_dict. { intros b [E|[E|[]]]; [discriminate|]. injection E as <-. exists a. split; auto. apply T. } intros k v [E|[E|[]]] NK; injection E as <- <-; [constructor|contradiction].
  - apply Tidy_dict; auto. intros a I. destruct (A a I) as (d & -> & T). exists d. split; auto. apply T.
Qed.
Lemma tame_follow : forall a p k w, tame a -> follow (p ++ [k]) (Dict a) = Some w -> clean k.
Proof.
  intros a p k w (N & _ & P) F. destruct p as [|b p]; cbn [List.app follow items] in F.
  - destruct (sget k a) as [v|] eqn:E; [|discriminate]. apply sget_in in E. apply (P _ _ E).
  - destruct (sget b a) as [v|] eqn:E; [|discriminate]. apply sget_in in E. destruct (P _ _ E) as (_ & x & ->). destruct p; discriminate.
Qed.
Lemma good_follow : forall v, good v -> forall p k w, follow (p ++ [k]) v = Some w -> clean k.
Proof.
  induction 1 as [x a T S|l N A K G IH]; intros p k w F.
  - destruct p as [|b p]; cbn [List.app follow items field_val dget] in F.
    + destruct (String.eqb k "dataset") eqn:Q1. { apply String.eqb_eq in Q1. subst. reflexivity. } destruct (String.eqb k "attrs") eqn:Q2; [|discriminate]. apply String.eqb_eq in Q2. subst. reflexivity.
    + destruct (String.eqb b "dataset"). { destruct p; discriminate. } destruct (String.eqb b "attrs"); [|discriminate]. eapply tame_follow; eauto.
  - destruct p as [|b p]; cbn [List.app follow items] in F.
    + destruct (sget k l) as [v|] eqn:E; [|discriminate]. apply sget_in in E. apply (K _ _ E).
    + destruct (sget b l) as [v|] eqn:E; [|discriminate]. apply sget_in in E. destruct (String.string_dec b "attrs") as [->|NB]. { destruct (A _ E) as (a & -> & T). eapply tame_follow; eauto. } eapply IH; eauto.
Qed.

(** * Fields *)
Definition firm (x : leaf) : Prop := match x with LStr _ | LNum _ | LArr _ => True | _ => False end.
Definition nodupb : list string -> bool := fix go (l : list string) : bool := match l with [] => true | x :: l' => negb (existsb (String.eqb x) l') && go l' end.
Definition kwok (kw : list (string * string)) : bool := nodupb (map fst kw) && forallb (fun k => existsb (String.eqb k) ["type"; "EX_required"; "units"; "NX_class"]) (map fst kw).
Definition as_attrs (kw : list (string * string)) : entry := map (fun a => (fst a, Leaf (LStr (snd a)))) kw.
Lemma attrs_get : forall kw k, sget k (as_attrs kw) = option_map (fun t => Leaf (LStr t)) (sget k kw).
Proof. induction kw as [|[a b] kw]; intros k; cbn; auto. destruct (String.eqb k a); auto. Qed.
Lemma kwok_tame : forall kw, kwok kw = true -> tame (as_attrs kw).
Proof.
  intros kw H. unfold kwok in H. apply andb_true_iff in H. destruct H as [N F]. rewrite forallb_forall in F. assert (MK : map fst (as_attrs kw) = map fst kw) by (unfold as_attrs; rewrite map_map; apply map_ext; auto).
  assert (IN : forall k, In k (map fst kw) -> In k ["type"; "EX_required"; "units"; "NX_class"]). { intros k I. specialize (F k I). apply existsb_exists in F. destruct F as (x & J & E). apply String.eqb_eq in E. subst. auto. }
  split; [|split].
  - rewrite MK. apply nodupb_ok. auto.
  - apply no_key. intros v I. apply (in_map fst) in I. rewrite MK in I. specialize (IN _ I). cbn in IN. intuition discriminate.
  - intros k v I. split. + apply (in_map fst) in I. rewrite MK in I. specialize (IN _ I). cbn [In fst] in IN. repeat (destruct IN as [<-|IN]; [reflexivity|]). destruct IN. + unfold as_attrs in I. apply in_map_iff in I. destruct I as ([a b] & E & _). injection E as <- <-. eauto.
Qed.
Lemma trunc_whole : forall x, exists z, trunc x = IZR z.
Proof. intros x. unfold trunc. destruct (Rle_dec 0 x); [eexists; reflexivity|]. exists (- Int_part (- x))%Z. rewrite opp_IZR. auto. Qed.
(** The content of a field may be a list of texts, or a list of numbers without a type. *)
Definition soft_value (v : pv) (kw : list (string * string)) : Prop := (exists l, v = PStrs l) \/ (exists l, v = PList l) /\ sget "type" kw <> Some "NX_FLOAT" /\ sget "type" kw <> Some "NX_INT".
Section Fields.
  Variable float_of : string -> option R.
  Variable int_of : string -> option Z.
  Variable repr : pv -> string.
  Variable date_of : string -> option string.
  Notation nxdataset := (nxdataset float_of int_of repr date_of).
  Notation fill := (fill float_of int_of repr date_of).
  Notation recast := (recast float_of int_of).
  Lemma recast_numbers : forall b v x, recast b v = Ok x -> (exists r, x = LNum r /\ (b = false -> exists z, r = IZR z)) \/ (exists l, x = LArr l /\ (b = false -> Forall (fun r => exists z, r = IZR z) l)).
  Proof.
    assert (TN : forall b t r, to_num float_of int_of b t = Ok r -> b = false -> exists z, r = IZR z).
    { intros b t r H ->. unfold to_num in H. destruct (int_of t); [|discriminate]. apply Ok_inj in H. subst. eauto. }
    assert (TM : forall b l xs, mapM (to_num float_of int_of b) l = Ok xs -> b = false -> Forall (fun r => exists z, r = IZR z) xs).
    { intros b l xs H B. apply mapM_Forall2 in H. induction H; constructor; eauto. }
    intros b v x H. destruct v as [|t|r|[|]|l|l|l]; cbn [M_Builder.recast] in H; try discriminate.
    - destruct (contains "," t). { apply bind_ok in H. destruct H as (l & M & H). apply Ok_inj in H. subst. right. exists l. split; eauto. }
      destruct (isnumeric (no_dots t)); [|discriminate]. apply bind_ok in H. destruct H as (r & M & H). apply Ok_inj in H. subst. left. exists r. split; eauto.
    - apply Ok_inj in H. subst. left. eexists. split; [reflexivity|]. intros ->. apply trunc_whole.
    - apply Ok_inj in H. subst. left. eexists. split; [reflexivity|]. exists 1%Z. auto.
    - apply Ok_inj in H. subst. left. eexists. split; [reflexivity|]. exists 0%Z. auto.
    - apply Ok_inj in H. subst. right. eexists. split; [reflexivity|]. intros ->. apply Forall_forall. intros r I. apply in_map_iff in I. destruct I as (y & <- & _). apply trunc_whole.
    - apply Ok_inj in H. subst. right. eexists. split; [reflexivity|]. intros ->. apply Forall_forall. intros r I. apply in_map_iff in I. destruct I as (y & <- & _). apply trunc_whole.
    - apply bind_ok in H. destruct H as (xs & M & H). apply Ok_inj in H. subst. right. exists xs. split; eauto.
  Qed.
  Lemma declared : forall kw t, declares (Some (Dict (as_attrs kw))) t -> sget "type" kw = Some t.
  Proof. intros kw t (a & E & G). injection E as <-. rewrite attrs_get in G. destruct (sget "type" kw); [|discriminate]. cbn in G. congruence. Qed.
  Lemma dataset_suits : forall v kw x, dataset_of float_of int_of repr date_of v kw = Ok x -> (sget "type" kw = Some "NX_CHAR" -> forall l, v <> PList l) -> suits (Some (Dict (as_attrs kw))) x.
  Proof.
    intros v kw x H NL. unfold dataset_of in H. split; [|split]; intros D; apply declared in D; rewrite D in H; cbn [String.eqb Ascii.eqb Bool.eqb] in H.
    - apply Ok_inj in H. subst x. specialize (NL D). destruct v; auto. apply (NL l). auto.
    - destruct (recast_numbers _ _ _ H) as [(r & -> & _)|(l & -> & _)]; auto.
    - destruct (recast_numbers _ _ _ H) as [(r & -> & Z)|(l & -> & Z)]; auto.
  Qed.
  Lemma dataset_firm : forall v kw x, dataset_of float_of int_of repr date_of v kw = Ok x -> soft_value v kw \/ firm x.
  Proof.
    intros v kw x H. unfold dataset_of, soft_value in *. destruct (sget "type" kw) as [t|].
    - destruct (String.eqb t "NX_CHAR") eqn:Q1. { apply String.eqb_eq in Q1. subst t. apply Ok_inj in H. subst x. destruct v; cbn; auto. left. left. eauto. }
      destruct (String.eqb t "NX_INT") eqn:Q2. { destruct (recast_numbers _ _ _ H) as [(r & -> & _)|(l & -> & _)]; right; exact Logic.I. }
      destruct (String.eqb t "NX_FLOAT") eqn:Q3. { destruct (recast_numbers _ _ _ H) as [(r & -> & _)|(l & -> & _)]; right; exact Logic.I. }
      destruct (String.eqb t "NX_DATE_TIME"). { destruct v; try discriminate. destruct (date_of s); [|discriminate]. apply Ok_inj in H. subst. right. exact Logic.I. }
      apply Ok_inj in H. subst x. apply String.eqb_neq in Q2, Q3. destruct v; cbn; auto; left; [right|left]; [|eauto]. split; [eauto|]. split; congruence.
    - apply Ok_inj in H. subst x. destruct v; cbn; auto; left; [right|left]; [|eauto]. split; [eauto|]. split; discriminate.
  Qed.
  Lemma nxdataset_inv : forall v kw d, nxdataset v kw = Ok d -> d <> [] -> exists x, dataset_of float_of int_of repr date_of v kw = Ok x /\ Dict d = field_val x (as_attrs kw).
  Proof.
    intros v kw d H N. unfold M_Builder.nxdataset in H. destruct v as [|[|c0 s0]| | | | |];
      try (apply Ok_inj in H; subst d; exfalso; apply N; reflexivity); apply bind_ok in H; destruct H as (y & E & H); apply Ok_inj in H; subst d; exists y; (split; [exact E|reflexivity]).
  Qed.
  Lemma field_good : forall v kw d, nxdataset v kw = Ok d -> d <> [] -> kwok kw = true -> (sget "type" kw = Some "NX_CHAR" -> forall l, v <> PList l) -> good (Dict d).
  Proof. intros v kw d H N K C. destruct (nxdataset_inv _ _ _ H N) as (x & E & ->). apply Good_field; [apply kwok_tame|eapply dataset_suits]; eauto. Qed.

  (** * Parts *)
  Definition fine (soft : list string) (f : fld) : Prop :=
    let '(k, v, kw) := f in named k /\ clean k /\ kwok kw = true /\ (sget "type" kw = Some "NX_CHAR" -> forall l, v <> PList l) /\ (In k soft \/ ~ soft_value v kw).
  Definition sound (soft : list string) (d : entry) : Prop := good (Dict d) /\ forall k x a, sget k d = Some (field_val x a) -> In k soft \/ firm x.
  Lemma fill_sound : forall soft l a d, fill l [("attrs", Dict a)] = Ok d -> tame a -> Forall (fine soft) l -> sound soft d.
  Proof.
    intros soft l a d H T F. rewrite Forall_forall in F.
    assert (M : forall k v, In (k, v) d -> (k = "attrs" /\ v = Dict a) \/ exists v0 kw d0, In (k, v0, kw) l /\ nxdataset v0 kw = Ok d0 /\ d0 <> [] /\ v = Dict d0).
    { apply (fill_members _ _ _ _ (fun k v => (k = "attrs" /\ v = Dict a) \/ exists v0 kw d0, In (k, v0, kw) l /\ nxdataset v0 kw = Ok d0 /\ d0 <> [] /\ v = Dict d0) _ _ _ H).
      - intros k v [E|[]]. injection E as <- <-. auto.
      - intros k v kw d0 I E N. right. exists v, kw, d0. auto. }
    split.
    - apply Good_group.
      + eapply fill_nodup; [exact H|]. repeat constructor. intros [].
      + intros v I. destruct (M _ _ I) as [(_ & ->)|(v0 & kw & d0 & J & _)]; [eauto|]. destruct (F _ J) as ((X & _) & _). contradiction.
      + intros k v I. destruct (M _ _ I) as [(-> & _)|(v0 & kw & d0 & J & _)]; [split; [discriminate|reflexivity]|]. destruct (F _ J) as ((_ & X) & C & _). auto.
      + intros k v I NK. destruct (M _ _ I) as [(-> & _)|(v0 & kw & d0 & J & E & N & ->)]; [contradiction|]. destruct (F _ J) as (_ & _ & K & C & _). eapply field_good; eauto.
    - intros k x b G. apply sget_in in G. destruct (M _ _ G) as [(-> & E)|(v0 & kw & d0 & J & E & N & E')].
      + injection E as <-. destruct T as (_ & X & _). discriminate X.
      + destruct (nxdataset_inv _ _ _ E N) as (y & DY & E2). rewrite E2 in E'. injection E' as <- _. destruct (F _ J) as (_ & _ & _ & _ & [S|S]); auto. destruct (dataset_firm _ _ _ DY); auto. contradiction.
  Qed.
End Fields.

(** * The parts of an entry *)
Definition keyok (k : string) : bool := negb (String.eqb k "attrs" || String.eqb k "dataset") && negb (contains "/" k).
Lemma keyok_spec : forall k, keyok k = true -> named k /\ clean k.
Proof.
  intros k H. unfold keyok in H. apply andb_true_iff in H. destruct H as [A B]. apply negb_true_iff in A, B. split; [apply not_reserved; auto|]. apply slash_clean. apply contains1. auto.
Qed.
Definition notlist (v : pv) : Prop := (forall l, v <> PStrs l) /\ (forall l, v <> PList l).
Lemma fine_plain : forall soft k v kw, keyok k = true -> kwok kw = true -> notlist v -> fine soft (k, v, kw).
Proof.
  intros soft k v kw K W [A B]. destruct (keyok_spec k K). unfold fine. split; auto. split; auto. split; auto. split; auto. right. intros [(l & ->)|((l & ->) & _)]; [apply (A l)|apply (B l)]; auto.
Qed.
Lemma single_notlist : forall v, single v -> notlist v.
Proof. intros v H. destruct v; try contradiction; split; discriminate. Qed.
  Lemma number_keyok : forall w z, keyok w = true -> (0 <= z)%Z -> keyok (numbered w z) = true.
  Proof.
    intros w z K Z. assert (S : every (fun c => c <> "/"%char) (numbered w z)).
    { unfold numbered. rewrite !every_app. split; [|split; [apply every_cons; split; [discriminate|apply every_nil]|apply str_clean; auto]]. unfold keyok in K. apply andb_true_iff in K. destruct K as [_ K]. apply negb_true_iff in K. apply contains1. auto. }
    unfold keyok. apply andb_true_iff. split; [|apply negb_true_iff, contains1; auto]. apply negb_true_iff, orb_false_iff.
    assert (U : forall a, ~ In "_"%char (list_ascii_of_string a) -> numbered w z <> a). { intros a N E. apply N. rewrite <- E. unfold numbered. clear. induction w; cbn; auto. }
    split; apply String.eqb_neq; apply U; cbn; intuition discriminate.
  Qed.
Section Parts.
  Variable float_of : string -> option R.
  Variable int_of : string -> option Z.
  Variable repr : pv -> string.
  Variable date_of : string -> option string.
  Notation nxdataset := (nxdataset float_of int_of repr date_of).
  Notation fill := (fill float_of int_of repr date_of).
  Notation build := (spice_scan_to_nxdict float_of int_of repr date_of).
  Variable i : option config.
  Variable s : option (dict string pv).
  Hypothesis OC : ordinary_config i s.
  Hypothesis SC : simple_config i s.
  Variable L : logs.
  Hypothesis PL : plain_logs L.
  Lemma meta_plain : forall k, ~ In k ["norm_vals"; "norm_channels"; "labels"; "Error Messages"; "Others"] -> meta L k = PNone \/ exists t, meta L k = PStr t.
  Proof using PL.
    intros k N. unfold meta. destruct (sget k (lg_meta L)) as [a|] eqn:E; auto. apply sget_in in E. destruct PL as [P _]. destruct (P _ _ E) as (_ & _ & [(t & ->)|J]); [|contradiction]. right. exists t. auto.
  Qed.
  Lemma meta_notlist : forall k, existsb (String.eqb k) ["norm_vals"; "norm_channels"; "labels"; "Error Messages"; "Others"] = false -> notlist (meta L k).
  Proof using PL.
    intros k N. destruct (meta_plain k) as [->|(t & ->)]; [|split; discriminate|split; discriminate]. intros I. assert (T : existsb (String.eqb k) ["norm_vals"; "norm_channels"; "labels"; "Error Messages"; "Others"] = true) by (apply existsb_exists; exists k; split; [auto|apply String.eqb_refl]). congruence.
  Qed.
  Lemma col_notlist : forall c, notlist (col L c).
  Proof using. intros c. unfold col. destruct (sget c (lg_data L)); split; discriminate. Qed.
  Lemma char_notlist : forall k n v, char_at L k n = Ok v -> notlist v.
  Proof using. intros k n v H. unfold char_at in H. apply bind_ok in H. destruct H as (t & _ & H). destruct (String.get n t); [|discriminate]. apply Ok_inj in H. subst. split; discriminate. Qed.
  Lemma item_notlist : forall k n v, meta_item L k n = Ok v -> notlist v.
  Proof using.
    intros k n v H. unfold meta_item in H. destruct (meta L k) as [|t| | | |l|l]; try discriminate; [destruct (String.get n t)|destruct (nth_error l n)|destruct (nth_error l n)]; try discriminate; apply Ok_inj in H; subst; split; discriminate.
  Qed.
  Lemma config_keyok : forall k, config_key i s k -> keyok k = true.
  Proof using OC.
    intros k H. destruct (OC k H) as (_ & A & B & _ & E). unfold keyok. apply andb_true_iff. split; apply negb_true_iff; [|apply contains1; auto]. apply orb_false_iff. split; apply String.eqb_neq; auto.
  Qed.
  Lemma params_fine : forall soft f name (p : string * pv -> bool), (forall k, kwok (f k) = true) -> Forall (fine soft) (with_kw f (filter p (params i name))).
  Proof using OC SC.
    intros soft f name p W. apply Forall_forall. intros x I. unfold with_kw in I. apply in_map_iff in I. destruct I as ([k v] & <- & I). apply filter_In in I. destruct I as [I _]. cbn [fst snd]. apply fine_plain; auto.
    - apply config_keyok. apply (params_key i s name). apply in_map_iff. exists (k, v). auto.
    - apply single_notlist. unfold params in I. destruct i as [c|] eqn:EI; [|destruct I]. destruct (sget name c) as [d|] eqn:E; [|destruct I]. destruct SC as [S1 _]. eapply S1; eauto.
  Qed.
  Lemma params_fine' : forall soft f name, (forall k, kwok (f k) = true) -> Forall (fine soft) (with_kw f (params i name)).
  Proof using OC SC. intros soft f name W. replace (params i name) with (filter (fun _ => true) (params i name)). { apply params_fine; auto. } clear. induction (params i name); cbn; congruence. Qed.
  Lemma cols_fine : forall soft kw names, kwok kw = true -> forallb keyok names = true -> Forall (fine soft) (map (fun n => (n, col L n, kw)) names).
  Proof using. intros soft kw names W K. rewrite forallb_forall in K. apply Forall_forall. intros x I. apply in_map_iff in I. destruct I as (n & <- & I). apply fine_plain; auto. apply col_notlist. Qed.
  Ltac plain := apply fine_plain; [reflexivity|reflexivity|first [apply col_notlist|eapply char_notlist; eassumption|apply meta_notlist; reflexivity|split; discriminate]].
  Ltac each := repeat (apply Forall_cons; [plain|]); try apply Forall_nil.
  Ltac kwcases := intros k; repeat (let x := fresh in match goal with |- kwok (?f _) = true => unfold f | |- kwok (?f _ _) = true => unfold f end); repeat match goal with |- context [if ?b then _ else _] => destruct b; [reflexivity|] end; try reflexivity.
  Ltac tamed := apply (kwok_tame _); reflexivity.
  Lemma sound_source : forall d, nxsource float_of int_of repr date_of i = Ok d -> sound [] d.
  Proof using OC SC. intros d H. unfold nxsource in H. eapply fill_sound; [exact H|tamed|]. apply Forall_app. split; [each|apply params_fine'; kwcases]. Qed.
  Lemma sound_mono : forall d, nxmono float_of int_of repr date_of L i = Ok d -> sound [] d.
  Proof using OC SC PL. intros d H. unfold nxmono in H. apply bind_ok in H. destruct H as (sense & ES & H). eapply fill_sound; [exact H|tamed|]. apply Forall_app. split; [each|apply params_fine'; kwcases]. Qed.
  Lemma sound_ana : forall d, nxana float_of int_of repr date_of L i = Ok d -> sound [] d.
  Proof using OC SC PL.
    intros d H. unfold nxana in H. apply bind_ok in H. destruct H as (sense & ES & H). eapply fill_sound; [exact H|tamed|]. apply Forall_app. split; [each|]. apply Forall_app. split; [cbn [flat_map List.app append]; each|apply params_fine'; kwcases].
  Qed.
  Lemma sound_det : forall d, nxdet float_of int_of repr date_of L i = Ok d -> sound [] d.
  Proof using OC SC.
    intros d H. unfold nxdet in H. eapply fill_sound; [exact H|tamed|]. apply Forall_app. split; [each|]. apply Forall_app. split; [apply params_fine'; kwcases|].
    apply Forall_forall. intros x I. apply in_map_iff in I. destruct I as (z & <- & I). apply channels_in in I. apply fine_plain; [apply number_keyok; [reflexivity|destruct I; lia]|reflexivity|apply col_notlist].
  Qed.
  Definition soft_coll : list string := ["divergence_x"; "divergence_y"].
  Lemma sound_coll : forall d, nxcoll float_of int_of repr date_of L i = Ok d -> sound soft_coll d.
  Proof using.
    intros d H. unfold nxcoll in H. do 4 (apply bind_ok in H; destruct H as (? & _ & H)). eapply fill_sound; [exact H|tamed|].
    assert (D : forall k l kw, In k soft_coll -> kwok kw = true -> sget "type" kw = Some "NX_ANGLE" -> fine soft_coll (k, PList l, kw)).
    { intros k l kw K W T. destruct (keyok_spec k) as [A B]. { destruct K as [<-|[<-|[]]]; reflexivity. } unfold fine. split; auto. split; auto. split; auto. split; auto. rewrite T. discriminate. }
    apply Forall_app. split. { apply Forall_cons; [plain|]. apply Forall_cons; [|apply Forall_nil]. apply D; [cbn; auto|reflexivity|reflexivity]. }
    apply Forall_app. split; [destruct x1|destruct x2]; cbn [opt_field]; try apply Forall_nil; (apply Forall_cons; [|apply Forall_nil]); apply D; try reflexivity; cbn; auto.
  Qed.
  Lemma sound_slits : forall d, nxslits float_of int_of repr date_of L = Ok d -> sound [] d.
  Proof using. intros d H. unfold nxslits in H. eapply fill_sound; [exact H|tamed|]. apply cols_fine; reflexivity. Qed.
  Lemma sound_flipper : forall d, nxflipper float_of int_of repr date_of L = Ok d -> sound [] d.
  Proof using. intros d H. unfold nxflipper in H. eapply fill_sound; [exact H|tamed|]. apply cols_fine; reflexivity. Qed.
  Lemma sound_goni : forall d, nxgoni float_of int_of repr date_of L i = Ok d -> sound [] d.
  Proof using OC SC.
    intros d H. unfold nxgoni in H. apply bind_ok in H. destruct H as (sense & ES & H). eapply fill_sound; [exact H|tamed|]. apply Forall_app. split; [each|]. apply Forall_app. split; [apply cols_fine; reflexivity|apply params_fine; auto].
  Qed.
  Lemma strs_fine : forall soft k l kw, keyok k = true -> kwok kw = true -> In k soft -> fine soft (k, PStrs l, kw).
  Proof using. intros soft k l kw K W I. destruct (keyok_spec k K). unfold fine. split; auto. split; auto. split; auto. split; auto. discriminate. Qed.
  Lemma sound_user : forall d, nxuser float_of int_of repr date_of L = Ok d -> sound ["name"] d.
  Proof using. intros d H. unfold nxuser in H. apply bind_ok in H. destruct H as (u & _ & H). eapply fill_sound; [exact H|tamed|]. apply Forall_cons; [|apply Forall_nil]. apply strs_fine; cbn; auto. Qed.
  Lemma channel_fine : forall soft z l, (0 <= z)%Z -> channel_fields L z = Ok l -> Forall (fine soft) l.
  Proof using.
    intros soft z l Z H. unfold channel_fields in H. apply bind_ok in H. destruct H as (m & M & H). apply bind_ok in H. destruct H as (p & P & H). apply bind_ok in H. destruct H as (b & B & H). apply Ok_inj in H. subst l.
    repeat (apply Forall_cons; [apply fine_plain; [apply number_keyok; [reflexivity|auto]|reflexivity|first [apply col_notlist|eapply item_notlist; eassumption]]|]). apply Forall_nil.
  Qed.
  Lemma sound_monitor : forall d, nxmonitor float_of int_of repr date_of L i = Ok d -> sound (if is_text (meta L "preset_type") "countfile" then ["countfile"] else []) d.
  Proof using OC SC PL.
    intros d H. unfold nxmonitor in H. cbv zeta in H. set (soft := if is_text (meta L "preset_type") "countfile" then ["countfile"] else []).
    assert (SHP : Forall (fine soft) (with_kw (fun _ => [tchar]) (filter (fun kv => String.eqb (fst kv) "shape") (params i "monitor")))) by (apply params_fine; auto).
    destruct (is_text (meta L "preset_type") "normal") eqn:Q1.
    - eapply fill_sound; [exact H|tamed|]. apply Forall_app. split; [each|]. apply Forall_app. split; [unfold counters; each|auto].
    - destruct (is_text (meta L "preset_type") "countfile") eqn:Q2.
      + apply bind_ok in H. destruct H as (cf & _ & H). apply bind_ok in H. destruct H as (ch & CH & H). eapply fill_sound; [exact H|tamed|]. apply Forall_app. split.
        { apply Forall_cons; [plain|]. apply Forall_cons; [|apply Forall_nil]. apply strs_fine; try reflexivity. subst soft. cbn. auto. }
        apply Forall_app. split; auto. apply mapM_Forall2 in CH. assert (POS : forall m, In m (channels L) -> (0 <= m)%Z). { intros m J. apply channels_in in J. destruct J. lia. }
        clear - CH POS. induction CH as [|m fs l ch E F IH]; cbn [List.concat]; [apply Forall_nil|]. apply Forall_app. split; [eapply channel_fine; [|exact E]; apply POS; left; auto|apply IH; intros; apply POS; right; auto].
      + eapply fill_sound; [exact H|tamed|]. apply Forall_app. split; [unfold counters; each|auto].
  Qed.
  Lemma sound_sample : forall d, nxsample float_of int_of repr date_of L s = Ok d -> sound [] d.
  Proof using OC SC PL.
    intros d H. unfold nxsample in H. apply bind_ok in H. destruct H as (u & _ & H). eapply fill_sound; [exact H|tamed|]. apply Forall_app. split; [each|]. apply Forall_app. split; [apply cols_fine; reflexivity|].
    apply Forall_app. split; [apply cols_fine; reflexivity|].
    assert (F : forall c, s = Some c -> Forall (fine []) (map (fun kv => (if String.eqb (fst kv) "ub_matrix" then "orientation_matrix" else fst kv, snd kv, sample_kw (fst kv))) (filter (fun kv => negb (one_of (fst kv) ["a"; "b"; "c"; "alpha"; "beta"; "gamma"])) c))).
    { intros c ES. apply Forall_forall. intros x I. apply in_map_iff in I. destruct I as ([k v] & <- & I). apply filter_In in I. destruct I as [I _]. cbn [fst snd].
      assert (K : keyok (if String.eqb k "ub_matrix" then "orientation_matrix" else k) = true). { destruct (String.eqb k "ub_matrix"); [reflexivity|]. apply config_keyok. right. exists c, v. auto. }
      assert (W : kwok (sample_kw k) = true). { unfold sample_kw. repeat match goal with |- context [if ?b then _ else _] => destruct b; [reflexivity|] end. reflexivity. }
      destruct SC as [_ S2]. destruct (S2 c k v ES I) as [SV|[NV J]]; [apply fine_plain; auto; apply single_notlist; auto|]. destruct (keyok_spec _ K) as [NK CK]. unfold fine.
      assert (T : sget "type" (sample_kw k) = Some "NX_FLOAT"). { cbn [In] in J. repeat (destruct J as [<-|J]; [reflexivity|]). destruct J. }
      split; auto. split; auto. split; auto. rewrite T. split; [discriminate|]. right. intros [(l & ->)|(_ & X & _)]; [contradiction|]. exact (X T). }
    unfold sample_params. clear - F. destruct s as [c|]; [|apply Forall_nil]. apply F. auto.
  Qed.
  (** ** The logs kept in the entry *)
  Lemma add_attributes_inv : forall l a e, (forall k v, In (k, v) l -> k <> "dataset" /\ slash_free k) -> tame a -> add_attributes l [("attrs", Dict a)] = Ok e -> exists a', e = [("attrs", Dict a')] /\ tame a'.
  Proof using.
    induction l as [|[k v] l IH]; intros a e K T H; cbn [add_attributes] in H. { apply Ok_inj in H. eauto. }
    apply bind_ok in H. destruct H as (e1 & H1 & H). assert (X : exists a1, e1 = [("attrs", Dict a1)] /\ tame a1).
    { assert (Y : forall x, add_attribute k x [("attrs", Dict a)] = Ok e1 -> exists a1, e1 = [("attrs", Dict a1)] /\ tame a1).
      { intros x A. unfold add_attribute in A. apply bind_ok in A. destruct A as (f & _ & A). destruct f. { apply Ok_inj in A. eauto. } cbn [dget String.eqb Ascii.eqb Bool.eqb dset] in A. apply Ok_inj in A. subst e1.
        eexists. split; [reflexivity|]. destruct (K k v (or_introl eq_refl)) as [KD KS]. destruct T as (N & D & P). split; [apply sset_nodup; auto|]. split; [rewrite sget_sset_ne; auto|].
        intros k' v' I. destruct (in_sset _ _ _ _ _ I) as [[-> ->]|J]; [split; [apply slash_clean; auto|eauto]|eauto]. }
      destruct (pv_of v); [apply Ok_inj in H1; eauto|eapply Y; eauto ..]. }
    destruct X as (a1 & -> & T1). eapply IH; eauto. intros; eapply K; right; eauto.
  Qed.
  Lemma sound_logs : forall d, formatted_spicelogs float_of int_of repr date_of L = Ok d -> sound [] d /\ flat d /\ forall c x a, sget c d = Some (field_val x a) -> exists l, x = LArr l.
  Proof using PL.
    intros d H. unfold formatted_spicelogs in H. apply bind_ok in H. destruct H as (e & E & H). destruct PL as [PM PD].
    destruct (add_attributes_inv _ _ _ (fun k v I => conj (proj1 (PM k v I)) (proj1 (proj2 (PM k v I)))) (kwok_tame [("NX_class", "NXcollection"); ("EX_required", "false")] eq_refl) E) as (a & -> & T).
    assert (S : sound [] d).
    { eapply fill_sound; [exact H|exact T|]. apply Forall_forall. intros f I. apply in_map_iff in I. destruct I as ([c l] & <- & I). cbn [fst snd]. destruct (PD c l I) as (N1 & N2 & SF). apply fine_plain; [|reflexivity|split; discriminate].
      unfold keyok. apply andb_true_iff. split; apply negb_true_iff; [|apply contains1; auto]. apply orb_false_iff. split; apply String.eqb_neq; auto. }
    assert (M : forall k v, In (k, v) d -> (k = "attrs" /\ v = Dict a) \/ named k /\ exists l, v = field_val (LArr l) []).
    { apply (fill_members _ _ _ _ (fun k v => (k = "attrs" /\ v = Dict a) \/ named k /\ exists l, v = field_val (LArr l) []) _ _ _ H).
      - intros k v [X|[]]. injection X as <- <-. auto.
      - intros k v kw d0 I D N. right. apply in_map_iff in I. destruct I as ([c l] & X & I). injection X as <- <- <-. cbn in D. apply Ok_inj in D. subst d0. split; [|exists l; reflexivity]. destruct (PD c l I) as (N1 & N2 & _). split; auto. }
    split; auto. split.
    - intros k v I. destruct (M _ _ I) as [(-> & ->)|(NK & l & ->)]; [left; split; auto; exists a; split; auto; apply T|right; split; auto; eexists; eexists; reflexivity].
    - intros c x b G. apply sget_in in G. destruct (M _ _ G) as [(-> & X)|(NK & l & X)]; [injection X as <-; destruct T as (_ & T & _); discriminate T|]. injection X as -> _. eauto.
  Qed.

  (** ** The whole entry *)
  Lemma nxentry_good : forall kw, NoDup (map fst kw) -> ~ In "attrs" (map fst kw) -> tame (kattrs kw) -> (forall k o, In (k, KObj o) kw -> o <> [] -> keyok k = true /\ good (Dict o)) ->
    good (Dict (nxentry kw)) /\ sget "attrs" (nxentry kw) = Some (Dict (kattrs kw)).
  Proof using.
    intros kw N NA T G. assert (GA : sget "attrs" (nxentry kw) = Some (Dict (kattrs kw))).
    { unfold nxentry. rewrite dupdate_get by (apply kmembers_nodup; auto). rewrite kmembers_get by auto. destruct (sget "attrs" kw) as [x|] eqn:E; [|reflexivity]. apply sget_in in E. apply (in_map fst) in E. contradiction. }
    split; auto. apply Good_group.
    - apply nxentry_nodup.
    - intros v I. apply in_sget in I; [|apply nxentry_nodup]. rewrite GA in I. injection I as <-. eauto.
    - intros k v I. destruct (String.string_dec k "attrs") as [->|NK]; [split; [discriminate|reflexivity]|]. destruct (nxentry_in _ _ _ N I NK) as (o & J & -> & NE). destruct (G _ _ J NE) as [K _]. apply keyok_spec in K. destruct K as [[_ K] C]. auto.
    - intros k v I NK. destruct (nxentry_in _ _ _ N I NK) as (o & J & -> & NE). apply (G _ _ J NE).
  Qed.
  (** Which fields are lists. *)
  Definition soft (g : string) : list string :=
    if String.eqb g "collimator" then soft_coll else if String.eqb g "user" then ["name"] else if String.eqb g "monitor" then (if is_text (meta L "preset_type") "countfile" then ["countfile"] else []) else [].
  Record entire (e instrument : entry) (part : string -> entry) (spice da : entry) : Prop := Entire {
    en_shape : shape i s e instrument part;
    en_good : good (Dict e);
    en_attrs : exists a, sget "attrs" e = Some (Dict a);
    en_logs : sget "SPICElogs" e = Some (Dict spice);
    en_logs_sound : sound [] spice;
    en_logs_flat : flat spice;
    en_part : forall g, In g (component_names_ ++ group_names) -> sound (soft g) (part g);
    en_single : forall k v, In k single_names -> k <> "data" -> sget k e = Some v -> exists x a, v = field_val x a /\ firm x;
    en_name : forall x a, sget "name" instrument = Some (field_val x a) -> exists t, x = LStr t;
    en_data : sget "data" e = Some (Dict [("attrs", Dict da)]);
    en_signal : forall y, header L "def_y" = Some y -> sget "signal" da = Some (Leaf (LStr y));
    en_axes : forall x, header L "def_x" = Some x -> exists t, axis_name x t /\ sget "axes" da = Some (Leaf (LStr t)) }.
  Lemma built_entire : forall e, build L i s = Ok e -> exists instrument part spice da, entire e instrument part spice da.
  Proof using OC SC PL.
    intros e B. destruct (built_shape float_of int_of repr date_of i s (config_named i s OC) L e B) as (instrument & part & SH & _). destruct (data_attrs _ _ _ _ _ _ _ _ B) as (da & GDA0 & SIG & _ & AXE & _).
    pose proof (built float_of int_of repr date_of L i s e B) as B0. unfold spice_scan_to_nxdict in B.
    destruct B0 as (instrument0 & source & mono & ana & det & coll & slits & flipper & goni & monitor & sample & user & spice &
      (ES & EM & EA & ED & EC & ESL & EF & EG & EMN & ESA & EU & ESP) & (GS & GM & GA & GD & GC & GSL & GF & GG) & (GI0 & GMN & GSA & GU & GSP & GDA)).
    rewrite EU, ES, EM, EA, ED, EC, ESL, EF, EG, EMN, ESA, ESP in B. cbn [bind] in B.
    apply bind_ok in B. destruct B as (name & EN & B). cbv zeta in B. apply bind_ok in B. destruct B as (def_ & EDF & B). apply bind_ok in B. destruct B as (title & ET & B).
    apply bind_ok in B. destruct B as (st & EST & B). apply bind_ok in B. destruct B as (et & EET & B). apply Ok_inj in B.
    assert (IN : instrument0 = instrument) by (pose proof (sh_instrument _ _ _ _ _ SH); congruence). subst instrument0.
    set (ikw := [("source", KObj source); ("monochromator", KObj mono); ("collimator", KObj coll); ("analyser", KObj ana); ("detector", KObj det);
                                 ("slits", KObj slits); ("flipper", KObj flipper); ("goniometer", KObj goni); ("name", KObj name);
                                 ("NX_class", KAttr (LStr "NXinstrument")); ("EX_required", KAttr (LStr "true"))]) in B.
    set (ekw := ("SPICElogs", KObj spice) :: _) in B.
    assert (D1 : NoDup (map fst ikw)) by (apply nodupb_ok; vm_compute; reflexivity). assert (D2 : NoDup (map fst ekw)) by (apply nodupb_ok; vm_compute; reflexivity).
    assert (GI : good (Dict (nxentry ikw)) /\ sget "attrs" (nxentry ikw) = Some (Dict (kattrs ikw))).
    { apply nxentry_good; auto.
      - cbn. intuition discriminate.
      - apply (kwok_tame [("NX_class", "NXinstrument"); ("EX_required", "true")]). reflexivity.
      - intros k o J NE. unfold ikw in J. cbn [In] in J.
        destruct J as [J|[J|[J|[J|[J|[J|[J|[J|[J|[J|[J|[]]]]]]]]]]]]; try discriminate; injection J as <- Q; subst o; (split; [reflexivity|]).
        + apply (sound_source source ES). + apply (sound_mono mono EM). + apply (sound_coll coll EC). + apply (sound_ana ana EA). + apply (sound_det det ED). + apply (sound_slits slits ESL). + apply (sound_flipper flipper EF). + apply (sound_goni goni EG).
        + eapply field_good; [exact EN|auto|reflexivity|]. intros _. apply meta_notlist. reflexivity. }
    assert (GE : good (Dict (nxentry ekw)) /\ sget "attrs" (nxentry ekw) = Some (Dict (kattrs ekw))).
    { apply nxentry_good; auto.
      - cbn. intuition discriminate.
      - apply (kwok_tame [("NX_class", "NXentry"); ("EX_required", "true")]). reflexivity.
      - intros k o J NE. unfold ekw in J. cbn [In] in J.
        destruct J as [J|[J|[J|[J|[J|[J|[J|[J|[J|[J|[J|[J|[]]]]]]]]]]]]]; try discriminate; injection J as <- Q; subst o; (split; [reflexivity|]).
        + apply (sound_logs spice ESP).
        + unfold nxdata. apply Good_group.
          * repeat constructor. intros [].
          * intros v [X|[]]. injection X as <-. eexists. split; [reflexivity|]. assert (TA : forall k v, text_attr k v = [] \/ exists x, text_attr k v = [(k, Leaf x)]) by (intros k []; cbn; eauto).
            destruct (TA "signal" (meta L "def_y")) as [->|(y & ->)]; match goal with |- context [text_attr "axes" ?v] => destruct (TA "axes" v) as [->|(x & ->)] end; cbn [List.app];
              (split; [apply nodupb_ok; reflexivity|split; [reflexivity|intros k v I; cbn [In] in I; repeat (destruct I as [I|I]; [injection I as <- <-; split; [reflexivity|eauto]|]); destruct I]]).
          * intros k v [X|[]]. injection X as <- <-. split; [discriminate|reflexivity].
          * intros k v [X|[]] NK. injection X as <- <-. contradiction.
        + eapply field_good; [exact EDF|auto|reflexivity|]. discriminate.
        + eapply field_good; [exact ET|auto|reflexivity|]. intros _. apply meta_notlist. reflexivity.
        + eapply field_good; [exact EST|auto|reflexivity|]. discriminate.
        + eapply field_good; [exact EET|auto|reflexivity|]. discriminate.
        + apply GI.
        + apply (sound_monitor monitor EMN).
        + apply (sound_sample sample ESA).
        + apply (sound_user user EU). }
    assert (IE : instrument = nxentry ikw).
    { rewrite <- B in GI0. rewrite nxentry_get in GI0; [|auto|discriminate]. assert (Q : sget "instrument" ekw = Some (KObj (nxentry ikw))) by reflexivity. rewrite Q in GI0. destruct (nxentry ikw); [discriminate|]. congruence. }
    assert (FN : forall v kw d x a, nxdataset v kw = Ok d -> d <> [] -> Dict d = field_val x a -> dataset_of float_of int_of repr date_of v kw = Ok x).
    { intros v kw d x a E N F. destruct (nxdataset_inv _ _ _ _ _ _ _ E N) as (y & DY & F2). rewrite F2 in F. injection F as <- _. auto. }
    assert (NX : forall k kw x a, NoDup (map fst kw) -> sget k (nxentry kw) = Some (field_val x a) -> k <> "attrs" -> exists d, sget k kw = Some (KObj d) /\ d <> [] /\ Dict d = field_val x a).
    { intros k kw x a N G NK. rewrite nxentry_get in G by auto. destruct (sget k kw) as [[|[|d0 d]]|]; try discriminate. eexists. split; [reflexivity|]. split; [discriminate|]. congruence. }
    exists instrument, part, spice, da. constructor; auto.
    - rewrite <- B. apply GE.
    - rewrite <- B. exists (kattrs ekw). apply GE.
    - apply (sound_logs spice ESP).
    - apply (sound_logs spice ESP).
    - intros g I. assert (PG : forall d, sget g instrument = Some (Dict d) -> In g component_names_ -> part g = d) by (intros d G J; pose proof (sh_component _ _ _ _ _ SH g J); congruence).
      assert (QG : forall d, sget g e = Some (Dict d) -> In g group_names -> part g = d) by (intros d G J; pose proof (sh_group _ _ _ _ _ SH g J); congruence).
      unfold component_names_, group_names in I. cbn [In List.app] in I.
      destruct I as [<-|[<-|[<-|[<-|[<-|[<-|[<-|[<-|[<-|[<-|[<-|[]]]]]]]]]]]].
      + rewrite (PG _ GS) by (cbn; tauto). apply (sound_source source ES).
      + rewrite (PG _ GM) by (cbn; tauto). apply (sound_mono mono EM).
      + rewrite (PG _ GC) by (cbn; tauto). apply (sound_coll coll EC).
      + rewrite (PG _ GA) by (cbn; tauto). apply (sound_ana ana EA).
      + rewrite (PG _ GD) by (cbn; tauto). apply (sound_det det ED).
      + rewrite (PG _ GSL) by (cbn; tauto). apply (sound_slits slits ESL).
      + rewrite (PG _ GF) by (cbn; tauto). apply (sound_flipper flipper EF).
      + rewrite (PG _ GG) by (cbn; tauto). apply (sound_goni goni EG).
      + rewrite (QG _ GMN) by (cbn; tauto). apply (sound_monitor monitor EMN).
      + rewrite (QG _ GSA) by (cbn; tauto). apply (sound_sample sample ESA).
      + rewrite (QG _ GU) by (cbn; tauto). apply (sound_user user EU).
    - intros k v I NK G.
      assert (FG : forall v0 kw d, nxdataset v0 kw = Ok d -> notlist v0 -> d <> [] -> v = Dict d -> exists x a, v = field_val x a /\ firm x).
      { intros v0 kw d E [N1 N2] N ->. destruct (nxdataset_inv _ _ _ _ _ _ _ E N) as (x & DX & F). exists x, (as_attrs kw). split; auto. destruct (dataset_firm _ _ _ _ _ _ _ DX) as [[(l & X)|((l & X) & _)]|X]; auto; [destruct (N1 l X)|destruct (N2 l X)]. }
      assert (NV : exists d, sget k ekw = Some (KObj d) /\ d <> [] /\ v = Dict d).
      { rewrite <- B in G. rewrite nxentry_get in G; [|auto|intros ->; cbn in I; intuition discriminate]. destruct (sget k ekw) as [[|[|d0 d]]|]; try discriminate. eexists. split; [reflexivity|]. split; [discriminate|]. congruence. }
      destruct NV as (d & GK & ND & ->). cbn [In single_names] in I. destruct I as [<-|[<-|[<-|[<-|[<-|[]]]]]]; [contradiction| | | |]; injection GK as <-.
      + apply (FG _ _ _ EDF); auto. split; discriminate.
      + apply (FG _ _ _ ET); auto. apply meta_notlist. reflexivity.
      + apply (FG _ _ _ EST); auto. split; discriminate.
      + apply (FG _ _ _ EET); auto. apply meta_notlist. reflexivity.
    - intros x a G. rewrite IE in G. destruct (NX _ _ _ _ D1 G ltac:(discriminate)) as (d & GK & ND & F). assert (Q : sget "name" ikw = Some (KObj name)) by reflexivity. rewrite Q in GK. injection GK as <-.
      pose proof (FN _ _ _ _ _ EN ND F) as X. unfold dataset_of in X. cbn [dget tchar String.eqb Ascii.eqb Bool.eqb] in X. apply Ok_inj in X.
      destruct (meta_plain "instrument") as [MI|(t & MI)]; [cbn; intuition discriminate| |]; rewrite MI in *; [|exists t; auto]. exfalso. apply Ok_inj in EN. subst name. apply ND. reflexivity.
  Qed.
End Parts.
