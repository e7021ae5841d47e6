(** Property C39: the NeXus builder's containers drop the empty values and keep everything else. *)
From Coq Require Import Reals List ZArith String Ascii Bool Lia Lra.
From Verif Require Import Base PyStr S_Str L_Str M_Spice M_Tavi P_Tavi M_Nexus P_Nexus L_NexusFile M_Builder L_Builder.
Import ListNotations.
Open Scope string_scope.
Open Scope list_scope.

(** * Specification *)
(** What the builder calls an empty value of a dataset. *)
Definition empty_value (v : pv) : Prop := v = PNone \/ v = PStr "".
(** One call on an NXentry. *)
Inductive op := AddDataset (k : string) (ds : entry) | AddAttribute (k : string) (x : leaf).
Definition perform (o : op) (e : entry) : result entry :=
  match o with AddDataset k ds => Ok (add_dataset k ds e) | AddAttribute k x => add_attribute k x e end.
Fixpoint perform_all (l : list op) (e : entry) : result entry := match l with [] => Ok e | o :: l' => do e' <- perform o e; perform_all l' e' end.
(** An operation that stores a dataset, or an attribute, under [k]. *)
Definition stores_dataset (k : string) (o : op) : Prop := exists x ds, o = AddDataset k (x :: ds).
Definition stores_attribute (k : string) (o : op) : Prop := exists x, o = AddAttribute k x /\ falsy x = Ok false.
Definition attr (k : string) (e : entry) : option val := match sget "attrs" e with Some (Dict a) => sget k a | _ => None end.

(** The value as it is; a boolean is the number it equals. *)
Definition kept_as (v : pv) (x : leaf) : Prop :=
  match v with
  | PNone => False | PStr s => x = LStr s | PNum r => x = LNum r | PBool b => x = LNum (if b then 1 else 0)
  | PArr l => x = LArr l | PList l => x = LList l | PStrs l => x = LStrs l
  end.
(** The value as a text, or the texts or numbers of a list; [repr] is Python's str. *)
Definition text_of (repr : pv -> string) (v : pv) (x : leaf) : Prop :=
  match v with PStr s => x = LStr s | PStrs l => x = LStrs l | PList l => x = LArr l | _ => x = LStr (repr v) end.
(** The numbers of a value, cut to whole numbers if [whole]. A text holds one number, or several separated by commas. *)
Definition reads (float_of : string -> option R) (int_of : string -> option Z) (whole : bool) (s : string) (r : R) : Prop :=
  if whole then exists z, int_of s = Some z /\ r = IZR z else float_of s = Some r.
Definition numbers_of (float_of : string -> option R) (int_of : string -> option Z) (whole : bool) (v : pv) (x : leaf) : Prop :=
  match v with
  | PNone => False
  | PNum r => x = LNum (if whole then trunc r else r)
  | PBool b => x = LNum (if b then 1 else 0)
  | PArr l | PList l => x = LArr (if whole then map trunc l else l)
  | PStrs l => exists r, Forall2 (reads float_of int_of whole) l r /\ x = LArr r
  | PStr s => (occurs "," s /\ exists l r, pieces ","%char s l /\ Forall2 (reads float_of int_of whole) l r /\ x = LArr r) \/
              (~ occurs "," s /\ exists r, reads float_of int_of whole s r /\ x = LNum r)
  end.
(** Cutting to a whole number drops the digits after the point. *)
Theorem C39_whole_number : forall x y, y = trunc x <-> exists z, y = IZR z /\ (Rabs y <= Rabs x /\ Rabs (x - y) < 1 /\ 0 <= x * y)%R.
Proof.
  assert (IP : forall x, (IZR (Int_part x) <= x < IZR (Int_part x) + 1)%R). { intros x. destruct (base_Int_part x) as [A B]. lra. }
  assert (F : forall x, exists z, trunc x = IZR z /\ (Rabs (trunc x) <= Rabs x /\ Rabs (x - trunc x) < 1 /\ 0 <= x * trunc x)%R).
  { intros x. unfold trunc. destruct (Rle_dec 0 x) as [P|P].
    - exists (Int_part x). split; auto. specialize (IP x). assert (Z : (0 <= IZR (Int_part x))%R). { apply IZR_le. apply Z.lt_succ_r. apply lt_IZR. rewrite succ_IZR. lra. }
      rewrite !Rabs_right by lra. split; [lra|]. split; [lra|]. apply Rmult_le_pos; lra.
    - exists (- Int_part (- x))%Z. rewrite opp_IZR. split; auto. specialize (IP (- x)%R). assert (Z : (0 <= IZR (Int_part (- x)))%R). { apply IZR_le. apply Z.lt_succ_r. apply lt_IZR. rewrite succ_IZR. lra. }
      rewrite Rabs_Ropp, (Rabs_right (IZR _)) by lra. rewrite (Rabs_left1 x) by lra. split; [lra|]. split; [rewrite Rabs_left1 by lra; lra|]. replace (x * - IZR (Int_part (- x)))%R with (- x * IZR (Int_part (- x)))%R by ring. apply Rmult_le_pos; lra. }
  intros x y. split; [intros ->; apply F|]. intros (z & -> & A & B & C). destruct (F x) as (z' & E & A' & B' & C'). rewrite E in *. f_equal.
  assert (D : (Rabs (IZR z - IZR z') < 1)%R).
  { destruct (Rle_dec 0 x) as [P|P].
    - rewrite (Rabs_right x) in A, A' by lra. destruct (Req_dec x 0) as [->|N]. { assert (Q : forall r, (Rabs r <= 0 -> r = 0)%R). { intros r Q. destruct (Req_dec r 0) as [|N]; auto. apply Rabs_pos_lt in N. lra. } rewrite (Q _ A), (Q _ A'). rewrite Rminus_0_r, Rabs_R0. lra. }
      assert (Z : (0 <= IZR z)%R) by (apply (Rmult_le_reg_l x); lra). assert (Z' : (0 <= IZR z')%R) by (apply (Rmult_le_reg_l x); lra).
      rewrite Rabs_right in A by lra. rewrite Rabs_right in A' by lra. apply Rabs_def2 in B. apply Rabs_def2 in B'. apply Rabs_def1; lra.
    - rewrite (Rabs_left1 x) in A, A' by lra. assert (Z : (IZR z <= 0)%R) by (apply (Rmult_le_reg_l (- x)); lra). assert (Z' : (IZR z' <= 0)%R) by (apply (Rmult_le_reg_l (- x)); lra).
      rewrite Rabs_left1 in A by lra. rewrite Rabs_left1 in A' by lra. apply Rabs_def2 in B. apply Rabs_def2 in B'. apply Rabs_def1; lra. }
  rewrite <- minus_IZR in D. apply Rabs_def2 in D. destruct D as [D1 D2]. assert (Q1 : (z - z' < 1)%Z) by (apply lt_IZR; lra). assert (Q2 : (-1 < z - z')%Z) by (apply lt_IZR; lra). lia.
Qed.
Print Assumptions C39_whole_number.

Section C39.
  Variable float_of : string -> option R.
  Variable int_of : string -> option Z.
  Variable repr : pv -> string.
  Variable date_of : string -> option string.
  Notation nxdataset := (nxdataset float_of int_of repr date_of).

  (** NXdataset of a value is empty exactly for None and the empty text. *)
  Theorem C39_empty_dataset : forall v kw, nxdataset v kw = Ok [] <-> empty_value v.
  Proof.
    intros v kw. unfold empty_value, M_Builder.nxdataset. split.
    - destruct v as [|s| | | | |]; auto; intros H; try (exfalso; destruct (dataset_of _ _ _ _ _ kw); discriminate).
      destruct s; auto. exfalso. destruct (dataset_of _ _ _ _ _ kw); discriminate.
    - intros [->| ->]; auto.
  Qed.
  (** Any other value gives a dataset with the keyword arguments as its attributes. Without a type, or with a type that is not a text, a date
      or a number, the value is kept; declared NX_CHAR texts are kept; declared NX_FLOAT or NX_INT it is made of the numbers it holds. *)
  Theorem C39_dataset : forall v kw d, nxdataset v kw = Ok d -> ~ empty_value v ->
    exists x, d = [("dataset", Leaf x); ("attrs", Dict (map (fun a => (fst a, Leaf (LStr (snd a)))) kw))] /\
      ((forall t, In t ["NX_CHAR"; "NX_INT"; "NX_FLOAT"; "NX_DATE_TIME"] -> sget "type" kw <> Some t) -> kept_as v x) /\
      (sget "type" kw = Some "NX_CHAR" -> text_of repr v x) /\
      (sget "type" kw = Some "NX_FLOAT" -> numbers_of float_of int_of false v x) /\
      (sget "type" kw = Some "NX_INT" -> numbers_of float_of int_of true v x) /\
      (sget "type" kw = Some "NX_DATE_TIME" -> exists s t, v = PStr s /\ date_of s = Some t /\ x = LStr t).
  Proof.
    intros v kw d H N. unfold empty_value in N.
    assert (G : exists x, dataset_of float_of int_of repr date_of v kw = Ok x /\ d = [("dataset", Leaf x); ("attrs", Dict (map (fun a => (fst a, Leaf (LStr (snd a)))) kw))]).
    { unfold M_Builder.nxdataset in H. destruct v as [|[|c s]| | | | |]; try (exfalso; tauto);
      (destruct (dataset_of _ _ _ _ _ kw) as [x9|]; [|discriminate]; cbn in H; apply Ok_inj in H; exists x9; auto). }
    destruct G as (x & D & ->). exists x. split; auto. unfold dataset_of in D.
    assert (PL : forall y, Ok (plain v) = Ok y -> kept_as v y). { intros y E. apply Ok_inj in E. subst y. destruct v; cbn; auto; tauto. }
    assert (RD : forall w s r, to_num float_of int_of (negb w) s = Ok r -> reads float_of int_of w s r).
    { intros [|] s r E; unfold to_num in E; cbn in E |- *; [destruct (int_of s) as [z|]; [|discriminate]|destruct (float_of s); [|discriminate]]; apply Ok_inj in E; subst; eauto. }
    assert (ALL : forall w l r, mapM (to_num float_of int_of (negb w)) l = Ok r -> Forall2 (reads float_of int_of w) l r).
    { intros w. induction l as [|a l]; intros r E; cbn in E; [apply Ok_inj in E; subst; constructor|]. destruct (to_num _ _ _ a) eqn:Ea; [|discriminate]. cbn in E. destruct (mapM _ l) eqn:El; [|discriminate]. apply Ok_inj in E. subst. constructor; auto. }
    assert (RC : forall w y, recast float_of int_of (negb w) v = Ok y -> numbers_of float_of int_of w v y).
    { intros w y E. destruct v as [|s|r|b|l|l|l]; cbn [recast] in E.
      - discriminate.
      - cbn. destruct (contains "," s) eqn:Q.
        + left. split. { apply contains_spec. auto. } destruct (mapM _ _) as [r|] eqn:M; [|discriminate]. apply Ok_inj in E. subst. exists (split_on "," s), r. split; [apply split_on_pieces|]. split; auto.
        + right. split. { intros O. apply contains_spec in O. congruence. } destruct (isnumeric _); [|discriminate]. destruct (to_num _ _ _ s) as [r|] eqn:M; [|discriminate]. apply Ok_inj in E. subst. exists r. auto.
      - apply Ok_inj in E. subst. destruct w; reflexivity.
      - apply Ok_inj in E. subst. reflexivity.
      - apply Ok_inj in E. subst. destruct w; cbn; auto. f_equal. rewrite <- (map_id l) at 2. apply map_ext. auto.
      - apply Ok_inj in E. subst. destruct w; cbn; auto. f_equal. rewrite <- (map_id l) at 2. apply map_ext. auto.
      - cbn. destruct (mapM _ _) as [r|] eqn:M; [|discriminate]. apply Ok_inj in E. subst. exists r. split; auto. }
    repeat split.
    - intros T. destruct (sget "type" kw) as [t|]; [|apply PL; auto].
      assert (TT : t <> "NX_CHAR" /\ t <> "NX_INT" /\ t <> "NX_FLOAT" /\ t <> "NX_DATE_TIME"). { repeat split; intros ->; eapply T; try reflexivity; cbn; tauto. }
      destruct TT as (T1 & T2 & T3 & T4). apply String.eqb_neq in T1, T2, T3, T4. rewrite T1, T2, T3, T4 in D. apply PL. auto.
    - intros T. rewrite T in D. cbn in D. apply Ok_inj in D. subst x. destruct v; cbn; auto.
    - intros T. rewrite T in D. apply (RC false). exact D.
    - intros T. rewrite T in D. apply (RC true). exact D.
    - intros T. rewrite T in D. cbn in D. destruct v as [|s| | | | |]; try discriminate. destruct (date_of s) as [t|] eqn:Q; [|discriminate]. apply Ok_inj in D. subst. eauto.
  Qed.

  (** Every sequence of additions: the last dataset stored under a key is found there; a key no dataset is stored under is as it was. *)
  Lemma step_get : forall o e e' k, perform o e = Ok e' -> k <> "attrs" -> ~ stores_dataset k o -> sget k e' = sget k e.
  Proof.
    intros [k0 [|x ds]|k0 x] e e' k E NA NS; cbn in E.
    - apply Ok_inj in E. subst. auto.
    - apply Ok_inj in E. subst. apply add_other with (ds := x :: ds). intros ->. apply NS. exists x, ds. auto.
    - unfold add_attribute in E. destruct (falsy x) as [[|]|]; try discriminate; cbn in E; [apply Ok_inj in E; subst; auto|].
      destruct (sget "attrs" e) as [[|a]|]; try discriminate. apply Ok_inj in E. subst. apply sget_sset_ne. auto.
  Qed.
  Theorem C39_untouched : forall l e e' k, perform_all l e = Ok e' -> k <> "attrs" -> (forall o, In o l -> ~ stores_dataset k o) -> sget k e' = sget k e.
  Proof.
    induction l as [|o l]; intros e e' k E NA N; cbn in E. { apply Ok_inj in E. subst. auto. }
    destruct (perform o e) as [e1|] eqn:P; [|discriminate]. cbn in E. rewrite (IHl _ _ _ E) by (auto; intros; apply N; right; auto).
    eapply step_get; eauto. apply N. left. auto.
  Qed.
  Lemma perform_app : forall l1 l2 e, perform_all (l1 ++ l2) e = do e1 <- perform_all l1 e; perform_all l2 e1.
  Proof. induction l1 as [|o l]; intros l2 e; cbn; auto. destruct (perform o e); cbn; auto. Qed.
  Theorem C39_last_dataset : forall l1 k x ds l2 e e', perform_all (l1 ++ AddDataset k (x :: ds) :: l2) e = Ok e' -> k <> "attrs" ->
    (forall o, In o l2 -> ~ stores_dataset k o) -> sget k e' = Some (Dict (x :: ds)).
  Proof.
    intros l1 k x ds l2 e e' E NA N. rewrite perform_app in E. destruct (perform_all l1 e) as [e1|]; [|discriminate]. cbn [bind perform_all perform] in E.
    rewrite (C39_untouched _ _ _ _ E NA N). apply add_same. discriminate.
  Qed.
  (** The same for attributes, as long as no dataset is called "attrs"; a value Python counts as false is not stored. *)
  Lemma step_attr : forall o e e' k, perform o e = Ok e' -> ~ stores_dataset "attrs" o -> ~ stores_attribute k o -> attr k e' = attr k e.
  Proof.
    intros [k0 [|x ds]|k0 x] e e' k E NA NS; cbn in E.
    - apply Ok_inj in E. subst. auto.
    - apply Ok_inj in E. subst. unfold attr. change (sset k0 (Dict (x :: ds)) e) with (add_dataset k0 (x :: ds) e). rewrite add_other; auto. intros <-. apply NA. exists x, ds. auto.
    - unfold add_attribute in E. destruct (falsy x) as [[|]|] eqn:F; try discriminate; cbn in E; [apply Ok_inj in E; subst; auto|].
      unfold attr. destruct (sget "attrs" e) as [[|a]|]; try discriminate. apply Ok_inj in E. subst. rewrite sget_sset_eq. apply sget_sset_ne. intros ->. apply NS. exists x. auto.
  Qed.
  Theorem C39_attributes_untouched : forall l e e' k, perform_all l e = Ok e' -> (forall o, In o l -> ~ stores_dataset "attrs" o) ->
    (forall o, In o l -> ~ stores_attribute k o) -> attr k e' = attr k e.
  Proof.
    induction l as [|o l]; intros e e' k E NA N; cbn in E. { apply Ok_inj in E. subst. auto. }
    destruct (perform o e) as [e1|] eqn:P; [|discriminate]. cbn in E. rewrite (IHl _ _ k E); [|intros; apply NA; right; auto|intros; apply N; right; auto].
    eapply step_attr; eauto; [apply NA|apply N]; left; auto.
  Qed.
  Theorem C39_last_attribute : forall l1 k x l2 e e', perform_all (l1 ++ AddAttribute k x :: l2) e = Ok e' -> falsy x = Ok false ->
    (forall o, In o l2 -> ~ stores_dataset "attrs" o) -> (forall o, In o l2 -> ~ stores_attribute k o) -> attr k e' = Some (Leaf x).
  Proof.
    intros l1 k x l2 e e' E F NA N. rewrite perform_app in E. destruct (perform_all l1 e) as [e1|]; [|discriminate]. cbn [bind perform_all perform] in E.
    destruct (add_attribute k x e1) as [e2|] eqn:A; [|discriminate]. cbn [bind] in E. rewrite (C39_attributes_untouched _ _ _ _ E NA N).
    unfold add_attribute in A. rewrite F in A. cbn in A. unfold attr. destruct (sget "attrs" e1) as [[|a]|]; try discriminate. apply Ok_inj in A. subst.
    rewrite sget_sset_eq. apply sget_sset_eq.
  Qed.
  (** Texts and lists are stored exactly when they are not empty. *)
  Theorem C39_false_values : (forall s, falsy (LStr s) = Ok false <-> s <> "") /\ (forall l, falsy (LStrs l) = Ok false <-> l <> []) /\ (forall l, falsy (LList l) = Ok false <-> l <> []).
  Proof.
    repeat split; cbn; intros H.
    - intros ->. discriminate. - destruct (String.eqb s "") eqn:Q; auto. apply String.eqb_eq in Q. contradiction.
    - intros ->. discriminate. - destruct l; auto. contradiction. - intros ->. discriminate. - destruct l; auto. contradiction.
  Qed.
  (** The constructor: non-empty datasets and entries become members, other keyword arguments attributes, whatever their value. *)
  Theorem C39_constructor : forall kw, NoDup (map fst kw) -> ~ In "attrs" (map fst kw) -> forall k,
    (forall d, In (k, KObj d) kw -> sget k (nxentry kw) = match d with [] => None | _ => Some (Dict d) end) /\
    (forall x, In (k, KAttr x) kw -> attr k (nxentry kw) = Some (Leaf x)) /\
    (~ In k (map fst kw) -> k <> "attrs" -> sget k (nxentry kw) = None /\ attr k (nxentry kw) = None).
  Proof.
    intros kw N NA k. repeat split.
    - intros d I. rewrite nxentry_get; auto. + rewrite (in_sget k kw (KObj d)) by auto. destruct d; auto. + intros ->. apply NA. apply in_map_iff. exists ("attrs", KObj d). auto.
    - intros x I. unfold attr. rewrite nxentry_attrs by auto. rewrite kattrs_get by auto. rewrite (in_sget k kw (KAttr x)) by auto. auto.
    - rewrite nxentry_get by auto. rewrite in_none by auto. auto.
    - unfold attr. rewrite nxentry_attrs by auto. rewrite kattrs_get by auto. rewrite in_none by auto. auto.
  Qed.

  (** ** What does not hold *)
  (** An attribute that is the number zero is dropped though it is not empty. *)
  Theorem C39_zero_attribute_refuted : forall k e, add_attribute k (LNum 0) e = Ok e.
  Proof. intros. unfold add_attribute. cbn. destruct (Req_EM_T 0 0); [reflexivity|contradiction]. Qed.
  (** A dataset called "attrs" replaces all attributes. *)
  Theorem C39_attrs_name_refuted : forall e k x ds y, attr k e = Some y -> k <> "dataset" -> k <> "attrs" -> nxdataset x [] = Ok ds -> ds <> [] -> attr k (add_dataset "attrs" ds e) = None.
  Proof.
    intros e k x ds y A N1 N2 D NE. unfold attr. rewrite add_same by auto.
    assert (V : ~ empty_value x). { intros V. apply C39_empty_dataset with (kw := []) in V. rewrite V in D. apply Ok_inj in D. auto. }
    destruct (C39_dataset _ _ _ D V) as (z & -> & _). cbn [dget]. destruct (String.eqb k "dataset") eqn:Q1. { apply String.eqb_eq in Q1. contradiction. }
    destruct (String.eqb k "attrs") eqn:Q2; auto. apply String.eqb_eq in Q2. contradiction.
  Qed.

  (** A non-trivial history. *)
  Example C39_example : exists d1 d2 e',
    nxdataset (PArr [1; 2]%R) [tfloat; units "meV"] = Ok d1 /\ nxdataset (PStr "PG002") [tchar] = Ok d2 /\
    perform_all ([AddDataset "ei" d2; AddAttribute "note" (LStr "x")] ++ AddDataset "ei" d1 :: [AddDataset "ei" []; AddDataset "type" d2; AddAttribute "empty" (LStr "")])
      (nxentry [("m1", KObj d1); ("m2", KObj []); ("NX_class", KAttr (LStr "NXcrystal"))]) = Ok e' /\
    sget "ei" e' = Some (Dict d1) /\ attr "note" e' = Some (Leaf (LStr "x")) /\ attr "empty" e' = None /\ sget "m2" e' = None /\ sget "m1" e' = Some (Dict d1).
  Proof. do 3 eexists. split; [reflexivity|]. split; [reflexivity|]. split; [reflexivity|]. repeat split. Qed.
End C39.
Print Assumptions C39_empty_dataset.
Print Assumptions C39_dataset.
Print Assumptions C39_untouched.
Print Assumptions C39_last_dataset.
Print Assumptions C39_attributes_untouched.
Print Assumptions C39_last_attribute.
Print Assumptions C39_false_values.
Print Assumptions C39_constructor.
Print Assumptions C39_zero_attribute_refuted.
Print Assumptions C39_attrs_name_refuted.
