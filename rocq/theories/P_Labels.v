(** Properties C51 (axis labels) and C55 (configuration). *)
From Coq Require Import Reals Lra List ZArith String Bool Lia.
From Verif Require Import Base M_Project M_Labels.
Import ListNotations.
Open Scope string_scope.
Open Scope list_scope.

(** * Specification *)
Definition letters : list string := ["H"; "K"; "L"].
(** How a coefficient is shown next to a letter. *)
Inductive shows (fmt3 : R -> string) (X : string) : comp -> string -> Prop :=
| shows_zero : forall c, comp_val c = 0%R -> shows fmt3 X c "0"
| shows_one : forall c, comp_val c = 1%R -> shows fmt3 X c X
| shows_minus : forall c, comp_val c = (-1)%R -> shows fmt3 X c ("-" ++ X)%string
| shows_int : forall c z, comp_val c = IZR z -> z <> 0%Z -> z <> 1%Z -> z <> (-1)%Z -> shows fmt3 X c (str_of z ++ X)%string
| shows_frac : forall c, (forall z, comp_val c <> IZR z) -> shows fmt3 X c (fmt3 (comp_val c) ++ X)%string.
Definition label_shows (fmt3 : R -> string) (X : string) (a b c : comp) (s : string) : Prop :=
  exists sa sb sc, shows fmt3 X a sa /\ shows fmt3 X b sb /\ shows fmt3 X c sc /\
    s = ("(" ++ sa ++ ", " ++ sb ++ ", " ++ sc ++ ") (r.l.u.)")%string.
(** The letter of the first nonzero component. *)
Inductive own_letter : comp -> comp -> comp -> string -> Prop :=
| own_H : forall a b c, comp_val a <> 0%R -> own_letter a b c "H"
| own_K : forall a b c, comp_val a = 0%R -> comp_val b <> 0%R -> own_letter a b c "K"
| own_L : forall a b c, comp_val a = 0%R -> comp_val b = 0%R -> comp_val c <> 0%R -> own_letter a b c "L".
(** [labelled used axes ls]: the labels [ls] of [axes] use letters of H, K, L, none of them in [used] and none twice, a
    vector getting its own letter if that is still free; the energy keeps its place. *)
Inductive labelled (fmt3 : R -> string) : list string -> list axis -> list string -> Prop :=
| lab_nil : forall used, labelled fmt3 used [] []
| lab_en : forall used axes ls, labelled fmt3 used axes ls -> labelled fmt3 used (En :: axes) ("E (meV)" :: ls)
| lab_vec : forall used X a b c s axes ls,
    In X letters -> ~ In X used -> (forall Y, own_letter a b c Y -> ~ In Y used -> X = Y) ->
    label_shows fmt3 X a b c s -> labelled fmt3 (X :: used) axes ls ->
    labelled fmt3 used (Vec a b c :: axes) (s :: ls).
Definition nonzero (x : axis) : Prop :=
  match x with En => True | Vec a b c => comp_val a <> 0%R \/ comp_val b <> 0%R \/ comp_val c <> 0%R end.
Definition vectors (l : list axis) : nat := List.length (filter (fun x => match x with En => false | _ => true end) l).

(** * C51 *)
Lemma integral_spec : forall x, match integral x with Some z => x = IZR z | None => forall z, x <> IZR z end.
Proof.
  intros x. unfold integral. destruct (Req_EM_T x (IZR (Int_part x))); auto. intros z E. apply n.
  assert (Int_part x = z); [|congruence]. subst x. unfold Int_part.
  assert (up (IZR z) = (z + 1)%Z); [|lia]. symmetry. apply tech_up; rewrite plus_IZR; lra.
Qed.

Lemma comp_int_spec : forall c, match comp_int c with Some z => comp_val c = IZR z | None => forall z, comp_val c <> IZR z end.
Proof. intros [z|x]; cbn; auto. apply integral_spec. Qed.

Lemma entry_shows : forall fmt3 X c, shows fmt3 X c (entry fmt3 X c).
Proof.
  intros f X c. unfold entry. pose proof (comp_int_spec c) as H. destruct (comp_int c) as [z|]; [|constructor; auto].
  destruct (Z.eqb_spec z 0); [subst; constructor; auto|]. destruct (Z.eqb_spec z 1); [subst; constructor; auto|].
  destruct (Z.eqb_spec z (-1)); [subst; constructor; auto|]. econstructor; eauto.
Qed.
Lemma label_shows_label : forall fmt3 X a b c, label_shows fmt3 X a b c (label fmt3 X a b c).
Proof. intros. do 3 eexists. split; [apply entry_shows|]. split; [apply entry_shows|]. split; [apply entry_shows|]. reflexivity. Qed.

Definition sub_dicts : list (dict Z string) :=
  [[(0%Z, "H"); (1%Z, "K"); (2%Z, "L")]; [(0%Z, "H"); (1%Z, "K")]; [(0%Z, "H"); (2%Z, "L")]; [(1%Z, "K"); (2%Z, "L")];
   [(0%Z, "H")]; [(1%Z, "K")]; [(2%Z, "L")]; []].
Definition free (d : dict Z string) (used : list string) : Prop :=
  In d sub_dicts /\ forall X, In X letters -> (In X used <-> ~ In X (map snd d)).

Definition member (X : string) (d : dict Z string) : bool := existsb (String.eqb X) (map snd d).
Lemma member_in : forall X d, member X d = true <-> In X (map snd d).
Proof. intros. unfold member. rewrite existsb_exists. split; [intros (y & I & E); apply String.eqb_eq in E; subst; auto|]. intros I; exists X. split; auto. apply String.eqb_refl. Qed.

Lemma pick_cases : forall d idx, In d sub_dicts -> d <> [] -> (idx = 0 \/ idx = 1 \/ idx = 2)%Z ->
  exists X d', pick_letter idx d = Ok (X, d') /\ In d' sub_dicts /\ In X letters /\ member X d = true /\
    List.length d = S (List.length d') /\
    (forall Y, In Y letters -> member Y d' = member Y d && negb (String.eqb Y X)) /\
    (forall Y, nth_error letters (Z.to_nat idx) = Some Y -> member Y d = true -> X = Y).
Proof.
  intros d idx I NE Hi. cbn in I.
  destruct I as [<-|[<-|[<-|[<-|[<-|[<-|[<-|[<-|[]]]]]]]]]; try congruence; destruct Hi as [-> |[-> | ->]]; clear NE;
    eexists; eexists; (split; [reflexivity|]); (split; [cbn; tauto|]); (split; [cbn; tauto|]); (split; [reflexivity|]);
    (split; [reflexivity|]); (split; [intros Y [<-|[<-|[<-|[]]]]; reflexivity|]);
    intros Y E M; injection E as <-; first [reflexivity|discriminate].
Qed.

Lemma pick_ok : forall d used idx, free d used -> d <> [] -> (idx = 0 \/ idx = 1 \/ idx = 2)%Z ->
  exists X d', pick_letter idx d = Ok (X, d') /\ In X letters /\ ~ In X used /\ free d' (X :: used) /\
    List.length d = S (List.length d') /\
    (forall Y, nth_error letters (Z.to_nat idx) = Some Y -> ~ In Y used -> X = Y).
Proof.
  intros d used idx [I F] NE Hi. destruct (pick_cases d idx I NE Hi) as (X & d' & E & I' & IX & MX & L & K & O).
  exists X, d'. split; auto. split; auto. split.
  - intros U. apply F in U; auto. apply member_in in MX. tauto.
  - split; [|split]; auto.
    + split; auto. intros Y IY. cbn [In]. rewrite (F Y IY), <- !member_in, (K Y IY). destruct (String.eqb_spec Y X).
      * subst. rewrite andb_false_r. split; auto; discriminate.
      * rewrite andb_true_r. split; [intros [C|C]; congruence|auto].
    + intros Y EY NY. apply O; auto. assert (IY : In Y letters) by (eapply nth_error_In; eauto).
      apply member_in. pose proof (F Y IY) as FY. rewrite <- member_in in *. destruct (member Y d); auto. exfalso. apply NY, FY. discriminate.
Qed.

Lemma first_nonzero_own : forall a b c, nonzero (Vec a b c) -> let i := first_nonzero a b c in
  (i = 0 \/ i = 1 \/ i = 2)%Z /\ forall Y, own_letter a b c Y -> nth_error letters (Z.to_nat i) = Some Y.
Proof.
  intros a b c N. unfold first_nonzero, is_zero. cbn in N.
  destruct (Req_EM_T (comp_val a) 0); [destruct (Req_EM_T (comp_val b) 0); [destruct (Req_EM_T (comp_val c) 0)|]|]; cbv zeta; try tauto;
    (split; [auto|]); intros Y O; destruct O; try reflexivity; exfalso; lra.
Qed.

Lemma label_loop_ok : forall fmt3 axes d used, free d used -> Forall nonzero axes -> vectors axes <= List.length d ->
  exists ls, label_loop fmt3 axes d = Ok ls /\ labelled fmt3 used axes ls.
Proof.
  induction axes as [|[|a b c] axes IH]; intros d used F N C; cbn [label_loop].
  - eexists; split; [reflexivity|]. constructor.
  - inversion N; subst. destruct (IH d used F) as (ls & E & L); auto. rewrite E. cbn. eexists; split; [reflexivity|]. constructor; auto.
  - inversion N as [|? ? NZ N']; subst. unfold vectors in C. cbn [filter List.length] in C. fold (vectors axes) in C.
    destruct (first_nonzero_own a b c NZ) as [R O].
    destruct (pick_ok d used _ F ltac:(intros ->; cbn in C; lia) R) as (X & d' & E & IX & NX & F' & LD & OW).
    rewrite E. cbn [bind]. destruct (IH d' (X :: used) F' N') as (ls & E' & L); [unfold vectors in *; lia|]. rewrite E'. cbn.
    eexists; split; [reflexivity|]. apply lab_vec with (X := X); auto. apply label_shows_label.
Qed.

(** Up to three nonzero vectors, with the energy anywhere, get labels with different letters. *)
Theorem C51_labels : forall fmt3 axes, Forall nonzero axes -> vectors axes <= 3 ->
  exists ls, labels_from_projection fmt3 (Some axes) = Ok ls /\ labelled fmt3 [] axes ls.
Proof.
  intros fmt3 axes N C. unfold labels_from_projection. destruct (is_hkl axes) eqn:K.
  - eexists; split; [reflexivity|]. unfold is_hkl in K.
    destruct axes as [|[|a1 a2 a3] [|[|b1 b2 b3] [|[|c1 c2 c3] [|[|] [|]]]]]; try discriminate.
    unfold comp_eqb in K.
    repeat match type of K with context [Req_EM_T ?x ?y] => destruct (Req_EM_T x y); cbn in K; [|try discriminate; rewrite ?andb_false_r in K; discriminate] end.
    clear K. assert (S0 : forall X c, comp_val c = 0%R -> shows fmt3 X c "0") by (intros; constructor; auto).
    assert (S1 : forall X c, comp_val c = 1%R -> shows fmt3 X c X) by (intros; constructor; auto).
    apply lab_vec with (X := "H"); cbn; auto; [intros Y O; inversion O; subst; auto; lra|exists "H", "0", "0"; auto|].
    apply lab_vec with (X := "K"); cbn; auto; [intuition discriminate|intros Y O; inversion O; subst; auto; lra|exists "0", "K", "0"; auto|].
    apply lab_vec with (X := "L"); cbn; auto; [intuition discriminate|intros Y O; inversion O; subst; auto; lra|exists "0", "0", "L"; auto|].
    constructor. constructor.
  - apply label_loop_ok with (d := hkl_dict); auto. split; [cbn; auto|]. intros X I; cbn in *; intuition.
Qed.
Print Assumptions C51_labels.

(** A zero vector as third axis, after H and K are taken, raises instead of using L. *)
Theorem C51_zero_vector_refuted : forall fmt3, exists axes, vectors axes = 3 /\
  axes = [Vec (CInt 1) (CInt 0) (CInt 0); Vec (CInt 0) (CInt 1) (CInt 0); Vec (CInt 0) (CInt 0) (CInt 0); En] /\
  labels_from_projection fmt3 (Some axes) = Err IndexError.
Proof.
  intros f. eexists. split; [|split; [reflexivity|]]; [reflexivity|].
  unfold labels_from_projection, is_hkl, comp_eqb, label_loop, first_nonzero, is_zero. cbn [comp_val].
  destruct (Req_EM_T 1 0); [lra|]. destruct (Req_EM_T 0 0); [|lra]. destruct (Req_EM_T 0 1); [lra|].
  destruct (Req_EM_T 1 1); [|lra]. reflexivity.
Qed.
Print Assumptions C51_zero_vector_refuted.

(** More than three vectors cannot be labelled. *)
Theorem C51_too_many : forall fmt3 axes, vectors axes > 3 -> labels_from_projection fmt3 (Some axes) = Err IndexError.
Proof.
  intros fmt3 axes C. unfold labels_from_projection.
  assert (K : is_hkl axes = false). { destruct (is_hkl axes) eqn:K; auto. exfalso. unfold is_hkl in K.
    destruct axes as [|[|a1 a2 a3] [|[|b1 b2 b3] [|[|c1 c2 c3] [|[|] [|]]]]]; try discriminate. cbn in C. lia. }
  rewrite K.
  assert (G : forall axes (d : dict Z string), In d sub_dicts -> vectors axes > List.length d -> label_loop fmt3 axes d = Err IndexError).
  { clear. induction axes as [|[|a b c] axes IH]; intros d I C; cbn [label_loop].
    - unfold vectors in C; cbn in C; lia.
    - rewrite IH; auto.
    - unfold vectors in C; cbn [filter List.length] in C. fold (vectors axes) in C.
      destruct (pick_letter (first_nonzero a b c) d) as [[X d']|e] eqn:E; cbn [bind].
      + rewrite IH; auto.
        * unfold pick_letter in E. unfold first_nonzero in E.
          destruct (is_zero a), (is_zero b), (is_zero c); cbn in I;
            destruct I as [<-|[<-|[<-|[<-|[<-|[<-|[<-|[<-|[]]]]]]]]]; cbn in E; try discriminate; injection E as <- <-; cbn; tauto.
        * assert (List.length d = S (List.length d')); [|lia]. unfold pick_letter in E. unfold first_nonzero in E.
          destruct (is_zero a), (is_zero b), (is_zero c); cbn in I;
            destruct I as [<-|[<-|[<-|[<-|[<-|[<-|[<-|[<-|[]]]]]]]]]; cbn in E; try discriminate; injection E as <- <-; reflexivity.
      + unfold pick_letter in E. destruct (pop _ d); [discriminate|]. destruct (pop _ d); [discriminate|]. destruct (pop _ d); [discriminate|].
        congruence. }
  apply G; cbn; auto.
Qed.
Print Assumptions C51_too_many.

Example C51_ex : forall fmt3, labels_from_projection fmt3 (Some [Vec (CInt 1) (CInt 1) (CInt 0); Vec (CInt (-2)) (CInt 2) (CInt 0); En; Vec (CInt 0) (CInt 0) (CInt 1)])
  = Ok ["(H, H, 0) (r.l.u.)"; "(-2K, 2K, 0) (r.l.u.)"; "E (meV)"; "(0, 0, L) (r.l.u.)"].
Proof.
  intros f. unfold labels_from_projection, is_hkl, label_loop, first_nonzero, is_zero. cbn [comp_val].
  destruct (Req_EM_T 1 0); [lra|]. destruct (Req_EM_T (-2) 0); [lra|]. destruct (Req_EM_T 0 0); [|lra]. reflexivity.
Qed.

(** * C55 *)
(** Dictionaries have unique keys. *)
Definition unique_fields (c : config) : Prop := forall s fs, dget String.eqb s (c_sections c) = Some fs -> NoDup (map fst fs).
(** The value a user sees for a field. *)
Definition sees (c : config) (s f : string) (v : option string) : Prop := field_value c s f = Some v.

Lemma sget_set : forall A k k' (v : A) d, dget String.eqb k (dset String.eqb k' v d) = if String.eqb k k' then Some v else dget String.eqb k d.
Proof.
  intros A k k' v c. induction c as [|[k2 v2] c IH]; cbn [dset dget].
  - destruct (String.eqb k k'); reflexivity.
  - destruct (String.eqb_spec k' k2); cbn [dget].
    + subst. destruct (String.eqb_spec k k2); auto.
    + destruct (String.eqb_spec k k2); auto. subst. destruct (String.eqb_spec k2 k'); auto. congruence.
Qed.

Lemma sget_update : forall A (e d : dict string A) k, NoDup (map fst e) ->
  dget String.eqb k (dupdate String.eqb d e) = match dget String.eqb k e with Some v => Some v | None => dget String.eqb k d end.
Proof.
  unfold dupdate. induction e as [|[k' v] e IH]; intros d k ND; cbn [fold_left dget fst snd]; auto.
  inversion ND as [|? ? NI ND']; subst. rewrite IH, sget_set by auto. cbn [fst snd]. destruct (String.eqb_spec k k'); auto. subst.
  assert (D : dget String.eqb k' e = None); [|rewrite D; auto].
  clear - NI. induction e as [|[a b] e IH]; cbn in *; auto. destruct (String.eqb_spec k' a); [subst; tauto|]. apply IH; tauto.
Qed.

Definition in_cfg (c : config) (s : string) : bool := match dget String.eqb s (c_sections c) with Some _ => true | None => false end.

Lemma items_get : forall t s f, unique_fields t -> dget String.eqb f (items t s) = field_value t s f.
Proof.
  intros t s f U. unfold items, field_value. destruct (dget String.eqb s (c_sections t)) as [fs|] eqn:E; auto.
  rewrite sget_update by eauto. auto.
Qed.

Lemma has_field_value : forall c s f, has_field c s f = match field_value c s f with Some _ => true | None => false end.
Proof.
  intros c s f. unfold has_field, field_value, dmem. destruct (dget String.eqb s (c_sections c)); auto.
  destruct (dget String.eqb f f0); auto.
Qed.

Lemma set_field_spec : forall c s f v, in_cfg c s = true ->
  c_defaults (set_field c s f v) = c_defaults c /\ (forall s', in_cfg (set_field c s f v) s' = in_cfg c s') /\
  (forall s' f', field_value (set_field c s f v) s' f' = if String.eqb s' s && String.eqb f' f then Some v else field_value c s' f').
Proof.
  intros c s f v I. unfold in_cfg, set_field in *. destruct (dget String.eqb s (c_sections c)) as [fs|] eqn:E; [|discriminate].
  cbn. split; auto. split.
  - intros s'. rewrite sget_set. destruct (String.eqb_spec s' s); auto. subst. rewrite E. auto.
  - intros s' f'. unfold field_value; cbn. rewrite sget_set. destruct (String.eqb_spec s' s); cbn; auto. subst. rewrite E, sget_set.
    destruct (String.eqb f' f); auto.
Qed.

Lemma fill_field_spec : forall c s f v, in_cfg c s = true ->
  c_defaults (fill_field s c (f, v)) = c_defaults c /\ (forall s', in_cfg (fill_field s c (f, v)) s' = in_cfg c s') /\
  (forall s' f', field_value (fill_field s c (f, v)) s' f' =
     match field_value c s' f' with Some w => Some w | None => if String.eqb s' s && String.eqb f' f then Some v else None end).
Proof.
  intros c s f v I. unfold fill_field. cbn [fst snd]. rewrite has_field_value. destruct (field_value c s f) eqn:E.
  - split; auto. split; auto. intros s' f'. destruct (field_value c s' f') eqn:E'; auto.
    destruct (String.eqb_spec s' s); auto. destruct (String.eqb_spec f' f); auto. subst. congruence.
  - destruct (set_field_spec c s f v I) as (A & B & C). split; auto. split; auto. intros s' f'. rewrite C.
    destruct (String.eqb_spec s' s), (String.eqb_spec f' f); cbn; subst; try (rewrite E; reflexivity);
      match goal with |- ?x = match ?x with _ => _ end => destruct x; reflexivity end.
Qed.

Lemma fill_fields_spec : forall its c s, in_cfg c s = true -> let c' := fold_left (fill_field s) its c in
  c_defaults c' = c_defaults c /\ (forall s', in_cfg c' s' = in_cfg c s') /\
  (forall s' f', field_value c' s' f' =
     match field_value c s' f' with Some w => Some w | None => if String.eqb s' s then dget String.eqb f' its else None end).
Proof.
  induction its as [|[f v] its IH]; intros c s I; cbn [fold_left].
  - cbv zeta. repeat split; auto. intros. destruct (field_value c s' f'); auto. destruct (String.eqb s' s); auto.
  - destruct (fill_field_spec c s f v I) as (A & B & C). destruct (IH (fill_field s c (f, v)) s) as (A' & B' & C'); [rewrite B; auto|].
    cbv zeta. split; [congruence|]. split; [intros; rewrite B', B; auto|]. intros s' f'. rewrite C', C.
    destruct (field_value c s' f'); auto. cbn [dget]. destruct (String.eqb s' s); cbn; auto. destruct (String.eqb f' f); auto.
Qed.

Lemma in_sections : forall c s, existsb (String.eqb s) (sections c) = in_cfg c s.
Proof.
  intros c s. unfold sections, in_cfg, dkeys. induction (c_sections c) as [|[k v] l IH]; cbn; auto.
  rewrite IH. destruct (String.eqb s k); auto.
Qed.

(** What is seen in a section once it exists. *)
Definition seen_or_default (c : config) (s f : string) : option (option string) :=
  if in_cfg c s then field_value c s f else dget String.eqb f (c_defaults c).

Lemma add_section_other : forall c s s' f, s' <> s -> field_value (add_section c s) s' f = field_value c s' f.
Proof. intros c s s' f N. unfold field_value, add_section; cbn. rewrite sget_set. destruct (String.eqb_spec s' s); [congruence|reflexivity]. Qed.

Lemma fill_section_spec : forall t c s, unique_fields t -> let c' := fill_section t c s in
  c_defaults c' = c_defaults c /\ (forall s', in_cfg c' s' = String.eqb s' s || in_cfg c s') /\
  (forall s' f, field_value c' s' f =
     if String.eqb s' s then match seen_or_default c s f with Some w => Some w | None => field_value t s f end
     else field_value c s' f).
Proof.
  intros t c s U. unfold fill_section. cbv zeta. rewrite in_sections. unfold seen_or_default.
  destruct (in_cfg c s) eqn:I.
  - destruct (fill_fields_spec (items t s) c s I) as (A & B & C). cbv zeta in *. split; auto. split.
    + intros s'. rewrite B. destruct (String.eqb_spec s' s); auto. subst; auto.
    + intros s' f. rewrite C. destruct (String.eqb_spec s' s); [subst; rewrite items_get by auto; auto|]. destruct (field_value c s' f); auto.
  - assert (I1 : in_cfg (add_section c s) s = true). { unfold in_cfg, add_section; cbn. rewrite sget_set, String.eqb_refl. auto. }
    destruct (fill_fields_spec (items t s) _ s I1) as (A & B & C). cbv zeta in *. split; auto. split.
    + intros s'. rewrite B. unfold in_cfg, add_section; cbn. rewrite sget_set. destruct (String.eqb s' s); auto.
    + intros s' f. rewrite C. destruct (String.eqb_spec s' s).
      * subst. rewrite items_get by auto. unfold field_value at 1; cbn. rewrite sget_set, String.eqb_refl. cbn. auto.
      * rewrite add_section_other by auto. destruct (field_value c s' f); reflexivity.
Qed.

Lemma fill_all_spec : forall t ss c, unique_fields t -> let c' := fold_left (fill_section t) ss c in
  c_defaults c' = c_defaults c /\ (forall s', in_cfg c' s' = existsb (String.eqb s') ss || in_cfg c s') /\
  (forall s' f, field_value c' s' f =
     if existsb (String.eqb s') ss then match seen_or_default c s' f with Some w => Some w | None => field_value t s' f end
     else field_value c s' f).
Proof.
  intros t ss. induction ss as [|s ss IH]; intros c U; cbn [fold_left existsb].
  - cbv zeta. repeat split; auto.
  - destruct (fill_section_spec t c s U) as (A & B & C). destruct (IH (fill_section t c s) U) as (A' & B' & C'). cbv zeta in *.
    split; [congruence|]. split.
    + intros s'. rewrite B', B. destruct (String.eqb s' s), (existsb (String.eqb s') ss); auto.
    + intros s' f. rewrite C'. unfold seen_or_default. rewrite B, A, C. unfold seen_or_default.
      destruct (String.eqb_spec s' s); cbn; auto.
      subst. destruct (in_cfg c s).
      * destruct (existsb (String.eqb s) ss), (field_value c s f); auto. destruct (field_value t s f); auto.
      * destruct (existsb (String.eqb s) ss), (dget String.eqb f (c_defaults c)); auto. destruct (field_value t s f); auto.
Qed.

(** Every value the user sees is unchanged. *)
Theorem C55_user_settings_kept : forall t c s f v, unique_fields t -> sees c s f v -> sees (validate t c) s f v.
Proof.
  intros t c s f v U H. unfold sees in *. destruct (fill_all_spec t (sections t) c U) as (_ & _ & C). cbv zeta in C.
  unfold validate. rewrite C. unfold seen_or_default. assert (I : in_cfg c s = true).
  { unfold in_cfg. unfold field_value in H. destruct (dget String.eqb s (c_sections c)); auto. discriminate. }
  rewrite I, H. destruct (existsb _ _); auto.
Qed.
Print Assumptions C55_user_settings_kept.

(** Every field of the template exists afterwards, with the template's value where the user had none. *)
Theorem C55_complete : forall t c s f v, unique_fields t -> sees t s f v ->
  (exists w, sees (validate t c) s f w) /\
  ((forall w, ~ sees c s f w) -> dget String.eqb f (c_defaults c) = None -> sees (validate t c) s f v).
Proof.
  intros t c s f v U H. unfold sees in *. destruct (fill_all_spec t (sections t) c U) as (_ & _ & C). cbv zeta in C.
  unfold validate. rewrite C, H. assert (I : existsb (String.eqb s) (sections t) = true).
  { rewrite in_sections. unfold in_cfg. unfold field_value in H. destruct (dget String.eqb s (c_sections t)); auto. discriminate. }
  rewrite I. unfold seen_or_default. split.
  - destruct (in_cfg c s); [destruct (field_value c s f)|destruct (dget String.eqb f (c_defaults c))]; eauto.
  - intros N D. destruct (in_cfg c s); [|rewrite D; auto]. destruct (field_value c s f) eqn:E; auto. exfalso. eapply N; eauto.
Qed.
Print Assumptions C55_complete.

(** No other field appears (a section the template adds shows the user's own defaults). *)
Theorem C55_nothing_else : forall t c s f v, unique_fields t -> sees (validate t c) s f v ->
  sees c s f v \/ sees t s f v \/ dget String.eqb f (c_defaults c) = Some v.
Proof.
  intros t c s f v U. unfold sees, validate. destruct (fill_all_spec t (sections t) c U) as (_ & _ & C). cbv zeta in C. rewrite C.
  destruct (existsb _ _); auto. unfold seen_or_default. destruct (in_cfg c s).
  - destruct (field_value c s f); auto.
  - destruct (dget String.eqb f (c_defaults c)); auto.
Qed.
Print Assumptions C55_nothing_else.

Lemma fold_id : forall A B (g : A -> B -> A) l a, (forall b, In b l -> g a b = a) -> fold_left g l a = a.
Proof. induction l as [|b l IH]; intros a H; cbn; auto. rewrite H by (cbn; auto). apply IH. intros; apply H; cbn; auto. Qed.

Lemma in_dget : forall A f (v : A) (l : dict string A), In (f, v) l -> exists w, dget String.eqb f l = Some w.
Proof. induction l as [|[k w] l IH]; intros []; cbn. - injection H as -> ->. rewrite String.eqb_refl. eauto. - destruct (String.eqb f k); eauto. Qed.

(** A second start changes nothing at all. *)
Theorem C55_idempotent : forall t c, unique_fields t -> validate t (validate t c) = validate t c.
Proof.
  intros t c U. destruct (fill_all_spec t (sections t) c U) as (_ & B & C). cbv zeta in B, C. fold (validate t c) in B, C.
  unfold validate at 1. apply fold_id. intros s Is. unfold fill_section. rewrite in_sections, B.
  assert (E : existsb (String.eqb s) (sections t) = true). { apply existsb_exists. exists s. split; auto. apply String.eqb_refl. }
  rewrite E. cbn [orb]. apply fold_id. intros [f v] If. unfold fill_field. rewrite has_field_value, C, E. cbn [fst].
  apply in_dget in If as [w W]. rewrite items_get in W by auto. rewrite W. destruct (seen_or_default c s f); auto.
Qed.
Print Assumptions C55_idempotent.

(** What a setting reads as: the words True, False and None by their meaning, every other text as it is. *)
Inductive means : string -> setting -> Prop :=
| means_true : means "True" (SBool true)
| means_false : means "False" (SBool false)
| means_none : means "None" SNone
| means_text s : s <> "True" -> s <> "False" -> s <> "None" -> means s (SStr s).
Lemma uncommented_get : forall fs f, comment f = false -> dget String.eqb f (uncommented fs) = dget String.eqb f fs.
Proof.
  induction fs as [|[k v] fs IH]; intros f C; cbn [uncommented filter dget fst]; auto. destruct (comment k) eqn:K; cbn [negb].
  - fold (uncommented fs). rewrite IH by auto. destruct (String.eqb_spec f k); auto. congruence.
  - cbn [dget]. fold (uncommented fs). rewrite IH by auto. auto.
Qed.
Lemma visible_field : forall c s f, comment f = false -> field_value (visible c) s f = field_value c s f.
Proof.
  intros c s f C. unfold field_value, visible. cbn [c_sections c_defaults].
  assert (E : dget String.eqb s (map (fun s => (fst s, uncommented (snd s))) (c_sections c)) = option_map uncommented (dget String.eqb s (c_sections c))).
  { induction (c_sections c) as [|[k v] l IH]; cbn [map dget fst snd]; auto. destruct (String.eqb s k); auto. }
  rewrite E. destruct (dget String.eqb s (c_sections c)); cbn [option_map]; auto. rewrite !uncommented_get by auto. auto.
Qed.
(** A line is a comment if it starts with # or ;. All other lines have a value: *)
Definition comment_line (f : string) : Prop := exists r, f = ("#" ++ r)%string \/ f = (";" ++ r)%string.
Definition all_valued (c : config) : Prop :=
  (forall f v, In (f, v) (c_defaults c) -> comment_line f \/ v <> None) /\
  (forall s fs f v, In (s, fs) (c_sections c) -> In (f, v) fs -> comment_line f \/ v <> None).
Lemma comment_line_iff : forall f, comment_line f <-> comment f = true.
Proof.
  intros [|a r]; unfold comment_line, comment.
  - split; [intros [r [H|H]]; discriminate|discriminate].
  - rewrite orb_true_iff, !Ascii.eqb_eq. split; [intros [r' [H|H]]; injection H; auto|intros [->| ->]; exists r; auto].
Qed.
Lemma all_valued_visible : forall c, all_valued c <-> valueless (visible c) = false.
Proof.
  intros c. unfold all_valued, valueless. split.
  - intros [D S]. destruct (existsb _ _) eqn:E; auto. exfalso. apply existsb_exists in E. destruct E as ([f v] & I & V). cbn [snd] in V. destruct v; [discriminate|].
    cbn [visible c_defaults c_sections] in I. apply in_app_or in I. destruct I as [I|I].
    + apply filter_In in I. destruct I as [I K]. cbn [fst] in K. destruct (D _ _ I) as [H|H]; [apply comment_line_iff in H; rewrite H in K; discriminate|auto].
    + apply in_concat in I. destruct I as (l & L & I). rewrite map_map in L. apply in_map_iff in L. destruct L as ([s fs] & <- & L). cbn [snd] in I.
      apply filter_In in I. destruct I as [I K]. cbn [fst] in K. destruct (S _ _ _ _ L I) as [H|H]; [apply comment_line_iff in H; rewrite H in K; discriminate|auto].
  - intros E. assert (N : forall f v, In (f, v) (c_defaults (visible c) ++ List.concat (map snd (c_sections (visible c)))) -> v <> None).
    { intros f v I ->. rewrite (proj2 (existsb_exists _ _)) in E; [discriminate|]. exists (f, None). auto. }
    split.
    + intros f v I. destruct (comment f) eqn:K; [left; apply comment_line_iff; auto|right]. apply (N f). apply in_or_app. left. apply filter_In. cbn [fst]. rewrite K. auto.
    + intros s fs f v I J. destruct (comment f) eqn:K; [left; apply comment_line_iff; auto|right]. apply (N f). apply in_or_app. right. apply in_concat. exists (uncommented fs). split.
      * cbn [visible c_sections]. rewrite map_map. apply in_map_iff. exists (s, fs). auto.
      * apply filter_In. cbn [fst]. rewrite K. auto.
Qed.
Theorem C55_read_back : forall t c s f v, unique_fields t -> sees c s f (Some v) -> ~ comment_line f -> all_valued (validate t c) ->
  exists x, get_data (validate t c) s f = Ok x /\ means v x.
Proof.
  intros t c s f v U H NC N. rewrite comment_line_iff in NC. apply not_true_is_false in NC. pose proof (C55_user_settings_kept t c s f (Some v) U H) as K. unfold sees in K.
  unfold get_data. rewrite (proj1 (all_valued_visible _) N), visible_field, K by auto. eexists. split; [reflexivity|]. destruct (String.eqb_spec v "True"); [subst; constructor|]. destruct (String.eqb_spec v "False"); [subst; constructor|].
  destruct (String.eqb_spec v "None"); [subst|]; constructor; auto.
Qed.
Print Assumptions C55_read_back.

(** A file is read exactly if every line that is not a comment has a value. *)
Theorem C55_readable : forall c s f, (exists x, get_data c s f = Ok x) <-> all_valued c.
Proof.
  intros c s f. rewrite all_valued_visible. unfold get_data. destruct (valueless (visible c)); [split; [intros [x H]; discriminate|discriminate]|]. split; auto. intros _.
  destruct (field_value _ _ _) as [[v|]|]; eauto.
Qed.
Print Assumptions C55_readable.

(** A field written without a value is accepted at start-up, and then no setting at all can be read. *)
Theorem C55_valueless_refuted : exists t c, unique_fields t /\ sees c "ui" "theme" (Some "dark") /\
  get_data (validate t c) "ui" "theme" = Err ValueError.
Proof.
  exists (Config [] [("global.other", [("help_url", Some "https://github.com")])]), (Config [] [("ui", [("theme", Some "dark"); ("debug", None)])]).
  split; [|split; reflexivity]. intros s fs H. cbn in H. destruct (String.eqb s _); [|discriminate]. injection H as <-. repeat constructor. cbn; tauto.
Qed.
Print Assumptions C55_valueless_refuted.

Example C55_ex : let t := Config [] [("global.other", [("help_url", Some "https://github.com"); ("log", Some "1")])] in
  let c := Config [] [("global.other", [("help_url", Some "mine")]); ("ui", [("# colours", None); ("theme", Some "True")])] in
  unique_fields t /\ get_data (validate t c) "global.other" "help_url" = Ok (SStr "mine") /\
  get_data (validate t c) "global.other" "log" = Ok (SStr "1") /\ get_data (validate t c) "ui" "theme" = Ok (SBool true) /\ sees (validate t c) "ui" "# colours" None.
Proof.
  cbv zeta. split; [|repeat split; reflexivity].
  intros s fs H. cbn in H. destruct (String.eqb s _); [|discriminate]. injection H as <-. repeat constructor; cbn; intuition discriminate.
Qed.
