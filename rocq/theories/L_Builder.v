(** Lemmas about the NeXus builder: what is found under a key after a sequence of additions. *)
From Coq Require Import Reals List ZArith String Ascii Bool Lia.
From Verif Require Import Base PyStr M_Spice M_Tavi P_Tavi M_Nexus P_Nexus L_NexusFile M_Builder.
Import ListNotations.
Open Scope string_scope.
Open Scope list_scope.

Lemma sget_sset_eq : forall {A} k (v : A) d, sget k (sset k v d) = Some v.
Proof. intros. rewrite sget_sset, String.eqb_refl. auto. Qed.
Lemma sget_sset_ne : forall {A} k k' (v : A) d, k <> k' -> sget k (sset k' v d) = sget k d.
Proof. intros A k k' v d N. rewrite sget_sset. destruct (String.eqb k k') eqn:Q; auto. apply String.eqb_eq in Q. contradiction. Qed.

Lemma add_same : forall k ds e, ds <> [] -> sget k (add_dataset k ds e) = Some (Dict ds).
Proof. intros k [|x ds] e N; [contradiction|]. unfold add_dataset. apply sget_sset_eq. Qed.
Lemma add_other : forall k k' ds e, k <> k' -> sget k (add_dataset k' ds e) = sget k e.
Proof. intros k k' [|x ds] e N; cbn; auto. apply sget_sset_ne. auto. Qed.
Lemma add_nonempty : forall k ds e, e <> [] -> add_dataset k ds e <> [].
Proof. intros k [|x ds] [|[a b] e] N; try contradiction; cbn; try discriminate. destruct (String.eqb k a); discriminate. Qed.

Lemma sset_keys : forall {A} k (v : A) d x, In x (map fst (sset k v d)) <-> x = k \/ In x (map fst d).
Proof.
  induction d as [|[a b] d]; intros x; cbn. { intuition. } destruct (String.eqb k a) eqn:Q; cbn. { apply String.eqb_eq in Q. subst. intuition. } rewrite IHd. intuition.
Qed.
Lemma sset_nodup : forall {A} k (v : A) d, NoDup (map fst d) -> NoDup (map fst (sset k v d)).
Proof.
  induction d as [|[a b] d]; intros N; cbn. { constructor; auto. } cbn in N. inversion N; subst. destruct (String.eqb k a) eqn:Q; cbn. { constructor; auto. }
  constructor; auto. rewrite sset_keys. intros [->|I]; [|auto]. rewrite String.eqb_refl in Q. discriminate.
Qed.
Lemma add_keys : forall k ds e x, In x (map fst (add_dataset k ds e)) -> x = k \/ In x (map fst e).
Proof. intros k [|y ds] e x I; cbn in I; auto. apply sset_keys in I. auto. Qed.

Section Fill.
  Variable float_of : string -> option R.
  Variable int_of : string -> option Z.
  Variable repr : pv -> string.
  Variable date_of : string -> option string.
  Notation nxdataset := (nxdataset float_of int_of repr date_of).
  Notation fill := (fill float_of int_of repr date_of).

  Definition key_of (f : fld) : string := fst (fst f).

  Lemma fill_other : forall l e e' k, fill l e = Ok e' -> ~ In k (map key_of l) -> sget k e' = sget k e.
  Proof.
    induction l as [|[[k0 v] kw] l]; intros e e' k E N; cbn in E, N. { apply Ok_inj in E. subst. auto. }
    destruct (nxdataset v kw) as [d|]; [|discriminate]. cbn in E. rewrite (IHl _ _ _ E) by tauto. apply add_other. intros ->. apply N. auto.
  Qed.
  Lemma fill_app : forall l1 l2 e, fill (l1 ++ l2) e = do e1 <- fill l1 e; fill l2 e1.
  Proof. induction l1 as [|[[k0 v] kw] l]; intros l2 e; cbn; auto. destruct (nxdataset v kw); cbn; auto. Qed.
  (** The last field of a name decides, unless it is empty. *)
  Lemma fill_last : forall l1 k v kw l2 e e', fill (l1 ++ (k, v, kw) :: l2) e = Ok e' -> ~ In k (map key_of l2) ->
    exists d e1, fill l1 e = Ok e1 /\ nxdataset v kw = Ok d /\ sget k e' = match d with [] => sget k e1 | _ => Some (Dict d) end.
  Proof.
    intros l1 k v kw l2 e e' E N. rewrite fill_app in E. destruct (fill l1 e) as [e1|]; [|discriminate]. cbn in E.
    destruct (nxdataset v kw) as [d|]; [|discriminate]. cbn in E. exists d, e1. split; auto. split; auto. rewrite (fill_other _ _ _ _ E N).
    destruct d; cbn; auto. apply sget_sset_eq.
  Qed.
  Lemma fill_in : forall l k v kw e e', fill l e = Ok e' -> NoDup (map key_of l) -> In (k, v, kw) l ->
    exists d, nxdataset v kw = Ok d /\ sget k e' = match d with [] => sget k e | _ => Some (Dict d) end.
  Proof.
    intros l k v kw e e' E ND I. destruct (in_split _ _ I) as (l1 & l2 & ->). rewrite map_app in ND. cbn in ND. apply NoDup_remove_2 in ND. rewrite in_app_iff in ND.
    destruct (fill_last _ _ _ _ _ _ _ E) as (d & e1 & F & D & G); [tauto|]. exists d. split; auto. rewrite G. destruct d; auto. apply (fill_other _ _ _ _ F). tauto.
  Qed.
  Lemma fill_nonempty : forall l e e', fill l e = Ok e' -> e <> [] -> e' <> [].
  Proof.
    induction l as [|[[k0 v] kw] l]; intros e e' E N; cbn in E. { apply Ok_inj in E. subst. auto. }
    destruct (nxdataset v kw) as [d|]; [|discriminate]. cbn in E. eapply IHl; eauto. apply add_nonempty. auto.
  Qed.
  (** No key is new except those of the fields; keys stay distinct. *)
  Lemma fill_keys : forall l e e' x, fill l e = Ok e' -> In x (map fst e') -> In x (map key_of l) \/ In x (map fst e).
  Proof.
    induction l as [|[[k0 v] kw] l]; intros e e' x E I; cbn in E. { apply Ok_inj in E. subst. auto. }
    destruct (nxdataset v kw) as [d|]; [|discriminate]. cbn in E. destruct (IHl _ _ _ E I) as [J|J]; [left; right; auto|]. apply add_keys in J. cbn. unfold key_of at 1. cbn. intuition.
  Qed.
  Lemma fill_nodup : forall l e e', fill l e = Ok e' -> NoDup (map fst e) -> NoDup (map fst e').
  Proof.
    induction l as [|[[k0 v] kw] l]; intros e e' E N; cbn in E. { apply Ok_inj in E. subst. auto. }
    destruct (nxdataset v kw) as [d|]; [|discriminate]. cbn in E. eapply IHl; eauto. destruct d; cbn; auto. apply sset_nodup. auto.
  Qed.
  (** Every member is a dataset. *)
  Lemma fill_members : forall (P : string -> val -> Prop) l e e', fill l e = Ok e' -> (forall k v, In (k, v) e -> P k v) ->
    (forall k v kw d, In (k, v, kw) l -> nxdataset v kw = Ok d -> d <> [] -> P k (Dict d)) -> forall k v, In (k, v) e' -> P k v.
  Proof.
    intros P. induction l as [|[[k0 v0] kw0] l]; intros e e' E HE HL k v I; cbn in E. { apply Ok_inj in E. subst. auto. }
    destruct (nxdataset v0 kw0) as [d|] eqn:D; [|discriminate]. cbn in E. eapply IHl; [exact E| | |exact I].
    - intros k1 v1 I1. destruct d as [|x d]; cbn in I1; auto.
      assert (HP : P k0 (Dict (x :: d))) by (eapply HL; [left; reflexivity|eauto|discriminate]).
      clear - HE HP I1. induction e as [|[a b] e]; cbn in I1. { destruct I1 as [I1|[]]. injection I1 as <- <-. auto. }
      destruct (String.eqb k0 a) eqn:Q.
      + apply String.eqb_eq in Q. subst. destruct I1 as [I1|I1]; [injection I1 as <- <-; auto|]. apply HE. right. auto.
      + destruct I1 as [I1|I1]; [injection I1 as <- <-; apply HE; left; auto|]. apply IHe; auto. intros; apply HE; right; auto.
    - intros; eapply HL; eauto. right. auto.
  Qed.
End Fill.

(** Entries made by keyword arguments. *)
Lemma kmembers_keys : forall kw k, In k (map fst (kmembers kw)) -> In k (map fst kw).
Proof.
  induction kw as [|[a [x|[|x e]]] kw]; intros k I; cbn in *; auto. destruct I as [->|I]; auto.
Qed.
Lemma dupdate_get : forall {A} (l d : dict string A) k, NoDup (map fst l) -> sget k (dupdate String.eqb d l) = match sget k l with Some v => Some v | None => sget k d end.
Proof.
  induction l as [|[a b] l]; intros d k N; cbn; auto. cbn in N. inversion N; subst. unfold dupdate in *. cbn. rewrite IHl by auto. destruct (String.eqb k a) eqn:Q.
  - apply String.eqb_eq in Q. subst. rewrite in_none by auto. apply sget_sset_eq.
  - destruct (sget k l); auto. apply sget_sset_ne. intros ->. rewrite String.eqb_refl in Q. discriminate.
Qed.
Lemma kmembers_nodup : forall kw, NoDup (map fst kw) -> NoDup (map fst (kmembers kw)).
Proof.
  induction kw as [|[a [x|[|x e]]] kw]; intros N; cbn in *; auto; inversion N; subst; auto. constructor; auto. intros I. apply kmembers_keys in I. auto.
Qed.
Lemma kmembers_get : forall kw k, NoDup (map fst kw) -> sget k (kmembers kw) = match sget k kw with Some (KObj (x :: e)) => Some (Dict (x :: e)) | _ => None end.
Proof.
  induction kw as [|[a v] kw]; intros k N; cbn [dget]; auto. cbn in N. inversion N; subst. specialize (IHkw k H2).
  destruct (String.eqb k a) eqn:Q.
  - apply String.eqb_eq in Q. subst. assert (Z : sget a (kmembers kw) = None). { apply in_none. intros I. apply kmembers_keys in I. auto. }
    destruct v as [x|[|x e]]; cbn; auto. rewrite String.eqb_refl. auto.
  - destruct v as [x|[|x e]]; cbn; rewrite ?Q; auto.
Qed.
Lemma kattrs_get : forall kw k, NoDup (map fst kw) -> sget k (kattrs kw) = match sget k kw with Some (KAttr x) => Some (Leaf x) | _ => None end.
Proof.
  intros kw k N. unfold kattrs.
  assert (G : forall a, sget k (fold_left (fun a kv => match snd kv with KAttr x => sset (fst kv) (Leaf x) a | KObj _ => a end) kw a) =
    match sget k kw with Some (KAttr x) => Some (Leaf x) | _ => sget k a end).
  { induction kw as [|[b v] kw]; intros a; cbn; auto. cbn in N. inversion N; subst. rewrite IHkw by auto. destruct (String.eqb k b) eqn:Q.
    - apply String.eqb_eq in Q. subst. rewrite in_none by auto. destruct v; auto. apply sget_sset_eq.
    - destruct (sget k kw) as [[|]|]; auto; destruct v; auto; apply sget_sset_ne; intros ->; rewrite String.eqb_refl in Q; discriminate. }
  rewrite G. destruct (sget k kw) as [[|]|]; auto.
Qed.
Lemma nxentry_get : forall kw k, NoDup (map fst kw) -> k <> "attrs" ->
  sget k (nxentry kw) = match sget k kw with Some (KObj (x :: e)) => Some (Dict (x :: e)) | _ => None end.
Proof.
  intros kw k N NA. unfold nxentry. rewrite dupdate_get by (apply kmembers_nodup; auto). rewrite kmembers_get by auto.
  assert (A : @dget string val String.eqb k [("attrs", Dict (kattrs kw))] = None). { cbn. destruct (String.eqb k "attrs") eqn:Q; auto. apply String.eqb_eq in Q. contradiction. }
  rewrite A. destruct (sget k kw) as [[|[|x e]]|]; auto.
Qed.
Lemma nxentry_attrs : forall kw, NoDup (map fst kw) -> ~ In "attrs" (map fst kw) -> sget "attrs" (nxentry kw) = Some (Dict (kattrs kw)).
Proof.
  intros kw N NA. unfold nxentry. rewrite dupdate_get by (apply kmembers_nodup; auto). rewrite in_none; [reflexivity|]. intros I. apply kmembers_keys in I. auto.
Qed.
Lemma nxentry_keys : forall kw x, In x (map fst (nxentry kw)) -> x = "attrs" \/ In x (map fst kw).
Proof.
  intros kw x I. unfold nxentry, dupdate in I.
  assert (G : forall l d, In x (map fst (fold_left (fun acc (kv : string * val) => sset (fst kv) (snd kv) acc) l d)) -> In x (map fst l) \/ In x (map fst d)).
  { induction l as [|[a b] l]; intros d J; cbn in J |- *; auto. apply IHl in J. destruct J as [J|J]; auto. apply sset_keys in J. destruct J as [->|J]; auto. }
  apply G in I. cbn in I. destruct I as [I|[I|[]]]; auto. right. apply kmembers_keys. auto.
Qed.
(** An entry made of attributes and datasets as keyword arguments is the same as adding the datasets to the attributes. *)
Lemma nxentry_members : forall attrs (l : list (string * entry)) ,
  nxentry (map (fun kd => (fst kd, KObj (snd kd))) l ++ map (fun a => (fst a, KAttr (LStr (snd a)))) attrs) =
  fold_left (fun e kd => add_dataset (fst kd) (snd kd) e) l [("attrs", Dict (fold_left (fun a kv => sset (fst kv) (Leaf (LStr (snd kv))) a) attrs []))].
Proof.
  intros attrs l. unfold nxentry.
  assert (A : kattrs (map (fun kd : string * entry => (fst kd, KObj (snd kd))) l ++ map (fun a : string * string => (fst a, KAttr (LStr (snd a)))) attrs) =
              fold_left (fun a kv => sset (fst kv) (Leaf (LStr (snd kv))) a) attrs []).
  { unfold kattrs. rewrite fold_left_app. assert (Z : forall a, fold_left (fun a kv => match snd kv with KAttr x => sset (fst kv) (Leaf x) a | KObj _ => a end) (map (fun kd : string * entry => (fst kd, KObj (snd kd))) l) a = a).
    { induction l; intros; cbn; auto. } rewrite Z. generalize (@nil (string * val)). induction attrs as [|[k s] attrs]; intros a; cbn; auto. }
  rewrite A. unfold kmembers. rewrite flat_map_app.
  assert (B : flat_map (fun kv : string * karg => match snd kv with KObj (x :: e) => [(fst kv, Dict (x :: e))] | _ => [] end) (map (fun a : string * string => (fst a, KAttr (LStr (snd a)))) attrs) = []).
  { clear. induction attrs as [|y attrs IH]; [reflexivity|]. cbn. exact IH. }
  rewrite B, app_nil_r. generalize [("attrs", Dict (fold_left (fun a (kv : string * string) => sset (fst kv) (Leaf (LStr (snd kv))) a) attrs []))].
  unfold dupdate. induction l as [|[k [|x e]] l]; intros a; cbn; auto.
Qed.
