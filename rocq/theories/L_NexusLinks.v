(** Reading files with soft links: how edits of a file show in what is read. *)
From Coq Require Import Reals List String Ascii Bool Lia Lra.
From Verif Require Import Base PyStr M_Tavi P_Tavi M_Nexus P_Nexus L_NexusFile.
Import ListNotations.
Open Scope string_scope.
Open Scope list_scope.

Section Leaves.
  Context (show : list string -> string) (resolve : list string -> option (dict string leaf * leaf)).
  Definition data_leaf (p : list string) (a : dict string leaf) (d : leaf) : option leaf :=
    match p with [k] => if String.eqb k "dataset" then Some (read_leaf show d) else None | [k; x] => if String.eqb k "attrs" then sget x a else None | _ => None end.
  (** the leaf that is read at a path of a file object *)
  Fixpoint hleaf (p : list string) (n : h5) {struct p} : option leaf :=
    match n with
    | HGroup a c =>
        match p with
        | [] => None
        | k :: p' => if String.eqb k "attrs" then match p' with [x] => sget x a | _ => None end
                     else match sget k c with Some n' => hleaf p' n' | None => None end
        end
    | HData a d => data_leaf p a d
    | HLink q => match resolve q with Some (a, d) => data_leaf p a d | None => None end
    end.

  Lemma attr_get : forall a x, sget x (attr_items a) = match sget x a with Some y => Some (Leaf y) | None => None end.
  Proof. induction a as [|[k y] a]; intros x; cbn; auto. destruct (String.eqb x k); auto. Qed.
  Lemma attr_leaf : forall p a, leaf_at p (Dict (attr_items a)) = match p with [x] => sget x a | _ => None end.
  Proof.
    intros [|x p] a; auto. rewrite leaf_cons, attr_get. destruct (sget x a) as [y|]; destruct p; cbn; auto.
  Qed.
  Lemma data_read : forall p a d, leaf_at p (read_data show a d) = data_leaf p a d.
  Proof.
    intros [|k p] a d. { destruct a; auto. } unfold read_data. destruct a as [|kx a].
    - rewrite leaf_cons. cbn [dget]. destruct (String.eqb k "dataset") eqn:Q; cbn [data_leaf]; rewrite Q; destruct p as [|x [|y p]]; cbn; auto; destruct (String.eqb k "attrs"); auto.
    - rewrite leaf_cons. cbn [dget]. destruct (String.eqb k "attrs") eqn:QA.
      + apply String.eqb_eq in QA. subst k. rewrite attr_leaf. destruct p as [|x [|y p]]; cbn; auto.
      + destruct (String.eqb k "dataset") eqn:Q; cbn [data_leaf]; rewrite ?Q, ?QA; destruct p as [|x [|y p]]; cbn; auto.
  Qed.
  Lemma read_all_sget : forall (F : val -> option leaf) c k, NoDup (map fst c) ->
    match sget k (read_all show resolve c) with Some v => F v | None => None end =
    match sget k c with Some n => match read_node show resolve n with Some v => F v | None => None end | None => None end.
  Proof.
    induction c as [|[k' n] c]; intros k N; cbn; auto. inversion N; subst. destruct (String.eqb k k') eqn:Q.
    - apply String.eqb_eq in Q. subst k'. destruct (read_node show resolve n) as [v|]; cbn; [rewrite String.eqb_refl; auto|].
      rewrite in_none; auto. intros I. apply H1. clear - I. induction c as [|[a b] c]; cbn in *; auto. destruct (read_node show resolve b); cbn in *; tauto.
    - destruct (read_node show resolve n) as [v|]; cbn; [rewrite Q|]; auto.
  Qed.
  Lemma read_hleaf : forall p n, hok n -> match read_node show resolve n with Some v => leaf_at p v | None => None end = hleaf p n.
  Proof.
    induction p as [|k p]; intros n H.
    - destruct n as [a c|a d|q]; [reflexivity|exact (data_read [] a d)|]. cbn [read_node hleaf]. destruct (resolve q) as [[a d]|]; auto. apply data_read.
    - destruct n as [a c|a d|q]; [|exact (data_read (k :: p) a d)|cbn [read_node hleaf]; destruct (resolve q) as [[a d]|]; auto; apply data_read].
      rewrite read_group, leaf_cons. inversion H as [? ? N NA K| |]; subst. cbn [dget hleaf]. destruct (String.eqb k "attrs") eqn:Q. { apply attr_leaf. }
      rewrite read_all_sget by auto. destruct (sget k c) as [n|] eqn:G; auto. apply IHp. eapply K. eapply sget_in; eauto.
  Qed.

  (** ** Edits *)
  Lemma edit_in : forall f p n m q, at_path p n = Some m -> ~ In "attrs" p -> hleaf (p ++ q) (edit p f n) = hleaf q (f m).
  Proof.
    induction p as [|k p]; intros n m q A NA; cbn in A; [injection A as ->; auto|]. destruct n as [a c| |]; try discriminate. destruct (sget k c) as [n'|] eqn:G; [|discriminate].
    cbn [edit app hleaf]. rewrite G. assert (Q : String.eqb k "attrs" = false). { apply String.eqb_neq. intros ->. apply NA. left. auto. } rewrite Q.
    rewrite sget_sset, String.eqb_refl. apply IHp; auto. intros I. apply NA. right. auto.
  Qed.
  Lemma edit_out : forall f p n q, strip p q = None -> hleaf q (edit p f n) = hleaf q n.
  Proof.
    induction p as [|k p]; intros n q S; cbn in S; [discriminate|]. cbn [edit]. destruct n as [a c| |]; auto. destruct (sget k c) as [m|] eqn:G; auto.
    destruct q as [|k' q]; auto. cbn [hleaf]. destruct (String.eqb k' "attrs"); auto. rewrite sget_sset. destruct (String.eqb k' k) eqn:Q; auto.
    apply String.eqb_eq in Q. subst k'. rewrite String.eqb_refl in S. rewrite G. auto.
  Qed.
End Leaves.

Lemma at_app : forall p q n, at_path (p ++ q) n = match at_path p n with Some m => at_path q m | None => None end.
Proof. induction p as [|k p]; intros q n; cbn; auto. destruct n as [a c| |]; auto. destruct (sget k c); auto. Qed.
Lemma edit_at_in : forall f p n m q, at_path p n = Some m -> at_path (p ++ q) (edit p f n) = at_path q (f m).
Proof.
  induction p as [|k p]; intros n m q A; cbn in A; [injection A as ->; auto|]. destruct n as [a c| |]; try discriminate. destruct (sget k c) as [n'|] eqn:G; [|discriminate].
  cbn. rewrite G. cbn. rewrite sget_sset, String.eqb_refl. auto.
Qed.
(** objects elsewhere keep their kind *)
Definition kind (n : h5) : nat := match n with HGroup _ _ => 0 | HData _ _ => 1 | HLink _ => 2 end.
Lemma edit_at_kind : forall f, (forall m, kind (f m) = kind m) -> (forall k m, at_path [k] (f m) = at_path [k] m) -> forall p n q,
  option_map kind (at_path q (edit p f n)) = option_map kind (at_path q n).
Proof.
  intros f FK FC. induction p as [|k p]; intros n q; cbn [edit].
  - destruct q as [|k q]; cbn. { rewrite FK. auto. } specialize (FC k n). cbn in FC. specialize (FK n).
    destruct n as [a c| |], (f _) as [a' c'| |]; cbn in *; try discriminate; auto. destruct (sget k c'), (sget k c); try discriminate; auto. injection FC as ->. auto.
  - destruct n as [a c| |]; auto. destruct (sget k c) as [m|] eqn:G; auto. destruct q as [|k' q]; auto. cbn. rewrite sget_sset.
    destruct (String.eqb k' k) eqn:Q; auto. apply String.eqb_eq in Q. subst. rewrite G. auto.
Qed.
Lemma edit_at_out : forall f p n q, strip p q = None -> strip q p = None -> at_path q (edit p f n) = at_path q n.
Proof.
  induction p as [|k p]; intros n q S S2; cbn in S; [discriminate|]. cbn [edit]. destruct n as [a c| |]; auto. destruct (sget k c) as [m|] eqn:G; auto.
  destruct q as [|k' q]; [discriminate|]. cbn in *. rewrite sget_sset. destruct (String.eqb k' k) eqn:Q; auto. apply String.eqb_eq in Q. subst k'.
  rewrite String.eqb_refl in S. rewrite G. auto.
Qed.
Lemma sset_keys_in : forall {A} k (v : A) d, In k (map fst d) -> map fst (sset k v d) = map fst d.
Proof. induction d as [|[a b] d]; intros I; cbn in *; [destruct I|]. destruct (String.eqb k a) eqn:Q; cbn. { apply String.eqb_eq in Q. congruence. } f_equal. apply IHd. destruct I; auto. subst. rewrite String.eqb_refl in Q. discriminate. Qed.
Lemma in_sset : forall {A} k (v : A) d x y, In (x, y) (sset k v d) -> (x = k /\ y = v) \/ In (x, y) d.
Proof. induction d as [|[a b] d]; intros x y I; cbn in *. { destruct I as [[= <- <-]|[]]; auto. } destruct (String.eqb k a) eqn:Q; cbn in I.
  { apply String.eqb_eq in Q. destruct I as [[= <- <-]|I]; auto. } destruct I as [[= <- <-]|I]; auto. destruct (IHd _ _ I); auto. Qed.
Lemma hok_edit : forall f p n, hok n -> (forall m, at_path p n = Some m -> hok m -> hok (f m)) -> hok (edit p f n).
Proof.
  induction p as [|k p]; intros n H F; cbn; auto. destruct n as [a c| |]; auto. destruct (sget k c) as [m|] eqn:G; auto. inversion H as [? ? N NA K| |]; subst.
  pose proof (sget_in _ _ _ G) as I. pose proof (in_map fst _ _ I) as IK. cbn in IK. constructor; try (rewrite sset_keys_in; auto).
  intros k' m' I'. apply in_sset in I'. destruct I' as [[-> ->]|I']; [|eauto]. apply IHp; eauto. intros m' A. apply F. cbn. rewrite G. auto.
Qed.

(** ** Finding names *)
Lemma find_sound : forall n v p, find_path v n = Some p -> hok n ->
  exists p0, p = p0 ++ v :: inside v /\ at_path (p0 ++ [v]) n <> None /\ ~ In "attrs" (p0 ++ [v]) /\ ~ In "data" (p0 ++ [v]).
Proof.
  assert (IND : forall (P : h5 -> Prop), (forall a c, (forall k m, In (k, m) c -> P m) -> P (HGroup a c)) -> (forall a d, P (HData a d)) -> (forall p, P (HLink p)) -> forall n, P n).
  { intros P HG HD HL. fix F 1. intros [a c|a d|q]; [apply HG|apply HD|apply HL]. revert c. fix Fc 1. intros [|[k m] c] k0 m0 I; [destruct I|]. destruct I as [E|I]; [injection E as _ <-; apply F|eapply Fc; eauto]. }
  induction n as [a c IH|a d|q] using IND; intros v p FP H; try discriminate.
  inversion H as [? ? N NA K| |]; subst.
  assert (G : forall c1, (forall kn, In kn c1 -> In kn c) ->
    (fix loop (c : list (string * h5)) : option (list string) :=
         match c with
         | [] => None
         | (k, n') :: c' =>
             if String.eqb k "SPICElogs" || String.eqb k "data" then loop c'
             else if String.eqb v k then Some (k :: inside v)
             else match n' with
                  | HGroup _ _ => match find_path v n' with Some p => Some (k :: p) | None => loop c' end
                  | _ => loop c'
                  end
         end) c1 = Some p -> exists p0, p = p0 ++ v :: inside v /\ at_path (p0 ++ [v]) (HGroup a c) <> None /\ ~ In "attrs" (p0 ++ [v]) /\ ~ In "data" (p0 ++ [v])).
  { induction c1 as [|[k m] c1 IHc]; intros SUB E; [discriminate|]. assert (SUB' : forall kn, In kn c1 -> In kn c) by (intros; apply SUB; right; auto).
    pose proof (SUB _ (or_introl eq_refl)) as I. assert (KA : k <> "attrs"). { intros ->. apply NA. apply (in_map fst) in I. auto. }
    destruct (String.eqb k "SPICElogs" || String.eqb k "data") eqn:Q; [auto|]. apply orb_false_iff in Q. destruct Q as [_ Q]. apply String.eqb_neq in Q.
    destruct (String.eqb v k) eqn:Qv.
    - apply String.eqb_eq in Qv. subst k. injection E as <-. exists []. cbn. rewrite (in_sget v c m) by auto. repeat split; try discriminate; intros [X|[]]; auto.
    - destruct m as [a' c'| |]; auto. destruct (find_path v (HGroup a' c')) as [p1|] eqn:FP1; auto. injection E as <-.
      destruct (IH _ _ I _ _ FP1) as (p0 & -> & A & B & C); [eauto|]. exists (k :: p0). split; auto. split. { cbn [app at_path]. rewrite (in_sget k c _ N I). auto. }
      split; intros [X|X]; auto. }
  apply (G c); auto.
Qed.
Lemma inside_noattrs : forall v, ~ In "attrs" (inside v).
Proof. intros v. unfold inside. destruct (String.eqb v "detector"), (String.eqb v "monitor"); cbn; intuition discriminate. Qed.

Lemma hleaf_app : forall show res p n m q, at_path p n = Some m -> ~ In "attrs" p -> hleaf show res (p ++ q) n = hleaf show res q m.
Proof.
  induction p as [|k p]; intros n m q A NA; cbn in A; [injection A as ->; auto|]. destruct n as [a c| |]; try discriminate. destruct (sget k c) as [n'|] eqn:G; [|discriminate].
  cbn [app hleaf]. rewrite G. assert (Q : String.eqb k "attrs" = false). { apply String.eqb_neq. intros ->. apply NA. left. auto. } rewrite Q.
  apply IHp; auto. intros I. apply NA. right. auto.
Qed.
Lemma strip_some : forall p q r, strip p q = Some r -> q = p ++ r.
Proof. induction p as [|k p]; intros [|k' q] r H; cbn in *; try congruence. destruct (String.eqb k k') eqn:Q; [|discriminate]. apply String.eqb_eq in Q. subst. f_equal. auto. Qed.
Lemma strip_app : forall p r, strip p (p ++ r) = Some r.
Proof. induction p; intros; cbn; auto. rewrite String.eqb_refl. auto. Qed.
Definition path_eq (p q : list string) : bool := if list_eq_dec string_dec p q then true else false.
Lemma target_leaf : forall show res t m r, kind m <> 2 -> hleaf show res r (set_target t m) = if path_eq r ["attrs"; "target"] then Some (LStr t) else hleaf show res r m.
Proof.
  intros show res t m r K. unfold path_eq. destruct (list_eq_dec string_dec r ["attrs"; "target"]) as [->|NE].
  - destruct m; cbn in *; try lia; rewrite sget_sset; auto.
  - destruct m as [a c|a d|q]; cbn in *; try lia; destruct r as [|k [|x [|y r]]]; cbn; auto; destruct (String.eqb k "attrs") eqn:Q; auto;
      rewrite sget_sset; destruct (String.eqb x "target") eqn:Q2; auto; apply String.eqb_eq in Q, Q2; subst; exfalso; auto.
Qed.
Lemma set_target_hok : forall t m, hok m -> hok (set_target t m).
Proof. intros t m H. destruct m; cbn; auto; [inversion H; subst; constructor; auto|constructor]. Qed.
Lemma ddel_get : forall {A} k k' (c : list (string * A)), NoDup (map fst c) -> sget k (ddel String.eqb k' c) = if String.eqb k k' then None else sget k c.
Proof.
  induction c as [|[a b] c]; intros N; cbn. { destruct (String.eqb k k'); auto. } inversion N; subst. destruct (String.eqb k' a) eqn:Q.
  - apply String.eqb_eq in Q. subst k'. destruct (String.eqb k a) eqn:Q2; [|auto]. apply String.eqb_eq in Q2. subst. apply in_none. auto.
  - cbn. destruct (String.eqb k a) eqn:Q2; [|auto]. apply String.eqb_eq in Q2. subst. destruct (String.eqb a k') eqn:Q3; auto. rewrite String.eqb_sym in Q3. congruence.
Qed.
Lemma ddel_in : forall {A} k (c : list (string * A)) x, In x (ddel String.eqb k c) -> In x c.
Proof. induction c as [|[a b] c]; intros x I; cbn in *; auto. destruct (String.eqb k a); cbn in *; [auto|destruct I; auto]. Qed.
Lemma ddel_nodup : forall {A} k (c : list (string * A)), NoDup (map fst c) -> NoDup (map fst (ddel String.eqb k c)).
Proof.
  induction c as [|[a b] c]; intros N; cbn in *; auto. inversion N; subst. destruct (String.eqb k a); auto. cbn. constructor; auto.
  intros I. apply H1. apply in_map_iff in I. destruct I as (x & E & I). apply ddel_in in I. apply in_map_iff. eauto.
Qed.
Lemma dmem_get : forall {A} k (c : list (string * A)), dmem String.eqb k c = match sget k c with Some _ => true | None => false end.
Proof. intros. reflexivity. Qed.

(** ** One soft link *)
Record linked (name : list string) (d : string) (p : list string) (da : dict string leaf) (dc dc' : list (string * h5)) (s s' : h5) : Prop := {
  lk_hok : hok s';
  lk_data : at_path ["data"] s' = Some (HGroup da dc');
  lk_new : sget d dc' = Some (HLink (name ++ p));
  lk_old : forall k, k <> d -> sget k dc' = sget k dc;
  lk_kind : forall k r, k <> "data" -> option_map kind (at_path (k :: r) s') = option_map kind (at_path (k :: r) s);
  lk_leaf : forall show res q, hleaf show res q s' =
    if path_eq q (p ++ ["attrs"; "target"]) then Some (LStr (slashed (name ++ p)))
    else match strip ["data"; d] q with Some r => hleaf show res r (HLink (name ++ p)) | None => hleaf show res q s end }.

Lemma put_link_spec : forall name d p da dc s m, hok s -> at_path ["data"] s = Some (HGroup da dc) -> d <> "attrs" -> at_path p s = Some m -> kind m <> 2 ->
  hd "" p <> "data" -> p <> [] -> ~ In "attrs" p -> (forall m', sget d dc = Some m' -> is_data name s m' = true) ->
  exists s' dc', put_link name d (Some p) s = Ok s' /\ linked name d p da dc dc' s s'.
Proof.
  intros name d p da dc s m H AD DA AP KM HP PN NAT ISD.
  assert (HD : hok (HGroup da dc)). { cbn in AD. destruct s as [a c| |]; try discriminate. destruct (sget "data" c) as [x|] eqn:G; [|discriminate]. injection AD as ->. inversion H; subst. eapply H4. eapply sget_in; eauto. }
  inversion HD as [? ? N NA K| |]; subst.
  unfold put_link. rewrite AP, AD.
  set (dc1 := match sget d dc with Some m0 => if is_data name s m0 then ddel String.eqb d dc else dc | None => dc end).
  assert (E1 : forall k, sget k dc1 = if String.eqb k d then None else sget k dc).
  { intros k. unfold dc1. destruct (sget d dc) as [m0|] eqn:G. - rewrite (ISD m0 eq_refl). apply ddel_get. auto. - destruct (String.eqb k d) eqn:Q; auto. apply String.eqb_eq in Q. subst. auto. }
  assert (N1 : NoDup (map fst dc1)). { unfold dc1. destruct (sget d dc) as [m0|]; auto. destruct (is_data name s m0); auto. apply ddel_nodup. auto. }
  assert (I1 : forall x, In x dc1 -> In x dc). { unfold dc1. destruct (sget d dc) as [m0|]; auto. destruct (is_data name s m0); auto. apply ddel_in. }
  rewrite dmem_get, E1, String.eqb_refl.
  set (dc2 := dc1 ++ [(d, HLink (name ++ p))]). set (s1 := edit ["data"] (fun _ => HGroup da dc2) s).
  assert (E2 : forall k, sget k dc2 = if String.eqb k d then Some (HLink (name ++ p)) else sget k dc).
  { intros k. unfold dc2. rewrite sget_app, E1. cbn. destruct (String.eqb k d); auto. destruct (sget k dc); auto. }
  assert (H2 : hok (HGroup da dc2)).
  { constructor; unfold dc2; rewrite ?map_app.
    - cbn. rewrite <- (rev_involutive (map fst dc1 ++ [d])). apply NoDup_rev. rewrite rev_app_distr. cbn. constructor; [|apply NoDup_rev; auto].
      intros I. apply in_rev in I. apply (sget_none_in d dc1) in I; auto. rewrite E1, String.eqb_refl. auto.
    - rewrite in_app_iff. intros [I|[E|[]]]; [|auto]. apply NA. apply in_map_iff in I. destruct I as (x & E & I). apply in_map_iff. eauto.
    - intros k m0 I. apply in_app_iff in I. destruct I as [I|[[= <- <-]|[]]]; [eauto|constructor]. }
  assert (H1 : hok s1). { apply hok_edit; auto. }
  assert (SD : strip ["data"] p = None /\ strip p ["data"] = None).
  { destruct p as [|k p]; [exfalso; auto|]. cbn in HP. cbn [strip]. split; [destruct (String.eqb "data" k) eqn:Q|destruct (String.eqb k "data") eqn:Q]; auto; apply String.eqb_eq in Q; congruence. }
  destruct SD as [SD1 SD2].
  assert (AP1 : at_path p s1 = Some m) by (unfold s1; rewrite edit_at_out; auto).
  set (t := slashed (name ++ p)). set (s2 := edit p (set_target t) s1).
  exists s2, dc2. split; [reflexivity|].
  assert (KT : forall m, kind (set_target t m) = kind m) by (intros []; auto).
  assert (CT : forall k m, at_path [k] (set_target t m) = at_path [k] m) by (intros k []; auto).
  constructor.
  - apply hok_edit; auto. intros m' _ Hm. apply set_target_hok. auto.
  - unfold s2. rewrite edit_at_out; auto. unfold s1. change (at_path (["data"] ++ []) (edit ["data"] (fun _ => HGroup da dc2) s) = Some (HGroup da dc2)). rewrite (edit_at_in _ _ _ _ [] AD). auto.
  - rewrite E2, String.eqb_refl. auto.
  - intros k NE. rewrite E2. destruct (String.eqb k d) eqn:Q; auto. apply String.eqb_eq in Q. contradiction.
  - intros k r NK. unfold s2. rewrite (edit_at_kind _ KT CT). unfold s1. rewrite edit_at_out; auto.
    + cbn [strip]. destruct (String.eqb "data" k) eqn:Q; auto. apply String.eqb_eq in Q. congruence.
    + cbn [strip]. destruct (String.eqb k "data") eqn:Q; auto. apply String.eqb_eq in Q. congruence.
  - intros show res q. destruct (strip p q) as [r|] eqn:S.
    + apply strip_some in S. subst q. unfold s2. rewrite (edit_in _ _ _ _ _ m) by auto. rewrite target_leaf by auto.
      assert (PE : path_eq (p ++ r) (p ++ ["attrs"; "target"]) = path_eq r ["attrs"; "target"]).
      { unfold path_eq. destruct (list_eq_dec string_dec (p ++ r) _) as [E|E], (list_eq_dec string_dec r _) as [E'|E']; auto. - apply app_inv_head in E. contradiction. - subst. exfalso. auto. }
      rewrite PE. destruct (path_eq r ["attrs"; "target"]); auto.
      destruct p as [|k p]; [exfalso; auto|]. cbn [app strip hd] in *. destruct (String.eqb "data" k) eqn:Q; [apply String.eqb_eq in Q; congruence|].
      symmetry. apply (hleaf_app show res (k :: p)); auto.
    + unfold s2. rewrite edit_out by auto. unfold path_eq at 1. destruct (list_eq_dec string_dec q _) as [->|_]. { rewrite strip_app in S. discriminate. }
      destruct (strip ["data"] q) as [r|] eqn:SQ.
      * apply strip_some in SQ. subst q. unfold s1. rewrite (edit_in _ _ _ _ _ (HGroup da dc)); auto. 2:{ intros [X|[]]. discriminate. }
        change (strip ["data"; d] (["data"] ++ r)) with (strip [d] r). rewrite (hleaf_app show res ["data"] s (HGroup da dc)); auto. 2:{ intros [X|[]]. discriminate. }
        destruct r as [|k r]; auto. cbn [hleaf strip]. rewrite E2. rewrite (String.eqb_sym d k). destruct (String.eqb k d) eqn:Q; auto.
        apply String.eqb_eq in Q. subst k. destruct (String.eqb d "attrs") eqn:Q; auto. apply String.eqb_eq in Q. contradiction.
      * unfold s1. rewrite edit_out by auto. destruct q as [|k q]; auto. cbn [strip] in *. destruct (String.eqb "data" k); auto. discriminate.
Qed.
