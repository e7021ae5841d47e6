(** Lemmas for C73: writing any savable entry to a file, the links, and reading it back. *)
From Coq Require Import Reals List String Ascii Bool Lia Lra.
From Verif Require Import Base PyStr M_Tavi P_Tavi M_Nexus P_Nexus L_NexusFile L_NexusLinks P_NexusFile S_Save.
Import ListNotations.
Open Scope string_scope.
Open Scope list_scope.

Lemma read_stored : forall show x, read_leaf show (stored x) = after show x.
Proof. intros show []; auto. Qed.
Lemma stored_array : forall x, stored x = as_array x.
Proof. intros []; auto. Qed.
Lemma suits_format : forall attrs x, suits attrs x -> format_dataset attrs x = Ok (stored x).
Proof.
  intros attrs x (C & F & I). unfold format_dataset. assert (D : forall t, type_of attrs = Some t -> declares attrs t).
  { intros t E. unfold type_of in E. destruct attrs as [[|a]|]; try discriminate. exists a. split; auto. destruct (sget "type" a) as [[[]|]|]; try discriminate. injection E as ->. auto. }
  destruct (type_of attrs) as [t|] eqn:T; auto. specialize (D t eq_refl).
  destruct (String.eqb t "NX_CHAR") eqn:Q1. { apply String.eqb_eq in Q1. subst. specialize (C D). destruct x; try contradiction; auto. }
  destruct (String.eqb t "NX_FLOAT") eqn:Q2. { apply String.eqb_eq in Q2. subst. specialize (F D). destruct x; try contradiction; auto. }
  destruct (String.eqb t "NX_INT") eqn:Q3. { apply String.eqb_eq in Q3. subst. specialize (I D). assert (M : forall l, Forall (fun r => exists z, r = IZR z) l -> map trunc l = l).
    { induction 1 as [|r l (z & ->) _ IH]; cbn; auto. rewrite trunc_int, IH. auto. }
    destruct x; try contradiction; cbn; auto; [destruct I as (z & ->); rewrite trunc_int; auto|rewrite M; auto|rewrite M; auto]. }
  apply String.eqb_neq in Q1, Q2, Q3.
  repeat (match goal with |- context [match ?s with EmptyString => _ | String _ _ => _ end] => destruct s; auto
      | |- context [match ?c0 with Ascii.Ascii _ _ _ _ _ _ _ _ => _ end] => destruct c0
      | |- context [if ?b then _ else _] => destruct b; auto end); exfalso; auto.
Qed.
(** * The file object for an entry *)
Definition attrs_img (l : list (string * val)) : dict string leaf := flat_map (fun kv => match snd kv with Leaf x => [(fst kv, stored x)] | Dict _ => [] end) (attrs_of l).
Fixpoint image (v : val) : h5 :=
  match v with
  | Leaf x => HData [] x
  | Dict l =>
      match sget "dataset" l with
      | Some (Leaf x) => HData (attrs_img l) (stored x)
      | _ => HGroup (attrs_img l) ((fix mem (l : list (string * val)) : list (string * h5) :=
               match l with [] => [] | (k, v) :: l' => if String.eqb k "attrs" then mem l' else (k, image v) :: mem l' end) l)
      end
  end.
Definition images (l : list (string * val)) : list (string * h5) := map (fun kv => (fst kv, image (snd kv))) (members l).
Lemma image_dict : forall l, image (Dict l) = match sget "dataset" l with Some (Leaf x) => HData (attrs_img l) (stored x) | _ => HGroup (attrs_img l) (images l) end.
Proof.
  intros l. assert (E : forall l, (fix mem (l : list (string * val)) : list (string * h5) :=
               match l with [] => [] | (k, v) :: l' => if String.eqb k "attrs" then mem l' else (k, image v) :: mem l' end) l = images l).
  { clear l. induction l as [|[k v] l]; auto. unfold images, members in *. cbn [filter fst]. destruct (String.eqb k "attrs"); cbn [negb]; auto. cbn [map fst snd]. f_equal. auto. }
  cbn [image]. rewrite E. auto.
Qed.
Lemma set_attrs_img : forall l a, NoDup (map fst l) -> (forall k v, In (k, v) l -> exists x, v = Leaf x) -> (forall k, In k (map fst a) -> ~ In k (map fst l)) ->
  set_attrs l a = Ok (a ++ flat_map (fun kv => match snd kv with Leaf x => [(fst kv, stored x)] | Dict _ => [] end) l).
Proof.
  induction l as [|[k v] l]; intros a N P F; cbn [set_attrs flat_map]. { rewrite app_nil_r. auto. }
  destruct (P k v (or_introl eq_refl)) as (x & ->). cbn in N. inversion N; subst. assert (NK : ~ In k (map fst a)). { intros I. apply (F k I). left. auto. }
  rewrite sset_fresh by auto. rewrite IHl; auto.
  - rewrite <- app_assoc. reflexivity.
  - intros; eapply P; right; eauto.
  - intros k' I J. rewrite map_app, in_app_iff in I. cbn in I. destruct I as [I|[<-|[]]]; [|contradiction]. apply (F k' I). right. auto.
Qed.
Lemma data_items : forall l a, NoDup (map fst l) -> (forall k v, In (k, v) l -> k = "attrs" \/ exists x, v = Leaf x) -> valued (sget "attrs" l) ->
  (forall k, In k (map fst a) -> sget "attrs" l = None) -> write_data_items l a = Ok (a ++ attrs_img l).
Proof.
  induction l as [|[k v] l]; intros a N P PA F; cbn [write_data_items]. { unfold attrs_img, attrs_of. cbn. rewrite app_nil_r. auto. }
  cbn in N. inversion N; subst. assert (P' : forall k v, In (k, v) l -> k = "attrs" \/ exists x, v = Leaf x) by (intros; eapply P; right; eauto).
  destruct (String.eqb k "attrs") eqn:Q.
  - apply String.eqb_eq in Q. subst k. unfold attrs_img, attrs_of. cbn in PA |- *. destruct v as [x|x]; [destruct PA|]. destruct PA as [NX PX].
    assert (a = []). { destruct a as [|[k0 x0] a]; auto. specialize (F k0 (or_introl eq_refl)). discriminate. } subst a.
    rewrite set_attrs_img by (auto; intros ? []). cbn [bind app].
    assert (G : sget "attrs" l = None). { apply in_none. auto. }
    rewrite IHl; auto. { unfold attrs_img, attrs_of. rewrite G. cbn. rewrite app_nil_r. auto. } rewrite G. cbn. auto.
  - assert (Q' : String.eqb "attrs" k = false) by (rewrite String.eqb_sym; auto).
    assert (G : sget "attrs" ((k, v) :: l) = sget "attrs" l) by (cbn [dget]; rewrite Q'; auto).
    destruct (P k v (or_introl eq_refl)) as [->|(x & ->)]. { rewrite String.eqb_refl in Q. discriminate. }
    rewrite G in PA. rewrite IHl; auto. { unfold attrs_img, attrs_of. rewrite G. auto. } intros k' I. rewrite <- G. eauto.
Qed.
Lemma write_image : forall v, savable v -> forall l, v = Dict l -> sget "dataset" l = None -> write_group v ([], []) = Ok (attrs_img l, images l).
Proof.
  induction v as [x|l IH] using val_ind2; intros W l0 EV ND; [discriminate|]. injection EV as <-.
  inversion W as [? x N K D PA WT|? N _ PA WM]; subst. { rewrite ND in D. discriminate. }
  rewrite write_group_dict.
  assert (G : forall l1 a c, NoDup (map fst l1) -> (forall kv, In kv l1 -> In kv l) -> valued (sget "attrs" l1) ->
    (forall k, In k (map fst a) -> sget "attrs" l1 = None) -> (forall k, In k (map fst c) -> ~ In k (map fst l1)) ->
    wloop l1 (a, c) = Ok (a ++ attrs_img l1, c ++ images l1)).
  { induction l1 as [|[k v] l1 IHl]; intros a c N1 SUB PA1 FA FC; cbn [wloop].
    { unfold attrs_img, attrs_of. cbn. rewrite !app_nil_r. auto. }
    cbn in N1. inversion N1 as [|? ? NK N1']; subst. assert (SUB' : forall kv, In kv l1 -> In kv l) by (intros; apply SUB; right; auto).
    destruct (String.eqb k "attrs") eqn:Q.
    - unfold wstep. rewrite Q. apply String.eqb_eq in Q. subst k. cbn in PA1. destruct v as [x|x]; [destruct PA1|]. destruct PA1 as [NX PX].
      assert (a = []). { destruct a as [|[k0 x0] a]; auto. specialize (FA k0 (or_introl eq_refl)). discriminate. } subst a.
      cbn [fst snd]. rewrite set_attrs_img by (auto; intros ? []). cbn [bind app].
      assert (GN : sget "attrs" l1 = None) by (apply in_none; auto).
      rewrite IHl; auto.
      + unfold attrs_img, attrs_of, images, members. rewrite GN. cbn. rewrite app_nil_r. auto.
      + rewrite GN. cbn. auto.
      + intros k I J. apply (FC k I). right. auto.
    - assert (Q' : String.eqb "attrs" k = false) by (rewrite String.eqb_sym; auto).
      assert (G : sget "attrs" ((k, v) :: l1) = sget "attrs" l1) by (cbn [dget]; rewrite Q'; auto).
      assert (WV : savable v). { apply (WM k). apply SUB. left. auto. apply String.eqb_neq. auto. }
      assert (NC : ~ In k (map fst c)). { intros I. apply (FC k I). left. auto. }
      assert (IM : images ((k, v) :: l1) = (k, image v) :: images l1). { unfold images, members. cbn [filter fst]. rewrite Q. reflexivity. }
      assert (AI : attrs_img ((k, v) :: l1) = attrs_img l1) by (unfold attrs_img, attrs_of; rewrite G; auto).
      assert (STEP : wstep k v (a, c) = Ok (a, c ++ [(k, image v)])).
      { unfold wstep. rewrite Q. inversion WV as [l2 x N2 K2 D2 PA2 WT2|l2 N2 D2 PA2 WM2]; subst v.
        - rewrite D2, (suits_format _ _ WT2). cbn [bind]. rewrite data_items; auto.
          + cbn [bind app fst snd]. rewrite ddel_fresh by auto. rewrite image_dict, D2. auto.
          + intros k0 v0 I. destruct (K2 k0 v0 I) as [->| ->]; auto. right. apply in_sget in I; auto. rewrite D2 in I. injection I as <-. eauto.
          + intros k0 [].
        - rewrite Forall_forall in IH. rewrite D2. cbn [fst snd]. rewrite (in_none k c NC).
          pose proof (IH (k, Dict l2) (SUB _ (or_introl eq_refl)) WV l2 eq_refl D2) as W2. cbn [snd] in W2. rewrite W2. cbn [bind fst snd]. rewrite image_dict, D2. auto. }
      rewrite STEP. cbn [bind]. rewrite G in PA1. rewrite IHl; auto.
      + rewrite IM, AI, <- app_assoc. auto.
      + intros k' I. rewrite <- G. eauto.
      + intros k' I J. rewrite map_app, in_app_iff in I. cbn in I. destruct I as [I|[<-|[]]]; [|contradiction]. apply (FC k' I). right. auto. }
  rewrite G; auto; intros k [].
Qed.
Lemma images_keys : forall l, map fst (images l) = map fst (members l).
Proof. intros l. unfold images. rewrite map_map. auto. Qed.
Lemma images_get : forall l k, k <> "attrs" -> sget k (images l) = option_map image (sget k l).
Proof.
  intros l k N. rewrite <- (members_get l k N). unfold images. generalize (members l). induction l0 as [|[a v] l0]; auto. cbn. destruct (String.eqb k a); auto.
Qed.
Lemma image_hok : forall v, savable v -> hok (image v).
Proof.
  induction v as [x|l IH] using val_ind2; intros W; [constructor|]. rewrite image_dict. inversion W as [? x N K D PA WT|? N ND PA WM]; subst.
  { rewrite D. constructor. } rewrite ND. destruct (members_nodup l N) as [M1 M2]. constructor; rewrite ?images_keys; auto.
  intros k m I. unfold images in I. apply in_map_iff in I. destruct I as ([k0 v] & E & I). injection E as <- <-. unfold members in I. apply filter_In in I. destruct I as [I Q]. apply negb_true_iff, String.eqb_neq in Q.
  rewrite Forall_forall in IH. apply (IH (k0, v)); auto. eapply WM; eauto.
Qed.
Lemma image_at : forall p v m, savable v -> at_path p (image v) = Some m -> exists w, follow p v = Some w /\ savable w /\ m = image w.
Proof.
  induction p as [|k p]; intros v m W A. { cbn in A. injection A as <-. exists v. auto. }
  inversion W as [l x N K D PA WT|l N ND PA WM]; subst; rewrite image_dict in A. { rewrite D in A. discriminate. }
  rewrite ND in A. cbn [at_path] in A. destruct (String.eqb k "attrs") eqn:Q.
  { apply String.eqb_eq in Q. subst k. rewrite in_none in A; [discriminate|]. rewrite images_keys. apply members_nodup. auto. }
  apply String.eqb_neq in Q. rewrite images_get in A by auto. cbn [follow items]. destruct (sget k l) as [w|] eqn:G; [|discriminate]. cbn [option_map] in A. apply IHp; auto. eapply WM; eauto. eapply sget_in; eauto.
Qed.

(** * Reading without attributes *)
(** An entry without its attributes, its contents changed by [f]. *)
Fixpoint bare (f : leaf -> leaf) (v : val) : val :=
  match v with
  | Leaf x => Leaf (f x)
  | Dict l => Dict ((fix all (l : list (string * val)) : list (string * val) :=
                match l with [] => [] | (k, v) :: l' => if String.eqb k "attrs" then all l' else (k, bare f v) :: all l' end) l)
  end.
Definition bares (f : leaf -> leaf) (l : list (string * val)) : list (string * val) := map (fun kv => (fst kv, bare f (snd kv))) (members l).
Lemma bare_dict : forall f l, bare f (Dict l) = Dict (bares f l).
Proof.
  intros f l. cbn [bare]. f_equal. induction l as [|[k v] l]; auto. unfold bares, members in *. cbn [filter fst]. destruct (String.eqb k "attrs"); cbn [negb]; auto. cbn [map fst snd]. f_equal. auto.
Qed.
Lemma bares_get : forall f l k, k <> "attrs" -> sget k (bares f l) = option_map (bare f) (sget k l).
Proof. intros f l k N. rewrite <- (members_get l k N). unfold bares. generalize (members l). induction l0 as [|[a v] l0]; auto. cbn. destruct (String.eqb k a); auto. Qed.
Lemma bares_cons : forall f k v l, bares f ((k, v) :: l) = if String.eqb k "attrs" then bares f l else (k, bare f v) :: bares f l.
Proof. intros. unfold bares, members. cbn [filter fst]. destruct (String.eqb k "attrs"); reflexivity. Qed.
(** A file object without the attributes of its datasets. *)
Fixpoint erase (n : h5) : h5 :=
  match n with
  | HGroup a c => HGroup a ((fix all (c : list (string * h5)) : list (string * h5) := match c with [] => [] | (k, m) :: c' => (k, erase m) :: all c' end) c)
  | HData _ x => HData [] x
  | HLink p => HLink p
  end.
Definition erases (c : list (string * h5)) : list (string * h5) := map (fun km => (fst km, erase (snd km))) c.
Lemma erase_group : forall a c, erase (HGroup a c) = HGroup a (erases c).
Proof. intros a c. cbn [erase]. f_equal. induction c as [|[k m] c]; auto. cbn. f_equal. auto. Qed.
Lemma erases_get : forall c k, sget k (erases c) = option_map erase (sget k c).
Proof. induction c as [|[a m] c]; intros k; auto. cbn. destruct (String.eqb k a); auto. Qed.
Lemma erases_keys : forall c, map fst (erases c) = map fst c.
Proof. intros c. unfold erases. rewrite map_map. auto. Qed.
Lemma erase_at : forall p n, at_path p (erase n) = option_map erase (at_path p n).
Proof.
  induction p as [|k p]; intros n; auto. destruct n as [a c|a x|q]; auto. rewrite erase_group. cbn [at_path]. rewrite erases_get. destruct (sget k c); cbn [option_map]; auto.
Qed.
Lemma read_data_bare : forall show a x, bare (fun y => y) (read_data show a x) = Dict [("dataset", Leaf (read_leaf show x))].
Proof. intros show [|ax a] x; reflexivity. Qed.
Lemma image_read : forall show res v s, savable v -> erase s = erase (image v) -> exists w, read_node show res s = Some w /\ bare (fun y => y) w = bare (after show) v.
Proof.
  intros show res. induction v as [x|l IH] using val_ind2; intros s W E; [inversion W|]. rewrite image_dict in E. inversion W as [? x N K D PA WT|? N ND PA WM]; subst.
  - rewrite D in E. destruct s as [a c|a y|q]; cbn [erase] in E; try discriminate. injection E as ->. eexists. split; [reflexivity|]. rewrite read_data_bare, bare_dict.
    f_equal. clear - N K D. assert (X : members l = [("dataset", Leaf x)]).
    { assert (KM : forall k v, In (k, v) (members l) -> k = "dataset" /\ v = Leaf x). { intros k v I. unfold members in I. apply filter_In in I. destruct I as [I Q]. cbn in Q. apply negb_true_iff, String.eqb_neq in Q. destruct (K k v I) as [?| ->]; [contradiction|]. split; auto. apply in_sget in I; auto. congruence. }
      assert (G : sget "dataset" (members l) = Some (Leaf x)) by (rewrite members_get; auto; discriminate). destruct (members_nodup l N) as [M _]. revert KM G M. generalize (members l). intros m KM G M.
      destruct m as [|[k1 v1] m]; [discriminate|]. destruct (KM k1 v1 (or_introl eq_refl)) as [-> ->]. destruct m as [|[k2 v2] m]; auto. destruct (KM k2 v2) as [-> ->]; [right; left; auto|]. inversion M as [|? ? NI _]; subst. exfalso. apply NI. left. auto. }
    unfold bares. rewrite X, read_stored. reflexivity.
  - rewrite ND, erase_group in E. destruct s as [a c|a y|q]; [rewrite erase_group in E|discriminate|discriminate]. injection E as -> EC.
    eexists. split; [apply read_group|]. rewrite !bare_dict, bares_cons. cbn [String.eqb Ascii.eqb Bool.eqb]. change (String.eqb "attrs" "attrs") with true. cbv iota. f_equal.
    assert (G : forall l1 c1, (forall kv, In kv l1 -> In kv l) -> erases c1 = erases (images l1) -> bares (fun y => y) (read_all show res c1) = bares (after show) l1).
    { induction l1 as [|[k v] l1]; intros c1 SUB EQ. { destruct c1; [reflexivity|discriminate]. }
      assert (SUB' : forall kv, In kv l1 -> In kv l) by (intros; apply SUB; right; auto). rewrite bares_cons. unfold images, members in EQ. cbn [filter fst] in EQ. destruct (String.eqb k "attrs") eqn:Q; cbn [negb] in EQ; [apply IHl1; auto|].
      cbn [map fst snd] in EQ. destruct c1 as [|[k1 m] c1]; [discriminate|]. cbn in EQ. injection EQ as -> EM EQ. rewrite Forall_forall in IH.
      destruct (IH (k, v) (SUB _ (or_introl eq_refl)) m) as (w & R & B). { cbn. eapply WM. apply SUB. left. auto. apply String.eqb_neq. auto. } { exact EM. }
      cbn [read_all]. rewrite R, bares_cons, Q. cbn [snd] in B. rewrite B. f_equal. apply IHl1; auto. }
    apply G; auto.
Qed.

(** * Links *)
Lemma sget_split : forall {A} k (l : list (string * A)) v, sget k l = Some v -> exists l1 l2, l = l1 ++ (k, v) :: l2 /\ ~ In k (map fst l1).
Proof.
  induction l as [|[a b] l]; intros v G; [discriminate|]. cbn [dget] in G. destruct (String.eqb k a) eqn:Q.
  - injection G as ->. apply String.eqb_eq in Q. subst. exists [], l. auto.
  - destruct (IHl v G) as (l1 & l2 & -> & N). exists ((a, b) :: l1), l2. split; auto. cbn. intros [->|I]; auto. rewrite String.eqb_refl in Q. discriminate.
Qed.
Lemma sset_middle : forall {A} k (v w : A) l1 l2, ~ In k (map fst l1) -> sset k v (l1 ++ (k, w) :: l2) = l1 ++ (k, v) :: l2.
Proof. induction l1 as [|[a b] l1]; intros l2 N; cbn. { rewrite String.eqb_refl. auto. } destruct (String.eqb k a) eqn:Q. { apply String.eqb_eq in Q. subst. exfalso. apply N. left. auto. } f_equal. apply IHl1. intros I. apply N. right. auto. Qed.
Lemma sget_middle : forall {A} k (w : A) l1 l2, ~ In k (map fst l1) -> sget k (l1 ++ (k, w) :: l2) = Some w.
Proof. intros. rewrite sget_app, in_none by auto. cbn. rewrite String.eqb_refl. auto. Qed.
Lemma sset_left : forall {A} k (v : A) l1 l2, In k (map fst l1) -> sset k v (l1 ++ l2) = sset k v l1 ++ l2.
Proof. induction l1 as [|[a b] l1]; intros l2 I; [destruct I|]. cbn. destruct (String.eqb k a) eqn:Q; auto. cbn. f_equal. apply IHl1. cbn in I. destruct I as [->|I]; auto. rewrite String.eqb_refl in Q. discriminate. Qed.
Lemma sset_right : forall {A} k (v : A) l1 l2, ~ In k (map fst l1) -> sset k v (l1 ++ l2) = l1 ++ sset k v l2.
Proof. induction l1 as [|[a b] l1]; intros l2 I; auto. cbn. destruct (String.eqb k a) eqn:Q. { apply String.eqb_eq in Q. subst. exfalso. apply I. left. auto. } f_equal. apply IHl1. intros J. apply I. right. auto. Qed.
Lemma erases_sset : forall k m m' c, sget k c = Some m -> erase m' = erase m -> erases (sset k m' c) = erases c.
Proof.
  induction c as [|[a x] c]; intros G E; [discriminate|]. cbn [dget] in G. cbn. destruct (String.eqb k a) eqn:Q.
  - injection G as ->. apply String.eqb_eq in Q. subst. cbn. rewrite E. auto.
  - cbn. f_equal. auto.
Qed.
Lemma erase_target : forall t p n a x, at_path p n = Some (HData a x) -> erase (edit p (set_target t) n) = erase n.
Proof.
  induction p as [|k p]; intros n a x A. { cbn in A. injection A as ->. reflexivity. }
  destruct n as [b c| |]; try discriminate. cbn in A. destruct (sget k c) as [m|] eqn:G; [|discriminate]. cbn [edit]. rewrite G, !erase_group. f_equal. apply (erases_sset k m); auto. eauto.
Qed.
Lemma erase_data : forall n x, erase n = HData [] x -> exists a, n = HData a x.
Proof. intros [a c|a y|q] x E; try discriminate. injection E as ->. eauto. Qed.

Section Links.
  Context (name : list string) (a0 : dict string leaf) (c1 c2 : list (string * h5)) (da : dict string leaf) (dc0 : list (string * h5)).
  Let s0 : h5 := HGroup a0 (c1 ++ ("data", HGroup da dc0) :: c2).
  Hypothesis HK : hok s0.
  Hypothesis FLAT : forall k m, In (k, m) dc0 -> exists a x, m = HData a x.
  Definition targets (D : list (string * list string)) : Prop := forall d p, sget d D = Some p -> d <> "attrs" /\ p <> [] /\ hd "" p <> "data" /\ exists a x, at_path p s0 = Some (HData a x).
  Definition state (D : list (string * list string)) (s : h5) : Prop := exists c1' c2' dc,
    s = HGroup a0 (c1' ++ ("data", HGroup da dc) :: c2') /\ erases c1' = erases c1 /\ erases c2' = erases c2 /\ NoDup (map fst dc) /\
    forall k, sget k dc = match sget k D with Some p => Some (HLink (name ++ p)) | None => sget k dc0 end.
  Lemma s0_parts : ~ In "data" (map fst c1) /\ ~ In "data" (map fst c2) /\ NoDup (map fst dc0) /\ ~ In "attrs" (map fst dc0).
  Proof using HK.
    inversion HK as [? ? N NA K| |]; subst. rewrite map_app in N. cbn in N. apply NoDup_remove_2 in N. rewrite in_app_iff in N.
    assert (HD : hok (HGroup da dc0)). { eapply K. apply in_or_app. right. left. reflexivity. } inversion HD; subst. tauto.
  Qed.
  Lemma same_keys : forall c c', erases c' = erases c -> map fst c' = map fst c.
  Proof using. intros c c' E. rewrite <- (erases_keys c'), E, erases_keys. auto. Qed.
  Lemma state0 : state [] s0.
  Proof using HK. exists c1, c2, dc0. destruct s0_parts as (_ & _ & N & _). repeat split; auto. Qed.
  Lemma state_at : forall D s k r, state D s -> k <> "data" -> option_map erase (at_path (k :: r) s) = option_map erase (at_path (k :: r) s0).
  Proof using.
    intros D s k r (c1' & c2' & dc & -> & E1 & E2 & _) N. unfold s0. cbn [at_path]. rewrite !sget_app. cbn [dget]. apply String.eqb_neq in N. rewrite N.
    pose proof (erases_get c1 k) as G1. pose proof (erases_get c1' k) as G1'. rewrite E1, G1 in G1'. pose proof (erases_get c2 k) as G2. pose proof (erases_get c2' k) as G2'. rewrite E2, G2 in G2'.
    assert (X : forall m m', Some (erase m) = Some (erase m') -> option_map erase (at_path r m') = option_map erase (at_path r m)). { intros m m' E. injection E as E. rewrite <- !erase_at, E. auto. }
    destruct (sget k c1) as [m|], (sget k c1') as [m'|]; try discriminate; [apply X; auto|]. destruct (sget k c2) as [m|], (sget k c2') as [m'|]; try discriminate; [apply X; auto|auto].
  Qed.
  Lemma state_target : forall D s p a x, state D s -> p <> [] -> hd "" p <> "data" -> at_path p s0 = Some (HData a x) -> exists a', at_path p s = Some (HData a' x).
  Proof using.
    intros D s p a x ST PN HP A. destruct p as [|k r]; [contradiction|]. pose proof (state_at D s k r ST HP) as E. rewrite A in E. cbn [option_map erase] in E.
    destruct (at_path (k :: r) s) as [m|]; [|discriminate]. cbn [option_map] in E. injection E as E. destruct (erase_data _ _ E) as (a' & ->). eauto.
  Qed.
  Lemma link_state : forall D s d p a x, state D s -> targets D -> d <> "attrs" -> p <> [] -> hd "" p <> "data" -> at_path p s0 = Some (HData a x) ->
    exists s', put_link name d (Some p) s = Ok s' /\ state ((d, p) :: D) s' /\ targets ((d, p) :: D).
  Proof using HK FLAT.
    intros D s d p a x ST TG DA PN HP A. destruct (state_target D s p a x ST PN HP A) as (a' & AP). pose proof s0_parts as (N1 & N2 & ND0 & NA0).
    assert (ST' := ST). destruct ST' as (c1' & c2' & dc & ES & E1 & E2 & ND & G).
    assert (N1' : ~ In "data" (map fst c1')) by (rewrite (same_keys _ _ E1); auto). assert (N2' : ~ In "data" (map fst c2')) by (rewrite (same_keys _ _ E2); auto).
    assert (AD : at_path ["data"] s = Some (HGroup da dc)). { rewrite ES. cbn [at_path]. rewrite sget_middle by auto. auto. }
    assert (ISD : forall m, sget d dc = Some m -> is_data name s m = true).
    { intros m GM. rewrite G in GM. destruct (sget d D) as [q|] eqn:GD.
      - injection GM as <-. unfold is_data. rewrite strip_app. destruct (TG d q GD) as (_ & Q1 & Q2 & b & y & Q3). destruct (state_target D s q b y ST Q1 Q2 Q3) as (b' & ->). auto.
      - apply sget_in in GM. destruct (FLAT _ _ GM) as (b & y & ->). auto. }
    unfold put_link. rewrite AP, AD.
    set (dc' := match sget d dc with Some m => if is_data name s m then ddel String.eqb d dc else dc | None => dc end).
    assert (GD : forall k, sget k dc' = if String.eqb k d then None else sget k dc).
    { intros k. unfold dc'. destruct (sget d dc) as [m|] eqn:GM. - rewrite (ISD m eq_refl). apply ddel_get. auto. - destruct (String.eqb k d) eqn:Q; auto. apply String.eqb_eq in Q. subst. auto. }
    assert (NDC : NoDup (map fst dc')). { unfold dc'. destruct (sget d dc) as [m|]; auto. destruct (is_data name s m); auto. apply ddel_nodup. auto. }
    rewrite dmem_get, GD, String.eqb_refl. eexists. split; [reflexivity|].
    set (dc2 := dc' ++ [(d, HLink (name ++ p))]).
    assert (ED : edit ["data"] (fun _ => HGroup da dc2) s = HGroup a0 (c1' ++ ("data", HGroup da dc2) :: c2')).
    { rewrite ES. cbn [edit]. rewrite sget_middle by auto. rewrite sset_middle by auto. auto. }
    rewrite ED. split.
    - destruct p as [|k r]; [contradiction|]. cbn [hd] in HP. rewrite ES in AP. cbn [at_path] in AP. rewrite sget_app in AP. cbn [dget] in AP. assert (Q := HP). apply String.eqb_neq in Q. rewrite Q in AP.
      cbn [edit]. rewrite sget_app. cbn [dget]. rewrite Q. unfold state.
      assert (GOOD : NoDup (map fst dc2) /\ forall k0, sget k0 dc2 = match sget k0 ((d, k :: r) :: D) with Some p => Some (HLink (name ++ p)) | None => sget k0 dc0 end).
      { split.
        - unfold dc2. rewrite map_app. cbn. rewrite <- (rev_involutive (map fst dc' ++ [d])). apply NoDup_rev. rewrite rev_app_distr. cbn. constructor; [|apply NoDup_rev; auto].
          intros I. apply in_rev in I. apply (sget_none_in d dc') in I; auto. rewrite GD, String.eqb_refl. auto.
        - intros k0. unfold dc2. rewrite sget_app, GD. cbn [dget]. destruct (String.eqb k0 d) eqn:Q0; auto. rewrite G. destruct (sget k0 D); auto. destruct (sget k0 dc0); auto. }
      destruct (sget k c1') as [m|] eqn:GC.
      + exists (sset k (edit r (set_target (slashed (name ++ k :: r))) m) c1'), c2', dc2. split; [|split; [|split; [auto|exact GOOD]]].
        * rewrite sset_left; auto. apply sget_in in GC. apply (in_map fst) in GC. auto.
        * rewrite <- E1. apply (erases_sset k m); auto. eapply erase_target; eauto.
      + destruct (sget k c2') as [m|] eqn:GC2; [|discriminate]. exists c1', (sset k (edit r (set_target (slashed (name ++ k :: r))) m) c2'), dc2. split; [|split; [auto|split; [|exact GOOD]]].
        * rewrite sset_right by (apply sget_none_in; auto). cbn [dset]. rewrite Q. auto.
        * rewrite <- E2. apply (erases_sset k m); auto. eapply erase_target; eauto.
    - intros d' p' G'. cbn [dget] in G'. destruct (String.eqb d' d) eqn:Q; [|apply TG; auto]. injection G' as <-. apply String.eqb_eq in Q. subst. repeat split; auto. eauto.
  Qed.
End Links.

(** * Reading an entry with its links *)
Lemma images_read : forall show res l c, (forall k v, In (k, v) l -> k <> "attrs" -> savable v) -> erases c = erases (images l) -> bares (fun y => y) (read_all show res c) = bares (after show) l.
Proof.
  intros show res. induction l as [|[k v] l]; intros c W EQ. { destruct c; [reflexivity|discriminate]. }
  assert (W' : forall k v, In (k, v) l -> k <> "attrs" -> savable v) by (intros; eapply W; eauto; right; eauto).
  rewrite bares_cons. unfold images, members in EQ. cbn [filter fst] in EQ. destruct (String.eqb k "attrs") eqn:Q; cbn [negb] in EQ; [apply IHl; auto|].
  cbn [map fst snd] in EQ. destruct c as [|[k1 m] c]; [discriminate|]. cbn in EQ. injection EQ as -> EM EQ.
  destruct (image_read show res v m) as (w & R & B). { eapply W. left. auto. apply String.eqb_neq. auto. } { exact EM. }
  cbn [read_all]. rewrite R, bares_cons, Q, B. f_equal. apply IHl; auto.
Qed.
Lemma read_all_app : forall show res c1 c2, read_all show res (c1 ++ c2) = read_all show res c1 ++ read_all show res c2.
Proof. induction c1 as [|[k n] c1]; intros c2; auto. cbn [app read_all]. destruct (read_node show res n); rewrite IHc1; auto. Qed.
Lemma read_all_in : forall show res c k, In k (map fst (read_all show res c)) -> In k (map fst c).
Proof. induction c as [|[a n] c]; intros k I; cbn in *; auto. destruct (read_node show res n); cbn in *; [destruct I; auto|auto]. Qed.
Lemma read_all_nodup : forall show res c, NoDup (map fst c) -> NoDup (map fst (read_all show res c)).
Proof.
  induction c as [|[a n] c]; intros N; cbn in *; auto. inversion N; subst. destruct (read_node show res n); cbn; auto. constructor; auto. intros I. apply H1. eapply read_all_in; eauto.
Qed.
Lemma read_all_find : forall show res c k, NoDup (map fst c) -> sget k (read_all show res c) = match sget k c with Some n => read_node show res n | None => None end.
Proof.
  induction c as [|[a n] c]; intros k N; cbn; auto. cbn in N. inversion N; subst. destruct (String.eqb k a) eqn:Q.
  - apply String.eqb_eq in Q. subst k. destruct (read_node show res n) as [v|]; cbn; [rewrite String.eqb_refl; auto|]. apply in_none. intros I. apply H1. eapply read_all_in; eauto.
  - destruct (read_node show res n) as [v|]; cbn; [rewrite Q|]; auto.
Qed.
Lemma bares_app : forall f l1 l2, bares f (l1 ++ l2) = bares f l1 ++ bares f l2.
Proof. intros. unfold bares, members. rewrite filter_app, map_app. auto. Qed.
Lemma images_app : forall l1 l2, images (l1 ++ l2) = images l1 ++ images l2.
Proof. intros. unfold images, members. rewrite filter_app, map_app. auto. Qed.
Lemma find_not_logs : forall v n p, find_path v n = Some p -> hd "" p <> "SPICElogs".
Proof.
  intros v n p F. destruct n as [a c| |]; try discriminate. rewrite find_group in F. induction c as [|[k m] c]; [discriminate|]. unfold find_loop in F; fold (find_loop v) in F.
  destruct (String.eqb k "SPICElogs" || String.eqb k "data") eqn:Q; auto. apply orb_false_iff in Q. destruct Q as [Q _]. apply String.eqb_neq in Q.
  destruct (String.eqb v k). { injection F as <-. auto. } destruct m as [a' c'| |]; auto. destruct (find_path v (HGroup a' c')); auto. injection F as <-. auto.
Qed.

(** * No attribute called "dataset" *)
Inductive clean : h5 -> Prop :=
| Clean_group : forall a c, sget "dataset" a = None -> (forall k m, In (k, m) c -> clean m) -> clean (HGroup a c)
| Clean_data : forall a x, sget "dataset" a = None -> clean (HData a x)
| Clean_link : forall p, clean (HLink p).
Lemma attrs_img_none : forall l k, (forall a, sget "attrs" l = Some a -> exists d, a = Dict d /\ sget k d = None) -> sget k (attrs_img l) = None.
Proof.
  intros l k H. unfold attrs_img, attrs_of. destruct (sget "attrs" l) as [v|]; auto. destruct (H v eq_refl) as (d & -> & G). cbn [items]. clear H.
  induction d as [|[a w] d]; auto. cbn [flat_map fst snd]. cbn [dget] in G. destruct (String.eqb k a) eqn:Q; [discriminate|]. destruct w; cbn [app dget]; rewrite ?Q; auto.
Qed.
Lemma image_clean : forall v, tidy v -> clean (image v).
Proof.
  induction v as [x|l IH] using val_ind2; intros T; [constructor; auto|]. inversion T as [|? TA TM]; subst. rewrite image_dict. assert (N : sget "dataset" (attrs_img l) = None) by (apply attrs_img_none; intros; apply TA; apply sget_in; auto).
  assert (C : clean (HGroup (attrs_img l) (images l))).
  { constructor; auto. intros k m I. unfold images in I. apply in_map_iff in I. destruct I as ([k0 v] & E & I). injection E as <- <-. unfold members in I. apply filter_In in I. destruct I as [I Q]. apply negb_true_iff, String.eqb_neq in Q.
    rewrite Forall_forall in IH. apply (IH (k0, v)); auto. eapply TM; eauto. }
  destruct (sget "dataset" l) as [[x|d]|]; auto. constructor. auto.
Qed.
Lemma clean_at : forall p n m, clean n -> at_path p n = Some m -> clean m.
Proof.
  induction p as [|k p]; intros n m C A; cbn in A. { injection A as <-. auto. } destruct n as [a c| |]; try discriminate. destruct (sget k c) as [x|] eqn:G; [|discriminate]. inversion C as [? ? _ CM| |]; subst. apply (IHp x m); auto. eapply CM. eapply sget_in; eauto.
Qed.
Lemma sset_in : forall {A} k (v : A) l k' v', In (k', v') (sset k v l) -> v' = v \/ In (k', v') l.
Proof.
  intros A k v. induction l as [|[a b] l]; intros k' v' I; cbn in *. { destruct I as [I|[]]. injection I as _ <-. auto. }
  destruct (String.eqb k a); cbn in I; destruct I as [I|I]; auto. { injection I as _ <-. auto. } destruct (IHl _ _ I); auto.
Qed.
Lemma clean_edit : forall f p n, (forall m, clean m -> clean (f m)) -> clean n -> clean (edit p f n).
Proof.
  intros f. induction p as [|k p]; intros n F C; cbn; auto. destruct n as [a c| |]; auto. destruct (sget k c) as [x|] eqn:G; auto. inversion C as [? ? CA CM| |]; subst. constructor; auto.
  intros k' m I. destruct (sset_in _ _ _ _ _ I) as [->|J]; eauto. apply IHp; auto. eapply CM. eapply sget_in; eauto.
Qed.
Lemma clean_link : forall name d o s s', clean s -> put_link name d o s = Ok s' -> clean s'.
Proof.
  intros name d o s s' C P. unfold put_link in P. destruct o as [p|]; [|apply Ok_inj in P; subst; auto]. destruct (at_path p s); [|apply Ok_inj in P; subst; auto].
  destruct (at_path ["data"] s) as [[da dc| |]|] eqn:A; try discriminate. pose proof (clean_at _ _ _ C A) as CD. inversion CD as [? ? CA CM| |]; subst.
  set (dc' := match sget d dc with Some m => if is_data name s m then ddel String.eqb d dc else dc | None => dc end) in P. assert (SUB : forall k m, In (k, m) dc' -> In (k, m) dc).
  { intros k m I. unfold dc' in I. destruct (sget d dc) as [x|]; auto. destruct (is_data name s x); auto. clear - I. induction dc as [|[a b] dc]; auto. cbn in *. destruct (String.eqb d a); cbn in I; [auto|]. destruct I; auto. }
  clearbody dc'. destruct (dmem String.eqb d dc'); [discriminate|]. apply Ok_inj in P. subst s'. apply clean_edit.
  - intros m CMM. inversion CMM; subst; constructor; auto; rewrite sget_sset; auto.
  - apply clean_edit; auto. intros m _. constructor; auto. intros k m' I. apply in_app_or in I. destruct I as [I|[I|[]]]; [eauto|]. injection I as _ <-. constructor.
Qed.
Lemma attr_items_get : forall a k, sget k (attr_items a) = option_map Leaf (sget k a).
Proof. induction a as [|[b x] a]; intros k; auto. cbn. destruct (String.eqb k b); auto. Qed.
Lemma read_data_tidy : forall show a x, sget "dataset" a = None -> tidy (read_data show a x).
Proof.
  intros show a x N. assert (T : forall k v, In (k, v) [("dataset", Leaf (read_leaf show x))] -> k <> "attrs" -> tidy v). { intros k v [E|[]] _. injection E as <- <-. constructor. }
  destruct a as [|b a]; constructor; auto; intros.
  - destruct H as [E|[]]. discriminate.
  - destruct H as [E|[E|[]]]; [injection E as <-|discriminate]. exists (attr_items (b :: a)). split; auto. rewrite attr_items_get, N. auto.
  - destruct H as [E|I]; [injection E as <- <-; contradiction|eauto].
Qed.
Lemma read_tidy : forall show res v s w, savable v -> erase s = erase (image v) -> clean s -> read_node show res s = Some w -> tidy w.
Proof.
  intros show res. induction v as [x|l IH] using val_ind2; intros s w W E C R; [inversion W|]. rewrite image_dict in E. inversion W as [? x N K D PA WT|? N ND PA WM]; subst.
  - rewrite D in E. destruct s as [a c|a y|q]; cbn [erase] in E; try discriminate. cbn in R. injection R as <-. apply read_data_tidy. inversion C; auto.
  - rewrite ND, erase_group in E. destruct s as [a c|a y|q]; [rewrite erase_group in E|discriminate|discriminate]. injection E as -> EC. rewrite read_group in R. injection R as <-. inversion C as [? ? CA CM| |]; subst.
    assert (G : forall l1 c1, (forall kv, In kv l1 -> In kv l) -> (forall k m, In (k, m) c1 -> clean m) -> erases c1 = erases (images l1) -> forall k u, In (k, u) (read_all show res c1) -> tidy u).
    { induction l1 as [|[k v] l1]; intros c1 SUB CC EQ k' u I. { destruct c1; [destruct I|discriminate]. }
      assert (SUB' : forall kv, In kv l1 -> In kv l) by (intros; apply SUB; right; auto). unfold images, members in EQ. cbn [filter fst] in EQ. destruct (String.eqb k "attrs") eqn:Q; cbn [negb] in EQ; [eapply IHl1; eauto|].
      cbn [map fst snd] in EQ. destruct c1 as [|[k1 m] c1]; [discriminate|]. cbn in EQ. injection EQ as -> EM EQ. rewrite Forall_forall in IH. cbn [read_all] in I.
      assert (CC' : forall k m, In (k, m) c1 -> clean m) by (intros; eapply CC; right; eauto).
      destruct (read_node show res m) as [w|] eqn:R; [|eapply IHl1; eauto]. destruct I as [I|I]; [|eapply IHl1; eauto]. injection I as <- <-.
      eapply (IH (k, v) (SUB _ (or_introl eq_refl)) m); eauto. { cbn. eapply WM. apply SUB. left. auto. apply String.eqb_neq. auto. } eapply CC; left; eauto. }
    constructor.
    + intros a [H|H]. { injection H as <-. eexists. split; eauto. rewrite attr_items_get, CA. auto. }
      exfalso. apply (in_map fst) in H. cbn [fst] in H. apply read_all_in in H. rewrite <- erases_keys, EC, erases_keys, images_keys in H. revert H. apply (members_nodup l N).
    + intros k u [I|I] NK; [injection I as <- <-; contradiction|]. eapply G; eauto.
Qed.
Lemma reads_tidy : forall show res l c, (forall k v, In (k, v) l -> k <> "attrs" -> savable v) -> erases c = erases (images l) -> (forall k m, In (k, m) c -> clean m) ->
  forall k u, In (k, u) (read_all show res c) -> tidy u.
Proof.
  intros show res. induction l as [|[k v] l]; intros c W EQ CC k' u I. { destruct c; [destruct I|discriminate]. }
  assert (W' : forall k v, In (k, v) l -> k <> "attrs" -> savable v) by (intros; eapply W; eauto; right; eauto).
  unfold images, members in EQ. cbn [filter fst] in EQ. destruct (String.eqb k "attrs") eqn:Q; cbn [negb] in EQ; [eapply IHl; eauto|].
  cbn [map fst snd] in EQ. destruct c as [|[k1 m] c]; [discriminate|]. cbn in EQ. injection EQ as -> EM EQ. cbn [read_all] in I.
  assert (CC' : forall k m, In (k, m) c -> clean m) by (intros; eapply CC; right; eauto).
  destruct (read_node show res m) as [w|] eqn:R; [|eapply IHl; eauto]. destruct I as [I|I]; [|eapply IHl; eauto]. injection I as <- <-.
  eapply read_tidy; eauto. { eapply W. left. auto. apply String.eqb_neq. auto. } eapply CC; left; eauto.
Qed.

Definition ident (x : leaf) : leaf := x.
(** [v] is what [e] has become: the same but for the attributes and the links under "data". *)
Record restored (show : list string -> string) (e v : list (string * val)) : Prop := Restored {
  rs_nodup : NoDup (map fst v);
  rs_attrs : sget "attrs" v = Some (Dict (attr_items (attrs_img e)));
  rs_tidy : tidy (Dict e) -> forall k w, In (k, w) v -> k <> "attrs" -> k <> "data" -> tidy w;
  rs_same : sget "data" e = None -> bares ident v = bares (after show) e;
  rs_data : forall dl, sget "data" e = Some (Dict dl) -> exists l1 l2 dv,
    bares (after show) e = l1 ++ ("data", bare (after show) (Dict dl)) :: l2 /\ bares ident v = l1 ++ ("data", bare ident (Dict dv)) :: l2 /\
    ~ In "data" (map fst l1) /\ ~ In "data" (map fst l2) /\ sget "data" v = Some (Dict dv) /\ sget "attrs" dv = Some (Dict (attr_items (attrs_img dl))) /\ NoDup (map fst dv) /\
    forall k, k <> "attrs" -> option_map (bare ident) (sget k dv) = option_map (bare (after show)) (sget k dl) \/
      exists p0 x, plots e k /\ p0 ++ [k] <> [] /\ hd "" (p0 ++ [k]) <> "SPICElogs" /\ ~ In "attrs" (p0 ++ [k]) /\ leaf_at (p0 ++ k :: inside k ++ ["dataset"]) (Dict e) = Some x /\
        option_map (bare ident) (sget k dv) = Some (Dict [("dataset", Leaf (after show x))]) }.

Lemma attrs_img_get : forall l k x, valued (sget "attrs" l) -> leaf_at ["attrs"; k] (Dict l) = Some x -> sget k (attrs_img l) = Some (stored x).
Proof.
  intros l k x VA L. rewrite leaf_cons in L. unfold attrs_img, attrs_of. destruct (sget "attrs" l) as [[y|a]|]; [destruct VA| |discriminate]. cbn [items]. rewrite leaf_cons in L. destruct VA as [_ VA].
  induction a as [|[b w] a]; [discriminate|]. destruct (VA b w (or_introl eq_refl)) as (z & ->). cbn [flat_map snd fst app dget]. cbn [dget] in L. destruct (String.eqb k b). { unfold leaf_at in L. cbn in L. injection L as ->. auto. }
  apply IHa; auto. intros; eapply VA; right; eauto.
Qed.

Section Entry.
  Context (e : list (string * val)) (name : list string) (SV : savable (Dict e)) (ND : sget "dataset" e = None) (PR : plot_ready e).
  Lemma e_parts : NoDup (map fst e) /\ valued (sget "attrs" e) /\ forall k v, In (k, v) e -> k <> "attrs" -> savable v.
  Proof using SV ND. clear PR. inversion SV as [? x N K D PA WT|? N _ PA WM]; subst; auto. rewrite ND in D. discriminate. Qed.
  Definition entry_saved (s : h5) : Prop := (exists a c, s = HGroup a c) /\
    forall show root, at_path name root = Some s -> exists v, read_node show (resolve_in root) s = Some (Dict v) /\ restored show e v.

  Lemma save_entry : exists s, write_entry name e (HGroup [] []) = Ok s /\ entry_saved s.
  Proof using SV ND PR.
    destruct e_parts as (NE & VA & SM). unfold write_entry. cbn iota beta. match goal with |- context [write_group ?a ?b] => assert (WI : write_group a b = Ok (attrs_img e, images e)) by exact (write_image _ SV e eq_refl ND) end. rewrite WI. cbn [bind fst snd].
    pose proof (image_hok _ SV) as HK. rewrite image_dict, ND in HK. pose proof (members_nodup e NE) as [NM NAM].
    assert (NI : NoDup (map fst (images e)) /\ ~ In "attrs" (map fst (images e))) by (rewrite images_keys; auto). destruct NI as [NI NAI].
    unfold make_links. cbn [at_path]. rewrite images_get by discriminate. destruct (sget "data" e) as [dv|] eqn:GD; cbn [option_map].
    2:{ eexists. split; [reflexivity|]. split; [eauto|]. intros show root _. eexists. split; [apply read_group|]. constructor.
        - cbn [map fst]. constructor; [|apply read_all_nodup; auto]. intros I. apply read_all_in in I. contradiction.
        - reflexivity.
        - intros T k w [I|I] NK _; [injection I as <- <-; contradiction|]. pose proof (image_clean _ T) as CL. rewrite image_dict, ND in CL. inversion CL as [? ? _ CM| |]; subst. eapply reads_tidy; eauto.
        - intros _. rewrite bares_cons. change (String.eqb "attrs" "attrs") with true. cbv iota. apply images_read; auto.
        - intros dl G. congruence. }
    assert (SD : savable dv). { eapply SM; [eapply sget_in; eauto|discriminate]. } assert (DD : exists dl, dv = Dict dl) by (inversion SD; eauto). destruct DD as (dl & ->).
    destruct (PR dl GD) as (NDD & FD & (y & SY) & (x & SX) & TG). inversion SD as [? z N K D PA WT|? NDL _ VD SMD]; subst. { rewrite NDD in D. discriminate. }
    assert (ID : image (Dict dl) = HGroup (attrs_img dl) (images dl)) by (rewrite image_dict, NDD; auto). rewrite ID. cbn [attrs_h5].
    assert (AT : forall k z, leaf_at ["data"; "attrs"; k] (Dict e) = Some (LStr z) -> sget k (attrs_img dl) = Some (LStr z)).
    { intros k z L. rewrite leaf_cons, GD in L. rewrite (attrs_img_get dl k (LStr z)); auto. }
    rewrite (AT _ _ SY), (AT _ _ SX). cbv zeta.
    destruct (sget_split _ _ _ GD) as (e1 & e2 & EE & NE1).
    assert (EI : images e = images e1 ++ ("data", HGroup (attrs_img dl) (images dl)) :: images e2).
    { rewrite EE, images_app. unfold images at 2, members. cbn [filter fst map snd]. change (negb (String.eqb "data" "attrs")) with true. cbv iota. cbn [map fst snd]. rewrite ID. reflexivity. }
    set (s0 := HGroup (attrs_img e) (images e)) in *. pose proof HK as HK0. unfold s0 in HK0. rewrite EI in HK0.
    assert (IS0 : s0 = image (Dict e)) by (rewrite image_dict, ND; auto).
    assert (FLAT : forall k m, In (k, m) (images dl) -> exists a x, m = HData a x).
    { intros k m I. unfold images in I. apply in_map_iff in I. destruct I as ([k0 v] & E & I). injection E as <- <-. unfold members in I. apply filter_In in I. destruct I as [I Q]. apply negb_true_iff, String.eqb_neq in Q.
      destruct (FD _ _ I Q) as (m & EV & DM). cbn [fst snd] in *. subst v. pose proof (SMD _ _ I Q) as SVM. rewrite image_dict. unfold is_dataset in DM. inversion SVM as [? w ? ? DW ? ?|? ? DW ? ?]; subst; rewrite DW in *; [eauto|exfalso; auto]. }
    set (st := state name (attrs_img e) (images e1) (images e2) (attrs_img dl) (images dl)). set (tg := targets (attrs_img e) (images e1) (images e2) (attrs_img dl) (images dl)).
    assert (FIND : forall d p m, plots e d -> find_path d s0 = Some p -> at_path p s0 = Some m ->
      d <> "attrs" /\ p <> [] /\ hd "" p <> "data" /\ exists p0 a z, p = p0 ++ d :: inside d /\ m = HData a (stored z) /\ hd "" (p0 ++ [d]) <> "SPICElogs" /\ ~ In "attrs" (p0 ++ [d]) /\ leaf_at (p ++ ["dataset"]) (Dict e) = Some z).
    { intros d p m PD F A. destruct (find_sound _ _ _ F HK) as (p0 & -> & _ & NA & NDT). assert (DA : d <> "attrs"). { intros ->. apply NA. apply in_or_app. right. left. auto. }
      split; auto. split. { destruct p0; discriminate. } split. { destruct p0; cbn; intros ->; apply NDT; left; auto. }
      rewrite IS0 in A. destruct (image_at _ _ _ SV A) as (w & FW & SW & ->). assert (DW : exists l, w = Dict l) by (inversion SW; eauto). destruct DW as (l & ->).
      pose proof (TG d p0 l PD FW) as IDL. unfold is_dataset in IDL. rewrite image_dict. inversion SW as [? z ? ? DZ ? ?|? ? DZ ? ?]; subst; rewrite DZ in *; [|exfalso; auto].
      exists p0, (attrs_img l), z. split; auto. split; auto. split. { pose proof (find_not_logs _ _ _ F) as NL. destruct p0; cbn in *; auto. } split; auto.
      assert (FA : forall p q v w, follow p v = Some w -> follow (p ++ q) v = follow q w). { clear. induction p as [|k p]; intros q v w F; cbn in *. { injection F as ->. auto. } destruct (sget k (items v)); [auto|discriminate]. }
      unfold leaf_at. rewrite (FA _ _ _ _ FW). cbn. rewrite DZ. auto. }
    assert (STEP : forall D s d, plots e d -> (tidy (Dict e) -> clean s) -> st D s -> tg D -> (forall k p, sget k D = Some p -> plots e k /\ find_path k s0 = Some p) ->
      exists s' D', link1 name (LStr d) (path_for (LStr d) s0) s = Ok s' /\ (tidy (Dict e) -> clean s') /\ st D' s' /\ tg D' /\ (forall k p, sget k D' = Some p -> plots e k /\ find_path k s0 = Some p)).
    { intros D s d PD CL ST T TR. unfold link1, path_for. cbn [text]. destruct (find_path d s0) as [p|] eqn:F; [|exists s, D; split; [reflexivity|auto]].
      destruct (at_path p s0) as [m|] eqn:A.
      - destruct (FIND d p m PD F A) as (DA & PN & HP & p0 & a & z & EP & EM & _). rewrite EM in A.
        unfold s0 in A. rewrite EI in A. destruct (link_state name _ _ _ _ _ HK0 FLAT D s d p a (stored z) ST T DA PN HP A) as (s' & PL & ST' & T').
        exists s', ((d, p) :: D). split; auto. split. { intros TD. eapply clean_link; eauto. } split; auto. split; auto. intros k q G. cbn [dget] in G. destruct (String.eqb k d) eqn:Q; auto. apply String.eqb_eq in Q. subst k. injection G as <-. auto.
      - exists s, D. assert (AS : at_path p s = None).
        { destruct (find_sound _ _ _ F HK) as (p0 & EP & _ & NA & NDT). destruct p as [|k r]; [destruct p0; discriminate|]. assert (NK : k <> "data"). { intros ->. apply NDT. destruct p0; cbn in EP; injection EP as <-; left; auto. }
          pose proof (state_at name _ _ _ _ _ D s k r ST NK) as E. cbv zeta in E. rewrite <- EI in E. change (HGroup (attrs_img e) (images e)) with s0 in E. rewrite A in E. destruct (at_path (k :: r) s); [discriminate|auto]. }
        unfold put_link. rewrite AS. auto. }
    assert (ST0 : st [] s0). { unfold st, s0. rewrite EI. apply state0. auto. }
    destruct (STEP [] s0 y) as (s1 & D1 & L1 & C1 & S1 & T1 & R1); auto. { left. auto. } { intros TD. rewrite IS0. apply image_clean. auto. } { intros d p G. discriminate. } { intros k p G. discriminate. }
    rewrite L1. cbn [bind]. destruct (STEP D1 s1 x) as (s2 & D2 & L2 & C2 & S2 & T2 & R2); auto. { right. auto. }
    exists s2. split; auto. clear STEP L1 L2. assert (S2' := S2). destruct S2' as (c1' & c2' & dc & ES & E1 & E2 & NDC & G).
    split; [eauto|]. intros show root AR. rewrite ES, read_group. eexists. split; [reflexivity|].
    rewrite read_all_app. cbn [read_all]. rewrite read_group.
    assert (K1 : map fst c1' = map fst (images e1)) by (rewrite <- erases_keys, E1, erases_keys; auto). assert (K2 : map fst c2' = map fst (images e2)) by (rewrite <- erases_keys, E2, erases_keys; auto).
    assert (KS : NoDup (map fst (c1' ++ ("data", HGroup (attrs_img dl) dc) :: c2')) /\ ~ In "attrs" (map fst (c1' ++ ("data", HGroup (attrs_img dl) dc) :: c2'))).
    { rewrite map_app. cbn [map fst]. rewrite K1, K2. rewrite EI, map_app in NI, NAI. auto. }
    destruct KS as [KS1 KS2]. set (dcv := ("attrs", Dict (attr_items (attrs_img dl))) :: read_all show (resolve_in root) dc).
    set (v := _ :: (read_all show (resolve_in root) c1' ++ _)).
    assert (EV : v = ("attrs", Dict (attr_items (attrs_img e))) :: read_all show (resolve_in root) (c1' ++ ("data", HGroup (attrs_img dl) dc) :: c2')). { rewrite read_all_app. reflexivity. }
    assert (N1' : ~ In "data" (map fst (images e1)) /\ ~ In "data" (map fst (images e2))).
    { rewrite EI, map_app in NI. cbn in NI. apply NoDup_remove_2 in NI. rewrite in_app_iff in NI. tauto. } destruct N1' as [N1' N2'].
    assert (BK : forall f l, map fst (bares f l) = map fst (images l)) by (intros; unfold bares, images; rewrite !map_map; auto).
    assert (SUB : forall k0 v0, In (k0, v0) e1 \/ In (k0, v0) e2 -> k0 <> "attrs" -> savable v0). { intros k0 v0 I. apply SM. rewrite EE. apply in_or_app. destruct I; auto. right. right. auto. }
    constructor.
    - rewrite EV. cbn [map fst]. constructor; [|apply read_all_nodup; auto]. intros I. apply read_all_in in I. contradiction.
    - reflexivity.
    - intros TD k w I NK NKD. rewrite EV in I. destruct I as [I|I]; [injection I as <- <-; contradiction|]. specialize (C2 TD). rewrite ES in C2. inversion C2 as [? ? _ CM| |]; subst.
      rewrite read_all_app in I. apply in_app_or in I. destruct I as [I|I].
      + apply (reads_tidy show (resolve_in root) e1 c1') with (k := k); auto. { intros; eapply SUB; eauto. } intros; eapply CM; apply in_or_app; left; eauto.
      + cbn [read_all] in I. rewrite read_group in I. destruct I as [I|I]; [injection I as <- <-; contradiction|].
        apply (reads_tidy show (resolve_in root) e2 c2') with (k := k); auto. { intros; eapply SUB; eauto. } intros; eapply CM; apply in_or_app; right; right; eauto.
    - congruence.
    - intros dl' GD'. rewrite GD in GD'. assert (dl' = dl) by congruence. subst dl'. clear GD'. exists (bares (after show) e1), (bares (after show) e2), dcv. split.
      { rewrite EE, bares_app, bares_cons. reflexivity. } split.
      { unfold v. rewrite bares_cons. change (String.eqb "attrs" "attrs") with true. cbv iota. rewrite bares_app, bares_cons. change (String.eqb "data" "attrs") with false. cbv iota.
        unfold ident. rewrite (images_read show (resolve_in root) e1 c1'), (images_read show (resolve_in root) e2 c2'); auto. intros; eapply SUB; eauto. intros; eapply SUB; eauto. }
      split. { rewrite BK. auto. } split. { rewrite BK. auto. } split.
      { rewrite EV. cbn [dget]. change (String.eqb "data" "attrs") with false. cbv iota. rewrite read_all_find by auto. rewrite sget_middle by (rewrite K1; auto). rewrite read_group. reflexivity. }
      split; [reflexivity|]. split.
      { unfold dcv. cbn [map fst]. constructor; [|apply read_all_nodup; auto]. intros I. apply read_all_in in I. pose proof (sget_none_in "attrs" dc) as X. apply X in I; auto. rewrite G.
        destruct (sget "attrs" D2) as [p|] eqn:GA. { destruct (T2 _ _ GA) as (X1 & _). contradiction. } apply in_none. rewrite images_keys. apply members_nodup. auto. }
      intros k NK. unfold dcv. cbn [dget]. assert (Q := NK). apply String.eqb_neq in Q. rewrite Q. rewrite read_all_find by auto. rewrite G. destruct (sget k D2) as [p|] eqn:GK.
      + right. destruct (R2 k p GK) as [PK F]. destruct (T2 k p GK) as (_ & PN & HP & a & z & A). assert (A' := A). rewrite <- EI in A'. change (HGroup (attrs_img e) (images e)) with s0 in A'.
        destruct (FIND k p _ PK F A') as (_ & _ & _ & p0 & a1 & z1 & EP & EM & NL & NAT & LF). injection EM as -> ->. exists p0, z1. split; auto. split. { destruct p0; discriminate. } split; auto. split; auto.
        split. { rewrite EP, <- app_assoc in LF. exact LF. }
        destruct (state_target name _ _ _ _ _ D2 s2 p _ _ S2 PN HP A) as (a' & A2). cbn [read_node]. unfold resolve_in. rewrite at_app, AR, A2. cbn [option_map]. unfold ident. rewrite read_data_bare, read_stored. auto.
      + left. rewrite images_get by auto. destruct (sget k dl) as [w|] eqn:GW; auto. cbn [option_map].
        destruct (image_read show (resolve_in root) w (image w)) as (w' & R & B); auto. { eapply SMD; eauto. eapply sget_in; eauto. } rewrite R. cbn [option_map]. unfold ident. rewrite B. auto.
  Qed.
End Entry.
