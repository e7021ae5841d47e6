(** Writing an entry into a group that holds a part of it already. *)
From Coq Require Import Reals List String Ascii Bool Lia Lra.
From Verif Require Import Base PyStr M_Tavi P_Tavi M_Nexus P_Nexus L_NexusFile L_NexusLinks P_NexusFile.
Import ListNotations.
Open Scope string_scope.
Open Scope list_scope.

(** The objects of [n] are among those of [v], or soft links; the attributes of its groups are attributes of [v]. Of the datasets
    nothing is said: neither their contents nor their attributes. [X]: where soft links may be, and what they lead to. *)
Definition part (X : list string -> list string -> Prop) (v : val) (n : h5) : Prop := forall p, ~ In "attrs" p ->
  match at_path p n with
  | Some (HGroup a _) => exists l, follow p v = Some (Dict l) /\ sget "dataset" l = None /\ forall k x, sget k a = Some x -> leaf_at ["attrs"; k] (Dict l) = Some x
  | Some (HData _ _) => exists l, follow p v = Some (Dict l) /\ sget "dataset" l <> None
  | Some (HLink t) => X p t /\ (follow p v = None \/ exists l, follow p v = Some (Dict l) /\ sget "dataset" l <> None)
  | None => True
  end.
(** [n] holds all of [v] and no more, but for soft links. *)
Definition full (X : list string -> list string -> Prop) (v : val) (n : h5) : Prop := hok n /\
  (forall p, ~ In "attrs" p ->
    match at_path p n, follow p v with
    | Some (HGroup _ _), Some (Dict l) => sget "dataset" l = None
    | Some (HData _ _), Some (Dict l) => sget "dataset" l <> None
    | Some (HLink t), None => X p t
    | None, None | None, Some (Leaf _) => True
    | _, _ => False
    end) /\
  (forall show res q, hleaf show res q n = leaf_at q v \/ exists p r t, q = p ++ r /\ X p t).
Definition below (k : string) (X : list string -> list string -> Prop) : list string -> list string -> Prop := fun p t => X (k :: p) t.

Lemma set_attrs_get : forall l a, NoDup (map fst l) -> (forall k v, In (k, v) l -> exists x, v = Leaf x /\ forall l, x <> LList l) ->
  exists a', set_attrs l a = Ok a' /\ forall k, sget k a' = match sget k l with Some (Leaf x) => Some x | _ => sget k a end.
Proof.
  induction l as [|[k v] l]; intros a N P; cbn [set_attrs]. { exists a. split; auto. }
  destruct (P k v (or_introl eq_refl)) as (x & -> & NL). cbn in N. inversion N; subst. rewrite (stored_id x NL).
  destruct (IHl (sset k x a)) as (a' & S & E); auto. { intros; eapply P; right; eauto. }
  exists a'. split; auto. intros k'. rewrite E, sget_sset. cbn [dget]. destruct (String.eqb k' k) eqn:Q; auto. apply String.eqb_eq in Q. subst k'. rewrite in_none by auto. auto.
Qed.
Lemma data_full : forall X l x, NoDup (map fst l) -> (forall k v, In (k, v) l -> k = "attrs" \/ k = "dataset") -> sget "dataset" l = Some (Leaf x) ->
  plain_attrs (sget "attrs" l) -> well_typed (sget "attrs" l) x ->
  exists a, format_dataset (sget "attrs" l) x = Ok x /\ write_data_items l [] = Ok a /\ full X (Dict l) (HData a x).
Proof.
  intros X l x N K D PA WT. destruct (data_holds (fun _ => "") (fun _ => None) l x N K D PA WT) as (a & F & W & _ & _ & SH). exists a. split; auto. split; auto.
  split; [constructor|]. split.
  - intros p NA. specialize (SH p NA). destruct (at_path p (HData a x)) as [[| |]|] eqn:E; auto. destruct p; discriminate.
  - intros show res q. left. destruct (data_holds show res l x N K D PA WT) as (a' & _ & W' & (v & R & L) & _). rewrite W in W'. apply Ok_inj in W'. subst a'.
    rewrite <- L. pose proof (read_hleaf show res q (HData a x) (hok_data a x)) as RH. rewrite R in RH. auto.
Qed.
Lemma sget_ddel_app : forall {A} k (n : A) c k', NoDup (map fst c) -> sget k' (ddel String.eqb k c ++ [(k, n)]) = if String.eqb k' k then Some n else sget k' c.
Proof. intros A k n c k' N. rewrite sget_app, ddel_get by auto. cbn [dget]. destruct (String.eqb k' k); auto. destruct (sget k' c); auto. Qed.
Lemma ddel_gone : forall {A} k (c : list (string * A)), NoDup (map fst c) -> ~ In k (map fst (ddel String.eqb k c)).
Proof. intros A k c N. apply sget_none_in. rewrite ddel_get, String.eqb_refl by auto. auto. Qed.
Lemma nodup_snoc : forall {A} (l : list A) x, NoDup l -> ~ In x l -> NoDup (l ++ [x]).
Proof. intros A l x N I. rewrite <- (rev_involutive (l ++ [x])). apply NoDup_rev. rewrite rev_app_distr. cbn. constructor; [rewrite <- in_rev; auto|apply NoDup_rev; auto]. Qed.
Lemma hok_put : forall a c k n, hok (HGroup a c) -> k <> "attrs" -> hok n -> hok (HGroup a (ddel String.eqb k c ++ [(k, n)])).
Proof.
  intros a c k n H KA HN. inversion H as [? ? N NA K| |]; subst. constructor; rewrite ?map_app.
  - apply nodup_snoc; [apply ddel_nodup; auto|apply ddel_gone; auto].
  - rewrite in_app_iff. intros [I|[I|[]]]; auto. apply NA. apply in_map_iff in I. destruct I as (y & E & I). apply ddel_in in I. apply in_map_iff. eauto.
  - intros k' m I. apply in_app_iff in I. destruct I as [I|[[= <- <-]|[]]]; auto. apply ddel_in in I. eauto.
Qed.
Lemma hok_sset : forall a c k n, hok (HGroup a c) -> k <> "attrs" -> hok n -> hok (HGroup a (sset k n c)).
Proof.
  intros a c k n H KA HN. inversion H as [? ? N NA K| |]; subst.
  assert (KS : forall k', In k' (map fst (sset k n c)) -> k' = k \/ In k' (map fst c)). { intros k' I. apply in_map_iff in I. destruct I as ([x y] & <- & I). apply in_sset in I. destruct I as [[-> _]|I]; auto. right. apply (in_map fst) in I. auto. }
  constructor.
  - destruct (in_dec string_dec k (map fst c)) as [I|I]; [rewrite sset_keys_in; auto|]. rewrite sset_fresh, map_app by auto. apply nodup_snoc; auto.
  - intros I. destruct (KS _ I); auto.
  - intros k' m I. apply in_sset in I. destruct I as [[-> ->]|I]; eauto.
Qed.
Lemma hok_attrs : forall a a' c, hok (HGroup a c) -> hok (HGroup a' c).
Proof. intros a a' c H. inversion H; subst. constructor; auto. Qed.

Lemma over_spec : forall v, writable v -> forall l, v = Dict l -> sget "dataset" l = None -> forall X a c, hok (HGroup a c) -> part X v (HGroup a c) ->
  exists a' c', write_group v (a, c) = Ok (a', c') /\ full X v (HGroup a' c').
Proof.
  induction v as [x|l IH] using val_ind2; intros W l0 EV ND X a c HK PT; [discriminate|]. injection EV as <-.
  inversion W as [? x N K D PA WT|? N _ PA WM]; subst. { rewrite ND in D. discriminate. }
  rewrite write_group_dict.
  assert (G : forall l1 a c, NoDup (map fst l1) -> (forall kv, In kv l1 -> In kv l) -> plain_attrs (sget "attrs" l1) -> hok (HGroup a c) ->
    (forall k v n, In (k, v) l1 -> k <> "attrs" -> sget k c = Some n -> part (below k X) v n) ->
    exists a' c', wloop l1 (a, c) = Ok (a', c') /\ hok (HGroup a' c') /\
      (forall k, sget k a' = match leaf_at ["attrs"; k] (Dict l1) with Some x => Some x | None => sget k a end) /\
      (forall k, k <> "attrs" -> match sget k l1 with Some v => exists n, sget k c' = Some n /\ full (below k X) v n | None => sget k c' = sget k c end)).
  { clear PT HK a c. induction l1 as [|[k v] l1 IHl]; intros a c N1 SUB PA1 HK PT; cbn [wloop].
    { exists a, c. split; auto. split; auto. split; intros; cbn; auto. }
    cbn in N1. inversion N1 as [|? ? NK N1']; subst. assert (SUB' : forall kv, In kv l1 -> In kv l) by (intros; apply SUB; right; auto).
    destruct (String.eqb k "attrs") eqn:Q.
    - apply String.eqb_eq in Q. subst k. unfold wstep. cbn in PA1 |- *. destruct v as [x|x]; [destruct PA1|]. destruct PA1 as [NX PX].
      destruct (set_attrs_get x a NX PX) as (a1 & S & E). rewrite S. cbn [bind fst snd].
      assert (G : sget "attrs" l1 = None) by (apply in_none; auto).
      destruct (IHl a1 c N1' SUB') as (a' & c' & W' & H' & A' & M'). { rewrite G. cbn. auto. } { eapply hok_attrs; eauto. } { intros k v n I. apply PT. right. auto. }
      exists a', c'. split; auto. split; auto. split.
      + intros k. rewrite A'. rewrite leaf_cons, G. rewrite E. unfold leaf_at. cbn [follow items dget String.eqb Ascii.eqb Bool.eqb]. destruct (sget k x) as [[y|y]|]; auto.
      + intros k KA. pose proof (M' k KA) as MK. cbn [dget]. apply String.eqb_neq in KA. rewrite KA. exact MK.
    - assert (KA : k <> "attrs") by (apply String.eqb_neq; auto). assert (Q' : String.eqb "attrs" k = false) by (rewrite String.eqb_sym; auto).
      assert (G : sget "attrs" ((k, v) :: l1) = sget "attrs" l1) by (cbn [dget]; rewrite Q'; auto).
      assert (WV : writable v). { apply (WM k); auto. apply SUB. left. auto. }
      assert (STEP : exists n c1, full (below k X) v n /\ wstep k v (a, c) = Ok (a, c1) /\ hok (HGroup a c1) /\ forall k', sget k' c1 = if String.eqb k' k then Some n else sget k' c).
      { inversion HK as [? ? NC NAC KC| |]; subst. unfold wstep. rewrite Q. inversion WV as [l2 x N2 K2 D2 PA2 WT2|l2 N2 D2 PA2 WM2]; subst v.
        - destruct (data_full (below k X) l2 x N2 K2 D2 PA2 WT2) as (a2 & F2 & W2 & H2). exists (HData a2 x). eexists. split; [exact H2|].
          rewrite D2, F2. cbn [bind]. rewrite W2. cbn [bind fst snd]. split; [reflexivity|]. split; [apply hok_put; auto; constructor|]. intros k'. apply sget_ddel_app. auto.
        - rewrite Forall_forall in IH. specialize (IH (k, Dict l2) (SUB _ (or_introl eq_refl)) WV l2 eq_refl D2 (below k X)). cbn [snd] in IH. rewrite D2. cbn [fst snd]. destruct (sget k c) as [n|] eqn:GC.
          + pose proof (PT k (Dict l2) n (or_introl eq_refl) KA GC) as PN. pose proof (PN [] (fun x => x)) as P0. destruct n as [a2 c2|a2 x2|t]; cbn [at_path follow] in P0.
            * destruct (IH a2 c2) as (a3 & c3 & W3 & F3); [eapply KC; eapply sget_in; eauto|auto|]. exists (HGroup a3 c3), (sset k (HGroup a3 c3) c). split; auto. rewrite W3. cbn [bind fst snd]. split; auto. split; [apply hok_sset; auto; apply F3|].
              intros k'. apply sget_sset.
            * exfalso. destruct P0 as (l3 & E3 & D3). injection E3 as <-. auto.
            * exfalso. destruct P0 as (_ & [E3|(l3 & E3 & D3)]); [discriminate|]. injection E3 as <-. auto.
          + destruct (IH [] []) as (a3 & c3 & W3 & F3). { constructor; cbn; auto; try constructor. intros ? ? []. } { intros [|k0 p] _; cbn; auto. exists l2. split; auto. split; auto. intros; discriminate. }
            exists (HGroup a3 c3), (c ++ [(k, HGroup a3 c3)]). split; auto. split; [exact (f_equal (fun r => do g <- r; Ok (a, c ++ [(k, HGroup (fst g) (snd g))])) W3)|].
            assert (EC : c = ddel String.eqb k c) by (symmetry; apply ddel_fresh; apply sget_none_in; auto).
            split. { rewrite EC. apply hok_put; auto. apply F3. } intros k'. rewrite EC at 1. apply sget_ddel_app. auto. }
      destruct STEP as (n & c1 & FN & -> & H1 & G1). cbn [bind]. rewrite G in PA1.
      destruct (IHl a c1 N1' SUB' PA1 H1) as (a' & c' & W' & H' & A' & M').
      { intros k' v' n' I KA' GN. rewrite G1 in GN. destruct (String.eqb k' k) eqn:Q2; [apply String.eqb_eq in Q2; subst; exfalso; apply NK; apply (in_map fst) in I; auto|]. apply (PT k' v' n'); auto. right. auto. }
      exists a', c'. split; auto. split; auto. split. { intros k'. rewrite A', !leaf_cons, G. auto. }
      intros k' KA'. specialize (M' k' KA'). cbn [dget]. destruct (String.eqb k' k) eqn:Q2.
      + apply String.eqb_eq in Q2. subst k'. rewrite in_none in M' by auto. exists n. rewrite M', G1, String.eqb_refl. auto.
      + destruct (sget k' l1); auto. rewrite M', G1, Q2. auto. }
  destruct (G l a c N (fun _ x => x) PA HK) as (a' & c' & WL & HK' & A' & M').
  { intros k v n I KA GN p NA. pose proof (PT (k :: p)) as P. cbn [at_path follow] in P. rewrite GN in P. cbn [items] in P. rewrite (in_sget k l v N I) in P. apply P. intros [J|J]; auto. }
  exists a', c'. split; auto. split; auto. split.
  - intros [|k p] NA; [exact ND|]. assert (KA : k <> "attrs") by (intros ->; apply NA; left; auto). assert (NA' : ~ In "attrs" p) by (intros J; apply NA; right; auto).
    specialize (M' k KA). cbn [at_path follow items]. destruct (sget k l) as [v|] eqn:GL.
    + destruct M' as (n & -> & _ & F & _). exact (F p NA').
    + rewrite M'. destruct (sget k c) as [n|] eqn:GC; auto. pose proof (PT [k]) as P. cbn [at_path follow items] in P. rewrite GC, GL in P. assert (NK : ~ In "attrs" [k]) by (intros [J|[]]; auto).
      destruct n as [a2 c2|a2 x2|t]; [destruct (P NK) as (? & ? & _); discriminate|destruct (P NK) as (? & ? & _); discriminate|]. destruct p; cbn; auto. apply (P NK).
  - intros show res [|k q]; auto. cbn [hleaf]. destruct (String.eqb k "attrs") eqn:Q.
    + apply String.eqb_eq in Q. subst k. left. rewrite leaf_cons. destruct q as [|x [|y q]].
      * destruct (sget "attrs" l) as [[z|z]|]; auto. destruct PA.
      * rewrite A', leaf_cons. destruct (sget "attrs" l) as [v|] eqn:GA.
        -- destruct (leaf_at [x] v) eqn:LV; auto. destruct (sget x a) as [y|] eqn:GX; auto. pose proof (PT [] (fun x => x)) as (l3 & E3 & _ & P3). cbn in E3. injection E3 as <-. specialize (P3 x y GX). rewrite leaf_cons, GA in P3. congruence.
        -- destruct (sget x a) as [y|] eqn:GX; auto. pose proof (PT [] (fun x => x)) as (l3 & E3 & _ & P3). cbn in E3. injection E3 as <-. specialize (P3 x y GX). rewrite leaf_cons, GA in P3. congruence.
      * destruct (sget "attrs" l) as [[z|z]|] eqn:GA; auto. cbn in PA. destruct PA as [_ PX]. rewrite leaf_cons. destruct (sget x z) as [w|] eqn:GW; auto. apply sget_in in GW. destruct (PX _ _ GW) as (u & -> & _). auto.
    + assert (KA : k <> "attrs") by (apply String.eqb_neq; auto). specialize (M' k KA). rewrite leaf_cons. destruct (sget k l) as [v|] eqn:GL.
      * destruct M' as (n & -> & _ & _ & F). destruct (F show res q) as [E|(p & r & t & -> & XP)]; auto. right. exists (k :: p), r, t. auto.
      * rewrite M'. destruct (sget k c) as [n|] eqn:GC; auto. pose proof (PT [k]) as P. cbn [at_path follow items] in P. rewrite GC, GL in P. assert (NK : ~ In "attrs" [k]) by (intros [J|[]]; auto).
        destruct n as [a2 c2|a2 x2|t]; [destruct (P NK) as (? & ? & _); discriminate|destruct (P NK) as (? & ? & _); discriminate|]. right. exists [k], q, t. split; auto. apply (P NK).
Qed.

(** * Soft links *)
(** Where the writer puts soft links, and to what. *)
Definition plot_link (e : list (string * val)) (name : list string) : list string -> list string -> Prop := fun p t =>
  exists d r, plots e d /\ d <> "attrs" /\ p = ["data"; d] /\ t = name ++ r /\ hd "" r <> "data" /\ ~ In "attrs" r /\ exists l, follow r (Dict e) = Some (Dict l) /\ is_dataset l.
Lemma hd_app : forall p (d : string), ~ In "data" (p ++ [d]) -> hd "" (p ++ [d]) <> "data".
Proof. intros [|k p] d N E; cbn in *; apply N; auto. Qed.
Lemma follow_app : forall p q v, follow (p ++ q) v = match follow p v with Some w => follow q w | None => None end.
Proof. induction p as [|k p]; intros q v; cbn; auto. destruct (sget k (items v)); auto. Qed.
Lemma in_data : forall e l d v, writable (Dict e) -> ~ is_dataset e -> follow ["data"] (Dict e) = Some (Dict l) -> ~ is_dataset l -> d <> "attrs" -> sget d l = Some v -> exists x, v = Dict x.
Proof.
  intros e l d v W ND F NDL DA G. cbn in F. destruct (sget "data" e) as [z|] eqn:GD; [|discriminate]. injection F as ->. inversion W as [? ? _ _ D|? _ _ _ WM]; subst. { exfalso. apply ND. unfold is_dataset. rewrite D. discriminate. }
  pose proof (WM _ _ (sget_in _ _ _ GD)) as WL. specialize (WL ltac:(discriminate)). inversion WL as [? ? _ _ D|? _ _ _ WM2]; subst. { exfalso. apply NDL. unfold is_dataset. rewrite D. discriminate. }
  pose proof (WM2 _ _ (sget_in _ _ _ G) DA) as WV. inversion WV; eauto.
Qed.
Section Entry.
  Context (e : list (string * val)) (name : list string).
  Definition outside (s : h5) : Prop := forall p, hd "" p <> "data" -> ~ In "attrs" p ->
    match at_path p s, follow p (Dict e) with
    | Some (HGroup _ _), Some (Dict l) => sget "dataset" l = None
    | Some (HData _ _), Some (Dict l) => sget "dataset" l <> None
    | None, None | None, Some (Leaf _) => True
    | _, _ => False
    end.
  Lemma full_outside : forall s, (forall p, ~ In "attrs" p ->
    match at_path p s, follow p (Dict e) with
    | Some (HGroup _ _), Some (Dict l) => sget "dataset" l = None
    | Some (HData _ _), Some (Dict l) => sget "dataset" l <> None
    | Some (HLink t), None => plot_link e name p t
    | None, None | None, Some (Leaf _) => True
    | _, _ => False
    end) -> outside s.
  Proof.
    intros s F p HP NA. specialize (F p NA). destruct (at_path p s) as [[| |t]|]; auto. destruct (follow p (Dict e)); auto. destruct F as (d & r & _ & _ & -> & _). apply HP. reflexivity.
  Qed.
  Lemma full_part : forall s, writable (Dict e) -> (forall d, plots e d -> names_datasets e d) -> full (plot_link e name) (Dict e) s -> part (plot_link e name) (Dict e) s.
  Proof.
    intros s W DS (H & F & L) p NA. pose proof (F p NA) as FP. destruct (at_path p s) as [[a c|a x|t]|] eqn:A; auto.
    - destruct (follow p (Dict e)) as [[z|l]|] eqn:FO; try (destruct FP; fail). exists l. split; auto. split; auto. intros k x G.
      destruct (L (fun _ => "") (fun _ => None) (p ++ ["attrs"; k])) as [E|(p' & r & t & E & d & r' & PD & DA & -> & _)].
      + rewrite (hleaf_app _ _ p s _ ["attrs"; k] A NA) in E. cbn [hleaf] in E. rewrite String.eqb_refl in E. rewrite G in E. rewrite E. unfold leaf_at. rewrite follow_app, FO. auto.
      + exfalso. destruct (DS d PD) as [_ D2]. destruct p as [|k1 [|k2 p]]; cbn in E; try discriminate; injection E as E1 E2; subst; try congruence.
        assert (NA2 : ~ In "attrs" ["data"; d]) by (intros [X|[X|[]]]; [discriminate|auto]). pose proof (F ["data"; d] NA2) as FD.
        change (at_path (["data"; d] ++ p) s = Some (HGroup a c)) in A. rewrite at_app in A. destruct (at_path ["data"; d] s) as [n|] eqn:AD; [|discriminate]. destruct n as [a1 c1|a1 x1|t1]; [|destruct p; discriminate|destruct p; discriminate].
        destruct (follow ["data"; d] (Dict e)) as [[z1|l1]|] eqn:FD1; try (destruct FD; fail). apply (D2 l1 eq_refl). exact FD.
    - destruct (follow p (Dict e)) as [[z|l]|]; try (destruct FP; fail). exists l. auto.
    - destruct (follow p (Dict e)) as [[z|l]|]; try (destruct FP; fail). auto.
  Qed.
  Lemma linked_part : forall d p da dc dc' s s', writable (Dict e) -> ~ is_dataset e -> plots e d -> names_datasets e d -> d <> "attrs" -> p <> [] -> hd "" p <> "data" -> ~ In "attrs" p ->
    (exists l, follow p (Dict e) = Some (Dict l) /\ is_dataset l) -> (exists m, at_path p s = Some m /\ kind m = 1) -> at_path ["data"] s = Some (HGroup da dc) ->
    linked name d p da dc dc' s s' -> part (plot_link e name) (Dict e) s -> part (plot_link e name) (Dict e) s'.
  Proof.
    intros d p da dc dc' s s' W ND PD [_ D2] DA PN HP NAP FP (m & AM & KM) AD LK PT.
    assert (GA : forall q a c, ~ In "attrs" q -> at_path q s' = Some (HGroup a c) -> (forall r, q <> "data" :: d :: r) -> q <> p -> forall k, sget k a = hleaf (fun _ => "") (fun _ => None) (q ++ ["attrs"; k]) s).
    { intros q a c NQ AQ NL NP k. transitivity (hleaf (fun _ => "") (fun _ => None) (q ++ ["attrs"; k]) s'). { symmetry. exact (hleaf_app _ _ q s' _ ["attrs"; k] AQ NQ). }
      rewrite (lk_leaf _ _ _ _ _ _ _ _ LK). unfold path_eq. destruct (list_eq_dec string_dec (q ++ ["attrs"; k]) (p ++ ["attrs"; "target"])) as [E|_].
      - exfalso. apply NP. apply (f_equal (@rev string)) in E. rewrite !rev_app_distr in E. cbn in E. injection E as _ E. apply (f_equal (@rev string)) in E. rewrite !rev_involutive in E. auto.
      - destruct (strip ["data"; d] (q ++ ["attrs"; k])) as [r|] eqn:S; auto. apply strip_some in S. exfalso. destruct q as [|k1 [|k2 q]]; cbn in S; try discriminate; injection S as S1 S2; subst; congruence. }
    intros q NQ. destruct q as [|k r].
    - cbn [at_path]. pose proof (lk_data _ _ _ _ _ _ _ _ LK) as AD'. destruct s' as [a c| |]; try discriminate. pose proof (PT [] NQ) as P0. cbn [at_path] in P0. destruct s as [a0 c0| |]; try discriminate.
      destruct P0 as (l & FL & DL & AT). exists l. split; auto. split; auto. intros k x G. apply AT. rewrite (GA [] a c NQ eq_refl) in G; [exact G|discriminate|auto].
    - destruct (string_dec k "data") as [->|NK].
      + destruct r as [|k r].
        * rewrite (lk_data _ _ _ _ _ _ _ _ LK). pose proof (PT _ NQ) as P0. rewrite AD in P0. exact P0.
        * assert (E' : at_path ("data" :: k :: r) s' = match sget k dc' with Some n => at_path r n | None => None end). { change ("data" :: k :: r) with (["data"] ++ (k :: r)). rewrite at_app, (lk_data _ _ _ _ _ _ _ _ LK). reflexivity. }
          assert (E : at_path ("data" :: k :: r) s = match sget k dc with Some n => at_path r n | None => None end). { change ("data" :: k :: r) with (["data"] ++ (k :: r)). rewrite at_app, AD. reflexivity. }
          rewrite E'. destruct (string_dec k d) as [->|NE].
          -- rewrite (lk_new _ _ _ _ _ _ _ _ LK). destruct r as [|k r]; cbn [at_path]; auto. split. { exists d, p. repeat split; auto. }
             destruct (follow ["data"; d] (Dict e)) as [w|] eqn:FW; auto. right. pose proof (PT ["data"]) as PD0. rewrite AD in PD0. destruct PD0 as (l & FL & DL & _); [intros [X|[]]; discriminate|].
             assert (GW : sget d l = Some w). { change ["data"; d] with (["data"] ++ [d]) in FW. rewrite follow_app, FL in FW. cbn in FW. destruct (sget d l); [auto|discriminate]. }
             destruct (in_data e l d w W ND FL) as (x & ->); auto. exists x. split; auto. apply D2. auto.
          -- rewrite (lk_old _ _ _ _ _ _ _ _ LK k NE). pose proof (PT _ NQ) as P0. rewrite E in P0. exact P0.
      + pose proof (lk_kind _ _ _ _ _ _ _ _ LK k r NK) as KK. pose proof (PT _ NQ) as P0. destruct (at_path (k :: r) s') as [n'|] eqn:A'; auto. destruct (at_path (k :: r) s) as [n|] eqn:A; [|discriminate]. cbn [option_map] in KK. injection KK as KK.
        destruct n' as [a' c'|a' x'|t'], n as [a c|a x|t]; cbn in KK; try discriminate; auto.
        * destruct P0 as (l & FL & DL & AT). exists l. split; auto. split; auto. intros k0 x G. apply AT. rewrite (GA (k :: r) a' c' NQ A') in G.
          -- rewrite (hleaf_app _ _ (k :: r) s _ ["attrs"; k0] A NQ) in G. exact G.
          -- intros r0 E. injection E as E _. auto.
          -- intros E. rewrite E in A. rewrite A in AM. injection AM as <-. discriminate.
        * destruct P0 as ((d' & r' & _ & _ & E & _) & _). injection E as E _. contradiction.
  Qed.
  Section Links.
    Context (s0 : h5) (H0 : hok s0) (SH : outside s0).
    Notation active := (P_NexusFile.active s0).
    Lemma find_good : forall d p, find_path d s0 = Some p -> p <> [] /\ hd "" p <> "data" /\ ~ In "attrs" p /\ d <> "attrs" /\ exists p0, p = p0 ++ d :: inside d /\ follow (p0 ++ [d]) (Dict e) <> None.
    Proof.
      intros d p F. destruct (find_sound _ _ _ F H0) as (p0 & -> & A & NA & NDT). assert (X : d <> "attrs" /\ d <> "data").
      { split; intros ->; [apply NA|apply NDT]; apply in_app_iff; right; left; auto. } destruct X as [X1 X2].
      split. { destruct p0; discriminate. } split. { destruct p0; cbn; auto. intros E. subst. apply NDT. left. auto. } split.
      { intros I. apply in_app_iff in I. destruct I as [I|[I|I]]; [apply NA; apply in_app_iff; auto|auto|exact (inside_noattrs _ I)]. } split; auto.
      exists p0. split; auto. specialize (SH _ (hd_app _ _ NDT) NA). intros E. rewrite E in SH. destruct (at_path (p0 ++ [d]) s0) as [[]|]; auto.
    Qed.
    Lemma active_data : forall d p, plots e d -> names_datasets e d -> active d p -> exists m, at_path p s0 = Some m /\ kind m = 1.
    Proof.
      intros d p PL [ND _] [F A]. destruct (at_path p s0) as [m|] eqn:AP; [|exfalso; auto]. exists m. split; auto.
      destruct (find_good _ _ F) as (_ & HP & NA & _ & p0 & -> & _). specialize (SH _ HP NA). rewrite AP in SH.
      destruct m as [a c|a x|q]; auto.
      - destruct (follow (p0 ++ d :: inside d) (Dict e)) as [[z|l]|] eqn:FO; [destruct SH| |destruct SH]. exfalso. apply (ND p0 _ FO). exact SH.
      - destruct SH.
    Qed.

    Lemma link_step : forall d da dc s, plots e d -> names_datasets e d -> hok s -> at_path ["data"] s = Some (HGroup da dc) ->
      (forall k r, k <> "data" -> option_map kind (at_path (k :: r) s) = option_map kind (at_path (k :: r) s0)) ->
      (forall m', sget d dc = Some m' -> is_data name s m' = true) ->
      exists s' dc', link1 name (LStr d) (path_for (LStr d) s0) s = Ok s' /\
        ((exists p, active d p /\ linked name d p da dc dc' s s') \/ ((forall p, ~ active d p) /\ s' = s /\ dc' = dc)).
    Proof.
      intros d da dc s PL ND H AD KD ISD. unfold link1, path_for. cbn [text]. destruct (find_path d s0) as [p|] eqn:F.
      2:{ exists s, dc. split; [reflexivity|]. right. split; auto. intros p [F' _]. congruence. }
      destruct (find_good _ _ F) as (PN & HP & NA & DA & _).
      assert (KP : option_map kind (at_path p s) = option_map kind (at_path p s0)) by (destruct p; [exfalso; auto|apply KD; auto]).
      destruct (at_path p s0) as [m0|] eqn:A0.
      - assert (AC : active d p) by (split; [auto|rewrite A0; discriminate]). destruct (active_data _ _ PL ND AC) as (m1 & A1 & K1). rewrite A0 in A1. injection A1 as <-.
        destruct (at_path p s) as [m|] eqn:A; [|discriminate]. cbn in KP. injection KP as KP.
        destruct (put_link_spec name d p da dc s m) as (s' & dc' & PLK & LK); auto. { rewrite KP, K1. discriminate. }
        exists s', dc'. split; auto. left. exists p. auto.
      - exists s, dc. unfold put_link. destruct (at_path p s); [discriminate|]. split; auto. right. split; auto. intros p' [F' A']. rewrite F in F'. injection F' as <-. auto.
    Qed.
  End Links.

  Context (CF : conforming e).
  Lemma rewrite_spec : forall s, (exists a c, s = HGroup a c) -> hok s -> part (plot_link e name) (Dict e) s -> exists s', write_entry name e s = Ok s' /\ entry_in e name s' /\ part (plot_link e name) (Dict e) s'.
  Proof.
    intros s (a & c & ->) HKS PTS. destruct CF as (W & ND & PLT). assert (ND' : sget "dataset" e = None). { unfold is_dataset in ND. destruct (sget "dataset" e); auto. exfalso. apply ND. discriminate. }
    destruct (over_spec (Dict e) W e eq_refl ND' (plot_link e name) a c HKS PTS) as (a0 & c0 & WG & H0 & SHF & L0F).
    pose proof (f_equal (fun r => do g <- r; make_links name (HGroup (fst g) (snd g))) WG) as EQ. change (write_entry name e (HGroup a c) = make_links name (HGroup a0 c0)) in EQ.
    rewrite EQ. unfold make_links.
    set (s0 := HGroup a0 c0) in *.
    assert (SH : outside s0) by (apply full_outside; auto).
    assert (L0 : forall show res q, ~ touched e q -> hleaf show res q s0 = leaf_at q (Dict e)).
    { intros show res q NT. destruct (L0F show res q) as [E|(p & r & t & -> & d & r' & PD & _ & -> & _)]; auto. exfalso. apply NT. exists d. split; auto. left. exists r. auto. }
    pose proof (SHF ["data"]) as SD. destruct PLT as [NOD|((l & FD & NDS) & (y & SY) & (x & SX) & DS)].
    { rewrite NOD in SD. destruct (at_path ["data"] s0) as [n|]; [exfalso; destruct n as [| |t]; try (apply SD; intros [X|[]]; discriminate)|].
      { destruct SD as (d & r & _ & _ & E & _); [intros [X|[]]; discriminate|discriminate]. }
      assert (NP : forall d, ~ plots e d) by (intros d [P|P]; unfold leaf_at in P; cbn in P, NOD; destruct (sget "data" e); discriminate).
      exists s0. split; auto. split. { split; auto. split; [unfold s0; eauto|]. split. { intros show res q _. apply L0. intros (d & PD & _). apply (NP d PD). } intros show res _ d PD; exfalso; apply (NP d PD). }
      apply full_part; [auto|intros d PD; destruct (NP d PD)|split; auto]. }
    rewrite FD in SD. destruct (at_path ["data"] s0) as [n|] eqn:AD; [|exfalso; apply SD; intros [X|[]]; discriminate].
    assert (GD : exists da dc, n = HGroup da dc).
    { destruct n as [da dc|da x0|q]; eauto; exfalso; [|apply SD; intros [X|[]]; discriminate]. apply NDS. apply SD. intros [X|[]]; discriminate. }
    destruct GD as (da & dc & ->). cbn [attrs_h5].
    assert (AT : forall k, sget k da = leaf_at ["data"; "attrs"; k] (Dict e)).
    { intros k. destruct (L0F (fun _ => "") (fun _ => None) ["data"; "attrs"; k]) as [E|(p & r & t & E & d & r' & _ & DA & -> & _)]; [|injection E as E _; congruence]. rewrite <- E. rewrite (hleaf_app _ _ ["data"] s0 _ ["attrs"; k] AD); auto. intros [X|[]]; discriminate. }
    rewrite !AT, SY, SX. cbn zeta.
    assert (PY : plots e y) by (left; auto). assert (PX : plots e x) by (right; auto).
    assert (OLD : forall d, plots e d -> forall s, (forall k r, k <> "data" -> option_map kind (at_path (k :: r) s) = option_map kind (at_path (k :: r) s0)) -> forall m', sget d dc = Some m' -> is_data name s m' = true).
    { intros d PD s KS m' G. destruct (DS _ PD) as [_ D2]. assert (DA : d <> "attrs").
      { intros ->. cbn in AD. destruct (sget "data" c0) as [z|] eqn:GZ; [|discriminate]. injection AD as ->. inversion H0 as [? ? _ _ K| |]; subst. pose proof (K _ _ (sget_in _ _ _ GZ)) as HZ. inversion HZ as [? ? _ NAZ _| |]; subst. apply NAZ. apply sget_in in G. apply (in_map fst) in G. auto. }
      assert (NDA : ~ In "attrs" ["data"; d]) by (intros [X|[X|[]]]; [discriminate|auto]).
      assert (AP : at_path ["data"; d] s0 = Some m'). { change (at_path (["data"] ++ [d]) s0 = Some m'). rewrite at_app, AD. cbn. rewrite G. auto. }
      pose proof (SHF ["data"; d] NDA) as S2. rewrite AP in S2. destruct m' as [a' c'|a' x'|q']; auto.
      - exfalso. destruct (follow ["data"; d] (Dict e)) as [[|l']|] eqn:FF; try (apply S2; fail). apply (D2 l' eq_refl). exact S2.
      - destruct (follow ["data"; d] (Dict e)) as [[|l']|] eqn:FF; try (destruct S2; fail). destruct S2 as (d' & r & _ & _ & _ & -> & HR & NR & l' & FR & DR). unfold is_data. rewrite strip_app.
        destruct r as [|k r]; [exfalso; cbn in FR; injection FR as <-; auto|]. specialize (KS k r HR). pose proof (SH (k :: r) HR NR) as S3. rewrite FR in S3. unfold is_dataset in DR.
        destruct (at_path (k :: r) s0) as [[| |]|]; try (exfalso; auto; fail). destruct (at_path (k :: r) s) as [[| |]|]; cbn in KS; try discriminate; auto. }
    destruct (link_step s0 H0 SH y da dc s0 PY (DS _ PY) H0 AD (fun _ _ _ => eq_refl) (OLD y PY s0 (fun _ _ _ => eq_refl))) as (s1 & dc1 & E1 & C1). rewrite E1. cbn [bind].
    assert (INV : hok s1 /\ at_path ["data"] s1 = Some (HGroup da dc1) /\ (forall k r, k <> "data" -> option_map kind (at_path (k :: r) s1) = option_map kind (at_path (k :: r) s0)) /\
      (forall m', sget x dc1 = Some m' -> is_data name s1 m' = true)).
    { destruct C1 as [(p & AC & LK)|(_ & -> & ->)].
      - split; [apply LK|]. split; [apply LK|]. split; [apply LK|]. intros m' G. destruct (string_dec x y) as [->|NE].
        + rewrite (lk_new _ _ _ _ _ _ _ _ LK) in G. injection G as <-. unfold is_data. rewrite strip_app.
          destruct (active_data s0 H0 SH y p PY (DS _ PY) AC) as (m & A & KM). destruct AC as [F _]. destruct (find_good s0 H0 SH _ _ F) as (PN & HP & _).
          destruct p as [|k p]; [exfalso; auto|]. pose proof (lk_kind _ _ _ _ _ _ _ _ LK k p HP) as KK. rewrite A in KK. cbn [option_map] in KK. rewrite KM in KK.
          destruct (at_path (k :: p) s1) as [[]|]; cbn in KK; try discriminate; auto.
        + rewrite (lk_old _ _ _ _ _ _ _ _ LK x NE) in G. apply (OLD x PX s1); auto. apply LK.
      - repeat split; auto. apply (OLD x PX s0). auto. }
    destruct INV as (H1 & AD1 & K1 & OLD1).
    destruct (link_step s0 H0 SH x da dc1 s1 PX (DS _ PX) H1 AD1 K1 OLD1) as (s2 & dc2 & E2 & C2). exists s2. split; auto.
    assert (HK : hok s2). { destruct C2 as [(p & _ & LK)|(_ & -> & _)]; [apply LK|auto]. }
    assert (AD2 : at_path ["data"] s2 = Some (HGroup da dc2)). { destruct C2 as [(p & _ & LK)|(_ & -> & ->)]; [apply LK|auto]. }
    assert (K2 : forall k r, k <> "data" -> option_map kind (at_path (k :: r) s2) = option_map kind (at_path (k :: r) s0)).
    { intros k r NK. rewrite <- K1 by auto. destruct C2 as [(p & _ & LK)|(_ & -> & _)]; auto. apply LK. auto. }
    assert (P0 : part (plot_link e name) (Dict e) s0) by (apply full_part; [auto|auto|split; auto]).
    assert (GOODP : forall d p, plots e d -> P_NexusFile.active s0 d p -> d <> "attrs" /\ p <> [] /\ hd "" p <> "data" /\ ~ In "attrs" p /\ (exists l, follow p (Dict e) = Some (Dict l) /\ is_dataset l) /\ exists m, at_path p s0 = Some m /\ kind m = 1).
    { intros d p PD AC. destruct (active_data s0 H0 SH d p PD (DS _ PD) AC) as (m & A & KM). destruct AC as [F _]. destruct (find_good s0 H0 SH _ _ F) as (PN & HP & NA & DA & _). repeat (split; auto). 2:{ exists m. auto. }
      pose proof (SH p HP NA) as SP. rewrite A in SP. destruct m as [| |]; cbn in KM; try discriminate. destruct (follow p (Dict e)) as [[|l1]|]; try (destruct SP; fail). exists l1. auto. }
    assert (P1 : part (plot_link e name) (Dict e) s1).
    { destruct C1 as [(p & AC & LK)|(_ & -> & _)]; auto. destruct (GOODP _ _ PY AC) as (DA & PN & HP & NA & PD & MA). exact (linked_part y p da dc dc1 s0 s1 W ND PY (DS _ PY) DA PN HP NA PD MA AD LK P0). }
    split. 2:{ destruct C2 as [(p & AC & LK)|(_ & -> & _)]; auto. destruct (GOODP _ _ PX AC) as (DA & PN & HP & NA & PD & (m & MA & KM)). refine (linked_part x p da dc1 dc2 s1 s2 W ND PX (DS _ PX) DA PN HP NA PD _ AD1 LK P1).
      destruct p as [|k p]; [exfalso; auto|]. specialize (K1 k p HP). rewrite MA in K1. destruct (at_path (k :: p) s1) as [m1|]; [|discriminate]. cbn in K1. injection K1 as K1. exists m1. split; auto. congruence. }
    split; auto. split. { destruct s2 as [a1 c1| |]; [eauto|discriminate|discriminate]. } split.
    - intros show res q NT. rewrite <- (L0 show res q NT).
      assert (ST : forall d p da dc dc' s s', plots e d -> P_NexusFile.active s0 d p -> linked name d p da dc dc' s s' -> hleaf show res q s' = hleaf show res q s).
      { intros d p da' dcc dcc' s s' PD AC LK. rewrite (lk_leaf _ _ _ _ _ _ _ _ LK). unfold path_eq. destruct (list_eq_dec string_dec q (p ++ ["attrs"; "target"])) as [->|_].
        - exfalso. apply NT. exists d. split; auto. right. exists p. split; auto. destruct AC as [F _]. destruct (find_good s0 H0 SH _ _ F) as (_ & _ & _ & _ & p0 & -> & _). apply in_app_iff. right. left. auto.
        - destruct (strip ["data"; d] q) as [r|] eqn:S; auto. apply strip_some in S. exfalso. apply NT. exists d. split; auto. left. exists r. auto. }
      transitivity (hleaf show res q s1).
      + destruct C2 as [(p & AC & LK)|(_ & -> & _)]; [exact (ST _ _ _ _ _ _ _ PX AC LK)|auto].
      + destruct C1 as [(p & AC & LK)|(_ & -> & _)]; [exact (ST _ _ _ _ _ _ _ PY AC LK)|auto].
    - intros show res RES d PD p1 FP FN.
      assert (AT1 : at_path (p1 ++ [d]) s0 <> None \/ at_path (p1 ++ [d]) s0 = None) by (destruct (at_path (p1 ++ [d]) s0); [left; discriminate|right; auto]).
      destruct (find_path d s0) as [p|] eqn:F.
      2:{ (* the field is a plain value, not an object of the file *)
          destruct AT1 as [A|A]. { exfalso. apply (find_complete _ _ _ H0 A FP F). }
          pose proof (SH (p1 ++ [d]) (hd_app _ _ (proj1 FP)) (proj2 (proj2 FP))) as SF. rewrite A in SF. destruct (follow (p1 ++ [d]) (Dict e)) as [[z|z]|] eqn:FF; [|destruct SF|exfalso; auto].
          exists p1. split. { rewrite FF. discriminate. } intros l1 FL. exfalso. unfold inside in FL. destruct (String.eqb d "detector"); [|destruct (String.eqb d "monitor")].
          - assert (E : follow (p1 ++ d :: ["data"]) (Dict e) = None). { replace (p1 ++ [d; "data"]) with ((p1 ++ [d]) ++ ["data"]) by (rewrite <- app_assoc; auto). clear - FF. revert FF. generalize (Dict e) (p1 ++ [d]). intros v q. revert v. induction q as [|k q]; intros v F; cbn in *. { injection F as ->. auto. } destruct (sget k (items v)); auto. } congruence.
          - assert (E : follow (p1 ++ d :: ["monitor"]) (Dict e) = None). { replace (p1 ++ [d; "monitor"]) with ((p1 ++ [d]) ++ ["monitor"]) by (rewrite <- app_assoc; auto). clear - FF. revert FF. generalize (Dict e) (p1 ++ [d]). intros v q. revert v. induction q as [|k q]; intros v F; cbn in *. { injection F as ->. auto. } destruct (sget k (items v)); auto. } congruence.
          - congruence. }
      destruct (find_good s0 H0 SH _ _ F) as (PN & HP & NA & DA & p0 & EP & FO). exists p0. split; auto. intros l1 FL r.
      assert (AC : P_NexusFile.active s0 d p). { split; auto. subst p. pose proof (SH _ HP NA) as SP. rewrite FL in SP. intros E. rewrite E in SP. auto. }
      destruct (active_data s0 H0 SH d p PD (DS _ PD) AC) as (m & A & KM).
      assert (NOTT : forall p' t, hd "" p' <> "data" -> p' <> [] -> path_eq ("data" :: d :: t) (p' ++ ["attrs"; "target"]) = false).
      { intros p' t HP' PN'. unfold path_eq. destruct (list_eq_dec string_dec _ _) as [E|]; auto. destruct p'; [exfalso; auto|]. cbn in E, HP'. congruence. }
      assert (LK2 : hleaf show res ("data" :: d :: r) s2 = hleaf show res r (HLink (name ++ p))).
      { assert (SELF : forall dx pz da' dc' dc'' sa sb, P_NexusFile.active s0 dx pz -> linked name dx pz da' dc' dc'' sa sb -> dx = d -> hleaf show res ("data" :: d :: r) sb = hleaf show res r (HLink (name ++ p))).
        { intros dx pz da' dc' dc'' sa sb [Fz _] LK ->. rewrite F in Fz. injection Fz as <-. rewrite (lk_leaf _ _ _ _ _ _ _ _ LK), NOTT by auto. cbn [strip]. rewrite !String.eqb_refl. auto. }
        assert (OTH : forall dx pz da' dc' dc'' sa sb, P_NexusFile.active s0 dx pz -> linked name dx pz da' dc' dc'' sa sb -> dx <> d -> hleaf show res ("data" :: d :: r) sb = hleaf show res ("data" :: d :: r) sa).
        { intros dx pz da' dc' dc'' sa sb [Fz _] LK NE. destruct (find_good s0 H0 SH _ _ Fz) as (PNz & HPz & _). rewrite (lk_leaf _ _ _ _ _ _ _ _ LK), NOTT by auto. cbn [strip].
          destruct (String.eqb dx d) eqn:Q; [apply String.eqb_eq in Q; contradiction|]. auto. }
        destruct (string_dec x d) as [XD|XD].
        - destruct C2 as [(pz & ACz & LK)|(NO & _)]; [exact (SELF _ _ _ _ _ _ _ ACz LK XD)|]. exfalso. apply (NO p). rewrite XD. exact AC.
        - assert (YD : y = d). { destruct PD as [PD|PD]; rewrite ?SY, ?SX in PD; injection PD as ->; auto. contradiction. }
          assert (S1 : hleaf show res ("data" :: d :: r) s1 = hleaf show res r (HLink (name ++ p))).
          { destruct C1 as [(pz & ACz & LK)|(NO & _)]; [exact (SELF _ _ _ _ _ _ _ ACz LK YD)|]. exfalso. apply (NO p). rewrite YD. exact AC. }
          destruct C2 as [(pz & ACz & LK)|(_ & -> & _)]; auto. rewrite (OTH _ _ _ _ _ _ _ ACz LK XD). auto. }
      rewrite LK2. destruct p as [|k p]; [exfalso; auto|]. pose proof (K2 k p HP) as KK. rewrite A in KK. cbn [option_map] in KK. rewrite KM in KK.
      destruct (at_path (k :: p) s2) as [[| |]|] eqn:A2; cbn in KK; try discriminate.
      assert (EQP : p0 ++ d :: inside d ++ r = (k :: p) ++ r). { rewrite EP, <- app_assoc. auto. }
      rewrite EQP, (hleaf_app show res (k :: p) s2 _ r A2 NA). destruct r; cbn [hleaf]; rewrite (RES _ _ _ A2); auto.
  Qed.
End Entry.
