(** Properties C38 (an entry written to a NeXus file and read back) and C59 (a project saved and opened again). *)
From Coq Require Import Reals List String Ascii Bool Lia Lra.
From Verif Require Import Base PyStr M_Tavi P_Tavi M_Nexus P_Nexus L_NexusFile L_NexusLinks.
Import ListNotations.
Open Scope string_scope.
Open Scope list_scope.

(** * Specification *)
(** The plotted quantities an entry names. *)
Definition plots (e : list (string * val)) (d : string) : Prop :=
  leaf_at ["data"; "attrs"; "signal"] (Dict e) = Some (LStr d) \/ leaf_at ["data"; "attrs"; "axes"] (Dict e) = Some (LStr d).
Definition is_dataset (l : list (string * val)) : Prop := sget "dataset" l <> None.
(** What is called [d] is a dataset ("detector" stands for detector/data and "monitor" for monitor/monitor), not a group. *)
Definition names_datasets (e : list (string * val)) (d : string) : Prop :=
  (forall p l, follow (p ++ d :: inside d) (Dict e) = Some (Dict l) -> is_dataset l) /\ (forall l, follow ["data"; d] (Dict e) = Some (Dict l) -> is_dataset l).
(** An entry without a "data" group, or with one that names its signal and axes. *)
Definition plottable (e : list (string * val)) : Prop :=
  follow ["data"] (Dict e) = None \/
  (exists l, follow ["data"] (Dict e) = Some (Dict l) /\ ~ is_dataset l) /\
  (exists y, leaf_at ["data"; "attrs"; "signal"] (Dict e) = Some (LStr y)) /\ (exists x, leaf_at ["data"; "attrs"; "axes"] (Dict e) = Some (LStr x)) /\
  (forall d, plots e d -> names_datasets e d).
Definition conforming (e : list (string * val)) : Prop := writable (Dict e) /\ ~ is_dataset e /\ plottable e.
(** Where writing may change an entry: below data/<signal> and data/<axes>, and the attribute "target" of what has that name. *)
Definition touched (e : list (string * val)) (q : list string) : Prop :=
  exists d, plots e d /\ ((exists r, q = "data" :: d :: r) \/ (exists p, In d p /\ q = p ++ ["attrs"; "target"])).
(** A path outside the plot group, the logs and the attributes. *)
Definition field (p : list string) : Prop := ~ In "data" p /\ ~ In "SPICElogs" p /\ ~ In "attrs" p.
(** [v] has kept [e]. *)
Definition kept (e : list (string * val)) (v : val) : Prop := forall q, ~ touched e q -> leaf_at q v = leaf_at q (Dict e).
(** In [v], data/<d> shows one of the fields of [e] called [d]. *)
Definition shown (e : list (string * val)) (v : val) : Prop := forall d, plots e d -> forall p1, field (p1 ++ [d]) -> follow (p1 ++ [d]) (Dict e) <> None ->
  exists p0, follow (p0 ++ [d]) (Dict e) <> None /\
    forall l, follow (p0 ++ d :: inside d) (Dict e) = Some (Dict l) -> forall r, leaf_at ("data" :: d :: r) v = leaf_at (p0 ++ d :: inside d ++ r) v.

(** * Writing one entry *)
Definition find_loop (v : string) := fix find_loop (c : list (string * h5)) : option (list string) :=
  match c with
  | [] => None
  | (k, n') :: c' =>
      if String.eqb k "SPICElogs" || String.eqb k "data" then find_loop c'
      else if String.eqb v k then Some (k :: inside v)
      else match n' with
           | HGroup _ _ => match find_path v n' with Some p => Some (k :: p) | None => find_loop c' end
           | _ => find_loop c'
           end
  end.
Lemma find_group : forall v a c, find_path v (HGroup a c) = find_loop v c.
Proof. reflexivity. Qed.
Lemma find_complete : forall p1 v n, hok n -> at_path (p1 ++ [v]) n <> None -> field (p1 ++ [v]) -> find_path v n <> None.
Proof.
  induction p1 as [|k p1]; intros v n H A F; destruct n as [a c|a d|q]; try (cbn in A; exfalso; apply A; reflexivity); inversion H as [? ? N NA K| |]; subst; rewrite find_group.
  - cbn in A. destruct (sget v c) as [m|] eqn:G; [|exfalso; auto]. clear N NA K H A. destruct F as (F1 & F2 & _). cbn in F1, F2.
    induction c as [|[k' m'] c IH]; [discriminate|]. cbn [dget] in G. unfold find_loop; fold (find_loop v).
    destruct (String.eqb k' "SPICElogs" || String.eqb k' "data") eqn:Q.
    + apply IH. destruct (String.eqb v k') eqn:Q2; auto. apply String.eqb_eq in Q2. subst. apply orb_true_iff in Q. destruct Q as [Q|Q]; apply String.eqb_eq in Q; exfalso; auto.
    + destruct (String.eqb v k'); [discriminate|]. destruct m' as [a' c'| |]; auto. destruct (find_path v (HGroup a' c')); [discriminate|]. auto.
  - cbn [app at_path] in A. destruct (sget k c) as [m|] eqn:G; [|exfalso; auto]. cbn [app] in F. assert (F' : field (p1 ++ [v])). { destruct F as (F1 & F2 & F3). repeat split; intros I; [apply F1|apply F2|apply F3]; right; auto. }
    assert (HM : hok m) by (eapply K; eapply sget_in; eauto).
    specialize (IHp1 v m HM A F'). assert (GR : exists a' c', m = HGroup a' c'). { destruct m as [a' c'| |]; eauto; destruct p1; cbn in A; exfalso; apply A; auto. }
    destruct GR as (a' & c' & ->). destruct F as (F1 & F2 & _). clear N NA K H A.
    induction c as [|[k' m'] c IH]; [discriminate|]. cbn [dget] in G. unfold find_loop; fold (find_loop v). destruct (String.eqb k' "SPICElogs" || String.eqb k' "data") eqn:Q.
    + apply IH. destruct (String.eqb k k') eqn:Q2; auto. apply String.eqb_eq in Q2. subst. apply orb_true_iff in Q. destruct Q as [Q|Q]; apply String.eqb_eq in Q; subst; exfalso; [apply F2|apply F1]; left; auto.
    + destruct (String.eqb v k'); [discriminate|]. destruct (String.eqb k k') eqn:Q2.
      * injection G as ->. destruct (find_path v (HGroup a' c')); [discriminate|contradiction].
      * destruct m' as [a2 c2| |]; auto. destruct (find_path v (HGroup a2 c2)); [discriminate|]. auto.
Qed.

Section Entry.
  Context (e : list (string * val)) (name : list string) (CF : conforming e).

  Lemma fresh : exists s, (exists a c, s = HGroup a c /\ write_group (Dict e) ([], []) = Ok (a, c)) /\ hok s /\ shape (Dict e) s /\ (forall show res q, hleaf show res q s = leaf_at q (Dict e)).
  Proof.
    destruct CF as (W & ND & _). assert (ND' : sget "dataset" e = None). { unfold is_dataset in ND. destruct (sget "dataset" e); auto. exfalso. apply ND. discriminate. }
    assert (G : forall show res, exists a c, write_group (Dict e) ([], []) = Ok (a, c) /\ holds show res (Dict e) (HGroup a c)).
    { intros show res. destruct (write_spec show res _ W e eq_refl ND') as (a & c & WG & GW). exists a, c. split; auto.
      inversion W as [? ? ? ? D| ? N _ PA]; subst; [rewrite ND' in D; discriminate|]. apply group_holds; auto. }
    destruct (G (fun _ => "") (fun _ => None)) as (a & c & WG & _ & H & SH). exists (HGroup a c). split; [eauto|]. split; [auto|]. split; [auto|].
    intros show res q. destruct (G show res) as (a' & c' & WG' & (v & R & L) & _). rewrite WG in WG'. apply Ok_inj in WG'. injection WG' as <- <-.
    rewrite <- L. pose proof (read_hleaf show res q _ H) as RH. rewrite R in RH. auto.
  Qed.

  Section Links.
    Context (s0 : h5) (H0 : hok s0) (SH : shape (Dict e) s0) (L0 : forall show res q, hleaf show res q s0 = leaf_at q (Dict e)).
    Definition active (d : string) (p : list string) : Prop := find_path d s0 = Some p /\ at_path p s0 <> None.
    Lemma find_good : forall d p, find_path d s0 = Some p -> p <> [] /\ hd "" p <> "data" /\ ~ In "attrs" p /\ d <> "attrs" /\ exists p0, p = p0 ++ d :: inside d /\ follow (p0 ++ [d]) (Dict e) <> None.
    Proof.
      intros d p F. destruct (find_sound _ _ _ F H0) as (p0 & -> & A & NA & NDT). assert (X : d <> "attrs" /\ d <> "data").
      { split; intros ->; [apply NA|apply NDT]; apply in_app_iff; right; left; auto. } destruct X as [X1 X2].
      split. { destruct p0; discriminate. } split. { destruct p0; cbn; auto. intros E. subst. apply NDT. left. auto. } split.
      { intros I. apply in_app_iff in I. destruct I as [I|[I|I]]; [apply NA; apply in_app_iff; auto|auto|exact (inside_noattrs _ I)]. } split; auto.
      exists p0. split; auto. specialize (SH _ NA). intros E. rewrite E in SH. destruct (at_path (p0 ++ [d]) s0) as [[]|]; auto.
    Qed.
    Lemma active_data : forall d p, plots e d -> names_datasets e d -> active d p -> exists m, at_path p s0 = Some m /\ kind m = 1.
    Proof.
      intros d p PL [ND _] [F A]. destruct (at_path p s0) as [m|] eqn:AP; [|exfalso; auto]. exists m. split; auto.
      destruct (find_good _ _ F) as (_ & _ & NA & _ & p0 & -> & _). specialize (SH _ NA). rewrite AP in SH.
      destruct m as [a c|a x|q]; auto.
      - destruct (follow (p0 ++ d :: inside d) (Dict e)) as [[z|l]|] eqn:FO; [destruct SH| |destruct SH]. exfalso. apply (ND p0 _ FO). exact SH.
      - destruct SH.
    Qed.

    Lemma link_step : forall d da dc s, plots e d -> names_datasets e d -> hok s -> at_path ["data"] s = Some (HGroup da dc) ->
      (forall k r, k <> "data" -> option_map kind (at_path (k :: r) s) = option_map kind (at_path (k :: r) s0)) ->
      (forall m', sget d dc = Some m' -> is_data name s m' = true) ->
      exists s' dc', link1 name (LStr d) (path_for (LStr d) s0) s = Ok s' /\
        ((exists p, active d p /\ linked name d p da dc dc' s s') \/ ((forall p, ~ active d p) /\ s' = s /\ dc' = dc)).
    Proof.
      intros d da dc s PL ND H AD KD ISD. unfold link1, path_for. cbn [text]. destruct (find_path d s0) as [p|] eqn:F.
      2:{ exists s, dc. split; [reflexivity|]. right. split; auto. intros p [F' _]. congruence. }
      destruct (find_good _ _ F) as (PN & HP & NA & DA & _).
      assert (KP : option_map kind (at_path p s) = option_map kind (at_path p s0)) by (destruct p; [exfalso; auto|apply KD; auto]).
      destruct (at_path p s0) as [m0|] eqn:A0.
      - assert (AC : active d p) by (split; [auto|rewrite A0; discriminate]). destruct (active_data _ _ PL ND AC) as (m1 & A1 & K1). rewrite A0 in A1. injection A1 as <-.
        destruct (at_path p s) as [m|] eqn:A; [|discriminate]. cbn in KP. injection KP as KP.
        destruct (put_link_spec name d p da dc s m) as (s' & dc' & PLK & LK); auto. { rewrite KP, K1. discriminate. }
        exists s', dc'. split; auto. left. exists p. auto.
      - exists s, dc. unfold put_link. destruct (at_path p s); [discriminate|]. split; auto. right. split; auto. intros p' [F' A']. rewrite F in F'. injection F' as <-. auto.
    Qed.
  End Links.

  (** What is known of an entry's group once written. *)
  Definition entry_in (s : h5) : Prop := hok s /\ (exists a c, s = HGroup a c) /\
    (forall show res q, ~ touched e q -> hleaf show res q s = leaf_at q (Dict e)) /\
    (forall show res, (forall p a x, at_path p s = Some (HData a x) -> res (name ++ p) = Some (a, x)) ->
      forall d, plots e d -> forall p1, field (p1 ++ [d]) -> follow (p1 ++ [d]) (Dict e) <> None ->
      exists p0, follow (p0 ++ [d]) (Dict e) <> None /\
        forall l, follow (p0 ++ d :: inside d) (Dict e) = Some (Dict l) -> forall r, hleaf show res ("data" :: d :: r) s = hleaf show res (p0 ++ d :: inside d ++ r) s).

  Lemma entry_spec : exists s, write_entry name e (HGroup [] []) = Ok s /\ entry_in s.
  Proof.
    destruct fresh as (s0 & (a0 & c0 & -> & WG) & H0 & SH & L0). 
    pose proof (f_equal (fun r => do g <- r; make_links name (HGroup (fst g) (snd g))) WG) as EQ. change (write_entry name e (HGroup [] []) = make_links name (HGroup a0 c0)) in EQ.
    rewrite EQ. unfold make_links.
    set (s0 := HGroup a0 c0) in *. destruct CF as (W & ND & PLT).
    pose proof (SH ["data"]) as SD. destruct PLT as [NOD|((l & FD & NDS) & (y & SY) & (x & SX) & DS)].
    { rewrite NOD in SD. destruct (at_path ["data"] s0) as [n|]; [exfalso; destruct n; apply SD; intros [X|[]]; discriminate|].
      exists s0. split; auto. split; auto. split; [unfold s0; eauto|]. split; auto. intros show res _ d [P|P]; exfalso; unfold leaf_at in P; cbn in P, NOD; destruct (sget "data" e); discriminate. }
    rewrite FD in SD. destruct (at_path ["data"] s0) as [n|] eqn:AD; [|exfalso; apply SD; intros [X|[]]; discriminate].
    assert (GD : exists da dc, n = HGroup da dc).
    { destruct n as [da dc|da x0|q]; eauto; exfalso; [|apply SD; intros [X|[]]; discriminate]. apply NDS. apply SD. intros [X|[]]; discriminate. }
    destruct GD as (da & dc & ->). cbn [attrs_h5].
    assert (AT : forall k, sget k da = leaf_at ["data"; "attrs"; k] (Dict e)).
    { intros k. rewrite <- (L0 (fun _ => "") (fun _ => None)). rewrite (hleaf_app _ _ ["data"] s0 _ ["attrs"; k] AD); auto. intros [X|[]]; discriminate. }
    rewrite !AT, SY, SX. cbn zeta.
    assert (PY : plots e y) by (left; auto). assert (PX : plots e x) by (right; auto).
    assert (OLD : forall d, plots e d -> forall s m', sget d dc = Some m' -> is_data name s m' = true).
    { intros d PD s m' G. destruct (DS _ PD) as [_ D2]. assert (d <> "attrs").
      { intros ->. cbn in AD. destruct (sget "data" c0) as [z|] eqn:GZ; [|discriminate]. injection AD as ->. inversion H0 as [? ? _ _ K| |]; subst. pose proof (K _ _ (sget_in _ _ _ GZ)) as HZ. inversion HZ as [? ? _ NAZ _| |]; subst. apply NAZ. apply sget_in in G. apply (in_map fst) in G. auto. }
      assert (AP : at_path ["data"; d] s0 = Some m'). { change (at_path (["data"] ++ [d]) s0 = Some m'). rewrite at_app, AD. cbn. rewrite G. auto. }
      pose proof (SH ["data"; d]) as S2. rewrite AP in S2. destruct m' as [a' c'|a' x'|q']; auto; exfalso.
      - destruct (follow ["data"; d] (Dict e)) as [[|l']|] eqn:FF; try (apply S2; intros [X|[X|[]]]; [discriminate|auto]; fail). apply (D2 l' eq_refl). apply S2. intros [X|[X|[]]]; [discriminate|auto].
      - apply S2. intros [X|[X|[]]]; [discriminate|auto]. }
    destruct (link_step s0 H0 SH y da dc s0 PY (DS _ PY) H0 AD (fun _ _ _ => eq_refl) (OLD y PY s0)) as (s1 & dc1 & E1 & C1). rewrite E1. cbn [bind].
    assert (INV : hok s1 /\ at_path ["data"] s1 = Some (HGroup da dc1) /\ (forall k r, k <> "data" -> option_map kind (at_path (k :: r) s1) = option_map kind (at_path (k :: r) s0)) /\
      (forall m', sget x dc1 = Some m' -> is_data name s1 m' = true)).
    { destruct C1 as [(p & AC & LK)|(_ & -> & ->)].
      - split; [apply LK|]. split; [apply LK|]. split; [apply LK|]. intros m' G. destruct (string_dec x y) as [->|NE].
        + rewrite (lk_new _ _ _ _ _ _ _ _ LK) in G. injection G as <-. unfold is_data. rewrite strip_app.
          destruct (active_data s0 H0 SH y p PY (DS _ PY) AC) as (m & A & KM). destruct AC as [F _]. destruct (find_good s0 H0 SH _ _ F) as (PN & HP & _).
          destruct p as [|k p]; [exfalso; auto|]. pose proof (lk_kind _ _ _ _ _ _ _ _ LK k p HP) as KK. rewrite A in KK. cbn [option_map] in KK. rewrite KM in KK.
          destruct (at_path (k :: p) s1) as [[]|]; cbn in KK; try discriminate; auto.
        + rewrite (lk_old _ _ _ _ _ _ _ _ LK x NE) in G. apply (OLD x PX); auto.
      - repeat split; auto. apply (OLD x PX). }
    destruct INV as (H1 & AD1 & K1 & OLD1).
    destruct (link_step s0 H0 SH x da dc1 s1 PX (DS _ PX) H1 AD1 K1 OLD1) as (s2 & dc2 & E2 & C2). exists s2. split; auto.
    assert (HK : hok s2). { destruct C2 as [(p & _ & LK)|(_ & -> & _)]; [apply LK|auto]. }
    assert (AD2 : at_path ["data"] s2 = Some (HGroup da dc2)). { destruct C2 as [(p & _ & LK)|(_ & -> & ->)]; [apply LK|auto]. }
    assert (K2 : forall k r, k <> "data" -> option_map kind (at_path (k :: r) s2) = option_map kind (at_path (k :: r) s0)).
    { intros k r NK. rewrite <- K1 by auto. destruct C2 as [(p & _ & LK)|(_ & -> & _)]; auto. apply LK. auto. }
    split; auto. split. { destruct s2 as [a c| |]; [eauto|discriminate|discriminate]. } split.
    - intros show res q NT. rewrite <- (L0 show res).
      assert (ST : forall d p da dc dc' s s', plots e d -> active s0 d p -> linked name d p da dc dc' s s' -> hleaf show res q s' = hleaf show res q s).
      { intros d p da' dcc dcc' s s' PD AC LK. rewrite (lk_leaf _ _ _ _ _ _ _ _ LK). unfold path_eq. destruct (list_eq_dec string_dec q (p ++ ["attrs"; "target"])) as [->|_].
        - exfalso. apply NT. exists d. split; auto. right. exists p. split; auto. destruct AC as [F _]. destruct (find_good s0 H0 SH _ _ F) as (_ & _ & _ & _ & p0 & -> & _). apply in_app_iff. right. left. auto.
        - destruct (strip ["data"; d] q) as [r|] eqn:S; auto. apply strip_some in S. exfalso. apply NT. exists d. split; auto. left. exists r. auto. }
      transitivity (hleaf show res q s1).
      + destruct C2 as [(p & AC & LK)|(_ & -> & _)]; [exact (ST _ _ _ _ _ _ _ PX AC LK)|auto].
      + destruct C1 as [(p & AC & LK)|(_ & -> & _)]; [exact (ST _ _ _ _ _ _ _ PY AC LK)|auto].
    - intros show res RES d PD p1 FP FN.
      assert (AT1 : at_path (p1 ++ [d]) s0 <> None \/ at_path (p1 ++ [d]) s0 = None) by (destruct (at_path (p1 ++ [d]) s0); [left; discriminate|right; auto]).
      destruct (find_path d s0) as [p|] eqn:F.
      2:{ (* the field is a plain value, not an object of the file *)
          destruct AT1 as [A|A]. { exfalso. apply (find_complete _ _ _ H0 A FP F). }
          pose proof (SH (p1 ++ [d]) (proj2 (proj2 FP))) as SF. rewrite A in SF. destruct (follow (p1 ++ [d]) (Dict e)) as [[z|z]|] eqn:FF; [|destruct SF|exfalso; auto].
          exists p1. split. { rewrite FF. discriminate. } intros l1 FL. exfalso. unfold inside in FL. destruct (String.eqb d "detector"); [|destruct (String.eqb d "monitor")].
          - assert (E : follow (p1 ++ d :: ["data"]) (Dict e) = None). { replace (p1 ++ [d; "data"]) with ((p1 ++ [d]) ++ ["data"]) by (rewrite <- app_assoc; auto). clear - FF. revert FF. generalize (Dict e) (p1 ++ [d]). intros v q. revert v. induction q as [|k q]; intros v F; cbn in *. { injection F as ->. auto. } destruct (sget k (items v)); auto. } congruence.
          - assert (E : follow (p1 ++ d :: ["monitor"]) (Dict e) = None). { replace (p1 ++ [d; "monitor"]) with ((p1 ++ [d]) ++ ["monitor"]) by (rewrite <- app_assoc; auto). clear - FF. revert FF. generalize (Dict e) (p1 ++ [d]). intros v q. revert v. induction q as [|k q]; intros v F; cbn in *. { injection F as ->. auto. } destruct (sget k (items v)); auto. } congruence.
          - congruence. }
      destruct (find_good s0 H0 SH _ _ F) as (PN & HP & NA & DA & p0 & EP & FO). exists p0. split; auto. intros l1 FL r.
      assert (AC : active s0 d p). { split; auto. subst p. pose proof (SH _ NA) as SP. rewrite FL in SP. intros E. rewrite E in SP. auto. }
      destruct (active_data s0 H0 SH d p PD (DS _ PD) AC) as (m & A & KM).
      assert (NOTT : forall p' t, hd "" p' <> "data" -> p' <> [] -> path_eq ("data" :: d :: t) (p' ++ ["attrs"; "target"]) = false).
      { intros p' t HP' PN'. unfold path_eq. destruct (list_eq_dec string_dec _ _) as [E|]; auto. destruct p'; [exfalso; auto|]. cbn in E, HP'. congruence. }
      assert (LK2 : hleaf show res ("data" :: d :: r) s2 = hleaf show res r (HLink (name ++ p))).
      { assert (SELF : forall dx pz da' dc' dc'' sa sb, active s0 dx pz -> linked name dx pz da' dc' dc'' sa sb -> dx = d -> hleaf show res ("data" :: d :: r) sb = hleaf show res r (HLink (name ++ p))).
        { intros dx pz da' dc' dc'' sa sb [Fz _] LK ->. rewrite F in Fz. injection Fz as <-. rewrite (lk_leaf _ _ _ _ _ _ _ _ LK), NOTT by auto. cbn [strip]. rewrite !String.eqb_refl. auto. }
        assert (OTH : forall dx pz da' dc' dc'' sa sb, active s0 dx pz -> linked name dx pz da' dc' dc'' sa sb -> dx <> d -> hleaf show res ("data" :: d :: r) sb = hleaf show res ("data" :: d :: r) sa).
        { intros dx pz da' dc' dc'' sa sb [Fz _] LK NE. destruct (find_good s0 H0 SH _ _ Fz) as (PNz & HPz & _). rewrite (lk_leaf _ _ _ _ _ _ _ _ LK), NOTT by auto. cbn [strip].
          destruct (String.eqb dx d) eqn:Q; [apply String.eqb_eq in Q; contradiction|]. auto. }
        destruct (string_dec x d) as [XD|XD].
        - destruct C2 as [(pz & ACz & LK)|(NO & _)]; [exact (SELF _ _ _ _ _ _ _ ACz LK XD)|]. exfalso. apply (NO p). rewrite XD. exact AC.
        - assert (YD : y = d). { destruct PD as [PD|PD]; rewrite ?SY, ?SX in PD; injection PD as ->; auto. contradiction. }
          assert (S1 : hleaf show res ("data" :: d :: r) s1 = hleaf show res r (HLink (name ++ p))).
          { destruct C1 as [(pz & ACz & LK)|(NO & _)]; [exact (SELF _ _ _ _ _ _ _ ACz LK YD)|]. exfalso. apply (NO p). rewrite YD. exact AC. }
          destruct C2 as [(pz & ACz & LK)|(_ & -> & _)]; auto. rewrite (OTH _ _ _ _ _ _ _ ACz LK XD). auto. }
      rewrite LK2. destruct p as [|k p]; [exfalso; auto|]. pose proof (K2 k p HP) as KK. rewrite A in KK. cbn [option_map] in KK. rewrite KM in KK.
      destruct (at_path (k :: p) s2) as [[| |]|] eqn:A2; cbn in KK; try discriminate.
      assert (EQP : p0 ++ d :: inside d ++ r = (k :: p) ++ r). { rewrite EP, <- app_assoc. auto. }
      rewrite EQP, (hleaf_app show res (k :: p) s2 _ r A2 NA). destruct r; cbn [hleaf]; rewrite (RES _ _ _ A2); auto.
  Qed.
End Entry.

(** * C38 *)
(** An entry read from its group. *)
Lemma entry_read : forall e name s show root, entry_in e name s -> at_path name root = Some s ->
  exists v, read_node show (resolve_in root) s = Some v /\ kept e v /\ shown e v.
Proof.
  intros e name s show root (H & (a & c & ->) & K & S) A. eexists. split; [apply read_group|].
  assert (E : forall q v, read_node show (resolve_in root) (HGroup a c) = Some v -> leaf_at q v = hleaf show (resolve_in root) q (HGroup a c)).
  { intros q v R. rewrite <- read_hleaf by auto. rewrite R. auto. }
  rewrite read_group in E. split.
  - intros q NT. rewrite (E q _ eq_refl). auto.
  - intros d PD p1 F FN. destruct (S show (resolve_in root)) with (d := d) (p1 := p1) as (p0 & F0 & L); auto.
    { intros p a' x AP. unfold resolve_in. rewrite at_app, A, AP. auto. }
    exists p0. split; auto. intros l FL r. rewrite !(E _ _ eq_refl). eauto.
Qed.
Lemma read_members_all : forall show res c, read_members show res c = read_all show res c.
Proof. reflexivity. Qed.

(** C38: a conforming entry written to a new file under a plain name and read back: reading gives this one entry; every dataset and attribute
    is as it was, except for the plot links, which show the plotted fields. *)
Theorem C38_round_trip : forall show name e stamp, conforming e ->
  exists root v, to_nexus [name] e stamp (HGroup [] []) = Ok root /\ from_nexus show root [] None = Ok [(name, v)] /\ kept e v /\ shown e v.
Proof.
  intros show name e stamp CF. destruct (entry_spec e [name] CF) as (s & W & EI).
  set (root := HGroup (dupdate String.eqb [] stamp) [(name, s)]).
  assert (A : at_path [name] root = Some s). { unfold root. cbn. rewrite String.eqb_refl. auto. }
  destruct (entry_read e [name] s show root EI A) as (v & R & K & S). exists root, v.
  split. { unfold to_nexus. cbn [in_group dget]. rewrite W. reflexivity. }
  split; auto. unfold from_nexus. cbn [at_path root]. rewrite read_members_all. cbn [read_all]. rewrite R. auto.
Qed.
Print Assumptions C38_round_trip.

(** Without a "data" group nothing at all is changed. *)
Theorem C38_round_trip_exact : forall show name e stamp, conforming e -> follow ["data"] (Dict e) = None ->
  exists root v, to_nexus [name] e stamp (HGroup [] []) = Ok root /\ from_nexus show root [] None = Ok [(name, v)] /\ forall q, leaf_at q v = leaf_at q (Dict e).
Proof.
  intros show name e stamp CF ND. destruct (C38_round_trip show name e stamp CF) as (root & v & W & R & K & _). exists root, v. split; auto. split; auto.
  intros q. apply K. intros (d & [P|P] & _); unfold leaf_at in P; cbn in P, ND; destruct (sget "data" e); discriminate.
Qed.
Print Assumptions C38_round_trip_exact.

(** Writing an entry leaves everything filed under other names as it is, in any file. *)
Lemma in_group_other : forall f k p n n' k', in_group (k :: p) f n = Ok n' -> k' <> k -> forall q, at_path (k' :: q) n' = at_path (k' :: q) n.
Proof.
  intros f k p n n' k' E NE q. cbn [in_group] in E. destruct n as [a c| |]; try discriminate. destruct (in_group p f _) as [m|]; [|discriminate]. cbn [bind] in E. apply Ok_inj in E. subst n'.
  cbn. rewrite sget_sset. destruct (String.eqb k' k) eqn:Q; auto. apply String.eqb_eq in Q. contradiction.
Qed.
Theorem C38_other_entries_kept : forall name e stamp root root' other q, to_nexus [name] e stamp root = Ok root' -> other <> name ->
  at_path (other :: q) root' = at_path (other :: q) root.
Proof.
  intros name e stamp root root' other q E NE. unfold to_nexus in E. destruct (in_group [name] _ root) as [r|] eqn:G; [|discriminate]. cbn [bind] in E.
  rewrite <- (in_group_other _ _ _ _ _ _ G NE). destruct r as [a c| |]; try discriminate. apply Ok_inj in E. subst. reflexivity.
Qed.
Print Assumptions C38_other_entries_kept.

(** ** What does not hold *)
(** An array of strings (the builder stores user names so) comes back as one string. *)
Theorem C38_string_arrays_refuted : exists e root v, to_nexus ["scan0001"] e [] (HGroup [] []) = Ok root /\
  (forall show, from_nexus show root [] None = Ok [("scan0001", v show)]) /\ leaf_at ["name"; "dataset"] (Dict e) = Some (LStrs ["A"; "B"]) /\
  forall show, leaf_at ["name"; "dataset"] (v show) = Some (LStr (show ["A"; "B"])).
Proof.
  exists [("name", Dict [("attrs", Dict [("type", Leaf (LStr "NX_CHAR"))]); ("dataset", Leaf (LStrs ["A"; "B"]))])].
  exists (HGroup [] [("scan0001", HGroup [] [("name", HData [("type", LStr "NX_CHAR")] (LStrs ["A"; "B"]))])]).
  exists (fun show => Dict [("attrs", Dict []); ("name", Dict [("attrs", Dict [("type", Leaf (LStr "NX_CHAR"))]); ("dataset", Leaf (LStr (show ["A"; "B"])))])]).
  repeat split.
Qed.
Print Assumptions C38_string_arrays_refuted.
(** Reading one scan by its number loses the entry's own attributes, which reading all scans keeps. *)
Theorem C38_scan_num_refuted : exists e root, conforming e /\ to_nexus ["scan0001"] e [] (HGroup [] []) = Ok root /\
  leaf_at ["attrs"; "dataset_name"] (Dict e) = Some (LStr "exp1") /\
  forall show v, from_nexus show root [] (Some 1%Z) = Ok [("scan0001", v)] -> leaf_at ["attrs"; "dataset_name"] v = None.
Proof.
  exists [("attrs", Dict [("dataset_name", Leaf (LStr "exp1"))])], (HGroup [] [("scan0001", HGroup [("dataset_name", LStr "exp1")] [])]).
  split. { split; [|split].
    - apply W_group; cbn; auto. + constructor; auto. constructor. + split. { constructor; auto. constructor. } intros k v [[= <- <-]|[]]. eexists. split; [reflexivity|discriminate]. + intros k v [[= <- <-]|[]] N. exfalso. auto.
    - unfold is_dataset. cbn. auto. - left. reflexivity. }
  split; auto. split; auto. intros show v E. vm_compute in E. injection E as <-. reflexivity.
Qed.
Print Assumptions C38_scan_num_refuted.
(** An entry written over an older one of the same name keeps the older one's fields that the new one does not have. *)
Theorem C38_overwrite_refuted : exists e1 e2 r1 r2, conforming e1 /\ conforming e2 /\ to_nexus ["scan0001"] e1 [] (HGroup [] []) = Ok r1 /\ to_nexus ["scan0001"] e2 [] r1 = Ok r2 /\
  leaf_at ["a"; "dataset"] (Dict e2) = None /\ forall show v, from_nexus show r2 [] None = Ok [("scan0001", v)] -> leaf_at ["a"; "dataset"] v = Some (LStr "old").
Proof.
  exists [("a", Dict [("dataset", Leaf (LStr "old"))])], [("b", Dict [("dataset", Leaf (LStr "new"))])],
    (HGroup [] [("scan0001", HGroup [] [("a", HData [] (LStr "old"))])]), (HGroup [] [("scan0001", HGroup [] [("a", HData [] (LStr "old")); ("b", HData [] (LStr "new"))])]).
  assert (C : forall k s, k <> "dataset" -> k <> "data" -> k <> "attrs" -> conforming [(k, Dict [("dataset", Leaf (LStr s))])]).
  { intros k s N1 N2 N3. assert (Q : forall t, k <> t -> String.eqb t k = false). { intros t NT. apply String.eqb_neq. auto. } split; [|split].
    - apply W_group; cbn [dget]; rewrite ?Q by auto; cbn; auto. + constructor; auto. constructor. + intros k' v [[= <- <-]|[]] _. apply W_dataset with (x := LStr s); cbn; auto.
      * constructor; auto. constructor. * intros k' v [[= <- <-]|[]]. auto. * unfold well_typed. cbn. split; discriminate.
    - unfold is_dataset. cbn [dget]. rewrite Q by auto. auto.
    - left. cbn [follow items dget]. rewrite Q by auto. auto. }
  split. { apply C; discriminate. } split. { apply C; discriminate. } split; auto. split; auto. split; auto. intros show v E. vm_compute in E. injection E as <-. reflexivity.
Qed.
Print Assumptions C38_overwrite_refuted.
(** Plain values outside "attrs" and "dataset" are not written. *)
Theorem C38_plain_values_refuted : exists e root v, to_nexus ["scan0001"] e [] (HGroup [] []) = Ok root /\ (forall show, from_nexus show root [] None = Ok [("scan0001", v)]) /\
  leaf_at ["x"] (Dict e) = Some (LNum 1) /\ leaf_at ["x"] v = None.
Proof. exists [("x", Leaf (LNum 1))], (HGroup [] [("scan0001", HGroup [] [])]), (Dict [("attrs", Dict [])]). repeat split. Qed.
Print Assumptions C38_plain_values_refuted.

(** A non-trivial conforming entry: an instrument with a detector, a monitor, a sample with a motor, and the plot group. *)
Definition sample_entry : list (string * val) :=
  [ ("attrs", Dict [("NX_class", Leaf (LStr "NXentry")); ("dataset_name", Leaf (LStr "IPTS1"))]);
    ("instrument", Dict [("attrs", Dict [("NX_class", Leaf (LStr "NXinstrument"))]);
      ("detector", Dict [("data", Dict [("attrs", Dict [("type", Leaf (LStr "NX_INT"))]); ("dataset", Leaf (LArr (map IZR [1%Z; 2%Z])))])])]);
    ("sample", Dict [("s1", Dict [("attrs", Dict [("type", Leaf (LStr "NX_FLOAT")); ("units", Leaf (LStr "degrees"))]); ("dataset", Leaf (LArr [0.5%R; 1%R]))])]);
    ("data", Dict [("attrs", Dict [("signal", Leaf (LStr "detector")); ("axes", Leaf (LStr "s1"))])]) ].
Ltac nodup := cbn; repeat (constructor; [cbn; intuition discriminate|]); constructor.
Ltac each := let I := fresh "I" in intros ? ? I; cbn in I; repeat (destruct I as [I|I]; [injection I as <- <-|]); try destruct I; intros; try contradiction; try (eexists; split; [reflexivity|discriminate]); eauto.
Ltac step F := match type of F with follow (?p ++ ?r) _ = _ => let k := fresh "k" in destruct p as [|k p]; cbn [app follow items dget] in F end.
Example C38_example : conforming sample_entry.
Proof.
  assert (DD : writable (Dict [("attrs", Dict [("type", Leaf (LStr "NX_INT"))]); ("dataset", Leaf (LArr (map IZR [1%Z; 2%Z])))])).
  { apply W_dataset with (x := LArr (map IZR [1%Z; 2%Z])); auto; [nodup|each|split; [nodup|each]|right; eauto]. }
  assert (DS : writable (Dict [("attrs", Dict [("type", Leaf (LStr "NX_FLOAT")); ("units", Leaf (LStr "degrees"))]); ("dataset", Leaf (LArr [0.5%R; 1%R]))])).
  { apply W_dataset with (x := LArr [0.5%R; 1%R]); auto; [nodup|each|split; [nodup|each]|right; eauto]. }
  split; [|split].
  - apply W_group; auto; [nodup|split; [nodup|each]|each].
    + apply W_group; auto; [nodup|split; [nodup|each]|each]. apply W_group; cbn; auto; [nodup|each].
    + apply W_group; cbn; auto; [nodup|each].
    + apply W_group; auto; [nodup|split; [nodup|each]|each].
  - unfold is_dataset. cbn. auto.
  - right. split. { eexists. split; [reflexivity|]. unfold is_dataset. cbn. auto. } split. { eexists. reflexivity. } split. { eexists. reflexivity. }
    assert (NP : forall d, d = "detector" \/ d = "s1" -> names_datasets sample_entry d).
    { intros d PD. split.
      2:{ intros l F. exfalso. destruct PD as [-> | ->]; cbn in F; discriminate. }
      intros p l F. unfold is_dataset. intros NL.
      destruct PD as [-> | ->]; cbn [inside] in F; unfold sample_entry in F;
      repeat (step F; [cbn in F; try discriminate; injection F as <-; cbn in NL; discriminate| repeat (match type of F with context [String.eqb ?a ?b] => destruct (String.eqb a b) eqn:?E end); try discriminate]);
      destruct p as [|? [|? p]]; cbn in F; discriminate. }
    intros d [P|P]; apply NP; injection P as <-; auto.
Qed.

(** * C59: saving a project and opening the file *)
Definition well_formed (d : project) : Prop :=
  NoDup (map fst d) /\ forall exp l, In (exp, l) d -> NoDup (map fst l) /\ forall n e, In (n, e) l -> conforming e.
(** [d'] has the experiments of [d] in their order, each with its scans in their order, and every scan has kept its contents. *)
Definition same_project (d : project) (d' : dict string (list (string * val))) : Prop :=
  Forall2 (fun x y => fst x = fst y /\ Forall2 (fun s t => fst s = fst t /\ kept (snd s) (snd t) /\ shown (snd s) (snd t)) (snd x) (snd y)) d d'.

Lemma sset_last : forall {A} k (v w : A) d, ~ In k (map fst d) -> sset k v (d ++ [(k, w)]) = d ++ [(k, v)].
Proof. induction d as [|[a b] d]; intros N; cbn in *. { rewrite String.eqb_refl. auto. } destruct (String.eqb k a) eqn:Q. { apply String.eqb_eq in Q. exfalso. auto. } f_equal. auto. Qed.
Lemma sget_last : forall {A} k (w : A) d, ~ In k (map fst d) -> sget k (d ++ [(k, w)]) = Some w.
Proof. intros. rewrite sget_app, in_none by auto. cbn. rewrite String.eqb_refl. auto. Qed.
Definition file_of (a : dict string leaf) (X : list (string * h5)) : h5 := HGroup a [("data", HGroup [] X)].
Definition scans_in (exp : string) (l : dict string (list (string * val))) (S : list (string * h5)) : Prop :=
  Forall2 (fun ne ns => fst ne = fst ns /\ entry_in (snd ne) ["data"; exp; fst ne] (snd ns)) l S.
Lemma save_scans_spec : forall stamp exp E0 l, ~ In exp (map fst E0) -> NoDup (map fst l) -> (forall n e, In (n, e) l -> conforming e) ->
  forall S a, (forall n, In n (map fst S) -> ~ In n (map fst l)) ->
  exists S' a', save_scans true exp l stamp (file_of a (E0 ++ [(exp, HGroup [] S)])) = Ok (file_of a' (E0 ++ [(exp, HGroup [] (S ++ S'))])) /\ scans_in exp l S'.
Proof.
  intros stamp exp E0 l NE. induction l as [|[n e] l IH]; intros N CF S a D; cbn [save_scans].
  { exists [], a. rewrite app_nil_r. split; auto. constructor. }
  cbn in N. inversion N as [|? ? NN N']; subst. destruct (entry_spec e ["data"; exp; n] (CF n e (or_introl eq_refl))) as (s & W & EI).
  assert (NS : ~ In n (map fst S)). { intros I. apply (D n I). left. auto. }
  assert (T : to_nexus ["data"; exp; n] e stamp (file_of a (E0 ++ [(exp, HGroup [] S)])) = Ok (file_of (dupdate String.eqb a stamp) (E0 ++ [(exp, HGroup [] (S ++ [(n, s)]))]))).
  { unfold to_nexus, file_of. cbn [in_group]. cbn [dget]. cbn [in_group]. change (String.eqb "data" "data") with true. cbv iota. rewrite sget_last by auto. cbn [in_group]. rewrite in_none by auto. rewrite W. cbn [bind].
    rewrite (sset_fresh n s S) by auto. rewrite (sset_last exp) by auto. reflexivity. }
  rewrite T. cbn [bind]. destruct (IH N') with (S := S ++ [(n, s)]) (a := dupdate String.eqb a stamp) as (S' & a' & E & F).
  { intros; eapply CF; right; eauto. }
  { intros k I J. rewrite map_app, in_app_iff in I. cbn in I. destruct I as [I|[<-|[]]]; [|contradiction]. apply (D k I). right. auto. }
  exists ((n, s) :: S'), a'. rewrite E, <- app_assoc. split; auto. constructor; auto.
Qed.
Definition exps_in (d : project) (X : list (string * h5)) : Prop :=
  Forall2 (fun el ex => fst el = fst ex /\ exists S, snd ex = HGroup [] S /\ scans_in (fst el) (snd el) S) d X.
Lemma save_exps_spec : forall stamp d, well_formed d -> forall E0 a, (forall x, In x (map fst E0) -> ~ In x (map fst d)) ->
  exists X a', save_exps true d stamp (file_of a E0) = Ok (file_of a' (E0 ++ X)) /\ exps_in d X.
Proof.
  intros stamp d. induction d as [|[exp l] d IH]; intros [N W] E0 a D; cbn [save_exps].
  { exists [], a. rewrite app_nil_r. split; auto. constructor. }
  cbn in N. inversion N as [|? ? NN N']; subst. assert (NE : ~ In exp (map fst E0)). { intros I. apply (D exp I). left. auto. }
  assert (G : in_group ["data"; exp] empty_group (file_of a E0) = Ok (file_of a (E0 ++ [(exp, HGroup [] [])]))).
  { unfold file_of. cbn [in_group]. cbn [dget]. cbn [in_group]. change (String.eqb "data" "data") with true. cbv iota. rewrite in_none by auto. cbn [empty_group bind]. rewrite (sset_fresh exp) by auto. reflexivity. }
  rewrite G. cbn [bind]. destruct (W exp l (or_introl eq_refl)) as [NL CL].
  destruct (save_scans_spec stamp exp E0 l NE NL CL [] a) as (S & a1 & E1 & F1). { intros n []. } rewrite E1. cbn [bind app].
  destruct (IH) with (E0 := E0 ++ [(exp, HGroup [] S)]) (a := a1) as (X & a' & E & F).
  { split; auto. intros; eapply W; right; eauto. }
  { intros k I J. rewrite map_app, in_app_iff in I. cbn in I. destruct I as [I|[<-|[]]]; [|contradiction]. apply (D k I). right. auto. }
  exists ((exp, HGroup [] S) :: X), a'. cbn [app] in E. rewrite E, <- app_assoc. split; auto. constructor; auto. cbn. split; auto. exists S. auto.
Qed.

(** C59: a project whose scans conform, saved to a given path and opened again. *)
Theorem C59_save_open : forall show stamp d, well_formed d ->
  exists root d', save true d stamp = Ok root /\ open_file show root = Ok d' /\ same_project d d'.
Proof.
  intros show stamp d WF. destruct (save_exps_spec stamp d WF [] []) as (X & a & E & F). { intros x []. } cbn [app] in E.
  unfold save. change (HGroup [] [("data", HGroup [] [])]) with (file_of [] []). rewrite E. cbn [bind file_of].
  set (root := HGroup a _). exists root.
  assert (AD : at_path ["data"] root = Some (HGroup [] X)) by reflexivity.
  assert (OP : forall d1 X1, exps_in d1 X1 -> (forall x, In x X1 -> In x X) -> NoDup (map fst d) ->
    exists d', open_exps show root (map fst X1) = Ok d' /\ same_project d1 d').
  { intros d1 X1 F1. induction F1 as [|[exp l] [exp' ex] d1 X1 [EQ (S & ES & SI)] F1 IH]; intros SUB ND; cbn [map fst snd open_exps] in *.
    { exists []. split; auto. constructor. }
    subst exp' ex. assert (NX : NoDup (map fst X)). { clear - F ND. assert (map fst X = map fst d); [|congruence]. induction F as [|x y d X [Q _] F IH]; cbn in *; auto. inversion ND; subst. rewrite IH by auto. congruence. }
    assert (AE : at_path ["data"; exp] root = Some (HGroup [] S)).
    { change (at_path (["data"] ++ [exp]) root = Some (HGroup [] S)). rewrite at_app, AD. cbn [at_path]. rewrite (in_sget exp X (HGroup [] S) NX); [auto|]. apply SUB. left. auto. }
    unfold from_nexus. rewrite AE. cbn [bind].
    destruct IH as (d' & OE & SP); auto. { intros; apply SUB; right; auto. } rewrite OE. cbn [bind]. eexists. split; [reflexivity|]. constructor; auto. cbn [fst snd]. split; auto.
    rewrite read_members_all.
    assert (NS : NoDup (map fst S)).
    { assert (K : map fst S = map fst l). { clear - SI. induction SI as [|x y l S [Q _] F IH]; cbn in *; auto. congruence. } rewrite K.
      destruct WF as [_ W]. assert (I : exists l0, In (exp, l0) d /\ map fst l0 = map fst l).
      { assert (IX : In (exp, HGroup [] S) X) by (apply SUB; left; auto). clear - F IX K. induction F as [|[x lx] [y sy] d X [Q (S' & ES' & SI')] F IH]; [destruct IX|]. cbn [fst snd] in *. destruct IX as [IX|IX].
        - injection IX as -> ->. injection ES' as <-. exists lx. split; [left; subst; auto|]. rewrite <- K. clear - SI'. induction SI' as [|x0 y0 l1 S1 [Q _] F0 IH0]; cbn in *; auto. congruence.
        - destruct (IH IX) as (l0 & I0 & E0). exists l0. split; auto. right. auto. }
      destruct I as (l0 & I0 & <-). apply (W exp l0 I0). }
    assert (RD : forall l1 S1, scans_in exp l1 S1 -> (forall x, In x S1 -> In x S) ->
      Forall2 (fun s t => fst s = fst t /\ kept (snd s) (snd t) /\ shown (snd s) (snd t)) l1 (read_all show (resolve_in root) S1)).
    { intros l1 S1 SI1. induction SI1 as [|[n e] [n' s] l1 S1 [EN EI] SI1 IH1]; intros SUB1; cbn [read_all]; [constructor|]. cbn [fst snd] in EN, EI. subst n'.
      assert (AS : at_path ["data"; exp; n] root = Some s).
      { change (at_path (["data"; exp] ++ [n]) root = Some s). rewrite at_app, AE. cbn [at_path]. rewrite (in_sget n S s NS); [auto|]. apply SUB1. left. auto. }
      destruct (entry_read e _ s show root EI AS) as (v & R & K & SHN). rewrite R. constructor; auto. apply IH1. intros; apply SUB1; right; auto. }
    apply RD; auto. }
  destruct (OP d X F) as (d' & O & SP); auto. { destruct WF; auto. }
  exists d'. split; auto.
Qed.
Print Assumptions C59_save_open.

(** Saving without a path, which the signature allows, raises TypeError as soon as there is a scan. *)
Theorem C59_default_path_refuted : forall stamp exp n e l d, save false ((exp, (n, e) :: l) :: d) stamp = Err TypeError.
Proof. intros. reflexivity. Qed.
Print Assumptions C59_default_path_refuted.

Example C59_example : well_formed [("IPTS1", [("scan0001", sample_entry); ("scan0002", sample_entry)]); ("IPTS2", [("scan0001", sample_entry)])].
Proof.
  split; [nodup|]. intros exp l I. cbn in I. destruct I as [I|[I|[]]]; injection I as <- <-; (split; [nodup|]); intros n e I; cbn in I.
  - destruct I as [I|[I|[]]]; injection I as <- <-; exact C38_example.
  - destruct I as [I|[]]; injection I as <- <-; exact C38_example.
Qed.
