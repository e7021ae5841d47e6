(** C81: which instruments a resolution calculation accepts. *)
From Coq Require Import Reals Lra List Arith Bool String.
From Verif Require Import Base LinAlg M_Utilities M_Lattice M_UB M_Sample M_Goni M_Tas M_Components M_Mat M_Labels M_Ellipsoid M_Reso S_Reso P_Frames P_Tilt.
Import ListNotations.
Open Scope string_scope.
Open Scope list_scope.
Open Scope R_scope.

(** * What is checked *)
(** The attribute is not a negative number (other things than numbers are let through) *)
Definition no_negative (c : attrs) (k : string) : Prop :=
  exists a, dget String.eqb k c = Some a /\ a <> ANone /\ forall x, a = ANum x -> 0 <= x.
(** The attribute is a number that is not negative, or a truth value, which Python counts as a number *)
Definition nonnegative (c : attrs) (k : string) : Prop :=
  (exists x, dget String.eqb k c = Some (ANum x) /\ 0 <= x) \/ exists b, dget String.eqb k c = Some (ABool b).
Definition has_sense (c : attrs) : Prop := dget String.eqb "sense" c = Some (AStr "+") \/ dget String.eqb "sense" c = Some (AStr "-").
Definition slits : list string := ["h_pre_mono"; "h_pre_sample"; "h_post_sample"; "h_post_ana"; "v_pre_mono"; "v_pre_sample"; "v_post_sample"; "v_post_ana"].
Definition usable (t : tas) (ps : parts) : Prop :=
  (exists c, dget String.eqb "monochromator" ps = Some c /\ no_negative c "mosaic_h" /\ no_negative c "mosaic_v" /\ has_sense c) /\
  (exists c, dget String.eqb "analyzer" ps = Some c /\ no_negative c "mosaic_h" /\ no_negative c "mosaic_v" /\ has_sense c) /\
  (exists c, dget String.eqb "collimators" ps = Some c /\ forall k, In k slits -> nonnegative c k) /\
  (g_sense (t_goni t) = Some "+" \/ g_sense (t_goni t) = Some "-").

Definition unit_ok (r : result unit) : Prop := r = Ok tt.
Lemma then_ok : forall (r s : result unit), (do _ <- r; s) = Ok tt <-> r = Ok tt /\ s = Ok tt.
Proof. intros [[]|e] s; cbn [bind]; split; [auto|intros []; auto|discriminate|intros [X _]; discriminate]. Qed.
Lemma positive_attr_ok : forall k c, positive_attr k c = Ok tt <-> no_negative c k.
Proof.
  intros k c. unfold positive_attr, aget, no_negative. destruct (dget String.eqb k c) as [a|].
  - destruct a as [x|x|b| |l]; cbn [require_positive].
    + destruct (Rlt_dec x 0) as [L|L]; split; try discriminate; try (intros _; exists (ANum x)).
      * intros (a & [= <-] & _ & H). specialize (H x eq_refl). lra.
      * split; [auto|]. split; [discriminate|]. intros y [= <-]. lra.
      * auto.
    + split; auto. intros _. eexists. split; [reflexivity|]. split; discriminate.
    + split; auto. intros _. eexists. split; [reflexivity|]. split; discriminate.
    + split; [discriminate|]. intros (a & [= <-] & N & _). congruence.
    + split; auto. intros _. eexists. split; [reflexivity|]. split; discriminate.
  - split; [discriminate|]. intros (a & X & _). discriminate.
Qed.
Lemma check_sense_ok : forall c, check_sense c = Ok tt <-> has_sense c.
Proof.
  intros c. unfold check_sense, aget, has_sense. destruct (dget String.eqb "sense" c) as [[x|x|b| |l]|]; try (split; [discriminate|intros [X|X]; discriminate]).
  destruct (String.eqb_spec x "+") as [->|N]; [split; auto|]. destruct (String.eqb_spec x "-") as [->|N']; [split; auto|]. cbn. split; [discriminate|]. intros [[= X]|[= X]]; congruence.
Qed.
Lemma none_negative_ok : forall ks c, none_negative ks c = Ok tt <-> forall k, In k ks -> nonnegative c k.
Proof.
  intros ks c. unfold nonnegative. induction ks as [|k ks IH]; cbn [none_negative].
  - split; auto. intros _ k [].
  - unfold aget. destruct (dget String.eqb k c) as [[x|x|b| |l]|] eqn:E;
      try (split; [discriminate|]; intros H; destruct (H k (or_introl eq_refl)) as [(y & X & _)|(b & X)]; congruence).
    + destruct (Rlt_dec x 0) as [L|L].
      * split; [discriminate|]. intros H. destruct (H k (or_introl eq_refl)) as [(y & X & P)|(b & X)]; [|congruence]. rewrite E in X. injection X as <-. lra.
      * rewrite IH. split.
        { intros H k' [<-|I]; auto. left. exists x. split; auto. lra. }
        { intros H k' I. apply H. right. auto. }
    + rewrite IH. split.
      { intros H k' [<-|I]; eauto. }
      { intros H k' I. apply H. right. auto. }
Qed.
Lemma positive_list_ok : forall ks c, positive_list ks c = Ok tt <-> forall k, In k ks -> nonnegative c k.
Proof.
  intros ks c. rewrite <- none_negative_ok. unfold positive_list. destruct (existsb _ ks) eqn:E; [|tauto]. split; [discriminate|]. intros H. rewrite none_negative_ok in H.
  apply existsb_exists in E as (k & I & E). unfold aget in E. destruct (H k I) as [(x & X & _)|(b & X)]; rewrite X in E; discriminate.
Qed.

(** * Theorems *)
(** Exactly the usable instruments are accepted *)
Theorem C81_accepts : forall t ps, validate_instrument_parameters t ps = Ok tt <-> usable t ps.
Proof.
  intros t ps. unfold validate_instrument_parameters, part, usable.
  destruct (dget String.eqb "monochromator" ps) as [mono|]; cbn [bind].
  2: { split; [discriminate|]. intros ((c & X & _) & _). discriminate. }
  rewrite !then_ok. rewrite !positive_attr_ok, check_sense_ok.
  destruct (dget String.eqb "analyzer" ps) as [ana|]; cbn [bind].
  2: { split; [intros (_ & _ & _ & X); discriminate|]. intros (_ & (c & X & _) & _). discriminate. }
  rewrite !then_ok. rewrite !positive_attr_ok, check_sense_ok.
  destruct (dget String.eqb "collimators" ps) as [coll|]; cbn [bind].
  2: { split; [intros (_ & _ & _ & _ & _ & _ & X); discriminate|]. intros (_ & _ & (c & X & _) & _). discriminate. }
  rewrite !then_ok. rewrite !positive_list_ok.
  assert (G : check_goni_sense (t_goni t) = Ok tt <-> g_sense (t_goni t) = Some "+" \/ g_sense (t_goni t) = Some "-").
  { unfold check_goni_sense. destruct (g_sense (t_goni t)) as [s|]; [|split; [discriminate|intros [X|X]; discriminate]].
    destruct (String.eqb_spec s "+") as [->|N]; [split; auto|]. destruct (String.eqb_spec s "-") as [->|N']; [split; auto|]. cbn. split; [discriminate|]. intros [[= X]|[= X]]; congruence. }
  rewrite G. split.
  - intros (A1 & A2 & A3 & B1 & B2 & B3 & C1 & C2 & D). split; [eauto 6|]. split; [eauto 6|]. split; auto. exists coll. split; auto.
    intros k I. change slits with (["h_pre_mono"; "h_pre_sample"; "h_post_sample"; "h_post_ana"] ++ ["v_pre_mono"; "v_pre_sample"; "v_post_sample"; "v_post_ana"]) in I. apply in_app_iff in I as [I|I]; auto.
  - intros ((c1 & [= <-] & A1 & A2 & A3) & (c2 & [= <-] & B1 & B2 & B3) & (c3 & [= <-] & C) & D). repeat (split; [assumption|]).
    split; [|split; auto]; intros k I; apply C; change slits with (["h_pre_mono"; "h_pre_sample"; "h_post_sample"; "h_post_ana"] ++ ["v_pre_mono"; "v_pre_sample"; "v_post_sample"; "v_post_ana"]); apply in_app_iff; auto.
Qed.
Print Assumptions C81_accepts.

(** * Why an instrument is refused *)
Definition crystal_of (ps : parts) (n : string) (c : attrs) : Prop := (n = "monochromator" \/ n = "analyzer") /\ dget String.eqb n ps = Some c.
(** something is missing *)
Definition missing (t : tas) (ps : parts) : Prop :=
  (exists n, In n ["monochromator"; "analyzer"; "collimators"] /\ dget String.eqb n ps = None) \/
  (exists n c k, crystal_of ps n c /\ In k ["mosaic_h"; "mosaic_v"; "sense"] /\ (dget String.eqb k c = None \/ dget String.eqb k c = Some ANone)) \/
  (exists c k, dget String.eqb "collimators" ps = Some c /\ In k slits /\ dget String.eqb k c = None) \/
  g_sense (t_goni t) = None.
(** a number is negative or a sense is neither of the two *)
Definition wrong (t : tas) (ps : parts) : Prop :=
  (exists n c k x, crystal_of ps n c /\ In k ["mosaic_h"; "mosaic_v"] /\ dget String.eqb k c = Some (ANum x) /\ x < 0) \/
  (exists n c a, crystal_of ps n c /\ dget String.eqb "sense" c = Some a /\ a <> ANone /\ a <> AStr "+" /\ a <> AStr "-") \/
  (exists c k x, dget String.eqb "collimators" ps = Some c /\ In k slits /\ dget String.eqb k c = Some (ANum x) /\ x < 0) \/
  (exists s, g_sense (t_goni t) = Some s /\ s <> "+" /\ s <> "-").
(** a divergence is not a number *)
Definition not_a_number (ps : parts) : Prop :=
  exists c k a, dget String.eqb "collimators" ps = Some c /\ In k slits /\ dget String.eqb k c = Some a /\ (forall x, a <> ANum x) /\ (forall b, a <> ABool b).

Lemma positive_attr_err : forall k c e, positive_attr k c = Err e ->
  (e = AttributeError /\ (dget String.eqb k c = None \/ dget String.eqb k c = Some ANone)) \/ (e = ValueError /\ exists x, dget String.eqb k c = Some (ANum x) /\ x < 0).
Proof.
  intros k c e. unfold positive_attr, aget. destruct (dget String.eqb k c) as [[x|x|b| |l]|]; cbn [require_positive]; try discriminate; try (intros [= <-]; auto).
  destruct (Rlt_dec x 0); [|discriminate]. intros [= <-]. right. eauto.
Qed.
Lemma check_sense_err : forall c e, check_sense c = Err e ->
  (e = AttributeError /\ (dget String.eqb "sense" c = None \/ dget String.eqb "sense" c = Some ANone)) \/
  (e = ValueError /\ exists a, dget String.eqb "sense" c = Some a /\ a <> ANone /\ a <> AStr "+" /\ a <> AStr "-").
Proof.
  intros c e. unfold check_sense, aget. destruct (dget String.eqb "sense" c) as [[x|x|b| |l]|]; try (intros [= <-]; auto); try (right; split; auto; eexists; split; [reflexivity|repeat split; discriminate]).
  destruct (String.eqb_spec x "+"); [discriminate|]. destruct (String.eqb_spec x "-"); [discriminate|]. intros [= <-]. right. split; auto. eexists. split; [reflexivity|]. repeat split; congruence.
Qed.
Lemma none_negative_err : forall ks c e, none_negative ks c = Err e -> (forall k, In k ks -> dget String.eqb k c <> None) ->
  (e = ValueError /\ exists k x, In k ks /\ dget String.eqb k c = Some (ANum x) /\ x < 0) \/
  (e = TypeError /\ exists k a, In k ks /\ dget String.eqb k c = Some a /\ (forall x, a <> ANum x) /\ (forall b, a <> ABool b)).
Proof.
  intros ks c e. induction ks as [|k ks IH]; cbn [none_negative]; [discriminate|]. intros E P.
  assert (T : none_negative ks c = Err e -> (e = ValueError /\ exists k' x, In k' (k :: ks) /\ dget String.eqb k' c = Some (ANum x) /\ x < 0) \/
    (e = TypeError /\ exists k' a, In k' (k :: ks) /\ dget String.eqb k' c = Some a /\ (forall x, a <> ANum x) /\ (forall b, a <> ABool b))).
  { intros E'. destruct (IH E') as [(-> & k' & x & I & H)|(-> & k' & a & I & H)]. { intros k' I. apply P. right. auto. }
    - left. split; auto. exists k', x. split; [right|]; auto.
    - right. split; auto. exists k', a. split; [right|]; auto. }
  unfold aget in E. pose proof (P k (or_introl eq_refl)) as Pk. destruct (dget String.eqb k c) as [[x|x|b| |l]|] eqn:G; auto; try congruence.
  - destruct (Rlt_dec x 0); auto. injection E as <-. left. split; auto. exists k, x. cbn. auto.
  - injection E as <-. right. split; auto. exists k, (AStr x). cbn. repeat split; auto; discriminate.
  - injection E as <-. right. split; auto. exists k, ANone. cbn. repeat split; auto; discriminate.
  - injection E as <-. right. split; auto. exists k, (ALim l). cbn. repeat split; auto; discriminate.
Qed.
Lemma positive_list_err : forall ks c e, positive_list ks c = Err e -> incl ks slits ->
  (e = AttributeError /\ exists k, In k slits /\ dget String.eqb k c = None) \/
  (e = ValueError /\ exists k x, In k slits /\ dget String.eqb k c = Some (ANum x) /\ x < 0) \/
  (e = TypeError /\ exists k a, In k slits /\ dget String.eqb k c = Some a /\ (forall x, a <> ANum x) /\ (forall b, a <> ABool b)).
Proof.
  intros ks c e. unfold positive_list. destruct (existsb _ ks) eqn:X; intros E S.
  - injection E as <-. left. split; auto. apply existsb_exists in X as (k & I & X). exists k. split; auto. unfold aget in X. destruct (dget String.eqb k c); [discriminate|auto].
  - right. destruct (none_negative_err ks c e E) as [(-> & k & x & I & H)|(-> & k & a & I & H)]; eauto 8.
    intros k I N. assert (existsb (fun k => match aget k c with None => true | Some _ => false end) ks = true); [|congruence]. apply existsb_exists. exists k. unfold aget. rewrite N. auto.
Qed.

Theorem C81_reason : forall t ps e, validate_instrument_parameters t ps = Err e ->
  (e = AttributeError /\ missing t ps) \/ (e = ValueError /\ wrong t ps) \/ (e = TypeError /\ not_a_number ps).
Proof.
  intros t ps e. unfold validate_instrument_parameters, part, missing, wrong, not_a_number, crystal_of.
  destruct (dget String.eqb "monochromator" ps) as [mono|] eqn:M; cbn [bind].
  2: { intros [= <-]. left. split; auto. left. exists "monochromator". cbn. auto. }
  assert (PA : forall n c k, (n = "monochromator" \/ n = "analyzer") -> dget String.eqb n ps = Some c -> In k ["mosaic_h"; "mosaic_v"] -> positive_attr k c = Err e ->
    (e = AttributeError /\ missing t ps) \/ (e = ValueError /\ wrong t ps)).
  { intros n c k N D I E. apply positive_attr_err in E as [(-> & H)|(-> & x & H & L)].
    - left. split; auto. right. left. exists n, c, k. split; [split; auto|]. split; auto. destruct I as [<-|[<-|[]]]; cbn; auto.
    - right. split; auto. left. exists n, c, k, x. split; [split; auto|]. auto. }
  assert (CS : forall n c, (n = "monochromator" \/ n = "analyzer") -> dget String.eqb n ps = Some c -> check_sense c = Err e ->
    (e = AttributeError /\ missing t ps) \/ (e = ValueError /\ wrong t ps)).
  { intros n c N D E. apply check_sense_err in E as [(-> & H)|(-> & a & H)].
    - left. split; auto. right. left. exists n, c, "sense". split; [split; auto|]. cbn. auto.
    - right. split; auto. right. left. exists n, c, a. split; [split; auto|]. auto. }
  assert (W : (e = AttributeError /\ missing t ps) \/ (e = ValueError /\ wrong t ps) -> (e = AttributeError /\ missing t ps) \/ (e = ValueError /\ wrong t ps) \/ (e = TypeError /\ not_a_number ps)) by tauto.
  intros E. change ((e = AttributeError /\ missing t ps) \/ (e = ValueError /\ wrong t ps) \/ (e = TypeError /\ not_a_number ps)).
  destruct (positive_attr "mosaic_h" mono) as [[]|x1] eqn:E1; cbn [bind] in E. 2: { apply W. apply (PA "monochromator" mono "mosaic_h"); cbn; auto. congruence. }
  destruct (positive_attr "mosaic_v" mono) as [[]|x2] eqn:E2; cbn [bind] in E. 2: { apply W. apply (PA "monochromator" mono "mosaic_v"); cbn; auto. congruence. }
  destruct (check_sense mono) as [[]|x3] eqn:E3; cbn [bind] in E. 2: { apply W. apply (CS "monochromator" mono); auto. congruence. }
  destruct (dget String.eqb "analyzer" ps) as [ana|] eqn:A; cbn [bind] in E.
  2: { injection E as <-. left. split; auto. left. exists "analyzer". cbn. auto. }
  destruct (positive_attr "mosaic_h" ana) as [[]|x4] eqn:E4; cbn [bind] in E. 2: { apply W. apply (PA "analyzer" ana "mosaic_h"); cbn; auto. congruence. }
  destruct (positive_attr "mosaic_v" ana) as [[]|x5] eqn:E5; cbn [bind] in E. 2: { apply W. apply (PA "analyzer" ana "mosaic_v"); cbn; auto. congruence. }
  destruct (check_sense ana) as [[]|x6] eqn:E6; cbn [bind] in E. 2: { apply W. apply (CS "analyzer" ana); auto. congruence. }
  destruct (dget String.eqb "collimators" ps) as [coll|] eqn:C; cbn [bind] in E.
  2: { injection E as <-. left. split; auto. left. exists "collimators". cbn. auto. }
  assert (PL : forall ks, incl ks slits -> positive_list ks coll = Err e -> (e = AttributeError /\ missing t ps) \/ (e = ValueError /\ wrong t ps) \/ (e = TypeError /\ not_a_number ps)).
  { intros ks S X. apply positive_list_err in X as [(-> & k & H)|[(-> & k & x & H)|(-> & k & a & H)]]; auto.
    - left. split; auto. right. right. left. exists coll, k. auto.
    - right. left. split; auto. right. right. left. exists coll, k, x. auto.
    - right. right. split; auto. exists coll, k, a. auto. }
  match type of E with (do _ <- ?r; _) = _ => destruct r as [[]|x7] eqn:E7 end; cbn [bind] in E.
  2: { injection E as ->. refine (PL _ _ E7). intros k I. unfold slits. cbn in *. tauto. }
  match type of E with (do _ <- ?r; _) = _ => destruct r as [[]|x8] eqn:E8 end; cbn [bind] in E.
  2: { injection E as ->. refine (PL _ _ E8). intros k I. unfold slits. cbn in *. tauto. }
  unfold check_goni_sense in E. destruct (g_sense (t_goni t)) as [s|] eqn:G.
  - destruct (String.eqb_spec s "+"); [discriminate|]. destruct (String.eqb_spec s "-"); [discriminate|]. injection E as <-. right. left. split; auto. right. right. right. eauto.
  - injection E as <-. left. split; auto. right. right. right. auto.
Qed.
Print Assumptions C81_reason.

(** An instrument that is not accepted gives no ellipsoid at all, whatever the points *)
Theorem C81_refused : forall fmt ints t ps r axes e, validate_instrument_parameters t ps = Err e -> cooper_nathans fmt ints t ps r axes = Err e.
Proof. intros fmt ints t ps r axes e E. unfold cooper_nathans. rewrite E. reflexivity. Qed.
Print Assumptions C81_refused.
Theorem C81_answer : forall fmt ints t ps r axes ans, cooper_nathans fmt ints t ps r axes = Ok ans -> usable t ps.
Proof. intros fmt ints t ps r axes ans H. apply C81_accepts. unfold cooper_nathans in H. destruct (validate_instrument_parameters t ps) as [[]|]; [auto|discriminate]. Qed.
Print Assumptions C81_answer.

(** Not negative is not enough: an instrument with a mosaic or a divergence of zero is accepted, and no point gets an ellipsoid *)
Lemma arc_zero : deg2rad (0 / 60) = 0.
Proof. unfold deg2rad. lra. Qed.
Theorem C81_zero_refuted : forall t ps h ei ef,
  (exists n c k, crystal_of ps n c /\ In k ["mosaic_h"; "mosaic_v"] /\ dget String.eqb k c = Some (ANum 0)) \/
  (exists c k, dget String.eqb "collimators" ps = Some c /\ In k slits /\ dget String.eqb k c = Some (ANum 0)) ->
  forall x, calculate_at_hkle t ps h ei ef <> Ok x.
Proof.
  intros t ps h ei ef H x E. unfold calculate_at_hkle in E.
  repeat (match type of E with bind ?v _ = _ => lazymatch v with part _ _ => fail | mat_f _ _ => fail | _ => destruct v; [|discriminate] end end; cbn [bind] in E).
  unfold part in E. destruct (dget String.eqb "monochromator" ps) as [mono|] eqn:M; [|discriminate]. cbn [bind] in E.
  destruct (dget String.eqb "analyzer" ps) as [ana|] eqn:A; [|discriminate]. cbn [bind] in E.
  destruct (get_theta mono ei); [|discriminate]. cbn [bind] in E. destruct (get_theta ana ef); [|discriminate]. cbn [bind] in E. cbv zeta in E.
  destruct (Req_EM_T _ 0); [discriminate|]. destruct (Req_EM_T _ 0); [discriminate|].
  destruct (mat_f mono ana) as [F|] eqn:EF; [|discriminate]. cbn [bind] in E.
  destruct (dget String.eqb "collimators" ps) as [coll|] eqn:C; [|discriminate]. cbn [bind] in E.
  destruct (mat_g coll) as [G|] eqn:EG; [|discriminate]. clear E.
  assert (MZ : forall k c, dget String.eqb k c = Some (ANum 0) -> m_mosaic k c = Ok 0).
  { intros k c D. unfold m_mosaic, num, opt_num, aget. rewrite D. cbn [rmap bind]. f_equal. apply arc_zero. }
  assert (IZ : inv_sq 0 = Err NotANumber). { unfold inv_sq. destruct (Req_EM_T 0 0); [auto|congruence]. }
  destruct H as [(nm & c & k & (N & D) & K & Z)|(c & k & D & K & Z)].
  - apply MZ in Z. unfold mat_f in EF. destruct N as [-> | ->]; [assert (c = mono) by congruence|assert (c = ana) by congruence]; subst c; destruct K as [<-|[<-|[]]];
    rewrite Z in EF; repeat (cbn [bind] in EF; rewrite ?IZ in EF; cbn [bind] in EF; try discriminate; match type of EF with bind ?v _ = _ => destruct v; [|discriminate] end).
  - assert (c = coll) by congruence. subst c. unfold mat_g in EG.
    assert (DV : rmap (fun x => deg2rad (x / 60)) (num k coll) = Ok 0). { unfold num, opt_num, aget. rewrite Z. cbn [rmap bind]. f_equal. apply arc_zero. }
    unfold h_divergence, v_divergence, divergence in EG. cbn [mapM] in EG.
    unfold slits in K. cbn [In] in K. destruct K as [<-|[<-|[<-|[<-|[<-|[<-|[<-|[<-|[]]]]]]]]]; rewrite DV in EG; cbn [bind] in EG;
    repeat (try discriminate; rewrite ?IZ in EG; cbn [bind] in EG; try discriminate; match type of EG with context [bind ?v _] => lazymatch v with bind _ _ => fail | _ => destruct v end end; cbn [bind] in EG); try discriminate.
Qed.
Print Assumptions C81_zero_refuted.

(** Without a UB matrix an instrument fully described is refused too: TypeError if the sample has no UB information,
    AttributeError if it has no matrix. *)
Theorem C81_no_ub : forall fmt ints t ps r axes, usable t ps ->
  (s_ub_conf (t_sample t) = None -> cooper_nathans fmt ints t ps r axes = Err TypeError) /\
  (forall u, s_ub_conf (t_sample t) = Some u -> _ub_mat u = None -> cooper_nathans fmt ints t ps r axes = Err AttributeError).
Proof.
  intros fmt ints t ps r axes U. apply C81_accepts in U. unfold cooper_nathans, get_uv. rewrite U. cbn [bind]. split.
  - intros ->. reflexivity.
  - intros u -> ->. reflexivity.
Qed.
Print Assumptions C81_no_ub.

(** The instrument of C45_example is accepted; with a negative divergence it is not *)
Example C81_example : usable (tas21 "Y,-Z,X" "-") parts45 /\
  validate_instrument_parameters (tas21 "Y,-Z,X" "-") [("monochromator", crystal45); ("analyzer", crystal45); ("collimators", aset "v_post_ana" (ANum (-1)) coll45)] = Err ValueError.
Proof.
  split.
  - apply C81_accepts. unfold validate_instrument_parameters, part, parts45. cbn [dget fst snd String.eqb Ascii.eqb Bool.eqb bind]. unfold positive_list, none_negative, positive_attr, check_sense, aget, crystal45, coll45.
    cbn -[Rle_dec Rlt_dec IZR]. repeat (destruct (Rlt_dec _ _) as [K|_]; [exfalso; lra|]; cbn -[Rle_dec Rlt_dec IZR]). reflexivity.
  - unfold validate_instrument_parameters, part, parts45. cbn [dget fst snd String.eqb Ascii.eqb Bool.eqb bind]. unfold positive_list, none_negative, positive_attr, check_sense, aget, crystal45, coll45.
    cbn -[Rle_dec Rlt_dec IZR]. repeat (destruct (Rlt_dec _ _) as [K|_]; [exfalso; lra|]; cbn -[Rle_dec Rlt_dec IZR]). destruct (Rlt_dec (-1) 0); [reflexivity|lra].
Qed.
