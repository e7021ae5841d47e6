(** Properties C60 and C61, continued: what each part of a loaded instrument is, and the quantities computed from it. *)
From Coq Require Import Reals Lra Psatz List String Bool.
From Verif Require Import Base LinAlg M_Utilities M_Goni M_Tas L_Utilities M_Components P_Components.
Import ListNotations.
Open Scope string_scope.
Open Scope list_scope.
Open Scope R_scope.

(** * Specification *)
(** The documented parameters of every part and their default values. *)
Definition sized : attrs := [("shape", AStr "rectangular"); ("width", ANone); ("height", ANone)].
Definition plate : attrs :=
  [("type", AStr "PG002"); ("mosaic_h", ANone); ("mosaic_v", ANone); ("sense", AStr "-"); ("shape", AStr "rectangular");
   ("width", ANum 12); ("height", ANum 8); ("depth", ANum 0.15); ("curved_h", ABool false); ("curvh", ANum 0); ("optimally_curved_h", ABool false);
   ("curved_v", ABool false); ("curvv", ANum 0); ("optimally_curved_v", ABool false)].
Definition documented : list (string * attrs) :=
  [("source", [("name", AStr "HFIR"); ("shape", AStr "rectangular"); ("width", ANone); ("height", ANone)]);
   ("collimators", [("h_pre_mono", ANum 30); ("h_pre_sample", ANum 30); ("h_post_sample", ANum 30); ("h_post_ana", ANum 30);
                    ("v_pre_mono", ANum 30); ("v_pre_sample", ANum 30); ("v_post_sample", ANum 30); ("v_post_ana", ANum 30)]);
   ("guide", [("in_use", ABool false); ("div_h", ANone); ("div_v", ANone)]);
   ("monochromator", plate); ("analyzer", plate); ("monitor", sized); ("detector", sized);
   ("goniometer", [("type", AStr "Y,-Z,X"); ("sense", ANone)]);
   ("distances", [("src_mono", ANone); ("mono_sample", ANone); ("sample_ana", ANone); ("ana_det", ANone); ("mono_monitor", ANone)])].
(** The part [c] made from the section [p]: given parameters as given, documented ones not given at their default.
    The spacing of a crystal follows from its type and the name of a part from its place: both are left out here. *)
Definition made_from (p defaults c : attrs) : Prop :=
  (forall k v, k <> "d_spacing" -> k <> "component_name" -> has p k v -> has c k v) /\
  (forall k v, ~ In k (map fst p) -> has defaults k v -> has c k v).

Lemma setattrs_allowed : forall props ps c c', setattrs props ps c = Ok c' -> forall k, In k (map fst ps) -> ~ In k props.
Proof.
  induction ps as [|[k v] ps IH]; cbn [setattrs]; intros c c' H k' I; [destruct I|]. destruct (existsb (String.eqb k) props) eqn:E; [discriminate|].
  cbn in I. destruct I as [<-|I]; [|eauto]. intros J. assert (T : existsb (String.eqb k) props = true). { apply existsb_exists. exists k. split; auto. apply String.eqb_refl. } congruence.
Qed.
Lemma component_made : forall props d ps name c, NoDup (map fst ps) -> component props d (Some ps) name = Ok c ->
  (forall k v, has ps k v -> has c k v) /\ (forall k v, ~ In k (map fst ps) -> k <> "component_name" -> has d k v -> has c k v).
Proof.
  intros props d ps name c ND C. destruct (C60_parameters_kept props d ps name ND) as (c' & C' & A & B).
  { intros k I. eapply setattrs_allowed; eauto. } rewrite C in C'. apply Ok_inj in C'. subst. auto.
Qed.
Lemma made_by : forall props d doc ps name c, NoDup (map fst ps) -> component props d (Some ps) name = Ok c ->
  (forall k v, has doc k v -> has d k v /\ k <> "component_name") -> made_from ps doc c.
Proof.
  intros props d doc ps name c ND C S. destruct (component_made _ _ _ _ _ ND C) as [A B]. split; auto. intros k v N H. destruct (S k v H). auto.
Qed.
Ltac defaults := let k := fresh "k" in let v := fresh "v" in let H := fresh "H" in intros k v H; unfold has, aget, sized in H |- *; cbn [dget] in H;
  repeat match type of H with context [String.eqb k ?s] => destruct (String.eqb_spec k s); [subst; split; [rewrite <- H; reflexivity|discriminate]|] end; discriminate H.

(** Every section of the file makes the part of that name, with the parameters the documentation lists. *)
Theorem C61_parts_made : forall config i i', load_instrument_parameters config i = (i', None) ->
  forall n doc p, In (n, doc) documented -> dget String.eqb n config = Some p -> NoDup (map fst p) ->
  exists c, dget String.eqb n i' = Some c /\ made_from p doc c.
Proof.
  intros config i i' H n doc p D P ND. destruct (C61_parts_loaded config i i' H) as [A _].
  assert (G : forall props d, In (n, component props d) component_classes -> (forall k v, has doc k v -> has d k v /\ k <> "component_name") ->
              exists c, dget String.eqb n i' = Some c /\ made_from p doc c).
  { intros props d I S. destruct (A _ _ _ I P) as (c & C & E). exists c. split; auto. eapply made_by; eauto. }
  assert (M : In (n, new_mono) component_classes -> doc = plate -> exists c, dget String.eqb n i' = Some c /\ made_from p doc c).
  { intros I ->. destruct (A _ _ _ I P) as (c & C & E). exists c. split; auto. unfold new_mono in C.
    destruct (component mono_props mono_defaults (Some p) n) as [c1|] eqn:C1; [|discriminate]. cbn [bind] in C.
    destruct (component_made _ _ _ _ _ ND C1) as [K B].
    destruct (aget "type" c1) as [[ |t| | | ]|]; try discriminate. destruct (dget String.eqb t mono_ana_xtal) as [d|]; [|discriminate]. apply Ok_inj in C. subst c.
    split; intros k v.
    - intros N _ HH. unfold has. rewrite aget_aset. destruct (String.eqb_spec k "d_spacing"); [congruence|]. apply K; auto.
    - intros NI HH. unfold has. rewrite aget_aset.
      assert (S : has mono_defaults k v /\ k <> "component_name" /\ k <> "d_spacing").
      { clear - HH. revert HH. unfold has, plate, aget. cbn [dget]. intros HH.
        repeat match type of HH with context [String.eqb k ?s] => destruct (String.eqb_spec k s); [subst; split; [rewrite <- HH; reflexivity|split; discriminate]|] end; discriminate HH. }
      destruct S as (S & S1 & S2). destruct (String.eqb_spec k "d_spacing"); [congruence|]. apply B; auto. }
  unfold documented in D. cbn [In] in D.
  repeat (destruct D as [D|D]; [injection D as <- <-;
    first [ apply M; [cbn; tauto|reflexivity]
          | (eapply G; [cbn; repeat first [left; reflexivity | right]|defaults])
          | idtac ]|]); try destruct D.
  (* the goniometer *)
  assert (I : In ("goniometer", new_goni) component_classes) by (cbn; tauto).
  destruct (A _ _ _ I P) as (c & C & E). exists c. split; auto. unfold new_goni in C.
  destruct (component goni_props goni_defaults (Some p) "") as [c1|] eqn:C1; [|discriminate]. cbn [bind] in C. apply Ok_inj in C. subst c.
  destruct (component_made _ _ _ _ _ ND C1) as [K B]. split; intros k v.
  - intros _ N HH. unfold has. rewrite aget_aset. destruct (String.eqb_spec k "component_name"); [congruence|]. apply K; auto.
  - intros NI HH. unfold has. rewrite aget_aset.
    assert (S : has goni_defaults k v /\ k <> "component_name") by (revert k v NI HH; intros k v _; revert k v; defaults).
    destruct S as (S & S1). destruct (String.eqb_spec k "component_name"); [congruence|]. apply B; auto.
Qed.
Print Assumptions C61_parts_made.

(** The example: a file for source and detector. *)
Example C61_parts_made_ex : exists i', load_instrument_parameters [("source", [("width", ANum 10)]); ("detector", [("shape", AStr "spherical")])] [] = (i', None) /\
  NoDup (map fst [("width", ANum 10)]) /\ In ("source", [("name", AStr "HFIR"); ("shape", AStr "rectangular"); ("width", ANone); ("height", ANone)]) documented /\
  exists c, dget String.eqb "source" i' = Some c /\ has c "name" (AStr "HFIR") /\ has c "width" (ANum 10) /\ has c "height" ANone.
Proof. eexists. split; [reflexivity|]. split; [repeat constructor; cbn; tauto|]. split; [cbn; tauto|]. eexists. split; [reflexivity|]. repeat split; reflexivity. Qed.

(** * Computed quantities *)
(** The standard deviation [s] of a point spread evenly over [-w/2, w/2]: the mean of t^2, by a primitive [F] of t^2 / w. *)
Definition even_spread (w s : R) : Prop :=
  0 <= s /\ exists F, (forall t, derivable_pt_lim F t (t * t / w)) /\ s * s = F (w / 2) - F (- w / 2).
(** The effective size, in Angstrom, of a part of [x] cm: the spread of a rectangle, a quarter of the diameter of a disk or ball. *)
Theorem C60_rectangle_size : forall c k x, has c k (ANum x) -> has c "shape" (AStr "rectangular") -> 0 < x ->
  exists s, m_size k c = Ok (Some s) /\ even_spread (x * 100000000) s.
Proof.
  intros c k x X S P. unfold m_size, opt_num, str. unfold has in X, S. rewrite X, S. cbn [bind]. eexists. split; [reflexivity|].
  unfold even_spread, cm2angstrom. assert (Q : 0 < sqrt 12) by (apply sqrt_lt_R0; lra). assert (QQ : sqrt 12 * sqrt 12 = 12) by (apply sqrt_sqrt; lra).
  split. { apply Rmult_le_pos; [|lra]. apply Rlt_le, Rdiv_lt_0_compat; lra. }
  set (w := x * 100000000). assert (W : 0 < w) by (unfold w; lra).
  exists (fun t => t * t * t / (3 * w)). split.
  - intros t. replace (t * t / w) with (((1 * t + t * 1) * t + t * t * 1) * / (3 * w) ) by (field; lra).
    assert (D : derivable_pt_lim (fun t => t * t * t * / (3 * w)) t (((1 * t + t * 1) * t + t * t * 1) * / (3 * w) + t * t * t * 0)).
    { apply (derivable_pt_lim_mult (fun t => t * t * t) (fun _ => / (3 * w))); [|apply derivable_pt_lim_const].
      apply (derivable_pt_lim_mult (fun t => t * t) (fun t => t)); [|apply derivable_pt_lim_id].
      apply (derivable_pt_lim_mult (fun t => t) (fun t => t)); apply derivable_pt_lim_id. }
    rewrite Rmult_0_r, Rplus_0_r in D. exact D.
  - replace (x / sqrt 12 * 100000000 * (x / sqrt 12 * 100000000)) with (w * w / (sqrt 12 * sqrt 12)) by (unfold w; field; lra). rewrite QQ. field. lra.
Qed.
Print Assumptions C60_rectangle_size.
Theorem C60_round_size : forall c k x sh, has c k (ANum x) -> has c "shape" (AStr sh) -> sh = "circular" \/ sh = "spherical" ->
  m_size k c = Ok (Some (x * 100000000 / 4)).
Proof.
  intros c k x sh X S Q. unfold m_size, opt_num, str. unfold has in X, S. rewrite X, S. cbn [bind]. unfold to_angstrom_shape, cm2angstrom.
  destruct Q as [-> | ->]; cbn; do 2 f_equal; field.
Qed.
Print Assumptions C60_round_size.
(** Minutes of arc to radians. *)
Definition arcmin (m r : R) : Prop := r = m / 60 * PI / 180.
(** The four divergences in the order in which the beam meets them. *)
Theorem C60_divergences : forall c d, forall m1 m2 m3 m4, In d ["h"; "v"] ->
  has c (d ++ "_pre_mono")%string (ANum m1) -> has c (d ++ "_pre_sample")%string (ANum m2) ->
  has c (d ++ "_post_sample")%string (ANum m3) -> has c (d ++ "_post_ana")%string (ANum m4) ->
  exists r1 r2 r3 r4, (if String.eqb d "h" then h_divergence c else v_divergence c) = Ok [r1; r2; r3; r4] /\ arcmin m1 r1 /\ arcmin m2 r2 /\ arcmin m3 r3 /\ arcmin m4 r4.
Proof.
  intros c d m1 m2 m3 m4 [<-|[<-|[]]] A B C D; cbn in A, B, C, D; unfold has in *; cbn [String.eqb]; do 4 eexists;
    (split; [unfold h_divergence, v_divergence, divergence, num, opt_num; cbn [mapM]; cbn; rewrite A, B, C, D; cbn; reflexivity|]); unfold arcmin, deg2rad; repeat split; field.
Qed.
Print Assumptions C60_divergences.
Theorem C60_mosaic : forall c k m, has c k (ANum m) -> exists r, m_mosaic k c = Ok r /\ arcmin m r.
Proof. intros c k m H. unfold m_mosaic, num, opt_num. unfold has in H. rewrite H. cbn. eexists. split; [reflexivity|]. unfold arcmin, deg2rad. field. Qed.
Print Assumptions C60_mosaic.
(** The sense of a crystal is +1 or -1; anything else than the two signs is refused. *)
Theorem C60_sense : forall c, (has c "sense" (AStr "+") -> m_sense c = Ok 1) /\ (has c "sense" (AStr "-") -> m_sense c = Ok (-1)) /\
  (forall v, has c "sense" v -> v <> AStr "+" -> v <> AStr "-" -> m_sense c = Err ValueError).
Proof.
  intros c. unfold m_sense, has. split; [intros ->; reflexivity|]. split; [intros ->; reflexivity|]. intros v -> P M. destruct v as [ |s| | | ]; auto.
  destruct (String.eqb_spec s "+") as [->|]; [congruence|]. destruct (String.eqb_spec s "-") as [->|]; [congruence|]. reflexivity.
Qed.
Print Assumptions C60_sense.
Example C60_sizes_ex : exists c, component collimators_props collimators_defaults (Some [("h_post_ana", ANum 120)]) "collimators" = Ok c /\
  has c "h_pre_mono" (ANum 30) /\ has c "h_pre_sample" (ANum 30) /\ has c "h_post_sample" (ANum 30) /\ has c "h_post_ana" (ANum 120).
Proof. eexists. split; [reflexivity|]. repeat split; reflexivity. Qed.
