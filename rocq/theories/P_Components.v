(** Properties C48, C49, C60, C61: parts of the instrument. *)
From Coq Require Import Reals Lra Psatz List String Bool.
From Verif Require Import Base LinAlg S_Energy M_Utilities M_Goni M_Tas L_Utilities M_Components.
Import ListNotations.
Open Scope string_scope.
Open Scope list_scope.
Open Scope R_scope.

(** * Specification *)
(** Bragg's law in first order, 2 d sin(theta) = lambda = 2 pi / k, theta in degrees. *)
Definition bragg (d k theta : R) : Prop := 2 * d * sin (theta * PI / 180) = 2 * PI / k.
(** A crystal with lattice spacing [d] mounted with sense [s]. *)
Definition crystal (c : attrs) (d s : R) : Prop :=
  aget "d_spacing" c = Some (ANum d) /\ 0 < d /\
  ((aget "sense" c = Some (AStr "+") /\ s = 1) \/ (aget "sense" c = Some (AStr "-") /\ s = -1)).
(** The parameter [k] of a part is [v]. *)
Definition has (c : attrs) (k : string) (v : attr) : Prop := aget k c = Some v.

(** * Auxiliary *)
Lemma crystal_num : forall c d s, crystal c d s -> num "d_spacing" c = Ok d.
Proof. intros c d s [H _]. unfold num, opt_num. rewrite H. reflexivity. Qed.
Lemma crystal_sense : forall c d s, crystal c d s -> m_sense c = Ok s /\ (s = 1 \/ s = -1).
Proof. intros c d s (_ & _ & [[H ->]|[H ->]]); unfold m_sense; rewrite H; split; auto. Qed.
Lemma rad_deg_pi : forall x, rad2deg x * PI / 180 = x.
Proof. intros; unfold rad2deg; field; apply PI_neq0. Qed.
Lemma asin_pos : forall x, 0 < x <= 1 -> 0 < asin x <= PI / 2.
Proof.
  intros x [H K]. pose proof (asin_bound x) as B. pose proof PI_RGT_0. split; [|lra].
  destruct (Rle_lt_dec (asin x) 0) as [L|]; auto. exfalso.
  assert (S : sin (asin x) = x) by (apply sin_asin; lra).
  assert (sin (asin x) <= 0); [|lra]. rewrite <- sin_0. apply sin_incr_1; lra.
Qed.

(** * C48 *)
Theorem C48_theta : forall c d s e th, crystal c d s -> get_theta c e = Ok th ->
  exists k, wavenumber e k /\ 0 < k /\ bragg d k (s * th) /\ 0 < s * th <= 90.
Proof.
  intros c d s e th C H. pose proof PI_RGT_0 as P. unfold get_theta in H.
  destruct (en2q e) as [k|] eqn:E; [|discriminate]. cbn [bind] in H.
  rewrite (crystal_num _ _ _ C) in H. destruct (crystal_sense _ _ _ C) as [S PM]. destruct C as (_ & D & _).
  destruct (en2q_nonneg _ _ E) as (K & _ & W). cbn [bind] in H. unfold get_angle_bragg in H.
  destruct (Req_EM_T (d * k) 0) as [|N]; [discriminate|]. assert (KP : 0 < k) by (destruct K as [K|K]; [auto|exfalso; apply N; rewrite <- K; apply Rmult_0_r]). assert (DK : 0 < d * k) by nra.
  assert (X : 0 < PI / (d * k)) by (apply Rdiv_lt_0_compat; auto).
  destruct (Rlt_dec 1 _); [discriminate|]. destruct (Rlt_dec _ (-1)); [discriminate|].
  cbn [bind] in H. rewrite S in H. cbn [bind] in H. apply Ok_inj in H. subst th.
  set (x := PI / (d * k)) in *. assert (A : 0 < asin x <= PI / 2) by (apply asin_pos; lra).
  assert (SS : s * rad2deg (asin x * s) = rad2deg (asin x)).
  { unfold rad2deg. replace (s * (asin x * s * 180 / PI)) with ((s * s) * (asin x * 180 / PI)) by (field; lra).
    replace (s * s) with 1 by (destruct PM as [-> | ->]; ring). ring. }
  exists k. repeat split; auto.
  - unfold bragg. rewrite SS, rad_deg_pi, sin_asin by lra. unfold x. field. lra.
  - rewrite SS. unfold rad2deg. apply Rdiv_lt_0_compat; nra.
  - rewrite SS. unfold rad2deg. apply (Rmult_le_reg_r PI); auto.
    replace (asin x * 180 / PI * PI) with (asin x * 180) by (field; lra). lra.
Qed.
Print Assumptions C48_theta.

(** An angle exists exactly when half the wavelength does not exceed the spacing; otherwise ValueError. *)
Theorem C48_reachable : forall c d s e, crystal c d s ->
  ((exists k, wavenumber e k /\ 0 < k /\ PI / k <= d) <-> exists th, get_theta c e = Ok th) /\
  ((forall k, wavenumber e k -> 0 < k -> d < PI / k) <-> get_theta c e = Err ValueError).
Proof.
  intros c d s e C. pose proof PI_RGT_0 as P. unfold get_theta.
  destruct (crystal_sense _ _ _ C) as [S PM]. rewrite (crystal_num _ _ _ C), S. destruct C as (_ & D & _).
  assert (U : forall k k', wavenumber e k -> wavenumber e k' -> k = k').
  { intros k k' [A B] [A' B']. nra. }
  destruct (en2q e) as [k|x] eqn:E.
  - destruct (en2q_nonneg _ _ E) as (K & _ & W).
    assert (WK : wavenumber e k) by (split; auto; unfold ksq2eng in W; lra).
    cbn [bind]. unfold get_angle_bragg.
    destruct (Req_EM_T (d * k) 0) as [Z|N]; cbn [bind].
    + assert (k = 0) by nra. split; split.
      * intros (k' & A & B & _). rewrite (U _ _ A WK) in B. lra.
      * intros [? H0]; discriminate.
      * auto.
      * intros _ k' A B. rewrite (U _ _ A WK) in B. lra.
    + assert (KP : 0 < k) by (destruct K as [K|K]; [auto|exfalso; apply N; rewrite <- K; apply Rmult_0_r]). assert (DK : 0 < d * k) by nra.
      assert (X : 0 < PI / (d * k)) by (apply Rdiv_lt_0_compat; auto).
      assert (EQ : 1 < PI / (d * k) <-> d < PI / k).
      { replace (PI / k) with (PI / (d * k) * d) by (field; lra). split; intros; nra. }
      destruct (Rlt_dec 1 _) as [L|L]; cbn [bind].
      * split; split.
        -- intros (k' & A & B & Q). rewrite (U _ _ A WK) in Q. apply EQ in L. lra.
        -- intros [? H0]; discriminate.
        -- auto.
        -- intros _ k' A B. rewrite (U _ _ A WK). apply EQ; auto.
      * destruct (Rlt_dec _ (-1)); [lra|]. cbn [bind]. split; split.
        -- eauto.
        -- intros _. exists k. repeat split; auto; try apply WK. apply Rnot_lt_le. rewrite <- EQ. lra.
        -- intros Q. exfalso. apply L, EQ, Q; auto.
        -- discriminate.
  - assert (e < 0 /\ x = ValueError) as [L ->].
    { unfold en2q in E. destruct (Rlt_dec e 0); [|discriminate]. split; congruence. }
    cbn [bind]. split; split.
    + intros (k & [A B] & _). nra.
    + intros [? H0]; discriminate.
    + auto.
    + intros _ k [A B] _. nra.
Qed.
Print Assumptions C48_reachable.

(** MonoAna's own pair of conversions use 9.045 one way and 81.81 the other: the energy comes back scaled by
    81.81 / 9.045^2, never unchanged. *)
Theorem C48_energy_back : forall c d s e a, crystal c d s -> get_bragg_angle_from_energy c e = Ok a ->
  get_energy_from_bragg_angle c a = Ok (e * (81.81 / (9.045 * 9.045))).
Proof.
  intros c d s e a C H. unfold get_bragg_angle_from_energy in H. unfold get_energy_from_bragg_angle.
  destruct (crystal_sense _ _ _ C) as [S PM]. rewrite (crystal_num _ _ _ C) in *. rewrite S in H. destruct C as (_ & D & _).
  cbn [bind] in *. destruct (Rle_dec e 0); [discriminate|]. destruct (Req_EM_T d 0); [discriminate|]. cbv zeta in *.
  destruct (Rlt_dec 1 (Rabs _)) as [|L]; [discriminate|]. apply Ok_inj in H. subst a.
  assert (Q : 0 < sqrt e) by (apply sqrt_lt_R0; lra). assert (QQ : sqrt e * sqrt e = e) by (apply sqrt_sqrt; lra).
  set (x := 9.045 / 2 / d / sqrt e) in *.
  assert (X : 0 < x) by (unfold x; apply Rdiv_lt_0_compat; [apply Rdiv_lt_0_compat; lra|lra]).
  rewrite (Rabs_right x) in L by lra.
  rewrite deg2rad_sign, sin_sign by auto. rewrite sin_asin by lra.
  assert (SX : s * x * (s * x) = x * x) by (destruct PM; subst; ring). rewrite SX.
  assert (DX : d * d * (x * x) = 9.045 * 9.045 / 4 / e).
  { unfold x. rewrite <- QQ at 3. field. lra. }
  assert (POS : 0 < d * d * (x * x)) by (apply Rmult_lt_0_compat; apply Rmult_lt_0_compat; auto).
  destruct (Req_EM_T (d * d * (x * x)) 0); [lra|]. f_equal.
  replace (81.81 / 4 / (d * d) / (x * x)) with (81.81 / 4 / (d * d * (x * x))) by (field; split; lra).
  rewrite DX. field. lra.
Qed.
Print Assumptions C48_energy_back.

Theorem C48_inverse_refuted : forall c d s e a, crystal c d s -> get_bragg_angle_from_energy c e = Ok a ->
  exists e', get_energy_from_bragg_angle c a = Ok e' /\ e' < e /\ e - e' < e / 40000.
Proof.
  intros c d s e a C H. eexists. split; [eapply C48_energy_back; eauto|].
  assert (0 < e). { unfold get_bragg_angle_from_energy in H. rewrite (crystal_num _ _ _ C) in H. cbn [bind] in H.
    destruct (Rle_dec e 0); [discriminate|lra]. }
  split; lra.
Qed.
Print Assumptions C48_inverse_refuted.

Lemma pg_crystal : exists c, new_mono None "analyzer" = Ok c /\ crystal c 3.35416 (-1).
Proof. eexists. split; [reflexivity|]. unfold crystal, aget. cbn. repeat split; auto. lra. Qed.

Example C48_ex : exists c th a, crystal c 3.35416 (-1) /\ get_theta c 100 = Ok th /\ get_bragg_angle_from_energy c 100 = Ok a.
Proof.
  destruct pg_crystal as (c & _ & C). exists c.
  assert (T : exists th, get_theta c 100 = Ok th).
  { apply (C48_reachable c 3.35416 (-1)); auto. exists (sqrt (100 / 2.072124855)).
    assert (K : 6 < sqrt (100 / 2.072124855)). { rewrite <- (sqrt_square 6) by lra. apply sqrt_lt_1_alt. lra. }
    split; [|split]; [split; [lra|]|lra|].
    - rewrite sqrt_sqrt by lra. lra.
    - apply (Rmult_le_reg_r (sqrt (100 / 2.072124855))); [lra|].
      unfold Rdiv at 1. rewrite Rmult_assoc, Rinv_l by lra. pose proof PI_4. nra. }
  destruct T as [th T]. exists th.
  unfold get_bragg_angle_from_energy. rewrite (crystal_num _ _ _ C). destruct (crystal_sense _ _ _ C) as [S _]. rewrite S.
  cbn [bind]. destruct (Rle_dec 100 0); [lra|]. destruct (Req_EM_T 3.35416 0); [lra|]. cbv zeta.
  replace 100 with (10 * 10) by ring. rewrite sqrt_square by lra.
  rewrite Rabs_right by lra. destruct (Rlt_dec 1 _); [lra|]. eexists. split; [exact C|]. split; [|reflexivity].
  replace (10 * 10) with 100 by ring. exact T.
Qed.

(** * C49 *)
Definition angstrom_per_cm : R := 100000000.

Theorem C49_source_partial : forall c x, has c "src_mono" (ANum x) -> d_src_mono c = Ok (Some (x * angstrom_per_cm)).
Proof. intros c x H. unfold d_src_mono, opt_num. rewrite H. reflexivity. Qed.
Print Assumptions C49_source_partial.

(** The other four return the converted source-monochromator distance, so they are wrong whenever theirs differs. *)
Theorem C49_refuted : forall c x y f k,
  In (k, f) [("mono_sample", d_mono_sample); ("sample_ana", d_sample_ana); ("ana_det", d_ana_det); ("mono_monitor", d_mono_monitor)] ->
  has c "src_mono" (ANum x) -> has c k (ANum y) -> x <> y ->
  f c = Ok (Some (x * angstrom_per_cm)) /\ f c <> Ok (Some (y * angstrom_per_cm)).
Proof.
  intros c x y f k I H _ N.
  assert (E : f c = Ok (Some (x * angstrom_per_cm))).
  { cbn in I. destruct I as [I|[I|[I|[I|[]]]]]; injection I as _ <-;
      unfold d_mono_sample, d_sample_ana, d_ana_det, d_mono_monitor, opt_num; rewrite H; reflexivity. }
  split; auto. rewrite E. intros Q. apply Ok_inj in Q. injection Q as Q. unfold angstrom_per_cm in Q. apply N; lra.
Qed.
Print Assumptions C49_refuted.

(** So the claim holds of exactly the sets of distances in which the distance asked for is that from the source; if the latter is not given, no distance is. *)
Theorem C49_exactly_partial : forall c y f k,
  In (k, f) [("src_mono", d_src_mono); ("mono_sample", d_mono_sample); ("sample_ana", d_sample_ana); ("ana_det", d_ana_det); ("mono_monitor", d_mono_monitor)] ->
  has c k (ANum y) -> (f c = Ok (Some (y * angstrom_per_cm)) <-> has c "src_mono" (ANum y)) /\ (has c "src_mono" ANone -> f c = Ok None).
Proof.
  intros c y f k I _.
  assert (E : f c = rmap to_angstrom (opt_num "src_mono" c)) by (cbn in I; destruct I as [I|[I|[I|[I|[I|[]]]]]]; injection I as _ <-; reflexivity).
  rewrite E. unfold opt_num, has. split; [split|].
  - destruct (aget "src_mono" c) as [v|]; [|discriminate]. destruct v as [x| | | |]; try discriminate. intros Q. apply Ok_inj in Q.
    change (Some (x * angstrom_per_cm) = Some (y * angstrom_per_cm)) in Q. injection Q as Q. unfold angstrom_per_cm in Q. replace y with x by lra. reflexivity.
  - intros ->. reflexivity.
  - intros ->. reflexivity.
Qed.
Print Assumptions C49_exactly_partial.

Example C49_ex : exists c, component distances_props distances_defaults (Some [("src_mono", ANum 474); ("ana_det", ANum 106)]) "distances" = Ok c
  /\ has c "src_mono" (ANum 474) /\ has c "ana_det" (ANum 106) /\ d_ana_det c = Ok (Some (474 * angstrom_per_cm)).
Proof. eexists. split; [reflexivity|]. repeat split; reflexivity. Qed.

(** * C60: construction of a part *)
Lemma aget_aset : forall k k' v c, aget k (aset k' v c) = if String.eqb k k' then Some v else aget k c.
Proof.
  intros k k' v c. unfold aget, aset. induction c as [|[k2 v2] c IH]; cbn [dset dget].
  - destruct (String.eqb k k'); reflexivity.
  - destruct (String.eqb_spec k' k2); cbn [dget].
    + subst. destruct (String.eqb_spec k k2); auto.
    + destruct (String.eqb_spec k k2); auto. subst. destruct (String.eqb_spec k2 k'); auto. congruence.
Qed.

Lemma setattrs_get : forall props ps c c', setattrs props ps c = Ok c' -> forall k,
  NoDup (map fst ps) ->
  aget k c' = match aget k ps with Some v => Some v | None => aget k c end.
Proof.
  induction ps as [|[k1 v1] ps IH]; cbn [setattrs]; intros c c' H k ND.
  - apply Ok_inj in H. subst. reflexivity.
  - destruct (existsb (String.eqb k1) props); [discriminate|]. inversion ND as [|? ? NI ND']; subst.
    rewrite (IH _ _ H k ND'), aget_aset. unfold aget at 1 3. cbn [dget].
    destruct (String.eqb_spec k k1); subst; auto.
    assert (D : dget String.eqb k1 ps = None); [|rewrite D; auto].
    clear - NI. induction ps as [|[a b] ps IH]; cbn in *; auto. destruct (String.eqb_spec k1 a); [subst; exfalso; apply NI; left; reflexivity|]. apply IH; tauto.
Qed.

Lemma setattrs_ok : forall props ps c, (forall k, In k (map fst ps) -> ~ In k props) -> exists c', setattrs props ps c = Ok c'.
Proof.
  induction ps as [|[k v] ps IH]; cbn [setattrs]; intros c H; [eauto|].
  destruct (existsb (String.eqb k) props) eqn:E.
  - exfalso. apply existsb_exists in E as (x & I & Q). apply String.eqb_eq in Q. subst. apply (H x); cbn; auto.
  - apply IH. intros k' I. apply H. cbn; auto.
Qed.

(** Every parameter given is stored as given, every other keeps its default; names of computed properties are refused. *)
Theorem C60_parameters_kept : forall props defaults ps name,
  NoDup (map fst ps) -> (forall k, In k (map fst ps) -> ~ In k props) ->
  exists c, component props defaults (Some ps) name = Ok c /\
    (forall k v, has ps k v -> has c k v) /\
    (forall k v, ~ In k (map fst ps) -> k <> "component_name" -> has defaults k v -> has c k v).
Proof.
  intros props defaults ps name ND NP. unfold component, has.
  destruct (setattrs_ok props ps (aset "component_name" (AStr name) defaults) NP) as [c C].
  exists c. split; auto. pose proof (setattrs_get _ _ _ _ C) as G. split; intros k v.
  - intros H. rewrite G by auto. rewrite H. auto.
  - intros NI NN H. rewrite G by auto. rewrite aget_aset.
    assert (D : aget k ps = None).
    { unfold aget. clear - NI. induction ps as [|[a b] ps IH]; cbn in *; auto. destruct (String.eqb_spec k a); [subst; tauto|]. apply IH; tauto. }
    rewrite D. destruct (String.eqb_spec k "component_name"); [congruence|auto].
Qed.
Print Assumptions C60_parameters_kept.

(** The spacing of a crystal is the tabulated one of its type, also when the parameters give another; an unknown type is refused. *)
Theorem C60_spacing_of_type : forall ps name t,
  NoDup (map fst ps) -> (forall k, In k (map fst ps) -> ~ In k mono_props) -> has ps "type" (AStr t) ->
  match dget String.eqb t mono_ana_xtal with
  | Some d => exists c, new_mono (Some ps) name = Ok c /\ has c "type" (AStr t) /\ has c "d_spacing" (ANum d) /\
                (forall k v, k <> "d_spacing" -> has ps k v -> has c k v)
  | None => new_mono (Some ps) name = Err KeyError
  end.
Proof.
  intros ps name t ND NP T.
  destruct (C60_parameters_kept mono_props mono_defaults ps name ND NP) as (c & C & K & _).
  unfold new_mono. rewrite C. cbn [bind]. pose proof (K _ _ T) as CT. unfold has in CT. rewrite CT.
  destruct (dget String.eqb t mono_ana_xtal) as [d|]; auto.
  eexists. split; [reflexivity|]. unfold has. rewrite !aget_aset. cbn. split; [exact CT|]. split; auto.
  intros k v NK H. rewrite aget_aset. destruct (String.eqb_spec k "d_spacing"); [congruence|]. apply K; auto.
Qed.
Print Assumptions C60_spacing_of_type.

(** [update] changes the named parameter only if the part has it, and nothing else. *)
Theorem C60_update : forall c k v, 
  (forall w, has c k w -> has (update c k v) k v) /\
  (aget k c = None -> update c k v = c) /\
  (forall k' w, k' <> k -> (has (update c k v) k' w <-> has c k' w)).
Proof.
  intros c k v. unfold update, has. split; [|split].
  - intros w ->. rewrite aget_aset, String.eqb_refl. auto.
  - intros ->. auto.
  - intros k' w N. destruct (aget k c) eqn:E; [|tauto]. rewrite aget_aset. destruct (String.eqb_spec k' k); [congruence|tauto].
Qed.
Print Assumptions C60_update.

(** Hence changing the type with [update] leaves the spacing of the old type in place. *)
Theorem C60_update_type_refuted : exists c, new_mono None "analyzer" = Ok c /\
  let c' := update c "type" (AStr "Ge111") in
  has c' "type" (AStr "Ge111") /\ has c' "d_spacing" (ANum 3.35416) /\ dget String.eqb "Ge111" mono_ana_xtal = Some 3.26627 /\ 3.35416 <> 3.26627.
Proof. eexists. split; [reflexivity|]. cbv zeta. repeat split; try reflexivity. lra. Qed.
Print Assumptions C60_update_type_refuted.

Example C60_ex : exists c, new_mono (Some [("type", AStr "Ge111"); ("d_spacing", ANum 1); ("mosaic_h", ANum 30)]) "monochromator" = Ok c
  /\ has c "d_spacing" (ANum 3.26627) /\ has c "mosaic_h" (ANum 30) /\ has c "sense" (AStr "-").
Proof. eexists. split; [reflexivity|]. repeat split; reflexivity. Qed.

(** * C61: loading an instrument's parameters *)
Lemma dget_dset : forall A k k' (v : A) d, dget String.eqb k (dset String.eqb k' v d) = if String.eqb k k' then Some v else dget String.eqb k d.
Proof.
  intros A k k' v c. induction c as [|[k2 v2] c IH]; cbn [dset dget].
  - destruct (String.eqb k k'); reflexivity.
  - destruct (String.eqb_spec k' k2); cbn [dget].
    + subst. destruct (String.eqb_spec k k2); auto.
    + destruct (String.eqb_spec k k2); auto. subst. destruct (String.eqb_spec k2 k'); auto. congruence.
Qed.

Lemma load_loop_get : forall cs config i i', NoDup (map fst cs) -> load_loop cs config i = (i', None) ->
  (forall n mk p, In (n, mk) cs -> dget String.eqb n config = Some p -> exists c, mk (Some p) n = Ok c /\ dget String.eqb n i' = Some c) /\
  (forall n, ~ In n (map fst cs) \/ dget String.eqb n config = None -> dget String.eqb n i' = dget String.eqb n i).
Proof.
  induction cs as [|[n mk] cs IH]; cbn [load_loop map]; intros config i i' ND H.
  - injection H as <-. split; [intros ? ? ? []|auto].
  - inversion ND as [|? ? NI ND']; subst. cbn [fst] in *. destruct (dget String.eqb n config) as [p|] eqn:E.
    + destruct (mk (Some p) n) as [c|] eqn:M; [|discriminate].
      destruct (IH _ _ _ ND' H) as [A B]. split.
      * intros n' mk' p' [I|I] Q; [|eauto]. injection I as <- <-. rewrite E in Q. injection Q as <-.
        exists c. split; auto. rewrite B by auto. rewrite dget_dset, String.eqb_refl. auto.
      * intros n' [I|I].
        -- rewrite B by (cbn in I; tauto). rewrite dget_dset. destruct (String.eqb_spec n' n); auto. cbn in I. subst; tauto.
        -- rewrite B by auto. rewrite dget_dset. destruct (String.eqb_spec n' n); auto. subst. congruence.
    + destruct (IH _ _ _ ND' H) as [A B]. split.
      * intros n' mk' p' [I|I] Q; [|eauto]. injection I as <- <-. congruence.
      * intros n' [I|I]; apply B; auto. cbn in I; tauto.
Qed.

(** A part named in the file is rebuilt from its own section; the parts not named keep what they were. *)
Theorem C61_parts_loaded : forall config i i', load_instrument_parameters config i = (i', None) ->
  (forall n mk p, In (n, mk) component_classes -> dget String.eqb n config = Some p ->
     exists c, mk (Some p) n = Ok c /\ dget String.eqb n i' = Some c) /\
  (forall n, dget String.eqb n config = None -> dget String.eqb n i' = dget String.eqb n i).
Proof.
  intros config i i' H. destruct (load_loop_get component_classes config i i') as [A B]; auto.
  cbn. repeat constructor; cbn; intuition discriminate.
Qed.
Print Assumptions C61_parts_loaded.

(** The documented attribute [arms] is never filled: a file's distances end up under another name. *)
Theorem C61_arms_refuted : forall config i i' e, arms i = None -> load_instrument_parameters config i = (i', e) -> arms i' = None.
Proof.
  intros config. unfold load_instrument_parameters, arms.
  assert (G : forall cs, ~ In "arms" (map fst cs) -> forall i i' e, dget String.eqb "arms" i = None ->
              load_loop cs config i = (i', e) -> dget String.eqb "arms" i' = None).
  { induction cs as [|[n mk] cs IH]; cbn [load_loop map]; intros NI i i' e A H; [injection H as <- _; auto|].
    cbn [fst In] in NI. destruct (dget String.eqb n config); [|eapply IH; eauto].
    destruct (mk _ n); [|injection H as <- _; auto]. eapply IH; [| |eauto]; [tauto|].
    rewrite dget_dset. destruct (String.eqb_spec "arms" n); auto. subst; tauto. }
  apply G. cbn. intuition discriminate.
Qed.
Print Assumptions C61_arms_refuted.

Example C61_ex : exists i', load_instrument_parameters [("distances", [("src_mono", ANum 474)]); ("guide", [("div_h", ANum 15)])] [] = (i', None)
  /\ arms i' = None /\ exists c, dget String.eqb "distances" i' = Some c /\ has c "src_mono" (ANum 474).
Proof. eexists. split; [reflexivity|]. split; [reflexivity|]. eexists. split; reflexivity. Qed.
