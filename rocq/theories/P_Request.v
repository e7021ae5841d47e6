(** C46: requests of the resolution at points. *)
From Coq Require Import Reals List Arith Bool String Lra Lia.
From Verif Require Import Base LinAlg M_Utilities M_Lattice M_UB M_Sample M_Goni M_Tas M_Components M_Mat M_Labels M_Ellipsoid M_Reso
  S_Energy L_Utilities L_UB P_Energy P_Tilt S_Mat S_Reso S_Grid S_Frame S_Request L_LinAlg L_Lattice L_Mat L_Reso P_Reso P_Frames.
Import ListNotations.
Open Scope R_scope.

Section Request.
Variable fmt3 : R -> string.
Variable ints : vec -> bool.
Notation ask := (cooper_nathans fmt3 ints).

(** ** Several points *)
Lemma ask_one : forall t ps p axes a m, ask t ps (One p) axes = Ok (a, m) ->
  exists ei ef, t_ei_ef t (snd p) = Ok (ei, ef) /\ validate_instrument_parameters t ps = Ok tt /\ (exists uv, get_uv t = Ok (Some uv)) /\
   ((exists e, at_point fmt3 ints t ps axes (fst p, ei, ef) = Ok e /\ a = Single (Some e) /\ m = []) \/
    (exists x, at_point fmt3 ints t ps axes (fst p, ei, ef) = Err x /\ is_value_error x = true /\ a = Single None /\ m = [(fst p, ei, ef, x)])).
Proof using.
  intros t ps p axes a m H. unfold cooper_nathans in H. destruct (validate_instrument_parameters t ps) as [[]|] eqn:V; [|discriminate]. cbn [bind] in H.
  destruct (get_uv t) as [[uv|]|] eqn:U; cbn [bind] in H; try discriminate. cbn [points mapM] in H. unfold hkleief in H. destruct (t_ei_ef t (snd p)) as [[ei ef]|] eqn:E; [|discriminate]. cbn [bind] in H.
  exists ei, ef. repeat (split; [eauto; fail|]). cbn [point_loop] in H. destruct (at_point fmt3 ints t ps axes (fst p, ei, ef)) as [e|x] eqn:P.
  - left. exists e. cbn [bind] in H. apply Ok_inj in H. injection H as <- <-. auto.
  - right. exists x. destruct (is_value_error x) eqn:W; cbn [bind] in H; [|discriminate]. apply Ok_inj in H. injection H as <- <-. auto.
Qed.
Lemma ask_several : forall t ps axes l, validate_instrument_parameters t ps = Ok tt -> (exists uv, get_uv t = Ok (Some uv)) ->
  (forall al ml, (do pl <- mapM (hkleief t) l; point_loop fmt3 ints t ps axes pl) = Ok (al, ml) ->
    exists rs, Forall2 (fun p r => ask t ps (One p) axes = Ok (Single (fst r), snd r)) l rs /\ al = map fst rs /\ ml = List.concat (map snd rs)) /\
  (Forall (fun p => exists r, ask t ps (One p) axes = Ok r) l -> exists r, (do pl <- mapM (hkleief t) l; point_loop fmt3 ints t ps axes pl) = Ok r).
Proof using.
  intros t ps axes l V (uv & U). induction l as [|p l [I1 I2]].
  - split; [|cbn; eauto]. intros al ml H. cbn in H. apply Ok_inj in H. injection H as <- <-. exists []. repeat split. constructor.
  - assert (ONE : forall ei ef, t_ei_ef t (snd p) = Ok (ei, ef) -> ask t ps (One p) axes = (do (a, m) <- (match at_point fmt3 ints t ps axes (fst p, ei, ef) with Ok e => Ok (Some e, []) | Err x => if is_value_error x then Ok (None, [((fst p, ei, ef), x)]) else Err x end); Ok (Single a, m))).
    { intros ei ef E. unfold cooper_nathans. rewrite V, U. cbn [bind points mapM]. unfold hkleief. rewrite E. cbn [bind point_loop]. destruct (at_point fmt3 ints t ps axes (fst p, ei, ef)) as [e|x]; cbn [bind]; [reflexivity|]. destruct (is_value_error x); reflexivity. }
    split.
    + intros al ml H. cbn [mapM] in H. unfold hkleief in H at 1. destruct (t_ei_ef t (snd p)) as [[ei ef]|] eqn:E; [|discriminate]. cbn [bind] in H.
      destruct (mapM (hkleief t) l) as [pl|] eqn:M; [|discriminate]. cbn [bind point_loop] in H. specialize (ONE _ _ eq_refl).
      match type of H with bind ?v _ = _ => destruct v as [[a m]|] eqn:A; [|discriminate] end. cbn [bind] in H, ONE. cbn [bind] in I1.
      destruct (point_loop fmt3 ints t ps axes pl) as [[al' ml']|] eqn:L; [|discriminate]. cbn [bind] in H. apply Ok_inj in H. injection H as <- <-.
      destruct (I1 _ _ eq_refl) as (rs & F & -> & ->). exists ((a, m) :: rs). repeat split. constructor; auto.
    + intros F. inversion F as [|? ? (r & R) F']; subst. destruct (I2 F') as (r' & L). cbn [mapM]. unfold hkleief at 1.
      destruct r as [ra rm]. destruct (ask_one _ _ _ _ _ _ R) as (ei & ef & E & _). rewrite E. cbn [bind]. specialize (ONE _ _ E). rewrite R in ONE.
      destruct (mapM (hkleief t) l) as [pl|]; [|discriminate]. cbn [bind point_loop] in *.
      match type of ONE with _ = bind ?v _ => destruct v as [[a m]|]; [|discriminate] end. cbn [bind]. rewrite L. cbn [bind]. destruct r'. eauto.
Qed.

(** The answers to a list of points are those to the points asked for one by one, in order; so are the messages. Each point
    that has no answer has exactly one message, which names the point; the others have none. A list of one point gets the bare answer. *)
Theorem C46_one_per_point : forall t ps axes l ans msgs, ask t ps (Several l) axes = Ok (ans, msgs) ->
  exists rs, Forall2 (fun p r => ask t ps (One p) axes = Ok (Single (fst r), snd r)) l rs /\
    ans = (match map fst rs with [a] => Single a | al => Tuple al end) /\ msgs = List.concat (map snd rs) /\
    Forall2 (fun p r => (exists e, r = (Some e, [])) \/
                        (exists ei ef x, t_ei_ef t (snd p) = Ok (ei, ef) /\ value_error x /\ r = (None, [(fst p, ei, ef, x)]))) l rs.
Proof using.
  intros t ps axes l ans msgs H. unfold cooper_nathans in H. destruct (validate_instrument_parameters t ps) as [[]|] eqn:V; [|discriminate]. cbn [bind] in H.
  destruct (get_uv t) as [[uv|]|] eqn:U; cbn [bind] in H; try discriminate. cbn [points] in H.
  destruct (ask_several t ps axes l V (ex_intro _ uv U)) as [I _].
  destruct (mapM (hkleief t) l) as [pl|] eqn:M; [|discriminate]. cbn [bind] in H, I. destruct (point_loop fmt3 ints t ps axes pl) as [[al ml]|] eqn:L; [|discriminate]. cbn [bind] in H.
  apply Ok_inj in H. injection H as <- <-. destruct (I _ _ eq_refl) as (rs & F & -> & ->). exists rs. split; [auto|]. split; [destruct (map fst rs) as [|? [|]]; reflexivity|]. split; [reflexivity|].
  clear -F. induction F as [|p r l rs H F IH]; constructor; auto. destruct (ask_one _ _ _ _ _ _ H) as (ei & ef & E & _ & _ & [(e & _ & A & B)|(x & _ & W & A & B)]).
  - left. exists e. destruct r as [ra rm]. cbn in *. injection A as ->. subst. reflexivity.
  - right. exists ei, ef, x. split; auto. split. { unfold value_error, is_value_error in *. destruct x; try discriminate; auto. } destruct r as [ra rm]. cbn in *. injection A as ->. subst. reflexivity.
Qed.

(** A list request returns when all its points do. *)
Theorem C46_all_return : forall t ps axes l, l <> [] -> Forall (fun p => exists r, ask t ps (One p) axes = Ok r) l ->
  exists r, ask t ps (Several l) axes = Ok r.
Proof using.
  intros t ps axes l N F. destruct l as [|p l]; [contradiction|]. pose proof F as F0. inversion F0 as [|? ? ([a m] & R) _]; subst.
  destruct (ask_one _ _ _ _ _ _ R) as (ei & ef & E & V & (uv & U) & _).
  destruct (ask_several t ps axes (p :: l) V (ex_intro _ uv U)) as [_ I]. destruct (I F) as ([al ml] & L).
  unfold cooper_nathans. rewrite V, U. cbn [bind points]. destruct (mapM (hkleief t) (p :: l)) as [pl|]; [|discriminate]. cbn [bind] in *. rewrite L. cbn [bind]. eauto.
Qed.

(** With a valid instrument, a value error at a point (numpy's LinAlgError included) never comes out of a request. *)
Theorem C46_caught : forall t ps p axes ei ef uv x, validate_instrument_parameters t ps = Ok tt -> get_uv t = Ok (Some uv) -> t_ei_ef t (snd p) = Ok (ei, ef) ->
  ask t ps (One p) axes = Err x -> ~ value_error x.
Proof using.
  intros t ps p axes ei ef uv x V U E H W. unfold cooper_nathans in H. rewrite V, U in H. cbn [bind points mapM] in H. unfold hkleief in H. rewrite E in H. cbn [bind point_loop] in H.
  destruct (at_point fmt3 ints t ps axes (fst p, ei, ef)) as [e|y]; cbn [bind] in H; [discriminate|].
  destruct (is_value_error y) eqn:Y; cbn [bind] in H; [discriminate|]. injection H as <-. destruct W as [->| ->]; discriminate.
Qed.

(** ** Which points have no answer *)
Definition calm {A} (r : result A) : Prop := forall e, r = Err e -> is_value_error e = false.
Lemma calm_ok : forall A (a : A), calm (Ok a).
Proof using. intros A a e H. discriminate. Qed.
Lemma calm_bind : forall A B (r : result A) (f : A -> result B), calm r -> (forall a, r = Ok a -> calm (f a)) -> calm (bind r f).
Proof using. intros A B r f H K e E. destruct r as [a|x]; cbn [bind] in E; [exact (K a eq_refl e E)|]. injection E as <-. apply H. auto. Qed.
Lemma calm_err : forall A e, is_value_error e = false -> calm (@Err A e).
Proof using. intros A e H x E. injection E as <-. auto. Qed.
Lemma calm_fdiv : forall a b, calm (fdiv a b).
Proof using. intros. unfold fdiv. destruct (Req_EM_T b 0); [apply calm_err; auto|apply calm_ok]. Qed.
Lemma calm_fsqrt : forall a, calm (fsqrt a).
Proof using. intros. unfold fsqrt. destruct (Rlt_dec a 0); [apply calm_err; auto|apply calm_ok]. Qed.
Lemma calm_facos : forall a, calm (facos a).
Proof using. intros. unfold facos. destruct (Rlt_dec 1 a); [apply calm_err; auto|]. destruct (Rlt_dec a (-1)); [apply calm_err; auto|apply calm_ok]. Qed.
Lemma calm_num : forall k c, calm (M_Components.num k c).
Proof using. intros k c. unfold M_Components.num, opt_num. destruct (aget k c) as [[]|]; cbn; try apply calm_ok; apply calm_err; auto. Qed.
Lemma calm_inv_sq : forall x, calm (inv_sq x).
Proof using. intros x. unfold inv_sq. destruct (Req_EM_T x 0); [apply calm_err; auto|apply calm_ok]. Qed.
Lemma calm_mosaic : forall k c, calm (m_mosaic k c).
Proof using. intros k c. unfold m_mosaic, rmap. pose proof (calm_num k c) as N. destruct (M_Components.num k c); [apply calm_ok|]. apply calm_err. apply N. auto. Qed.
Lemma calm_vcalc : forall a b c, calm (v_alpha_beta_gamma_calc a b c).
Proof using. intros. apply calm_fsqrt. Qed.
Lemma calm_real : forall p, calm (real_space_vectors p).
Proof using. intros p. unfold real_space_vectors. apply calm_bind; [apply calm_vcalc|]. intros. apply calm_bind; [apply calm_fdiv|]. intros. apply calm_bind; [apply calm_fdiv|]. intros. apply calm_ok. Qed.
Ltac calms := repeat (cbv zeta; first [apply calm_ok | apply calm_fdiv | apply calm_fsqrt | apply calm_facos | apply calm_num | apply calm_inv_sq | apply calm_mosaic | apply calm_vcalc | apply calm_real | (apply calm_bind; [|intros ? _])]).
Lemma calm_recip : forall p, calm (reciprocal_space_vectors p).
Proof using. intros p. unfold reciprocal_space_vectors. calms. destruct a1 as [[? ?] ?]. calms. Qed.
Lemma calm_latt : forall p, calm (reciprocal_latt_params p).
Proof using. intros p. unfold reciprocal_latt_params. calms. Qed.
Lemma calm_b : forall s, calm (s_b_mat s).
Proof using. intros s. unfold s_b_mat, b_mat_from_lattice. apply calm_bind; [apply calm_latt|intros ? _]. calms. Qed.
Lemma calm_q_norm : forall s h, calm (get_q_norm s h).
Proof using. intros s h. unfold get_q_norm. apply calm_bind; [apply calm_recip|intros [[? ?] ?] _]. calms. Qed.
Lemma calm_mat_f : forall m a, calm (mat_f m a).
Proof using. intros. unfold mat_f. calms. Qed.
Lemma calm_divergence : forall k0 k1 k2 k3 c, calm (divergence [k0; k1; k2; k3] c).
Proof using.
  intros. unfold divergence. cbn [mapM]. unfold rmap.
  assert (X : forall k, calm (match M_Components.num k c with Ok a => Ok (deg2rad (a / 60)) | Err e => Err e end)).
  { intros k. pose proof (calm_num k c) as N. destruct (M_Components.num k c); [apply calm_ok|]. apply calm_err. apply N. auto. }
  repeat first [apply X | apply calm_ok | (apply calm_bind; [|intros ? _])].
Qed.
Lemma calm_mat_g : forall c, calm (mat_g c).
Proof using.
  intros c. unfold mat_g. apply calm_bind; [apply calm_divergence|]. intros hs Hh. apply calm_bind; [apply calm_divergence|]. intros vs Hv.
  apply divergence4 in Hh, Hv. destruct Hh as (h0 & h1 & h2 & h3 & _ & _ & _ & _ & ->), Hv as (v0 & v1 & v2 & v3 & _ & _ & _ & _ & ->). calms.
Qed.
Lemma calm_part : forall ps n, calm (part ps n).
Proof using. intros. unfold part. destruct (dget String.eqb n ps); [apply calm_ok|apply calm_err; auto]. Qed.
Lemma calm_angle : forall a b, calm (get_angle_vec a b).
Proof using. intros. unfold get_angle_vec. destruct (Req_EM_T (norm a) 0); [apply calm_err; auto|]. destruct (Req_EM_T (norm b) 0); [apply calm_err; auto|apply calm_ok]. Qed.
Lemma calm_labels : forall axes, calm (labels_from_projection fmt3 axes).
Proof using.
  intros [l|]; unfold labels_from_projection; [|apply calm_ok]. destruct (is_hkl l); [apply calm_ok|]. generalize hkl_dict. induction l as [|[|a b c] l IH]; intros d; cbn [label_loop]; [apply calm_ok| |].
  - apply calm_bind; [apply IH|intros; apply calm_ok].
  - apply calm_bind. { unfold pick_letter. destruct (pop _ d); [apply calm_ok|]. destruct (pop _ d); [apply calm_ok|]. destruct (pop _ d); [apply calm_ok|apply calm_err; auto]. }
    intros [x d'] _. apply calm_bind; [apply IH|intros; apply calm_ok].
Qed.

(** get_theta of a crystal with a valid sense fails with ValueError exactly when Bragg's law has no solution *)
Lemma theta_fails : forall c e k x, check_sense c = Ok tt -> wavenumber e k -> get_theta c e = Err x -> is_value_error x = true -> no_bragg c k.
Proof using.
  intros c e k x S W H V. apply en2q_wave in W. unfold get_theta in H. rewrite W in H. cbn [bind] in H.
  destruct (M_Components.num "d_spacing" c) as [d|y] eqn:N; cbn [bind] in H. 2:{ injection H as <-. rewrite (calm_num _ _ _ N) in V. discriminate. }
  apply num_number in N. exists d. split; auto. intros s B E.
  assert (SE : exists y, m_sense c = Ok y). { unfold check_sense, m_sense in *. destruct (aget "sense" c) as [[]|]; try discriminate. destruct (String.eqb s0 "+"); [eauto|]. destruct (String.eqb s0 "-"); [eauto|discriminate]. }
  destruct SE as (y & SE). rewrite SE in H. pose proof PI_RGT_0.
  assert (Z : d * k <> 0). { intros Z. rewrite Z in E. lra. }
  assert (X : PI / (d * k) = s) by (rewrite <- E; field; split; intros Q; apply Z; rewrite Q; ring).
  unfold get_angle_bragg in H. destruct (Req_EM_T (d * k) 0); [contradiction|]. cbv zeta in H. rewrite X in H.
  destruct (Rlt_dec 1 s); [lra|]. destruct (Rlt_dec s (-1)); [lra|]. discriminate.
Qed.
Lemma theta_none : forall c e k, wavenumber e k -> no_bragg c k -> forall th, get_theta c e <> Ok th.
Proof using.
  intros c e k W (d & N & B) th H. apply en2q_wave in W. unfold get_theta in H. rewrite W in H. cbn [bind] in H. apply num_number in N. rewrite N in H. cbn [bind] in H.
  unfold get_angle_bragg in H. destruct (Req_EM_T (d * k) 0) as [|Z]; [discriminate|]. cbv zeta in H. destruct (Rlt_dec 1 (PI / (d * k))); [discriminate|]. destruct (Rlt_dec (PI / (d * k)) (-1)); [discriminate|].
  apply (B (PI / (d * k))); [lra|]. field. split; intros Q; apply Z; rewrite Q; ring.
Qed.
Lemma en2q_fails : forall e x, en2q e = Err x -> e < 0.
Proof using. intros e x H. destruct (Rlt_dec e 0); auto. destruct (C05_en2q e) as (k & K & _); [lra|]. congruence. Qed.

Lemma keep_vectors : forall l, keep_some vec_of l = S_Request.vectors l.
Proof using. induction l as [|[|a b c] l IH]; auto. cbn. rewrite IH. reflexivity. Qed.
Lemma en_index_in : forall l, (exists k, en_index l = Ok k) <-> In En l.
Proof using.
  induction l as [|[|a b c] l IH].
  - split; [intros (k & H); discriminate|intros []].
  - split; [left; auto|intros _; exists 0%nat; reflexivity].
  - cbn [en_index]. split.
    + intros (k & H). right. apply IH. destruct (en_index l) as [j|]; [eauto|discriminate].
    + intros [H|H]; [discriminate|]. apply IH in H. destruct H as (k & ->). cbn. eauto.
Qed.
Lemma lincomb_combination : forall p a b c, lincomb p a b c = combination (vx p) (vy p) (vz p) a b c.
Proof using. intros. unfold lincomb, combination, vadd, vscale. reflexivity. Qed.

Lemma checked_senses : forall t ps mono ana, validate_instrument_parameters t ps = Ok tt -> dget String.eqb "monochromator"%string ps = Some mono ->
  dget String.eqb "analyzer"%string ps = Some ana -> check_sense mono = Ok tt /\ check_sense ana = Ok tt.
Proof using.
  intros t ps mono ana V Mo An. unfold validate_instrument_parameters, part in V. rewrite Mo, An in V. cbn [bind] in V.
  repeat match type of V with bind ?v _ = _ => let E := fresh "E" in destruct v as [[]|] eqn:E; [|discriminate]; cbn [bind] in V end. auto.
Qed.

Lemma no_point : forall t ps axes h en ei ef x, validate_instrument_parameters t ps = Ok tt -> t_ei_ef t en = Ok (ei, ef) ->
  at_point fmt3 ints t ps axes (h, ei, ef) = Err x -> is_value_error x = true -> unreachable t ps h ei ef \/ bad_axes t axes.
Proof using.
  intros t ps axes h en ei ef x V EE H W. unfold at_point in H.
  assert (VE : forall y, is_value_error y = true -> value_error y) by (intros y Y; unfold value_error; destruct y; try discriminate; auto).
  destruct (calculate_at_hkle t ps h ei ef) as [[A r0]|y] eqn:C; cbn [bind] in H.
  2:{ left. injection H as <-. unfold calculate_at_hkle in C.
    destruct (get_q_norm (t_sample t) h) as [q|z] eqn:Q; cbn [bind] in C. 2:{ injection C as <-. rewrite (calm_q_norm _ _ _ Q) in W. discriminate. }
    destruct (en2q ei) as [ki|] eqn:Ki; cbn [bind] in C; [|left; eapply en2q_fails; eauto].
    destruct (en2q ef) as [kf|] eqn:Kf; cbn [bind] in C; [|right; left; eapply en2q_fails; eauto].
    destruct (calculate_motor_angles t h (ei - ef)) as [a|z] eqn:MA; cbn [bind] in C. 2:{ injection C as ->. right. right. left. exists y. auto. }
    assert (PSI : exists psi, get_psi t h (ei - ef) = Ok psi).
    { unfold calculate_motor_angles in MA. destruct (get_two_theta t h (ei - ef)); [|discriminate]. cbn [bind] in MA. destruct (get_psi t h (ei - ef)); [eauto|discriminate]. }
    destruct PSI as (psi & PS). rewrite PS in C. cbn [bind] in C.
    unfold part at 1 in C. destruct (dget String.eqb "monochromator"%string ps) as [mono|] eqn:Mo; cbn [bind] in C. 2:{ injection C as <-. discriminate. }
    unfold part at 1 in C. destruct (dget String.eqb "analyzer"%string ps) as [ana|] eqn:An; cbn [bind] in C. 2:{ injection C as <-. discriminate. }
    destruct (checked_senses _ _ _ _ V Mo An) as [Sm Sa]. apply en2q_wave in Ki, Kf.
    destruct (get_theta mono ei) as [tm|z] eqn:Tm; cbn [bind] in C. 2:{ injection C as ->. right. right. right. left. exists mono, ki. split; [auto|]. split; auto. eapply theta_fails; eauto. }
    destruct (get_theta ana ef) as [ta|z] eqn:Ta; cbn [bind] in C. 2:{ injection C as ->. right. right. right. right. exists ana, kf. split; [auto|]. split; auto. eapply theta_fails; eauto. }
    cbv zeta in C. destruct (Req_EM_T (cos (deg2rad tm)) 0) as [|Cm]. { injection C as <-. discriminate. } destruct (Req_EM_T (cos (deg2rad ta)) 0) as [|Ca]. { injection C as <-. discriminate. }
    destruct (mat_f mono ana) as [F|z] eqn:EF; cbn [bind] in C. 2:{ injection C as <-. rewrite (calm_mat_f _ _ _ EF) in W. discriminate. }
    destruct (part ps "collimators") as [coll|z] eqn:Co; cbn [bind] in C. 2:{ injection C as <-. rewrite (calm_part _ _ _ Co) in W. discriminate. }
    destruct (mat_g coll) as [G|z] eqn:EG; cbn [bind] in C. 2:{ injection C as <-. rewrite (calm_mat_g _ _ EG) in W. discriminate. }
    exfalso. apply mat_f_ok in EF. destruct EF as (mh & mv & ah & av & N1 & N2 & N3 & N4 & Z & EF). apply mat_g_ok in EG. destruct EG as (h0 & h1 & h2 & h3 & v0 & v1 & v2 & v3 & Nh & Nv & Zh & Zv & EG).
    unfold part in Co. destruct (dget String.eqb "collimators" ps) as [coll'|] eqn:Co'; [|discriminate]. apply Ok_inj in Co. subst coll'.
    set (s := Setup ki kf (two_theta a) psi tm ta q (mh, mv) (ah, av) (s_mosaic_h (t_sample t), s_mosaic_v (t_sample t)) (h0, h1, h2, h3) (v0, v1, v2, v3)).
    destruct (C45_defined t ps h en ei ef s a EE) as (A & r0 & K); auto.
    - apply motor_two_theta in MA. unfold described. cbn. repeat (split; auto). exists mono, ana, coll. repeat (split; auto).
    - unfold proper_setup. cbn. rewrite deg_eq in Cm, Ca. repeat (split; auto).
    - unfold calculate_at_hkle in K. rewrite Q in K. cbn [bind] in K. rewrite (proj2 (en2q_wave _ _) Ki), (proj2 (en2q_wave _ _) Kf), MA, PS in K. cbn [bind] in K. unfold part in K. rewrite Mo, An, Co' in K. cbn [bind] in K. rewrite Tm, Ta in K. cbn [bind] in K. cbv zeta in K.
      destruct (Req_EM_T (cos (deg2rad tm)) 0); [contradiction|]. destruct (Req_EM_T (cos (deg2rad ta)) 0); [contradiction|].
      rewrite (proj2 (mat_f_ok mono ana F)) in K by (exists mh, mv, ah, av; auto 10). cbn [bind] in K.
      rewrite (proj2 (mat_g_ok coll G)) in K by (exists h0, h1, h2, h3, v0, v1, v2, v3; auto 10). cbn [bind] in K. congruence. }
  right. destruct (opened _ _ _ _ _ _ _ C) as (s & _ & _ & D & _ & _ & _ & _ & _ & a & MA). unfold new_ellipsoid in H.
  destruct (s_b_mat (t_sample t)) as [b|z] eqn:B; cbn [bind] in H. 2:{ injection H as <-. rewrite (calm_b _ _ B) in W. discriminate. } cbv zeta in H.
  destruct axes as [l|]. 2:{ exfalso. discriminate. }
  rewrite MA in H. cbn [bind] in H. destruct (motor_r_mat _ _ _ _ MA) as (r & RM). rewrite RM in H. cbn [bind] in H.
  destruct (s_ub_conf (t_sample t)) as [u|]; [|injection H as <-; discriminate]. destruct (_ub_mat u) as [ub|]; [|injection H as <-; discriminate]. cbn [bind] in H.
  destruct D as (_ & _ & _ & PS & _). rewrite PS in H. cbn [bind] in H.
  exists l. split; auto. destruct (is_hkl l) eqn:HK.
  { exfalso. destruct (reciprocal_latt_params (s_lattice (t_sample t))) as [l'|z] eqn:LP; cbn [bind] in H. 2:{ injection H as <-. rewrite (calm_latt _ _ LP) in W. discriminate. }
    match type of H with bind ?v _ = _ => destruct v eqn:LB end; cbn [bind] in H; [discriminate|]. injection H as <-. rewrite (calm_labels _ _ LB) in W. discriminate. }
  split; auto. rewrite keep_vectors in H. destruct (S_Request.vectors l) as [|p1 [|p2 [|p3 [|]]]] eqn:VS; try (left; cbn; lia).
  right. destruct (reciprocal_space_vectors (s_lattice (t_sample t))) as [[[av bv] cv]|z] eqn:RS; cbn [bind] in H. 2:{ injection H as <-. rewrite (calm_recip _ _ RS) in W. discriminate. }
  destruct (Rlt_dec (dot (lincomb p1 av bv cv) (cross (lincomb p2 av bv cv) (lincomb p3 av bv cv))) (/ 100000000)) as [T|T].
  { right. exists p1, p2, p3, av, bv, cv. split; [auto|]. split; [auto|]. cbv beta zeta. rewrite <- !lincomb_combination. lra. }
  left. destruct (Rlt_dec (Rabs _) (/ 100000000)) as [T'|_]. { exfalso. pose proof (Rle_abs (dot (lincomb p1 av bv cv) (cross (lincomb p2 av bv cv) (lincomb p3 av bv cv)))). lra. }
  destruct (Req_EM_T (dot p1 (cross p2 p3)) 0). { injection H as <-. discriminate. }
  repeat (match type of H with bind (get_angle_vec ?x ?y) _ = _ => let G := fresh "G" in destruct (get_angle_vec x y) eqn:G; cbn [bind] in H; [|injection H as <-; rewrite (calm_angle _ _ _ G) in W; discriminate] end).
  destruct (en_index l) as [k|] eqn:EI; cbn [bind] in H. 2:{ intros I. apply en_index_in in I. destruct I; congruence. }
  exfalso. match type of H with bind ?v _ = _ => destruct v eqn:LB end; cbn [bind] in H; [discriminate|]. injection H as <-. rewrite (calm_labels _ _ LB) in W. discriminate.
Qed.

(** A point has no answer exactly when the instrument cannot reach it, or the axes are no axes. *)
Theorem C46_none_exactly : forall t ps axes h en ei ef a m, t_ei_ef t en = Ok (ei, ef) -> ask t ps (One (h, en)) axes = Ok (Single a, m) ->
  (a = None <-> unreachable t ps h ei ef \/ bad_axes t axes).
Proof using.
  intros t ps axes h en ei ef a m EE H. destruct (ask_one _ _ _ _ _ _ H) as (ei' & ef' & E & V & _ & D). cbn [fst snd] in *. rewrite EE in E. apply Ok_inj in E. injection E as <- <-.
  destruct D as [(e & P & A & _)|(x & P & W & A & _)]; injection A as ->.
  - split; [discriminate|]. intros X. exfalso. unfold at_point in P. destruct (calculate_at_hkle t ps h ei ef) as [[M r0]|] eqn:C; [|discriminate]. cbn [bind] in P.
    destruct (opened _ _ _ _ _ _ _ C) as (s & _ & _ & D & _ & _ & _ & _ & _ & ma & MA). destruct D as (Ki & Kf & _ & _ & _ & _ & _ & mono & ana & coll & Mo & An & Co & Tm & Ta & _).
    destruct X as [[X|[X|[(x & X & _)|[(c & k & Mo' & K & N)|(c & k & An' & K & N)]]]]|X].
    + unfold wavenumber in Ki. nra. + unfold wavenumber in Kf. nra. + congruence.
    + rewrite Mo in Mo'. injection Mo' as <-. exact (theta_none _ _ _ K N _ Tm).
    + rewrite An in An'. injection An' as <-. exact (theta_none _ _ _ K N _ Ta).
    + destruct X as (l & -> & HK & X). destruct (frame_opened _ _ _ _ _ _ _ _ _ P) as (a1 & r & u & ub & psi & _ & _ & _ & _ & _ & [(HK' & _)|(p1 & p2 & p3 & k & _ & KS & EI & _)]); [congruence|].
      rewrite keep_vectors in KS. destruct X as [X|[X|(q1 & q2 & q3 & av & bv & cv & VS & RS & X)]].
      * rewrite KS in X. cbn in X. lia.
      * apply X. apply en_index_in. eauto.
      * unfold new_ellipsoid in P. destruct (s_b_mat (t_sample t)); [|discriminate]. cbn [bind] in P. cbv zeta in P.
        repeat (match type of P with bind ?v _ = _ => destruct v; [|discriminate] end; cbn [bind] in P). rewrite HK, keep_vectors, VS, RS in P. cbn [bind] in P. cbv beta zeta in X. rewrite <- !lincomb_combination in X.
        destruct (Rlt_dec _ (/ 100000000)) as [|T]; [discriminate|]. lra.
  - split; auto. intros _. eapply no_point; eauto.
Qed.
End Request.
Print Assumptions C46_one_per_point.
Print Assumptions C46_caught.
Print Assumptions C46_all_return.
Print Assumptions C46_none_exactly.

(** The instrument of [C45_example]: the energies of the first point are 18.6 and 8.3 meV, the second point needs a negative one. *)
Example C46_example : exists e x, let t := tas21 "Y,-Z,X" "-" in
  cooper_nathans (fun _ => ""%string) (fun _ => false) t parts45 (Several [(V (/ PI) 0 0, en21 3); (V (/ PI) 0 0, -100)]) (Some [Vec (CInt 1) (CInt 0) (CInt 0); Vec (CInt 0) (CInt 1) (CInt 0); Vec (CInt 0) (CInt 0) (CInt 1); En])
    = Ok (Tuple [Some e; None], [(V (/ PI) 0 0, -100 + ksq2eng * (2 * 2), ksq2eng * (2 * 2), x)]) /\
  unreachable t parts45 (V (/ PI) 0 0) (-100 + ksq2eng * (2 * 2)) (ksq2eng * (2 * 2)).
Proof.
  destruct (C45_example (fun _ => false)) as (A & r0 & e & E & C & N). cbv zeta in *. set (t := tas21 "Y,-Z,X" "-") in *. set (h := V (/ PI) 0 0) in *. set (ax := Some _) in *.
  destruct (tas21_two_theta "Y,-Z,X" "-" (-1) 3) as (th & psi & T & P & BE & B & VC); [right; auto|lra|]. fold t h in T, P, B.
  assert (Neg : -100 + ksq2eng * (2 * 2) < 0) by (unfold ksq2eng; lra).
  exists e, ValueError. split; [|left; auto].
  unfold cooper_nathans.
  assert (V : validate_instrument_parameters t parts45 = Ok tt).
  { unfold validate_instrument_parameters, part, parts45. cbn [dget fst snd String.eqb Ascii.eqb Bool.eqb bind]. unfold positive_list, none_negative, positive_attr, check_sense, aget, crystal45, coll45.
    cbn -[Rle_dec Rlt_dec IZR]. repeat (destruct (Rlt_dec _ _) as [K|_]; [exfalso; lra|]; cbn -[Rle_dec Rlt_dec IZR]). reflexivity. }
  rewrite V. cbn [bind].
  assert (U : exists uv, get_uv t = Ok (Some uv)).
  { unfold get_uv. cbn [s_ub_conf t_sample t tas21 ub21 _ub_mat]. unfold ub_matrix_to_uv, minv. pose proof (bclosed_det _ VC). destruct (Req_EM_T (det (bclosed cubic1)) 0); [lra|]. cbn [bind]. eauto. }
  destruct U as (uv & U). rewrite U. cbn [bind points mapM]. unfold hkleief. cbn [fst snd]. rewrite E. cbn [bind].
  change (t_ei_ef t (-100)) with (Ok (-100 + ksq2eng * (2 * 2), ksq2eng * (2 * 2)) : result (R * R)). cbn [bind point_loop].
  assert (P1 : at_point (fun _ => ""%string) (fun _ => false) t parts45 ax (h, en21 3 + ksq2eng * (2 * 2), ksq2eng * (2 * 2)) = Ok e).
  { unfold at_point. rewrite C. cbn [bind]. replace (en21 3 + ksq2eng * (2 * 2) - ksq2eng * (2 * 2)) with (en21 3) by ring. exact N. }
  assert (P2 : at_point (fun _ => ""%string) (fun _ => false) t parts45 ax (h, -100 + ksq2eng * (2 * 2), ksq2eng * (2 * 2)) = Err ValueError).
  { unfold at_point, calculate_at_hkle, get_q_norm. change (s_lattice (t_sample t)) with cubic1. rewrite (recip_ok cubic1 VC). cbn [bind].
    unfold en2q. destruct (Rlt_dec (-100 + ksq2eng * (2 * 2)) 0) as [|X]; [|contradiction]. reflexivity. }
  rewrite P1, P2. reflexivity.
Qed.
