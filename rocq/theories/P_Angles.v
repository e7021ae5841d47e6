(** Property C82: comparing motor positions; C03 for a goniometer as made. *)
From Coq Require Import Reals List String Bool Lra Lia.
From Verif Require Import Base LinAlg M_Utilities M_Goni M_Angles S_Goni P_Goni.
Import ListNotations.
Open Scope R_scope.

(** * Specification *)
(** The six motors in their order, and where a position has them (or does not). *)
Inductive motor := TwoTheta | Omega | Sgl | Sgu | Chi | Phi.
Definition before (m n : motor) : Prop :=
  let num m := match m with TwoTheta => 0 | Omega => 1 | Sgl => 2 | Sgu => 3 | Chi => 4 | Phi => 5 end%nat in (num m < num n)%nat.
Definition at_motor (a : motor_angles) (m : motor) : option R :=
  match m with TwoTheta => Some (two_theta a) | Omega => omega a | Sgl => sgl a | Sgu => sgu a | Chi => chi a | Phi => phi a end.
(** Within a tenth of a degree and a hundred-thousandth of the second number. *)
Definition near (x y : R) : Prop := Rabs (x - y) <= 0.1 + 0.00001 * Rabs y.
(** The motor [m] does not tell the positions apart: the first has no such motor, or both have it at near places. *)
Definition agrees (a b : motor_angles) (m : motor) : Prop :=
  at_motor a m = None \/ exists x y, at_motor a m = Some x /\ at_motor b m = Some y /\ near x y.

(** * Proofs *)
Lemma allclose_near : forall x y, allclose x y = true <-> near x y.
Proof.
  intros. unfold allclose, near. replace (1 / 10 + / 100000 * Rabs y) with (0.1 + 0.00001 * Rabs y) by lra.
  destruct (Rle_dec _ _); split; auto; discriminate.
Qed.
Definition six : list motor := [TwoTheta; Omega; Sgl; Sgu; Chi; Phi].
Lemma eq_unfold : forall a b, motor_angles_eq a b = angles_eq_fields (map (fun m => (at_motor a m, at_motor b m)) six).
Proof. reflexivity. Qed.
Lemma fields_cases : forall a b l,
  match angles_eq_fields (map (fun m => (at_motor a m, at_motor b m)) l) with
  | Ok true => Forall (agrees a b) l
  | Ok false => exists l1 m l2 x y, l = l1 ++ m :: l2 /\ Forall (agrees a b) l1 /\ at_motor a m = Some x /\ at_motor b m = Some y /\ ~ near x y
  | Err e => e = TypeError /\ exists l1 m l2 x, l = l1 ++ m :: l2 /\ Forall (agrees a b) l1 /\ at_motor a m = Some x /\ at_motor b m = None
  end.
Proof.
  intros a b. induction l as [|m l IH]; [constructor|]. cbn [map angles_eq_fields].
  assert (C : agrees a b m -> match angles_eq_fields (map (fun m => (at_motor a m, at_motor b m)) l) with
    | Ok true => Forall (agrees a b) (m :: l)
    | Ok false => exists l1 n l2 x y, m :: l = l1 ++ n :: l2 /\ Forall (agrees a b) l1 /\ at_motor a n = Some x /\ at_motor b n = Some y /\ ~ near x y
    | Err e => e = TypeError /\ exists l1 n l2 x, m :: l = l1 ++ n :: l2 /\ Forall (agrees a b) l1 /\ at_motor a n = Some x /\ at_motor b n = None
    end).
  { intros A. destruct (angles_eq_fields _) as [[|]|e].
    - constructor; auto.
    - destruct IH as (l1 & n & l2 & x & y & -> & F & H). exists (m :: l1), n, l2, x, y. repeat split; try tauto. constructor; auto.
    - destruct IH as (-> & l1 & n & l2 & x & -> & F & H). split; auto. exists (m :: l1), n, l2, x. repeat split; try tauto. constructor; auto. }
  destruct (at_motor a m) as [x|] eqn:X; [destruct (at_motor b m) as [y|] eqn:Y|].
  - destruct (allclose x y) eqn:N.
    + apply C. right. exists x, y. rewrite allclose_near in N. auto.
    + exists [], m, l, x, y. repeat split; auto. rewrite <- allclose_near. congruence.
  - split; auto. exists [], m, l, x. auto.
  - apply C. left. auto.
Qed.
Lemma six_all : forall P, Forall P six <-> forall m : motor, P m.
Proof. intros P. unfold six. split; [intros F m; rewrite Forall_forall in F; apply F; destruct m; cbn; tauto|intros H; repeat constructor; auto]. Qed.
Lemma six_before : forall l1 m l2, six = l1 ++ m :: l2 -> forall n, In n l1 <-> before n m.
Proof.
  intros l1 m l2 E n. unfold six in E.
  assert (L : (List.length l1 <= 5)%nat). { apply (f_equal (@List.length _)) in E. rewrite app_length in E. cbn in E. lia. }
  assert (K : l1 = firstn (List.length l1) [TwoTheta; Omega; Sgl; Sgu; Chi; Phi]) by (rewrite E, firstn_app, firstn_all, Nat.sub_diag; cbn [firstn]; now rewrite app_nil_r).
  assert (M : nth_error [TwoTheta; Omega; Sgl; Sgu; Chi; Phi] (List.length l1) = Some m) by (rewrite E, nth_error_app2, Nat.sub_diag; auto).
  revert K M. generalize (List.length l1) L. clear. intros k L -> M.
  do 6 (destruct k as [|k]; [cbn in M; injection M as <-; unfold before; destruct n; cbn; split; intros I; try lia; try tauto; repeat destruct I as [I|I]; try discriminate; tauto|]). lia.
Qed.
Lemma six_split : forall m, exists l1 l2, six = l1 ++ m :: l2.
Proof. intros m. apply in_split. unfold six. destruct m; cbn; tauto. Qed.
Lemma first_unique : forall (P : motor -> Prop) m n, (forall k, before k m -> P k) -> ~ P m -> (forall k, before k n -> P k) -> ~ P n -> m = n.
Proof.
  intros P m n A B C D. destruct m, n; auto; exfalso;
    first [apply B; apply C; cbv; lia | apply D; apply A; cbv; lia].
Qed.
Lemma verdict : forall a b,
  (motor_angles_eq a b = Ok true /\ (forall m, agrees a b m)) \/
  (exists m x y, motor_angles_eq a b = Ok false /\ (forall n, before n m -> agrees a b n) /\ at_motor a m = Some x /\ at_motor b m = Some y /\ ~ near x y) \/
  (exists m x, motor_angles_eq a b = Err TypeError /\ (forall n, before n m -> agrees a b n) /\ at_motor a m = Some x /\ at_motor b m = None).
Proof.
  intros a b. rewrite eq_unfold. pose proof (fields_cases a b six) as H. destruct (angles_eq_fields _) as [[|]|e].
  - left. split; auto. now apply six_all.
  - right; left. destruct H as (l1 & m & l2 & x & y & E & F & H). exists m, x, y. repeat split; try tauto. intros n N. rewrite Forall_forall in F. apply F. eapply six_before; eauto.
  - right; right. destruct H as (-> & l1 & m & l2 & x & E & F & H). exists m, x. repeat split; try tauto. intros n N. rewrite Forall_forall in F. apply F. eapply six_before; eauto.
Qed.

(** Two positions are equal exactly when every motor the first has stands near its place in the second. *)
Theorem C82_equal : forall a b, motor_angles_eq a b = Ok true <->
  forall m x, at_motor a m = Some x -> exists y, at_motor b m = Some y /\ near x y.
Proof.
  intros a b. split.
  - intros H. destruct (verdict a b) as [[_ A]|[(m & x & y & E & _)|(m & x & E & _)]]; try congruence.
    intros m x X. destruct (A m) as [N|(x' & y & X' & Y & N)]; [congruence|]. exists y. split; auto. congruence.
  - intros H. destruct (verdict a b) as [[E _]|[(m & x & y & _ & _ & X & Y & N)|(m & x & _ & _ & X & Y)]]; auto; destruct (H m x X) as (y' & Y' & N'); congruence.
Qed.
Print Assumptions C82_equal.
(** They differ, or cannot be compared (TypeError), because of the first motor that tells them apart. *)
Theorem C82_first_difference : forall a b m x, at_motor a m = Some x -> (forall n, before n m -> agrees a b n) ->
  (forall y, at_motor b m = Some y -> ~ near x y -> motor_angles_eq a b = Ok false) /\
  (at_motor b m = None -> motor_angles_eq a b = Err TypeError).
Proof.
  intros a b m x X F. split.
  - intros y Y N. assert (D : ~ agrees a b m) by (intros [A|(x' & y' & A & B & C)]; congruence).
    destruct (verdict a b) as [[_ A]|[(m' & x' & y' & E & _)|(m' & x' & E & F' & X' & Y')]]; auto.
    + now destruct D.
    + assert (m = m'); [|congruence]. apply (first_unique (agrees a b)); auto. intros [A|(p & q & A & B & C)]; congruence.
  - intros Y. assert (D : ~ agrees a b m) by (intros [A|(x' & y' & A & B & C)]; congruence).
    destruct (verdict a b) as [[_ A]|[(m' & x' & y' & E & F' & X' & Y' & N')|(m' & x' & E & F' & X' & Y')]]; auto.
    + now destruct D.
    + assert (m = m'); [|congruence]. apply (first_unique (agrees a b)); auto. intros [A|(p & q & A & B & C)]; congruence.
Qed.
Print Assumptions C82_first_difference.
(** A position equals itself; positions with the same motors, none apart by more than a tenth of a degree, are equal in either order. *)
Theorem C82_close : forall a b, (forall m, (at_motor a m = None /\ at_motor b m = None) \/ exists x y, at_motor a m = Some x /\ at_motor b m = Some y /\ Rabs (x - y) <= 0.1) ->
  motor_angles_eq a b = Ok true /\ motor_angles_eq b a = Ok true.
Proof.
  assert (K : forall a b, (forall m, (at_motor a m = None /\ at_motor b m = None) \/ exists x y, at_motor a m = Some x /\ at_motor b m = Some y /\ Rabs (x - y) <= 0.1) ->
    motor_angles_eq a b = Ok true).
  { intros a b H. apply C82_equal. intros m x X. destruct (H m) as [[N _]|(x' & y & X' & Y & D)]; [congruence|]. exists y. split; auto.
    rewrite X in X'. injection X' as <-. unfold near. pose proof (Rabs_pos y). lra. }
  intros a b H. split; apply K; auto. intros m. destruct (H m) as [[A B]|(x & y & X & Y & D)]; auto. right. exists y, x. rewrite Rabs_minus_sym. auto.
Qed.
Print Assumptions C82_close.
(** Positions of motors within a full turn that are apart by more than 0.1036 degrees are never equal. *)
Theorem C82_apart : forall a b m x y, at_motor a m = Some x -> at_motor b m = Some y -> Rabs y <= 360 -> Rabs (x - y) > 0.1036 -> motor_angles_eq a b <> Ok true.
Proof.
  intros a b m x y X Y B D H. rewrite C82_equal in H. destruct (H m x X) as (y' & Y' & N). rewrite Y in Y'. injection Y' as <-. unfold near in N. lra.
Qed.
Print Assumptions C82_apart.
(** Peaks are equal when their indices are, exactly, and their angles as above. *)
Lemma same_hkl_iff : forall u v, same_hkl u v = true <-> u = v.
Proof.
  intros [a b c] [a' b' c']. unfold same_hkl, same_number. cbn. destruct (Req_EM_T a a'), (Req_EM_T b b'), (Req_EM_T c c'); cbn; split; congruence.
Qed.
Theorem C82_peaks : forall p q, (peak_eq p q = Ok true <-> hkl p = hkl q /\ forall m x, at_motor (angles p) m = Some x -> exists y, at_motor (angles q) m = Some y /\ near x y) /\
  (hkl p <> hkl q -> peak_eq p q = Ok false) /\ (forall r, peak_eq p q = Ok r -> peak_ne p q = Ok (negb r)).
Proof.
  intros p q. unfold peak_ne, peak_eq. destruct (same_hkl (hkl p) (hkl q)) eqn:E.
  - apply same_hkl_iff in E. rewrite C82_equal. split; [tauto|]. split; [congruence|]. intros r ->. reflexivity.
  - assert (N : hkl p <> hkl q) by (intros H; apply same_hkl_iff in H; congruence). split; [split; [discriminate|tauto]|]. split; auto. intros r H. injection H as <-. reflexivity.
Qed.
Print Assumptions C82_peaks.

(** Findings. The comparison is not symmetric: a motor only the second position has is ignored, one only the first has is an error. *)
Theorem C82_symmetric_refuted : forall t w, let a := MotorAngles t None None None None None in let b := MotorAngles t (Some w) None None None None in
  motor_angles_eq a b = Ok true /\ motor_angles_eq b a = Err TypeError.
Proof.
  intros t w a b. assert (N : near t t) by (unfold near; rewrite Rminus_diag_eq, Rabs_R0; auto; pose proof (Rabs_pos t); lra). split.
  - apply C82_equal. intros m x X. destruct m; cbn in X; try discriminate. injection X as <-. exists t. split; auto.
  - apply (C82_first_difference b a Omega w eq_refl); auto. intros n B. destruct n; cbv in B; try lia. right. exists t, t. auto.
Qed.
Print Assumptions C82_symmetric_refuted.
(** Nor transitive: steps of a tenth of a degree lead anywhere. *)
Theorem C82_transitive_refuted : forall t, exists u v, let pos x := MotorAngles x None None None None None in
  motor_angles_eq (pos t) (pos u) = Ok true /\ motor_angles_eq (pos u) (pos v) = Ok true /\ (Rabs t <= 180 -> motor_angles_eq (pos t) (pos v) = Ok false).
Proof.
  intros t. exists (t + 0.1), (t + 0.2). cbv zeta.
  assert (K : forall x y, near x y -> motor_angles_eq (MotorAngles x None None None None None) (MotorAngles y None None None None None) = Ok true).
  { intros x y N. apply C82_equal. intros m z Z. destruct m; cbn in Z; try discriminate. injection Z as <-. exists y. auto. }
  split; [|split].
  - apply K. unfold near. replace (t - (t + 0.1)) with (Ropp 0.1) by lra. rewrite Rabs_Ropp, (Rabs_pos_eq 0.1) by lra. pose proof (Rabs_pos (t + 0.1)). lra.
  - apply K. unfold near. replace (t + 0.1 - (t + 0.2)) with (Ropp 0.1) by lra. rewrite Rabs_Ropp, (Rabs_pos_eq 0.1) by lra. pose proof (Rabs_pos (t + 0.2)). lra.
  - intros B. refine (proj1 (C82_first_difference (MotorAngles t None None None None None) (MotorAngles (t + 0.2) None None None None None) TwoTheta t eq_refl _) (t + 0.2) eq_refl _); [intros n C; destruct n; cbv in C; lia|].
    unfold near. replace (t - (t + 0.2)) with (Ropp 0.2) by lra. rewrite Rabs_Ropp, (Rabs_pos_eq 0.2) by lra.
    pose proof (Rabs_triang t 0.2) as T. rewrite (Rabs_pos_eq 0.2) in T by lra. lra.
Qed.
Print Assumptions C82_transitive_refuted.
(** [==] and [!=] can both hold. *)
Theorem C82_both_refuted : forall a, let b := MotorAngles (two_theta a + 0.05) (omega a) (sgl a) (sgu a) (chi a) (phi a) in
  motor_angles_eq a b = Ok true /\ motor_angles_ne a b = true.
Proof.
  intros a b. split.
  - refine (proj1 (C82_close a b _)). intros m. assert (S : forall z : R, Rabs (z - z) <= 0.1) by (intros z; rewrite Rminus_diag_eq, Rabs_R0; auto; lra).
    destruct m; cbn [at_motor]; [right; exists (two_theta a), (two_theta a + 0.05); split; [reflexivity|]; split; [reflexivity|]; replace (two_theta a - (two_theta a + 0.05)) with (Ropp 0.05) by lra; rewrite Rabs_Ropp, Rabs_pos_eq; lra|..].
    all: match goal with |- (?o = None /\ _) \/ _ => destruct o as [z|]; [right; exists z, z; auto|left; auto] end.
  - unfold motor_angles_ne, same_number, b. cbn. destruct (Req_EM_T (two_theta a) (two_theta a + 0.05)); [lra|reflexivity].
Qed.
Print Assumptions C82_both_refuted.
(** A full turn is not seen: the same place written as 180 and as -180 degrees differs. *)
Theorem C82_turn_refuted : motor_angles_eq (MotorAngles 180 None None None None None) (MotorAngles (-180) None None None None None) = Ok false.
Proof.
  refine (proj1 (C82_first_difference (MotorAngles 180 None None None None None) (MotorAngles (-180) None None None None None) TwoTheta 180 eq_refl _) (-180) eq_refl _); [intros n C; destruct n; cbv in C; lia|].
  unfold near. replace (180 - -180) with 360 by lra. rewrite (Rabs_left (-180)) by lra. rewrite Rabs_pos_eq by lra. lra.
Qed.
Print Assumptions C82_turn_refuted.
Example C82_example : exists a b, (forall m, (at_motor a m = None /\ at_motor b m = None) \/ exists x y, at_motor a m = Some x /\ at_motor b m = Some y /\ Rabs (x - y) <= 0.1) /\
  motor_angles_eq a b = Ok true /\ a <> b.
Proof.
  exists (MotorAngles 30 (Some 15) None None None None), (MotorAngles 30 (Some 15.05) None None None None).
  assert (H : forall m, (at_motor (MotorAngles 30 (Some 15) None None None None) m = None /\ at_motor (MotorAngles 30 (Some 15.05) None None None None) m = None) \/
    exists x y, at_motor (MotorAngles 30 (Some 15) None None None None) m = Some x /\ at_motor (MotorAngles 30 (Some 15.05) None None None None) m = Some y /\ Rabs (x - y) <= 0.1).
  { intros m. destruct m; cbn; auto; right; do 2 eexists; (split; [reflexivity|]); (split; [reflexivity|]).
    - replace (30 - 30) with 0 by lra. rewrite Rabs_R0. lra.
    - replace (15 - 15.05) with (Ropp 0.05) by lra. rewrite Rabs_Ropp, Rabs_pos_eq; lra. }
  split; auto. split; [exact (proj1 (C82_close _ _ H))|]. intros E. injection E. lra.
Qed.

(** * A goniometer as made (C03): only the two tilts are limited, to ten degrees either way. *)
Theorem C03_fresh : forall ty s a, validate_motor_positions (Goniometer ty s default_limits) a = Ok tt <->
  (forall v, sgl a = Some v -> -10 <= v <= 10) /\ (forall v, sgu a = Some v -> -10 <= v <= 10).
Proof.
  intros ty s a. rewrite C03_validate_exact. split.
  - intros H. split; intros v V.
    + destruct (H "sgl"%string v) as [A B]; [cbn; rewrite V; tauto|]. cbn in A, B. split; [now apply A|now apply B].
    + destruct (H "sgu"%string v) as [A B]; [cbn; rewrite V; tauto|]. cbn in A, B. split; [now apply A|now apply B].
  - intros [A B] name v I. unfold within. cbn in I.
    destruct I as [I|[I|[I|[I|[I|[I|[]]]]]]]; injection I as <- E; cbn; split; intros z Z; try discriminate; injection Z as <-; first [apply A in E | apply B in E]; lra.
Qed.
Print Assumptions C03_fresh.
