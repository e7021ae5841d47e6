(** C68: the centre of an ellipse when h, k and l are given as integers. *)
From Coq Require Import Reals List Arith Bool String ZArith Lra Lia.
From Verif Require Import Base LinAlg M_Utilities M_Lattice M_UB M_Sample M_Goni M_Tas M_Components M_Mat M_Labels M_Ellipsoid M_Reso
  P_Widths P_Frames.
Import ListNotations.
Open Scope R_scope.

(** ** Specification *)
(** n is x without what is after the point. *)
Definition whole_part (x : R) (n : Z) : Prop := Rabs (IZR n) <= Rabs x < Rabs (IZR n) + 1 /\ 0 <= x * IZR n.
(** The axes a request has when none are named *)
Definition default_axes : list axis :=
  [Vec (CInt 1) (CInt 0) (CInt 0); Vec (CInt 0) (CInt 1) (CInt 0); Vec (CInt 0) (CInt 0) (CInt 1); En].

(** ** Lemmas *)
Lemma to_int_part : forall x, exists n, to_int x = IZR n /\ whole_part x n.
Proof.
  intros x. unfold to_int, whole_part. destruct (Rle_dec 0 x) as [P|N].
  - destruct (base_Int_part x) as [L U]. exists (Int_part x). split; auto. assert (0 <= IZR (Int_part x)). { apply IZR_le. assert (-1 < Int_part x)%Z; [apply lt_IZR; lra|lia]. }
    rewrite !Rabs_pos_eq by auto. split; [lra|nra].
  - destruct (base_Int_part (- x)) as [L U]. exists (- Int_part (- x))%Z. rewrite opp_IZR. split; auto. assert (0 <= IZR (Int_part (- x))). { apply IZR_le. assert (-1 < Int_part (- x))%Z; [apply lt_IZR; lra|lia]. }
    rewrite Rabs_Ropp, (Rabs_left x), (Rabs_pos_eq (IZR _)) by lra. split; [lra|nra].
Qed.
Lemma whole_part_unique : forall x n m, whole_part x n -> x = IZR m -> n = m.
Proof.
  intros x n m ((L & U) & S) ->. rewrite <- !abs_IZR in *. apply le_IZR in L. replace 1 with (IZR 1) in U by auto. rewrite <- plus_IZR in U. apply lt_IZR in U.
  rewrite <- mult_IZR in S. apply le_IZR in S. assert (Z.abs n = Z.abs m) by lia. destruct (Z.eq_dec n m); auto. assert (n = - m)%Z by lia. subst n. nia.
Qed.
Lemma label_loop_length : forall fmt3 axes d l, label_loop fmt3 axes d = Ok l -> List.length l = List.length axes.
Proof.
  induction axes as [|[|a b c] axes IH]; intros d l H; cbn [label_loop] in H.
  - apply Ok_inj in H. subst l. auto.
  - destruct (label_loop fmt3 axes d) as [l'|] eqn:E; [|discriminate]. cbn [bind] in H. apply Ok_inj in H. subst l. cbn. f_equal. eauto.
  - destruct (pick_letter _ d) as [[X d']|]; [|discriminate]. cbn [bind] in H. destruct (label_loop fmt3 axes d') as [l'|] eqn:E; [|discriminate]. cbn [bind] in H. apply Ok_inj in H. subst l. cbn. f_equal. eauto.
Qed.
Lemma labels_length : forall fmt3 axes l, labels_from_projection fmt3 axes = Ok l -> match axes with None => True | Some a => List.length a = 4%nat end -> List.length l = 4%nat.
Proof.
  intros fmt3 axes l H L. unfold labels_from_projection in H. destruct axes as [a|]; [|apply Ok_inj in H; subst l; auto].
  destruct (is_hkl a); [apply Ok_inj in H; subst l; auto|]. rewrite <- L. eapply label_loop_length; eauto.
Qed.
Lemma en_index_in : forall axes k, en_index axes = Ok k -> exists i, nth_error axes i = Some En.
Proof.
  induction axes as [|[|a b c] axes IH]; intros k H; cbn in H; [discriminate|exists 0%nat; auto|].
  destruct (en_index axes) as [j|]; [|discriminate]. destruct (IH j eq_refl) as (i & I). exists (S i). auto.
Qed.
Lemma is_hkl_default : is_hkl default_axes = true.
Proof. unfold is_hkl, default_axes, comp_eqb, comp_val. repeat (destruct (Req_EM_T _ _) as [|N]; [|exfalso; apply N; reflexivity]). reflexivity. Qed.

(** ** Theorems *)
(** What is calculated for a point meets the conditions of the theorems about its ellipses, unless h, k and l are given as integers,
    the axes are those of hkl, and the energy is not whole. *)
Theorem C68_request : forall fmt3 ints t h en axes A r0 e, new_ellipsoid fmt3 ints t h en axes A r0 = Ok e ->
  match axes with None => True | Some l => List.length l = 4%nat end ->
  match axes with Some l => is_hkl l = true -> ints h = true -> exists n, en = IZR n | None => True end ->
  proper e /\ el_en e = en /\ el_axes e = axes.
Proof.
  intros fmt3 ints t h en axes A r0 e H L W. unfold new_ellipsoid in H.
  destruct (s_b_mat (t_sample t)) as [b|]; [|discriminate]. cbn [bind] in H. cbv zeta in H. destruct axes as [ax|].
  - repeat match type of H with bind ?r _ = _ => destruct r; cbn [bind] in H; [|discriminate] end. destruct (is_hkl ax) eqn:K.
    + destruct (reciprocal_latt_params _); cbn [bind] in H; [|discriminate]. destruct (labels_from_projection _ _) as [l|] eqn:LB; cbn [bind] in H; [|discriminate]. apply Ok_inj in H. subst e.
      cbn [el_en el_axes]. split; auto. unfold proper. cbn [el_ints el_en el_labels el_axes]. split; [intros I; exact (W eq_refl I)|]. split; [exact (labels_length _ _ _ LB eq_refl)|]. split; [exact L|].
      destruct (hkl_axes _ K) as (w1 & w2 & w3 & w4 & w5 & w6 & w7 & w8 & w9 & EA & _). rewrite EA. exists 3%nat. reflexivity.
    + destruct (keep_some vec_of ax) as [|p1 [|p2 [|p3 [|]]]]; try discriminate. destruct (reciprocal_space_vectors _) as [[[av bv] cv]|]; cbn [bind] in H; [|discriminate].
      repeat match type of H with (if ?r then _ else _) = _ => destruct r; try discriminate end.
      repeat match type of H with bind (get_angle_vec _ _) _ = _ => destruct (get_angle_vec _ _); cbn [bind] in H; [|discriminate] end.
      destruct (en_index ax) as [k|] eqn:EI; cbn [bind] in H; [|discriminate]. destruct (labels_from_projection _ _) as [l|] eqn:LB; cbn [bind] in H; [|discriminate]. apply Ok_inj in H. subst e.
      cbn [el_en el_axes]. split; auto. unfold proper. cbn [el_ints el_en el_labels el_axes]. split; [discriminate|]. split; [exact (labels_length _ _ _ LB L)|]. split; [exact L|].
      eapply en_index_in; eauto.
  - destruct (labels_from_projection _ _) as [l|] eqn:LB; cbn [bind] in H; [|discriminate]. apply Ok_inj in H. subst e. cbn [el_en el_axes]. split; auto.
    unfold proper. cbn [el_ints el_en el_labels el_axes]. split; [discriminate|]. split; auto. exact (labels_length _ _ _ LB Logic.I).
Qed.
Print Assumptions C68_request.

(** Finding: with h, k and l given as integers, the ellipses along the default axes are drawn at the energy without what is after
    the point, because numpy.insert converts the energy to the type of the array (1, 2, 0). *)
Theorem C68_integers_refuted : forall fmt3 ints round2 t h en A r0 e x projection E,
  new_ellipsoid fmt3 ints t h en (Some default_axes) A r0 = Ok e -> ints h = true -> (x < 3)%nat ->
  get_ellipse round2 e x 3 projection true = Ok E ->
  exists n, snd (ee_centers E) = IZR n /\ whole_part en n /\ ((forall m, en <> IZR m) -> snd (ee_centers E) <> en).
Proof.
  intros fmt3 ints round2 t h en A r0 e x projection E H I X G.
  assert (F : el_ints e = true /\ el_en e = en /\ el_axes e = Some default_axes).
  { unfold new_ellipsoid in H. destruct (s_b_mat (t_sample t)) as [b|]; [|discriminate]. cbn [bind] in H. cbv zeta in H.
    repeat match type of H with bind ?r _ = _ => destruct r; cbn [bind] in H; [|discriminate] end. rewrite is_hkl_default in H.
    destruct (reciprocal_latt_params _); cbn [bind] in H; [|discriminate]. destruct (labels_from_projection _ _) as [l|] eqn:LB; cbn [bind] in H; [|discriminate]. apply Ok_inj in H. subst e. auto. }
  destruct F as (F1 & F2 & F3). unfold get_ellipse in G. rewrite F1, F2, F3 in G. cbn [en_index default_axes rmap bind] in G. unfold insert4 in G. cbn [firstn skipn app] in G.
  destruct (to_int_part en) as (n & T & W). exists n. rewrite T in G.
  assert (C : snd (ee_centers E) = IZR n).
  { destruct (at_index (el_labels e) x) as [lx|]; cbn [bind] in G; [|discriminate]. destruct (at_index (el_labels e) 3) as [ly|]; cbn [bind] in G; [|discriminate].
    match type of G with bind ?r _ = _ => destruct r as [cs|] eqn:Q; cbn [bind] in G; [|discriminate] end.
    match type of G with bind ?r _ = _ => destruct r as [[k m]|]; cbn [bind] in G; [|discriminate] end. apply Ok_inj in G. subst E. cbn [ee_centers].
    destruct x as [|[|[|]]]; [| | |lia]; cbn in Q; apply Ok_inj in Q; subst cs; reflexivity. }
  split; auto. split; auto. intros NW Q. apply (NW n). congruence.
Qed.
Print Assumptions C68_integers_refuted.

(** Half a meV at (1, 2, 0), given as integers: the ellipse in the plane of (h, 0, 0) and energy is drawn around 0 meV; given as floats,
    around 0.5 meV. *)
Definition at_half (ints : bool) : ellipsoid :=
  Ellipsoid (V 1 2 0) (1 / 2) (Some default_axes) (fun i j => if Nat.eqb i j then 100 else 0) 1 (V 1 2 0) ints (90, 90, 90) ["a"; "b"; "c"; "E"]%string.
Example C68_integers_example : (exists E, get_ellipse (fun x => x) (at_half true) 0 3 false true = Ok E /\ ee_centers E = (1, 0)) /\
  (exists E, get_ellipse (fun x => x) (at_half false) 0 3 false true = Ok E /\ ee_centers E = (1, 1 / 2)) /\ proper (at_half false) /\ whole_part (1 / 2) 0 /\ forall m, 1 / 2 <> IZR m.
Proof.
  assert (W : whole_part (1 / 2) 0). { unfold whole_part. rewrite Rabs_R0, Rabs_pos_eq by lra. lra. }
  assert (T : to_int (1 / 2) = 0).
  { destruct (to_int_part (1 / 2)) as (n & -> & ((L & U) & _)). rewrite (Rabs_pos_eq (1 / 2)) in * by lra. rewrite <- abs_IZR in *. apply (f_equal IZR). assert (Z.abs n < 1)%Z; [apply lt_IZR; lra|lia]. }
  split; [|split; [|split; [|split]]].
  - eexists. split; [reflexivity|]. transitivity (1, to_int (1 / 2)); [reflexivity|]. rewrite T. reflexivity.
  - eexists. split; reflexivity.
  - split; [discriminate|]. split; [reflexivity|]. split; [reflexivity|]. exists 3%nat. reflexivity.
  - exact W.
  - intros m E. assert (2 * m = 1)%Z; [|lia]. apply eq_IZR. rewrite mult_IZR. lra.
Qed.
