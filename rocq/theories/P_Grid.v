(** C47: the grid of points. *)
From Coq Require Import Reals List Arith Bool ZArith Lia Lra String.
From Verif Require Import Base LinAlg M_Labels M_Ellipsoid M_Reso S_Grid.
Import ListNotations.
Open Scope R_scope.

Lemma ceil_spec : forall x (i : nat), (i < Z.to_nat (ceil x))%nat <-> INR i < x.
Proof.
  intros x i. unfold ceil. pose proof (base_Int_part (- x)) as [A B].
  set (z := Int_part (- x)) in *. rewrite INR_IZR_INZ. split.
  - intros H. assert (Z.of_nat i <= - z - 1)%Z by lia. apply IZR_le in H0. rewrite minus_IZR, opp_IZR in H0. lra.
  - intros H. assert (IZR (Z.of_nat i) < IZR (- z)) by (rewrite opp_IZR; lra). apply lt_IZR in H0. lia.
Qed.

Lemma arange_spans : forall a b s, s <> 0 -> exists vals, arange a b s = Ok vals /\ spans (GTuple [a; b; s]) vals.
Proof.
  intros a b s H. unfold arange. destruct (Req_EM_T s 0); [contradiction|]. eexists; split; [reflexivity|].
  constructor; auto.
  - intros i. rewrite map_length, seq_length, ceil_spec.
    destruct (Rtotal_order s 0) as [L|[L|L]]; [|contradiction|].
    + assert (E : (b - a) / s = (a - b) * / - s) by (field; lra). rewrite E. split.
      * intros Hi. split; [lra|]. intros _. apply Rmult_lt_compat_r with (r := - s) in Hi; [|lra].
        rewrite Rmult_assoc, Rinv_l, Rmult_1_r in Hi by lra. lra.
      * intros [_ Hi]. specialize (Hi L). apply Rmult_lt_reg_r with (- s); [lra|]. rewrite Rmult_assoc, Rinv_l by lra. lra.
    + split.
      * intros Hi. split; [|lra]. intros _. apply Rmult_lt_compat_r with (r := s) in Hi; [|lra].
        unfold Rdiv in Hi. rewrite Rmult_assoc, Rinv_l, Rmult_1_r in Hi by lra. lra.
      * intros [Hi _]. specialize (Hi L). apply Rmult_lt_reg_r with s; [lra|]. unfold Rdiv. rewrite Rmult_assoc, Rinv_l by lra. lra.
  - intros i Hi. rewrite map_length, seq_length in Hi. rewrite nth_error_map, nth_error_nth' with (d := 0%nat) by (rewrite seq_length; auto).
    rewrite seq_nth by auto. reflexivity.
Qed.

Lemma nth_error_ext : forall {A} (l m : list A), (forall i, nth_error l i = nth_error m i) -> l = m.
Proof.
  induction l as [|a l IH]; intros [|b m] H; auto.
  - specialize (H 0%nat). discriminate.
  - specialize (H 0%nat). discriminate.
  - f_equal; [specialize (H 0%nat); cbn in H; congruence|]. apply IH. intros i. exact (H (S i)).
Qed.

Lemma spans_unique : forall g v w, spans g v -> spans g w -> v = w.
Proof.
  intros g v w H K. inversion H; subst; inversion K; subst; auto.
  apply nth_error_ext. intros i. destruct (lt_dec i (List.length v)) as [L|L].
  - rewrite H2 by auto. symmetry. apply H9. apply H8. apply H1. auto.
  - replace (nth_error v i) with (@None R) by (symmetry; apply nth_error_None; lia).
    symmetry. apply nth_error_None. destruct (lt_dec i (List.length w)) as [L'|L']; [|lia].
    exfalso. apply L. apply H1. apply H8. auto.
Qed.

Lemma grid_values_spans : forall g vals, spans g vals -> grid_values g = Ok vals.
Proof.
  intros g vals H. inversion H as [|a b s v N L V E1 E2]; subst; auto.
  destruct (arange_spans a b s N) as (w & E & W). cbn. rewrite E. f_equal. eapply spans_unique; eauto.
Qed.

Lemma flatM_ok : forall {A B} (f : A -> result (list B)) (g : A -> list B) l, (forall a, f a = Ok (g a)) -> flatM f l = Ok (flat_map g l).
Proof. intros A B f g l H. induction l; cbn; auto. rewrite H. cbn. rewrite IHl. reflexivity. Qed.

Lemma list_prod_flat : forall {A B} (l : list A) (m : list B), list_prod l m = flat_map (fun a => map (pair a) m) l.
Proof. intros. induction l; cbn; auto. rewrite IHl. reflexivity. Qed.

Lemma map_flat_map : forall {A B C} (h : B -> C) (f : A -> list B) l, map h (flat_map f l) = flat_map (fun a => map h (f a)) l.
Proof. intros. induction l; cbn; auto. rewrite map_app, IHl. reflexivity. Qed.

(** C47: with three directions and "en" in any place, the points are all combinations of the values of the four elements
    of the grid, the energies varying fastest, in order; the directions are those of the axes, the energy is that of "en". *)
Theorem C47_product : forall k a b c gu gv gw ge us vs ws es, is_vec a -> is_vec b -> is_vec c ->
  spans gu us -> spans gv vs -> spans gw ws -> spans ge es ->
  generate_hkle (placed k ge gu gv gw) (placed k En a b c) =
  Ok (map (fun p => let '(u, (v, (w, e))) := p in (combination u v w (direction a) (direction b) (direction c), e))
          (list_prod us (list_prod vs (list_prod ws es)))).
Proof.
  intros k a b c gu gv gw ge us vs ws es Ha Hb Hc Hu Hv Hw He.
  apply grid_values_spans in Hu, Hv, Hw, He.
  destruct a as [|a1 a2 a3]; [contradiction|]. destruct b as [|b1 b2 b3]; [contradiction|]. destruct c as [|c1 c2 c3]; [contradiction|].
  destruct k as [|[|[|k]]]; unfold generate_hkle, placed; cbn [List.length Nat.eqb negb existsb orb];
    cbn [keep_some vec_of grid_lists]; rewrite Hu, Hv, Hw, He;
    cbn [bind List.app at_index nth_error];
    (rewrite list_prod_flat, map_flat_map; apply flatM_ok; intros u; cbn [bind at_index nth_error];
     rewrite list_prod_flat, map_map, map_flat_map; apply flatM_ok; intros v; cbn [bind at_index nth_error];
     rewrite list_prod_flat, !map_map, map_flat_map; apply flatM_ok; intros w; cbn [bind at_index nth_error];
     rewrite map_map;
     match goal with |- flatM ?f ?l = Ok (map ?h ?l) =>
       rewrite (flatM_ok f (fun e => [h e])) by (intros e; reflexivity); f_equal; induction l as [|x l IH]; cbn; auto; rewrite IH; reflexivity
     end).
Qed.
Print Assumptions C47_product.

(** Every number and every range with a step that is not zero stands for exactly one list of values. *)
Theorem C47_spans : forall g, ~ malformed g -> ~ zero_step g -> exists vals, spans g vals /\ forall w, spans g w -> w = vals.
Proof.
  intros g M Z. destruct g as [l|x|]; [|exists [x]|destruct M; exact I].
  - destruct l as [|a [|b [|s [|? ?]]]]; try (destruct M; exact I).
    destruct (arange_spans a b s) as (v & _ & V); [intros E; apply Z; exact E|].
    exists v. split; auto. intros w W. eapply spans_unique; eauto.
  - split; [constructor|]. intros w W. inversion W; auto.
Qed.
Print Assumptions C47_spans.

(** Every point of the answer is a combination of values of the grid, and every combination is there; the number of points
    is the product of the numbers of values. *)
Theorem C47_members : forall k a b c gu gv gw ge us vs ws es l, is_vec a -> is_vec b -> is_vec c ->
  spans gu us -> spans gv vs -> spans gw ws -> spans ge es ->
  generate_hkle (placed k ge gu gv gw) (placed k En a b c) = Ok l ->
  (forall h e, In (h, e) l <-> exists u v w, In u us /\ In v vs /\ In w ws /\ In e es /\
      h = combination u v w (direction a) (direction b) (direction c)) /\
  List.length l = (List.length us * List.length vs * List.length ws * List.length es)%nat.
Proof.
  intros k a b c gu gv gw ge us vs ws es l Ha Hb Hc Hu Hv Hw He H.
  rewrite (C47_product k a b c gu gv gw ge us vs ws es) in H by auto. apply Ok_inj in H. subst l. split.
  - intros h e. rewrite in_map_iff. split.
    + intros ((u & v & w & e') & E & I). injection E as E1 E2. subst e'.
      apply in_prod_iff in I. destruct I as [I1 I]. apply in_prod_iff in I. destruct I as [I2 I]. apply in_prod_iff in I. destruct I as [I3 I4].
      exists u, v, w. subst h. auto.
    + intros (u & v & w & I1 & I2 & I3 & I4 & E). exists (u, (v, (w, e))). split; [rewrite E; reflexivity|].
      repeat (apply in_prod_iff; split; auto).
  - rewrite map_length, !prod_length. lia.
Qed.
Print Assumptions C47_members.

(** Malformed requests raise ValueError: a grid or axes of the wrong length, axes without "en", an element of the grid
    that is neither a number nor a triple. *)
Theorem C47_rejects : forall grid axes,
  List.length grid <> 4%nat \/ List.length axes <> 4%nat \/ ~ In En axes \/ (Exists malformed grid /\ ~ Exists zero_step grid) ->
  generate_hkle grid axes = Err ValueError.
Proof.
  intros grid axes H. unfold generate_hkle.
  destruct (Nat.eqb (List.length grid) 4) eqn:G; [|reflexivity]. apply Nat.eqb_eq in G. cbn.
  destruct (Nat.eqb (List.length axes) 4) eqn:A; [|reflexivity]. apply Nat.eqb_eq in A. cbn.
  destruct (existsb _ axes) eqn:E; [|reflexivity]. cbn.
  destruct H as [H|[H|[H|[M Z]]]]; [contradiction|contradiction| |].
  - apply existsb_exists in E. destruct E as ([|? ? ?] & I & E); [contradiction|discriminate].
  - assert (forall axes grid qs es, Exists malformed grid -> ~ Exists zero_step grid -> List.length axes = List.length grid ->
      grid_lists axes grid qs es = Err ValueError) as L.
    { clear. induction axes as [|a axes IH]; intros grid qs es M Z L.
      - destruct grid; [inversion M|discriminate].
      - destruct grid as [|g grid]; [discriminate|]. cbn.
        assert (Zg : ~ zero_step g) by (intros ?; apply Z; now constructor).
        assert (Zl : ~ Exists zero_step grid) by (intros ?; apply Z; now constructor).
        assert (Ll : List.length axes = List.length grid) by (injection L; auto).
        destruct (grid_values g) as [v|x] eqn:V.
        + cbn. assert (Ml : Exists malformed grid).
          { inversion M; subst; auto. exfalso. destruct g as [[|? [|? [|? [|? ?]]]]|?|]; cbn in *; (contradiction || discriminate). }
          destruct a; apply IH; auto.
        + cbn. destruct g as [[|? [|? [|s [|? ?]]]]|?|]; cbn in *; try congruence.
          unfold arange in V. destruct (Req_EM_T s 0); [contradiction|discriminate]. }
    rewrite L by (auto; congruence). reflexivity.
Qed.
Print Assumptions C47_rejects.

(** The claim fails for axes naming "en" twice, which do not hold three directions (IndexError instead of ValueError), and
    for a zero step (ZeroDivisionError). *)
Theorem C47_two_energies_refuted : forall a b e u v f, is_vec a -> is_vec b ->
  generate_hkle [GNum e; GNum u; GNum v; GNum f] [En; a; b; En] = Err IndexError.
Proof.
  intros a b e u v f Ha Hb. destruct a as [|a1 a2 a3]; [contradiction|]. destruct b as [|b1 b2 b3]; [contradiction|]. reflexivity.
Qed.
Print Assumptions C47_two_energies_refuted.
Theorem C47_zero_step_refuted : forall a b, generate_hkle [GTuple [a; b; 0]; GNum 0; GNum 0; GNum 0]
  [Vec (CInt 1) (CInt 0) (CInt 0); Vec (CInt 0) (CInt 1) (CInt 0); Vec (CInt 0) (CInt 0) (CInt 1); En] = Err ZeroDivisionError.
Proof. intros. unfold generate_hkle. cbn. unfold arange. destruct (Req_EM_T 0 0); [reflexivity|contradiction]. Qed.
Print Assumptions C47_zero_step_refuted.

(** A grid with "en" in the second place, a range of two values and an energy range of three. *)
Example C47_example :
  let a := Vec (CInt 1) (CInt 1) (CInt 0) in let b := Vec (CInt (-1)) (CInt 1) (CInt 0) in let c := Vec (CInt 0) (CInt 0) (CInt 1) in
  exists us es, spans (GTuple [0; 1; 0.5]) us /\ spans (GTuple [0; 3; 1]) es /\ List.length us = 2%nat /\ List.length es = 3%nat /\
    exists l, generate_hkle (placed 1 (GTuple [0; 3; 1]) (GTuple [0; 1; 0.5]) (GNum 2) (GNum 3)) (placed 1 En a b c) = Ok l /\
      List.length l = 6%nat /\ In (V (-1.5) 2.5 3, 2) l.
Proof.
  intros a b c. exists [0 + INR 0 * 0.5; 0 + INR 1 * 0.5], [0 + INR 0 * 1; 0 + INR 1 * 1; 0 + INR 2 * 1].
  assert (U : spans (GTuple [0; 1; 0.5]) [0 + INR 0 * 0.5; 0 + INR 1 * 0.5]).
  { constructor; [lra| |].
    - intros i. cbn [List.length]. split.
      + intros Hi. destruct i as [|[|i]]; [|cbn|lia]; cbn [INR]; split; intros; lra.
      + intros [Hi _]. destruct (lt_dec i 2); auto. assert (2 <= INR i) by (apply (le_INR 2); lia). specialize (Hi ltac:(lra)). lra.
    - intros [|[|i]] Hi; cbn in *; auto; lia. }
  assert (E : spans (GTuple [0; 3; 1]) [0 + INR 0 * 1; 0 + INR 1 * 1; 0 + INR 2 * 1]).
  { constructor; [lra| |].
    - intros i. cbn [List.length]. split.
      + intros Hi. destruct i as [|[|[|i]]]; [| | |lia]; cbn [INR]; split; intros; lra.
      + intros [Hi _]. destruct (lt_dec i 3); auto. assert (3 <= INR i) by (replace 3 with (INR 3) by (cbn; lra); apply le_INR; lia). specialize (Hi ltac:(lra)). lra.
    - intros [|[|[|i]]] Hi; cbn in *; auto; lia. }
  repeat (split; [auto; fail|]).
  assert (P := C47_product 1 a b c _ _ _ _ _ _ _ _ I I I U (spans_num 2) (spans_num 3) E).
  eexists; split; [exact P|].
  destruct (C47_members 1 a b c _ _ _ _ _ _ _ _ _ I I I U (spans_num 2) (spans_num 3) E P) as [M L].
  split; [exact L|]. apply M. exists (0 + INR 1 * 0.5), 2, 3.
  split; [right; left; reflexivity|]. split; [left; reflexivity|]. split; [left; reflexivity|].
  split; [right; right; left; cbn; lra|]. unfold combination, direction, a, b, c. cbn. f_equal; lra.
Qed.
