(** C79: the figure of the ellipses of a resolution ellipsoid. *)
From Coq Require Import Reals List Arith ZArith Bool Lra Lia String.
From Verif Require Import Base LinAlg M_Utilities M_Mat M_ScanData M_Labels M_Ellipsoid M_Fit M_Ellipse M_Plotter M_EllipsePlot S_Mat L_Mat L_Lattice P_Quadric P_Widths P_Fit P_Ellipse.
Import ListNotations.
Open Scope R_scope.

(** * Specification *)
(** What a panel shows is inside its limits. *)
Definition visible {V} (cs : list (cmd V)) (p : num * num) : Prop :=
  exists x y, p = (Some x, Some y) /\ (forall a b, In (XLim V a b) cs -> a < x < b) /\ (forall a b, In (YLim V a b) cs -> a < y < b).
(** The lines drawn *)
Definition lines {V} (cs : list (cmd V)) : list (list (num * num) * fmt V) := flat_map (fun c => match c with Outline _ l f => [(l, f)] | _ => [] end) cs.
Definition keyword {V} (f : fmt V) (k : string) : option V := dget String.eqb k f.

Section C79.
  Context (V : Type) (text : string -> V) (eig : fmat -> (R * R) * ((R * R) * (R * R))) (EIG : solves eig) (round2 : R -> R).
  Notation panel := (panel V text eig round2).
  Notation plot_ellipses := (plot_ellipses V text eig round2).

  Lemma ellipse_defined : forall e x y projection, proper e -> (x < y)%nat -> (y < 4)%nat -> symmetric 4 (el_mat e) -> stiff 4 (el_mat e) ->
    exists E, get_ellipse round2 e x y projection true = Ok E.
  Proof using.
    intros e x y [|] PR L I Y S. { destruct (C68_projection round2 e x y true PR L I Y S) as (E & G & _). eauto. }
    unfold get_ellipse. destruct (centre_eq e PR) as (i & -> & CE). cbn [bind]. rewrite CE. destruct PR as (_ & LL & _).
    destruct (at_index_ok (el_labels e) x 4 LL ltac:(lia)) as (lx & -> & _). destruct (at_index_ok (el_labels e) y 4 LL I) as (ly & -> & _). cbn [bind].
    destruct (at_index_ok (centre e) x 4 (centre_length e) ltac:(lia)) as (cx & -> & _). destruct (at_index_ok (centre e) y 4 (centre_length e) I) as (cy & -> & _). cbn [bind].
    destruct (delete_all _ _ _ _). eauto.
  Qed.
  (** One panel, spelled out *)
  Lemma panel_eq : forall e x y, proper e -> (x < y)%nat -> (y < 4)%nat -> symmetric 4 (el_mat e) -> stiff 4 (el_mat e) ->
    exists inco co wx wy lx ly rest, get_ellipse round2 e x y true true = Ok inco /\ get_ellipse round2 e x y false true = Ok co /\
      incoh_fwhms (el_mat e) x = Ok wx /\ incoh_fwhms (el_mat e) y = Ok wy /\ 0 < wx /\ 0 < wy /\
      nth_error (el_labels e) x = Some lx /\ nth_error (el_labels e) y = Some ly /\
      panel e x y = Ok ([Outline V (outline (fun _ => inco) eig 0) (style V text x y "dashed" "Incoherent"); Outline V (outline (fun _ => co) eig 0) (style V text x y "solid" "Coherent");
        XLim V (fst (ee_centers co) - wx * (6 / 10)) (fst (ee_centers co) + wx * (6 / 10)); YLim V (snd (ee_centers co) - wy * (6 / 10)) (snd (ee_centers co) + wy * (6 / 10));
        Title V ""; XLabel V lx; YLabel V ly; Grid V] ++ rest, ee_angle co) /\
      rest = (if Nat.eqb x 2 && Nat.eqb y 3 then [Legend V 1] else []).
  Proof using.
    intros e x y PR L I Y S. destruct (ellipse_defined e x y true PR L I Y S) as (inco & G1). destruct (ellipse_defined e x y false PR L I Y S) as (co & G2).
    destruct (C44_widths (el_mat e) x ltac:(lia) (stiff_posdef _ _ S)) as (cx & wx & _ & W1 & P1). destruct (C44_widths (el_mat e) y I (stiff_posdef _ _ S)) as (cy & wy & _ & W2 & P2).
    destruct (C68_centre round2 e x y true inco PR L I G1) as (_ & _ & LX1 & LY1). destruct (C68_centre round2 e x y false co PR L I G2) as (_ & _ & LX2 & LY2).
    exists inco, co, wx, wy, (fst (ee_labels co)), (snd (ee_labels co)). eexists. repeat (split; [assumption || lra|]). split; [|reflexivity].
    unfold M_EllipsePlot.panel. rewrite G1, G2. cbn [bind]. unfold add_reso. rewrite W1, W2. cbn [bind]. destruct (ee_centers co) as [xc yc]. cbn [fst snd].
    unfold plot_2d. cbn [p2_contours p2_curves p2_resos p2_title p2_xlabel p2_ylabel p2_xlim p2_ylim new_plot2 map List.app lim1 last_title fold_left].
    assert (E1 : ee_labels inco = ee_labels co). { destruct (ee_labels inco), (ee_labels co). cbn in *. congruence. }
    cbn [give_to Nat.eqb]. rewrite E1. f_equal. f_equal.
    assert (F1 : forall f : fmt V, f = style V text x y "dashed" "Incoherent" -> give V f [] = f). { intros f ->. unfold give, style. destruct (Nat.eqb x 2 && Nat.eqb y 3); reflexivity. }
    assert (F2 : forall f : fmt V, f = style V text x y "solid" "Coherent" -> give V f [] = f). { intros f ->. unfold give, style. destruct (Nat.eqb x 2 && Nat.eqb y 3); reflexivity. }
    unfold give_to. cbn [Nat.eqb]. rewrite F1, F2 by auto.
    assert (LS : forall s, label_set [Some s; Some s] = s). { intros s. unfold label_set. cbn. destruct (string_dec s s); [|contradiction]. reflexivity. }
    rewrite !LS. f_equal. unfold style. destruct (Nat.eqb x 2 && Nat.eqb y 3); reflexivity.
  Qed.
  (** Half of the incoherent width to either side *)
  Lemma within : forall A idx w v, (idx < 4)%nat -> symmetric 4 A -> stiff 4 A -> incoh_fwhms A idx = Ok w -> resolution 4 A v = 1 / 2 -> Rabs (v idx) <= w / 2.
  Proof using.
    intros A idx w v I Y S W H. destruct (C44_extent A idx I Y S) as (c & w' & _ & W' & EX & _). assert (w' = w) by (apply Ok_inj; congruence). subst w'.
    assert (F : form 4 A v = 2 * ln 2). { unfold resolution in H. assert (X : ln (exp (- form 4 A v / 2)) = ln (/ 2)) by (rewrite H; f_equal; lra). rewrite ln_exp, ln_Rinv in X by lra. lra. }
    assert (F2 : form 4 A (fun k => 2 * v k) = sig2fwhm * sig2fwhm). { replace (form 4 A (fun k => 2 * v k)) with (4 * form 4 A v) by (unfold form; cbn; ring). rewrite F. unfold sig2fwhm. pose proof ln_lt_2. replace (2 * sqrt (2 * ln 2) * (2 * sqrt (2 * ln 2))) with (4 * (sqrt (2 * ln 2) * sqrt (2 * ln 2))) by ring. rewrite sqrt_sqrt by lra. ring. }
    specialize (EX (fun k => 2 * v k)). cbv beta in EX. apply Rabs_le. lra.
  Qed.
  (** Both ellipses lie in the rectangle of the incoherent widths. *)
  Lemma in_rectangle : forall e x y projection E wx wy n l p, proper e -> (x < y)%nat -> (y < 4)%nat -> symmetric 4 (el_mat e) -> stiff 4 (el_mat e) -> get_ellipse round2 e x y projection true = Ok E ->
    incoh_fwhms (el_mat e) x = Ok wx -> incoh_fwhms (el_mat e) y = Ok wy -> get_points eig E n = Ok l -> In p l ->
    exists a b, p = (Some a, Some b) /\ Rabs (a - fst (ee_centers E)) <= wx / 2 /\ Rabs (b - snd (ee_centers E)) <= wy / 2.
  Proof using EIG.
    intros e x y projection E wx wy n l p PR L I Y S G WX WY GP IN. destruct (C68_centre round2 e x y projection E PR L I G) as (CX & CY & _).
    assert (B : exists a b v, p = (Some a, Some b) /\ v x = a - fst (ee_centers E) /\ v y = b - snd (ee_centers E) /\ resolution 4 (el_mat e) v = 1 / 2).
    { destruct projection.
      - destruct (C74_projection eig EIG round2 e x y E n l p PR L I Y S G GP IN) as (cx & cy & a & b & E1 & E2 & -> & _ & v & V1 & V2 & H). exists a, b, v. replace (fst (ee_centers E)) with cx by congruence. replace (snd (ee_centers E)) with cy by congruence. auto.
      - destruct (C74_cut eig EIG round2 e x y E n l p PR L I Y (stiff_posdef _ _ S) G GP IN) as (cx & cy & a & b & E1 & E2 & -> & H). exists a, b, (in_plane x y (a - cx) (b - cy)). replace (fst (ee_centers E)) with cx by congruence. replace (snd (ee_centers E)) with cy by congruence.
        split; auto. unfold in_plane at 1 2. rewrite !Nat.eqb_refl. assert (Nat.eqb y x = false) as -> by (apply Nat.eqb_neq; lia). auto. }
    destruct B as (a & b & v & -> & V1 & V2 & H). exists a, b. split; auto. rewrite <- V1, <- V2. split; eapply within; eauto. lia.
  Qed.
  Lemma outline_is : forall E, exists l, drawn eig E 128 = Ok l /\ outline (fun _ => E) eig 0 = l.
  Proof using. intros E. unfold outline. destruct (drawn eig E 128) as [l|x] eqn:D; [eauto|]. unfold drawn in D. pose proof (C74_count eig E 128) as C. destruct (get_points eig E 128); [discriminate|destruct C; lia]. Qed.

  (** C79: six panels, one for every two of the four axes. *)
  Theorem C79_six : forall e, proper e -> symmetric 4 (el_mat e) -> stiff 4 (el_mat e) ->
    exists ps, plot_ellipses e = Ok ps /\ Forall2 (fun xy c => panel e (fst xy) (snd xy) = Ok c) [(0, 3); (1, 3); (2, 3); (0, 1); (1, 2); (0, 2)]%nat ps.
  Proof using.
    intros e PR Y S. assert (P : forall x y, (x < y)%nat -> (y < 4)%nat -> exists c, panel e x y = Ok c).
    { intros x y L I. destruct (panel_eq e x y PR L I Y S) as (? & ? & ? & ? & ? & ? & ? & _ & _ & _ & _ & _ & _ & _ & _ & E & _). eauto. }
    destruct (P 0 3)%nat as (c1 & E1); try lia. destruct (P 1 3)%nat as (c2 & E2); try lia. destruct (P 2 3)%nat as (c3 & E3); try lia. destruct (P 0 1)%nat as (c4 & E4); try lia. destruct (P 1 2)%nat as (c5 & E5); try lia. destruct (P 0 2)%nat as (c6 & E6); try lia.
    exists [c1; c2; c3; c4; c5; c6]. split; [|repeat constructor; assumption]. unfold M_EllipsePlot.plot_ellipses, index_pairs. cbn [mapM]. rewrite E1, E2, E3, E4, E5, E6. reflexivity.
  Qed.
  (** Each panel has two lines: the projection dashed, the cut solid; its limits are the centre and six tenths of the incoherent width to either side; the axes are labelled. *)
  Theorem C79_panel : forall e x y cs angle, proper e -> symmetric 4 (el_mat e) -> stiff 4 (el_mat e) -> (x < y)%nat -> (y < 4)%nat -> panel e x y = Ok (cs, angle) ->
    exists inco co l1 l2 f1 f2 cx cy wx wy lx ly, get_ellipse round2 e x y true true = Ok inco /\ get_ellipse round2 e x y false true = Ok co /\ angle = ee_angle co /\ ee_angle inco = angle /\
      drawn eig inco 128 = Ok l1 /\ drawn eig co 128 = Ok l2 /\ lines cs = [(l1, f1); (l2, f2)] /\ keyword f1 "linestyle" = Some (text "dashed") /\ keyword f2 "linestyle" = Some (text "solid") /\
      nth_error (centre e) x = Some cx /\ nth_error (centre e) y = Some cy /\ incoh_fwhms (el_mat e) x = Ok wx /\ incoh_fwhms (el_mat e) y = Ok wy /\ 0 < wx /\ 0 < wy /\
      nth_error (el_labels e) x = Some lx /\ nth_error (el_labels e) y = Some ly /\
      (forall a b, In (XLim V a b) cs <-> a = cx - 6 / 10 * wx /\ b = cx + 6 / 10 * wx) /\ (forall a b, In (YLim V a b) cs <-> a = cy - 6 / 10 * wy /\ b = cy + 6 / 10 * wy) /\
      (forall t, In (XLabel V t) cs <-> t = lx) /\ (forall t, In (YLabel V t) cs <-> t = ly) /\
      (keyword f1 "label", keyword f2 "label") = (if Nat.eqb x 2 && Nat.eqb y 3 then (Some (text "Incoherent"), Some (text "Coherent")) else (None, None)) /\
      (forall k, In (Legend V k) cs <-> k = 1%nat /\ x = 2%nat /\ y = 3%nat) /\ keyword f1 "c" = Some (text "k") /\ keyword f2 "c" = Some (text "k").
  Proof using.
    intros e x y cs angle PR Y S L I P. destruct (panel_eq e x y PR L I Y S) as (inco & co & wx & wy & lx & ly & rest & G1 & G2 & W1 & W2 & P1 & P2 & LX & LY & E & RE).
    rewrite E in P. apply Ok_inj in P. pose proof (f_equal fst P) as PC. pose proof (f_equal snd P) as PA. cbn [fst snd] in PC, PA. subst cs angle. clear P. destruct (outline_is inco) as (l1 & D1 & O1). destruct (outline_is co) as (l2 & D2 & O2). rewrite O1, O2.
    destruct (C68_centre round2 e x y false co PR L I G2) as (CX & CY & _). pose proof (C68_angle round2 e x y true true inco L I G1) as A1. pose proof (C68_angle round2 e x y false true co L I G2) as A2.
    exists inco, co, l1, l2, (style V text x y "dashed" "Incoherent"), (style V text x y "solid" "Coherent"), (fst (ee_centers co)), (snd (ee_centers co)), wx, wy, lx, ly.
    repeat (split; [assumption || reflexivity || congruence|]).
    assert (R : forall c, In c rest -> c = Legend V 1) by (subst rest; destruct (Nat.eqb x 2 && Nat.eqb y 3); cbn; intuition).
    split. { subst rest. destruct (Nat.eqb x 2 && Nat.eqb y 3); reflexivity. } split; [reflexivity|]. split; [reflexivity|]. repeat (split; [assumption|]).
    assert (IFF : forall (c : cmd V) l0, In c (l0 ++ rest) <-> In c l0 \/ (In c rest /\ c = Legend V 1)) by (intros c l0; rewrite in_app_iff; split; [intros [H|H]; auto|intros [H|[H _]]; auto]).
    split; [|split; [|split; [|split; [|split; [|split; [|split; reflexivity]]]]]].
    - intros a b. rewrite IFF. cbn [In]. split; [|intros [-> ->]; left; right; right; left; f_equal; ring]. intros [[H|[H|[H|[H|[H|[H|[H|[H|[]]]]]]]]]|[_ H]]; try discriminate H. injection H as <- <-. split; ring.
    - intros a b. rewrite IFF. cbn [In]. split; [|intros [-> ->]; left; right; right; right; left; f_equal; ring]. intros [[H|[H|[H|[H|[H|[H|[H|[H|[]]]]]]]]]|[_ H]]; try discriminate H. injection H as <- <-. split; ring.
    - intros t. rewrite IFF. cbn [In]. split; [|intros ->; left; intuition]. intros [[H|[H|[H|[H|[H|[H|[H|[H|[]]]]]]]]]|[_ H]]; try discriminate H. injection H as <-. auto.
    - intros t. rewrite IFF. cbn [In]. split; [|intros ->; left; intuition]. intros [[H|[H|[H|[H|[H|[H|[H|[H|[]]]]]]]]]|[_ H]]; try discriminate H. injection H as <-. auto.
    - unfold style. destruct (Nat.eqb x 2 && Nat.eqb y 3); reflexivity.
    - intros k. rewrite in_app_iff. cbn [In]. subst rest. destruct (Nat.eqb x 2 && Nat.eqb y 3) eqn:B.
      + apply andb_true_iff in B. rewrite !Nat.eqb_eq in B. destruct B as [-> ->]. split. { intros [[H|[H|[H|[H|[H|[H|[H|[H|[]]]]]]]]]|[H|[]]]; try discriminate H. injection H as <-. auto. } intros [-> _]. right. left. auto.
      + split. { intros [[H|[H|[H|[H|[H|[H|[H|[H|[]]]]]]]]]|[]]; discriminate H. } intros (_ & -> & ->). discriminate B.
  Qed.
  (** The whole of both ellipses is inside the limits when the axes are at right angles. *)
  Theorem C79_whole : forall e x y cs angle, proper e -> symmetric 4 (el_mat e) -> stiff 4 (el_mat e) -> (x < y)%nat -> (y < 4)%nat -> panel e x y = Ok (cs, angle) -> Rabs (angle - 90) <= 109 / 10000 ->
    forall l f p, In (l, f) (lines cs) -> In p l -> visible cs p.
  Proof using EIG.
    intros e x y cs angle PR Y S L I P RA l f p IL IP.
    destruct (C79_panel e x y cs angle PR Y S L I P) as (inco & co & l1 & l2 & f1 & f2 & cx & cy & wx & wy & lx & ly & G1 & G2 & A1 & A2 & D1 & D2 & LS & _ & _ & CX & CY & W1 & W2 & P1 & P2 & _ & _ & XL & YL & _).
    assert (PT : forall projection E l', get_ellipse round2 e x y projection true = Ok E -> ee_angle E = angle -> drawn eig E 128 = Ok l' -> In p l' -> visible cs p).
    { intros projection E l' G A D IN. unfold drawn in D. destruct (get_points eig E 128) as [pts|] eqn:GP; [|discriminate]. cbn [bind] in D. apply Ok_inj in D. subst l'. apply in_map_iff in IN. destruct IN as (q & Q & IQ).
      destruct (in_rectangle e x y projection E wx wy 128 pts q PR L I Y S G W1 W2 GP IQ) as (a & b & -> & BA & BB). destruct (C68_centre round2 e x y projection E PR L I G) as (EX & EY & _).
      unfold drawn_point, right_angle in Q. rewrite A in Q. destruct (Rle_dec (Rabs (angle - 90)) (1 / 100 + 1 / 100000 * 90)); [|lra]. subst p. exists a, b. split; auto.
      replace (fst (ee_centers E)) with cx in BA by congruence. replace (snd (ee_centers E)) with cy in BB by congruence.
      split; intros u v HI; [apply XL in HI|apply YL in HI]; destruct HI as [-> ->]; [clear BB; unfold Rabs in BA; destruct (Rcase_abs (a - cx)); lra|unfold Rabs in BB; destruct (Rcase_abs (b - cy)); lra]. }
    rewrite LS in IL. destruct IL as [Q|[Q|[]]]; injection Q as <- <-; [apply (PT true inco l1)|apply (PT false co l2)]; auto.
  Qed.
  (** On axes that are not at right angles the limits are not where the ellipses are drawn: away from the first axis nothing is seen. *)
  Theorem C79_oblique_refuted : forall e x y cs angle cx cy wx wy, proper e -> symmetric 4 (el_mat e) -> stiff 4 (el_mat e) -> (x < y)%nat -> (y < 4)%nat -> panel e x y = Ok (cs, angle) ->
    0 < angle < 180 -> 109 / 10000 < Rabs (angle - 90) -> nth_error (centre e) x = Some cx -> nth_error (centre e) y = Some cy -> incoh_fwhms (el_mat e) x = Ok wx -> incoh_fwhms (el_mat e) y = Ok wy ->
    let cot := cos (angle * PI / 180) / sin (angle * PI / 180) in 11 / 10 * wx + wy / 2 * Rabs cot < Rabs (cy * cot) ->
    forall l f p, In (l, f) (lines cs) -> In p l -> ~ visible cs p.
  Proof using EIG.
    intros e x y cs angle cx0 cy0 wx0 wy0 PR Y S L I P AN OB CX0 CY0 WX0 WY0 cot FAR l f p IL IP (u & v & PE & VX & _).
    destruct (C79_panel e x y cs angle PR Y S L I P) as (inco & co & l1 & l2 & f1 & f2 & cx & cy & wx & wy & lx & ly & G1 & G2 & A1 & A2 & D1 & D2 & LS & _ & _ & CX & CY & W1 & W2 & P1 & P2 & _ & _ & XL & YL & _).
    assert (cx0 = cx) by congruence. assert (cy0 = cy) by congruence. assert (wx0 = wx) by (apply Ok_inj; congruence). assert (wy0 = wy) by (apply Ok_inj; congruence). subst cx0 cy0 wx0 wy0. clear CX0 CY0 WX0 WY0.
    specialize (VX _ _ (proj2 (XL _ _) (conj eq_refl eq_refl))).
    assert (PT : forall projection E l', get_ellipse round2 e x y projection true = Ok E -> ee_angle E = angle -> drawn eig E 128 = Ok l' -> In p l' -> False).
    { intros projection E l' G A D IN. unfold drawn in D. destruct (get_points eig E 128) as [pts|] eqn:GP; [|discriminate]. cbn [bind] in D. apply Ok_inj in D. subst l'. apply in_map_iff in IN. destruct IN as (q & Q & IQ).
      destruct (in_rectangle e x y projection E wx wy 128 pts q PR L I Y S G W1 W2 GP IQ) as (a & b & -> & BA & BB). destruct (C68_centre round2 e x y projection E PR L I G) as (EX & EY & _).
      unfold drawn_point, right_angle in Q. rewrite A in Q. destruct (Rle_dec (Rabs (angle - 90)) (1 / 100 + 1 / 100000 * 90)); [lra|].
      unfold tr, over_tan in Q. pose proof (sin_deg_pos angle AN) as SP. replace (angle / 180 * PI) with (angle * PI / 180) in * by field. destruct (Req_EM_T (sin (angle * PI / 180)) 0); [lra|].
      cbn [nadd nbin] in Q. rewrite <- Q in PE. injection PE as UE _. replace (fst (ee_centers E)) with cx in BA by congruence. replace (snd (ee_centers E)) with cy in BB by congruence.
      assert (UE' : u - cx = (a - cx) + (b - cy) * cot + cy * cot) by (rewrite <- UE; unfold cot; field; lra).
      assert (BC : Rabs ((b - cy) * cot) <= wy / 2 * Rabs cot) by (rewrite Rabs_mult; apply Rmult_le_compat_r; [apply Rabs_pos|auto]).
      assert (UB : Rabs (u - cx) < 6 / 10 * wx) by (apply Rabs_def1; lra).
      assert (T : Rabs (cy * cot) <= Rabs (u - cx) + Rabs (a - cx) + Rabs ((b - cy) * cot)). { replace (cy * cot) with ((u - cx) + - (a - cx) + - ((b - cy) * cot)) by lra. eapply Rle_trans; [apply Rabs_triang|]. rewrite Rabs_Ropp. apply Rplus_le_compat_r. eapply Rle_trans; [apply Rabs_triang|]. rewrite Rabs_Ropp. lra. }
      lra. }
    rewrite LS in IL. destruct IL as [Q|[Q|[]]]; injection Q as <- <-; [apply (PT true inco l1)|apply (PT false co l2)]; auto.
  Qed.
End C79.
Print Assumptions C79_six.
Print Assumptions C79_panel.
Print Assumptions C79_whole.
Print Assumptions C79_oblique_refuted.

(** A hexagonal crystal at (0, 2, 0): the panel of the first two axes shows nothing; the others at right angles show all. *)
Definition hexagonal : ellipsoid := Ellipsoid (V 0 2 0) 0 None (fun i j => if Nat.eqb i j then 10000 else 0) 1 (V 0 2 0) false (60, 90, 90) ["a"; "b"; "c"; "E"]%string.
Lemma hexagonal_ok : proper hexagonal /\ symmetric 4 (el_mat hexagonal) /\ stiff 4 (el_mat hexagonal) /\ forall idx, (idx < 4)%nat -> incoh_fwhms (el_mat hexagonal) idx = Ok (sig2fwhm / 100).
Proof.
  assert (Y : symmetric 4 (el_mat hexagonal)). { intros i j _ _. cbn. rewrite Nat.eqb_sym. auto. }
  assert (S : stiff 4 (el_mat hexagonal)). { intros x k K. unfold form. cbn. assert (Q : forall a, 0 <= a * a) by (intros a; apply Rle_0_sqr). pose proof (Q (x 0%nat)). pose proof (Q (x 1%nat)). pose proof (Q (x 2%nat)). pose proof (Q (x 3%nat)).
    destruct k as [|[|[|[|k]]]]; try lia; lra. }
  split; [split; [discriminate|split; cbn; auto]|]. split; auto. split; auto. intros idx I.
  rewrite (C44_variance _ (fun i j => if Nat.eqb i j then / 10000 else 0) idx I Y S).
  - f_equal. cbn. rewrite Nat.eqb_refl. replace (/ 10000) with (/ 100 * / 100) by field. rewrite sqrt_square by lra. reflexivity.
  - intros i j I1 J1. unfold mul, eye. destruct i as [|[|[|[|i]]]]; try lia; destruct j as [|[|[|[|j]]]]; try lia; cbn; lra.
Qed.
Example C79_example : forall (V : Type) (text : string -> V), solves eig2 /\ proper hexagonal /\ symmetric 4 (el_mat hexagonal) /\ stiff 4 (el_mat hexagonal) /\
  (exists cs, panel V text eig2 (fun a => a) hexagonal 0 1 = Ok (cs, 60) /\ lines cs <> [] /\ forall l f p, In (l, f) (lines cs) -> In p l -> ~ visible cs p) /\
  (exists cs, panel V text eig2 (fun a => a) hexagonal 1 2 = Ok (cs, 90) /\ lines cs <> [] /\ forall l f p, In (l, f) (lines cs) -> In p l -> visible cs p).
Proof.
  intros V text. destruct hexagonal_ok as (PR & Y & S & W). split; [apply eig2_solves|]. split; auto. split; auto. split; auto.
  assert (P : forall x y, (x < y)%nat -> (y < 4)%nat -> exists cs angle, panel V text eig2 (fun a => a) hexagonal x y = Ok (cs, angle) /\ lines cs <> [] /\ angle = (if Nat.eqb y 3 then 90 else if Nat.eqb x 1 then 90 else if Nat.eqb y 1 then 60 else 90)).
  { intros x y L I. destruct (panel_eq V text eig2 (fun a => a) hexagonal x y PR L I Y S) as (inco & co & ? & ? & ? & ? & ? & _ & G & _ & _ & _ & _ & _ & _ & E & _). eexists. eexists. split; [exact E|]. split; [discriminate|]. apply (C68_angle (fun a => a) hexagonal x y false true co L I G). }
  split.
  - destruct (P 0 1)%nat as (cs & angle & E & NE & A); try lia. cbn in A. subst angle. exists cs. split; auto. split; auto.
    assert (C : cos (60 * PI / 180) = 1 / 2) by (replace (60 * PI / 180) with (PI / 3) by field; apply cos_PI3). assert (SN : sin (60 * PI / 180) = sqrt 3 / 2) by (replace (60 * PI / 180) with (PI / 3) by field; apply sin_PI3).
    refine (C79_oblique_refuted V text eig2 eig2_solves (fun a => a) hexagonal 0 1 cs 60 0 2 (sig2fwhm / 100) (sig2fwhm / 100) PR Y S _ _ E _ _ eq_refl eq_refl (W _ _) (W _ _) _); try lia; try lra.
    + rewrite Rabs_left; lra.
    + rewrite C, SN. assert (S3 : 0 < sqrt 3) by (apply sqrt_lt_R0; lra). assert (SS : sqrt 3 * sqrt 3 = 3) by (apply sqrt_sqrt; lra). assert (S2 : sqrt 3 < 2) by nra.
      assert (SG : 0 < sig2fwhm <= 4). { split; [apply sig2fwhm_pos|]. unfold sig2fwhm. assert (ln 2 < 1). { rewrite <- (ln_exp 1). apply ln_increasing; [lra|]. pose proof (exp_ineq1 1). lra. } assert (sqrt (2 * ln 2) <= sqrt (2 * 2)) by (apply sqrt_le_1_alt; lra). rewrite sqrt_square in H0 by lra. lra. }
      assert (IV : 1 / 2 / (sqrt 3 / 2) = / sqrt 3) by (field; lra). rewrite IV. assert (IB : 1 / 2 < / sqrt 3 < 1). { split; apply (Rmult_lt_reg_r (sqrt 3)); auto; rewrite Rinv_l by lra; nra. }
      rewrite (Rabs_right (/ sqrt 3)), (Rabs_right (2 * / sqrt 3)) by lra. nra.
  - destruct (P 1 2)%nat as (cs & angle & E & NE & A); try lia. cbn in A. subst angle. exists cs. split; auto. split; auto.
    apply (C79_whole V text eig2 eig2_solves (fun a => a) hexagonal 1 2 cs 90 PR Y S); try lia; auto. rewrite Rminus_diag_eq, Rabs_R0 by auto. lra.
Qed.
