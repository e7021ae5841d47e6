(** C45: the factor R0 in closed form. *)
From Coq Require Import Reals List Arith Bool String Lra Lia Psatz FunctionalExtensionality.
From Verif Require Import Base LinAlg M_Utilities M_Sample M_Goni M_Tas M_Components M_Mat M_Reso S_Energy S_Mat S_Conv S_Reso L_Mat L_Reso P_Reso P_Conv.
Import ListNotations.
Open Scope R_scope.

Lemma find_ext : forall {A} (f g : A -> bool) l, (forall x, In x l -> f x = g x) -> find f l = find g l.
Proof. intros A f g l. induction l as [|a l IH]; intros H; cbn; auto. rewrite (H a) by (left; auto). destruct (g a); auto. apply IH. intros. apply H. right. auto. Qed.
Lemma pivot_ext : forall n A B, (forall i j, (i < n)%nat -> (j < n)%nat -> A i j = B i j) -> pivot n A = pivot n B.
Proof. intros n A B H. unfold pivot. apply find_ext. intros x X. apply in_seq in X. rewrite H by lia. auto. Qed.
Lemma determinant_ext : forall n A B, (forall i j, (i < n)%nat -> (j < n)%nat -> A i j = B i j) -> determinant n A = determinant n B.
Proof.
  induction n as [|n IH]; intros A B H; auto. cbn [determinant]. rewrite (pivot_ext (S n) A B H). destruct (pivot (S n) B) as [r|] eqn:P; auto.
  unfold pivot in P. apply find_some in P. destruct P as [P _]. apply in_seq in P.
  assert (X : forall i, (i < S n)%nat -> (exchange r i < S n)%nat). { intros i I. unfold exchange. destruct (Nat.eqb i 0); [lia|]. destruct (Nat.eqb i r); lia. }
  cbv zeta. f_equal.
  - f_equal. apply H; [apply X|]; lia.
  - apply IH. intros i j I J. unfold eliminate. rewrite !H by (try apply X; lia). auto.
Qed.

(** a 2 x 2 block that is not coupled to the rest *)
Lemma determinant_block : forall n A, symmetric (S (S n)) A -> posdef (S (S n)) A ->
  (forall j, (j < n)%nat -> A 0%nat (S (S j)) = 0) -> (forall j, (j < n)%nat -> A 1%nat (S (S j)) = 0) ->
  let B := fun i j => A (S (S i)) (S (S j)) in
  determinant (S (S n)) A = (A 0%nat 0%nat * A 1%nat 1%nat - A 0%nat 1%nat * A 0%nat 1%nat) * determinant n B /\ symmetric n B /\ posdef n B.
Proof.
  intros n A Y P Z0 Z1 B. pose proof (posdef_diag _ _ 0%nat P ltac:(lia)) as D0.
  destruct (determinant_step (S n) A Y P) as (E1 & Y1 & P1). cbv zeta in *. set (A1 := fun i j => A (S i) (S j) - A (S i) 0%nat * A 0%nat (S j) / A 0%nat 0%nat) in *.
  destruct (determinant_step n A1 Y1 P1) as (E2 & Y2 & P2). cbv zeta in *. set (A2 := fun i j => A1 (S i) (S j) - A1 (S i) 0%nat * A1 0%nat (S j) / A1 0%nat 0%nat) in *.
  pose proof (posdef_diag _ _ 0%nat P1 ltac:(lia)) as D1.
  assert (E : forall i j, (i < n)%nat -> (j < n)%nat -> A2 i j = B i j).
  { intros i j I J. unfold A2, B. assert (A1 0%nat (S j) = 0) as ->. { unfold A1. rewrite (Z1 j J), (Z0 j J). field. lra. }
    unfold A1. rewrite (Y (S (S i)) 0%nat), (Z0 i I) by lia. clearbody A1. unfold Rdiv. ring. }
  split; [|split].
  - rewrite E1, E2, (determinant_ext n A2 B E). unfold A1. rewrite (Y 1 0)%nat by lia. field. lra.
  - intros i j I J. unfold B. apply Y; lia.
  - apply posdef_ext with A2; auto.
Qed.

Lemma h_entry : forall s i j, (i < 8)%nat -> (j < 8)%nat -> h_of s i j =
  let '(h0, h1, h2, h3) := u_h s in let '(v0, v1, v2, v3) := u_v s in
  let g x := 1 / (arcmin x * arcmin x) in
  let m := g (fst (u_mono s)) / 4 in let m' := g (snd (u_mono s)) / 4 / sin (degrees (u_thm s)) / sin (degrees (u_thm s)) in
  let a := g (fst (u_ana s)) / 4 in let a' := g (snd (u_ana s)) / 4 / sin (degrees (u_tha s)) / sin (degrees (u_tha s)) in
  nth j (nth i [[g h0 + m; m]; [m; g h1 + m]; [0; 0; g v0 + m'; - m']; [0; 0; - m'; g v1 + m'];
                [0; 0; 0; 0; g h2 + a; a]; [0; 0; 0; 0; a; g h3 + a]; [0; 0; 0; 0; 0; 0; g v2 + a'; - a']; [0; 0; 0; 0; 0; 0; - a'; g v3 + a']] []) 0.
Proof.
  intros s i j I J. unfold h_of, hmat, gmat_of, fmat_of. destruct (u_h s) as [[[h0 h1] h2] h3], (u_v s) as [[[v0 v1] v2] v3].
  unfold fadd, mul, transpose, calc_mat_c. cbv zeta.
  set (g := fun x => 1 / (arcmin x * arcmin x)). 
  destruct i as [|[|[|[|[|[|[|[|i]]]]]]]]; try lia; destruct j as [|[|[|[|[|[|[|[|j]]]]]]]]; try lia; cbn; unfold Rdiv; try ring; subst g; cbv beta; try lra; unfold Rdiv; field.
Qed.

Lemma sq_pos : forall x, x <> 0 -> 0 < sq x.
Proof. intros x X. apply (Rlt_0_sqr x). auto. Qed.
Lemma pair_ratio : forall e h h', e <> 0 -> h <> 0 -> h' <> 0 ->
  let m := 1 / (e * e) / 4 in
  1 / (e * e) / ((1 / (h * h) + m) * (1 / (h' * h') + m) - m * m) = sq (2 * (h * h')) / (sq h + sq h' + 4 * sq e) /\
  0 < (1 / (h * h) + m) * (1 / (h' * h') + m) - m * m.
Proof.
  intros e h h' E H H' m. pose proof (sq_pos e E) as Pe. pose proof (sq_pos h H) as Ph. pose proof (sq_pos h' H') as Ph'. unfold m.
  assert (D : (1 / (h * h) + 1 / (e * e) / 4) * (1 / (h' * h') + 1 / (e * e) / 4) - 1 / (e * e) / 4 * (1 / (e * e) / 4) = (sq h + sq h' + 4 * sq e) / (4 * (sq e * (sq h * sq h')))).
  { unfold sq. field. auto. }
  rewrite D. assert (0 < sq e * (sq h * sq h')) by (apply Rmult_lt_0_compat; [exact Pe|]; apply Rmult_lt_0_compat; [exact Ph|exact Ph']). split.
  - unfold sq in *. field. repeat split; auto; lra.
  - apply Rdiv_lt_0_compat; lra.
Qed.
Lemma pair_ratio_v : forall t e h h', t <> 0 -> e <> 0 -> h <> 0 -> h' <> 0 ->
  let m := 1 / (e * e) / 4 / t / t in
  1 / (e * e) / ((1 / (h * h) + m) * (1 / (h' * h') + m) - - m * - m) = sq (2 * t * (h * h')) / (sq h + sq h' + 4 * sq (t * e)) /\
  0 < (1 / (h * h) + m) * (1 / (h' * h') + m) - - m * - m.
Proof.
  intros t e h h' T E H H' m. assert (TE : t * e <> 0) by (apply Rmult_integral_contrapositive_currified; auto).
  destruct (pair_ratio (t * e) h h' TE H H') as [R P]. cbv zeta in *.
  assert (M : m = 1 / (t * e * (t * e)) / 4) by (unfold m; field; auto). rewrite M. clear M m. set (m := 1 / (t * e * (t * e)) / 4) in *.
  replace (- m * - m) with (m * m) by ring. split; auto.
  set (d := (1 / (h * h) + m) * (1 / (h' * h') + m) - m * m) in *. clearbody d m.
  transitivity (sq t * (1 / (t * e * (t * e)) / d)). { unfold sq. field. repeat split; auto; lra. }
  rewrite R. pose proof (sq_pos h H). pose proof (sq_pos h' H'). pose proof (sq_pos _ TE). unfold sq in *. field. lra.
Qed.

Lemma sqrt_ratio : forall x q, 0 < q -> sqrt (sq x / q) = Rabs x / sqrt q.
Proof. intros x q Q. rewrite sqrt_div_alt by auto. f_equal. apply sqrt_Rsqr_abs. Qed.

Lemma quad_pos : forall a b c, a <> 0 -> 0 < sq a + sq b + 4 * sq c.
Proof. intros a b c A. pose proof (sq_pos a A). pose proof (sq_nonneg b). pose proof (sq_nonneg c). lra. Qed.
Lemma ratio_nonneg : forall x q, 0 < q -> 0 <= sq x / q.
Proof. intros x y Y. apply Rmult_le_pos; [apply sq_nonneg|]. apply Rlt_le, Rinv_0_lt_compat; auto. Qed.
Lemma sqrt4 : forall a b c d, 0 <= a -> 0 <= b -> 0 <= c -> 0 <= d -> sqrt (a * b * c * d) = sqrt a * sqrt b * sqrt c * sqrt d.
Proof. intros. rewrite !sqrt_mult; auto; repeat apply Rmult_le_pos; auto. Qed.
Lemma frac4 : forall a b c d w x y z, 0 < w -> 0 < x -> 0 < y -> 0 < z -> a * b * c * d / (w * x * y * z) = (a / w) * (b / x) * (c / y) * (d / z).
Proof. intros. field. repeat split; lra. Qed.

Lemma det_f : forall s, proper_setup s -> let g x := 1 / (arcmin x * arcmin x) in
  determinant 4 (fmat_of s) = g (fst (u_mono s)) * g (snd (u_mono s)) * g (fst (u_ana s)) * g (snd (u_ana s)).
Proof.
  intros s P g. rewrite determinant_det4; [|apply diag4_sym|apply fmat_posdef; auto]. unfold fmat_of. cbv zeta. unfold det4, det3, minor0, other. cbn. fold (g (fst (u_mono s))). unfold g. ring.
Qed.

Lemma det_h : forall s h0 h1 h2 h3 v0 v1 v2 v3, proper_setup s -> u_h s = (h0, h1, h2, h3) -> u_v s = (v0, v1, v2, v3) ->
  let g x := 1 / (arcmin x * arcmin x) in
  let m := g (fst (u_mono s)) / 4 in let m' := g (snd (u_mono s)) / 4 / sin (degrees (u_thm s)) / sin (degrees (u_thm s)) in
  let a := g (fst (u_ana s)) / 4 in let a' := g (snd (u_ana s)) / 4 / sin (degrees (u_tha s)) / sin (degrees (u_tha s)) in
  determinant 8 (h_of s) = ((g h0 + m) * (g h1 + m) - m * m) * ((g v0 + m') * (g v1 + m') - - m' * - m')
    * ((g h2 + a) * (g h3 + a) - a * a) * ((g v2 + a') * (g v3 + a') - - a' * - a').
Proof.
  intros s h0 h1 h2 h3 v0 v1 v2 v3 P Eh Ev g m m' a a'.
  assert (E : forall i j, (i < 8)%nat -> (j < 8)%nat -> h_of s i j = nth j (nth i [[g h0 + m; m]; [m; g h1 + m]; [0; 0; g v0 + m'; - m']; [0; 0; - m'; g v1 + m'];
                [0; 0; 0; 0; g h2 + a; a]; [0; 0; 0; 0; a; g h3 + a]; [0; 0; 0; 0; 0; 0; g v2 + a'; - a']; [0; 0; 0; 0; 0; 0; - a'; g v3 + a']] []) 0).
  { intros i j I J. rewrite h_entry by auto. rewrite Eh, Ev. reflexivity. }
  pose proof (h_sym s) as Y. pose proof (h_posdef s P) as Q. set (H := h_of s) in *. clearbody H m m' a a' g.
  destruct (determinant_block 6 H Y Q) as (E1 & Y1 & Q1). 1,2: intros j J; rewrite E by lia; destruct j as [|[|[|[|[|[|j]]]]]]; try lia; reflexivity.
  cbv zeta in *. rewrite E1. set (H1 := fun i j => H (S (S i)) (S (S j))) in *.
  destruct (determinant_block 4 H1 Y1 Q1) as (E2 & Y2 & Q2). 1,2: intros j J; unfold H1; rewrite E by lia; destruct j as [|[|[|[|j]]]]; try lia; reflexivity.
  cbv zeta in *. rewrite E2. set (H2 := fun i j => H1 (S (S i)) (S (S j))) in *.
  destruct (determinant_block 2 H2 Y2 Q2) as (E3 & Y3 & Q3). 1,2: intros j J; unfold H2, H1; rewrite E by lia; destruct j as [|[|j]]; try lia; reflexivity.
  cbv zeta in *. rewrite E3. set (H3 := fun i j => H2 (S (S i)) (S (S j))) in *.
  destruct (determinant_block 0 H3 Y3 Q3) as (E4 & _ & _). 1,2: intros j J; lia.
  rewrite E4. cbn [determinant]. unfold H3, H2, H1. rewrite !E by lia. cbn [nth]. ring.
Qed.

(** C45: the factor R0 is the product of what the two arms let through. *)
Theorem C45_r0 : forall t ps h en ei ef M r0 s, t_ei_ef t en = Ok (ei, ef) -> calculate_at_hkle t ps h ei ef = Ok (M, r0) ->
  described t ps h ei ef s -> r0 = throughput s.
Proof.
  intros t ps h en ei ef M r0 s E H D. apply energies_consistent in E.
  destruct (opened _ _ _ _ _ _ _ H) as (s' & Hi & N & D' & P & _ & _ & _ & -> & _).
  rewrite (setup_unique _ _ _ _ _ _ _ D' D) in *. clear s' D'.
  destruct (setup_facts t ps h ei ef s D E) as (q & K1 & K2 & Q & S1 & S2 & _).
  assert (BR : forall C1 : cos (degrees (u_thm s)) <> 0, forall C2 : cos (degrees (u_tha s)) <> 0, 0 < cos (degrees (u_thm s)) /\ 0 < cos (degrees (u_tha s))).
  { intros. destruct D as (_ & _ & _ & _ & _ & _ & _ & mono & ana & coll & _ & _ & _ & Tm & Ta & _). split; [apply (bragg_cos mono ei)|apply (bragg_cos ana ef)]; auto. }
  unfold r0_of, throughput. rewrite det_f by auto. pose proof P as P'. unfold proper_setup in P'.
  destruct (u_h s) as [[[h0 h1] h2] h3] eqn:Eh, (u_v s) as [[[v0 v1] v2] v3] eqn:Ev. rewrite (det_h s _ _ _ _ _ _ _ _ P Eh Ev). cbv zeta.
  destruct P' as ((A0 & A1 & A2 & A3) & (B0 & B1 & B2 & B3) & (F0 & F1 & F2 & F3) & C1 & C2). destruct (BR C1 C2) as [O1 O2]. clear BR.
  rewrite <- arcmin_nz in A0, A1, A2, A3, B0, B1, B2, B3, F0, F1, F2, F3.
  destruct (pair_ratio _ _ _ F0 A0 A1) as [R1 P1]. destruct (pair_ratio _ _ _ F2 A2 A3) as [R2 P2].
  destruct (pair_ratio_v _ _ _ _ S1 F1 B0 B1) as [R3 P3]. destruct (pair_ratio_v _ _ _ _ S2 F3 B2 B3) as [R4 P4]. cbv zeta in *.
  match type of P1 with 0 < ?t => set (x1 := t) in * end. match type of P2 with 0 < ?t => set (x2 := t) in * end.
  match type of P3 with 0 < ?t => set (x3 := t) in * end. match type of P4 with 0 < ?t => set (x4 := t) in * end. clearbody x1 x2 x3 x4.
  rewrite frac4 by assumption.
  rewrite R1, R2, R3, R4. unfold arm.
  rewrite sqrt4 by (apply ratio_nonneg, quad_pos; assumption).
  rewrite !sqrt_ratio by (apply quad_pos; assumption). rewrite !Rabs_mult. rewrite (Rabs_right 2) by lra. unfold tan.
  set (a1 := degrees (u_thm s)) in *. set (a2 := degrees (u_tha s)) in *.
  assert (Q1 : forall x, x <> 0 -> / (x * x) * Rabs x = / Rabs x). { clear. intros x X. pose proof (Rabs_pos_lt x X). replace (x * x) with (Rabs x * Rabs x) by (rewrite <- Rabs_mult; apply Rabs_right; apply Rle_ge, (Rle_0_sqr x)). field. lra. }
  assert (SQ : forall a b c, a <> 0 -> sqrt (sq a + sq b + 4 * sq c) <> 0). { clear. intros a b c A. pose proof (sqrt_lt_R0 _ (quad_pos a b c A)). lra. }
  pose proof (SQ _ (arcmin h1) (arcmin (fst (u_mono s))) A0) as Z1. pose proof (SQ _ (arcmin h3) (arcmin (fst (u_ana s))) A2) as Z2.
  pose proof (SQ _ (arcmin v1) (sin a1 * arcmin (snd (u_mono s))) B0) as Z3. pose proof (SQ _ (arcmin v3) (sin a2 * arcmin (snd (u_ana s))) B2) as Z4.
  repeat match goal with |- context [sqrt ?t] => let z := fresh "z" in set (z := sqrt t) in *; clearbody z end.
  repeat match goal with |- context [Rabs (arcmin ?t)] => let z := fresh "r" in set (z := Rabs (arcmin t)) in *; clearbody z end.
  pose proof (Q1 _ S1) as I1. pose proof (Q1 _ S2) as I2. pose proof (Rabs_no_R0 _ S1) as N1. pose proof (Rabs_no_R0 _ S2) as N2.
  transitivity (u_ki s * u_ki s * u_ki s * (u_kf s * u_kf s * u_kf s) * cos a1 * cos a2 * PI * PI * 4 * (/ (sin a1 * sin a1) * Rabs (sin a1)) * (/ (sin a2 * sin a2) * Rabs (sin a2))
    * (r * r0 / z) * (r1 * r2 / z0) * (r3 * r4 / z1) * (r5 * r6 / z2)).
  - field. repeat split; auto.
  - rewrite I1, I2. field. repeat split; auto.
Qed.
Print Assumptions C45_r0.
