(** Property C77: the distance in Q from the middle point of a scan as its x-axis. *)
From Coq Require Import Reals List ZArith Bool String Ascii Lra Lia Psatz.
From Verif Require Import Base PyStr S_Str L_Str LinAlg M_Utilities M_Spice M_ScanData P_ScanData M_Scan P_Scan M_DelQ.
Import ListNotations.
Open Scope R_scope.

(** * Specification *)
(** The length of the momentum transfer between neutrons of energy [ei] and [ef] whose directions are [angle] degrees apart. *)
Definition transfer (ei ef angle q : R) : Prop := 0 <= q /\ exists k k', 0 <= k /\ 0 <= k' /\ ksq2eng * (k * k) = ei /\ ksq2eng * (k' * k') = ef /\
  q * q = Rsqr (k - k' * cos (deg2rad angle)) + Rsqr (k' * sin (deg2rad angle)).
Definition has (s : scan) (name : string) (l : list R) : Prop := column s name = Ok (map Some l).
Definition lacks (s : scan) (name : string) : Prop := column s name = Err KeyError.
(** Neutrons whose energy is above 3e-12 meV. *)
Definition moving (e : R) : Prop := ksq2eng * (tri_zero * tri_zero) <= e.
(** The momentum transfers along the scan: recorded, or given by the energies and the scattering angle. *)
Inductive momenta (s : scan) (qs : list R) : Prop :=
| recorded : has s "q" qs -> momenta s qs
| computed : forall eis efs angles, lacks s "q" -> has s "ei" eis ->
    (has s "ef" efs \/ lacks s "ef" /\ exists ens, has s "en" ens /\ List.length eis = List.length ens /\ efs = zipw Rminus eis ens) ->
    (has s "s2" angles \/ lacks s "s2" /\ has s "2theta" angles) ->
    List.length eis = List.length qs -> List.length efs = List.length qs -> List.length angles = List.length qs ->
    (forall i, (i < List.length qs)%nat -> moving (nth i eis 0) /\ moving (nth i efs 0) /\ transfer (nth i eis 0) (nth i efs 0) (nth i angles 0) (nth i qs 0)) -> momenta s qs.
(** The length of Q changes in the scan, or it does not. *)
Definition changes (qs : list R) : Prop := exists a b, In a qs /\ In b qs /\ 11 / 100000 < a - b.
Definition still (qs : list R) : Prop := qs <> [] /\ forall a b, In a qs -> In b qs -> a - b <= 11 / 100000.
(** The middle one of [n] points, or the one before the middle. *)
Definition middle (n m : nat) : Prop := (2 * m + 1 = n \/ 2 * m + 2 = n)%nat.
Definition average (l : list R) : R := fold_right Rplus 0 l / INR (List.length l).
(** [ax] is "...(angle)". *)
Definition names_angle (ax angle : string) : Prop := exists pre w, ax = (pre ++ "(" ++ w ++ ")")%string /\ pre <> EmptyString /\ w <> EmptyString /\
  every (fun c => c <> "(" /\ c <> ")")%char w /\ trimmed w angle.
(** The scan against [ax] is the points ([xs], [ys]). *)
Definition against (s : scan) (ax y : string) (xs : list R) (ys : list num) : Prop :=
  exists d, scan_get_data s (Some ax, Some y) None None None = Ok d /\ dx d = map Some xs /\ dy d = ys.
(** A scan of something that can be plotted against del_q. *)
Definition plottable (s : scan) (ax y : string) (ys : list num) : Prop := occurs "del_q" ax /\ plain y /\ column s y = Ok ys /\ exists ch v, s_preset s = Normal ch v.

(** * Axis names *)
Lemma to_last_close_end : forall w, to_last_close (w ++ ")") = Some w.
Proof. induction w as [|c w IH]; cbn; auto. rewrite IH. auto. Qed.
Lemma last_open_none : forall w, every (fun c => c <> "("%char) w -> last_open w = None.
Proof.
  induction w as [|c w IH]; intros H; cbn; auto. apply every_cons in H. destruct H as [H1 H2]. rewrite IH by auto. apply Ascii.eqb_neq in H1. rewrite H1. auto.
Qed.
Lemma last_open_name : forall pre w, w <> EmptyString -> every (fun c => c <> "("%char) w -> last_open (pre ++ "(" ++ w ++ ")") = Some w.
Proof.
  induction pre as [|c pre IH]; intros w N E.
  - cbn. rewrite last_open_none.
    + unfold group2. rewrite to_last_close_end. destruct w; [contradiction|auto].
    + clear N. induction w as [|d w IH]; cbn; [apply every_cons; split; [discriminate|apply every_nil]|]. apply every_cons in E. destruct E. apply every_cons. auto.
  - cbn [String.append last_open]. change (String "("%char (w ++ ")"))%string with ("(" ++ w ++ ")")%string. rewrite IH by auto. auto.
Qed.
Lemma axis_groups_name : forall ax angle, names_angle ax angle -> exists w, axis_groups ax = Some w /\ strip_ws w = angle.
Proof.
  intros ax angle (pre & w & -> & NP & NW & E & T). exists w. split; [|symmetry; apply trimmed_iff; auto].
  destruct pre as [|c pre]; [contradiction|]. cbn [String.append axis_groups]. change (pre ++ String "("%char (w ++ ")"))%string with (pre ++ "(" ++ w ++ ")")%string. apply last_open_name; auto.
  intros a d b Q. apply (E a d b Q).
Qed.
Lemma axis_groups_none : forall ax, every (fun c => c <> "("%char) ax -> axis_groups ax = None.
Proof. intros [|c ax] H; cbn; auto. apply every_cons in H. apply last_open_none. apply H. Qed.

(** * Momenta *)
Lemma side_of : forall ei ef angle q, moving ei -> moving ef -> transfer ei ef angle q ->
  exists ki kf, en2q_num (Some ei) = Ok (Some ki) /\ en2q_num (Some ef) = Ok (Some kf) /\ side_num (Some ki) (Some kf) (option_map deg2rad (Some angle)) = Ok (Some q).
Proof.
  intros ei ef angle q MI MF (Q0 & k & k' & K0 & K0' & EK & EK' & Q). assert (KP : 0 < ksq2eng) by (unfold ksq2eng; lra). assert (TZ : 0 < tri_zero) by (unfold tri_zero; lra).
  assert (E : forall e k, 0 <= k -> ksq2eng * (k * k) = e -> moving e -> en2q_num (Some e) = Ok (Some k) /\ tri_zero <= k).
  { clear - KP TZ. intros e k K0 <- M. split.
    - unfold en2q_num, en2q. destruct (Rlt_dec _ 0) as [L|_]; [exfalso; assert (0 <= k * k) by nra; nra|]. cbn [rmap]. do 2 f_equal. replace (ksq2eng * (k * k) / ksq2eng) with (k * k) by (field; lra). apply sqrt_square; auto.
    - unfold moving in M. apply Rmult_le_reg_l in M; auto. nra. }
  destruct (E ei k K0 EK MI) as [A1 A2]. destruct (E ef k' K0' EK' MF) as [B1 B2]. exists k, k'. split; auto. split; auto. cbn [option_map].
  unfold side_num, short. rewrite !Rabs_pos_eq by auto. destruct (Rlt_dec k tri_zero); [lra|]. destruct (Rlt_dec k' tri_zero); [lra|]. unfold get_side_from_triangle. rewrite !Rabs_pos_eq by auto. destruct (Rlt_dec k tri_zero); [lra|]. destruct (Rlt_dec k' tri_zero); [lra|].
  cbn [rmap]. do 2 f_equal. rewrite <- (sqrt_square q) by auto. f_equal. rewrite Q. unfold Rsqr. pose proof (sin2_cos2 (deg2rad angle)) as SC. unfold Rsqr in SC. nra.
Qed.
Lemma get_column : forall s name, get s name = match column s name with Ok c => Some c | Err _ => None end.
Proof. intros s name. unfold get, column. destruct (dget String.eqb name (s_data s)); auto. Qed.
Lemma zipw_some : forall a b, zipw nsub (map Some a) (map Some b) = map Some (zipw Rminus a b).
Proof. induction a as [|x a IH]; intros [|y b]; cbn; auto. f_equal. auto. Qed.
Lemma qs_of : forall s qs, momenta s qs -> scan_qs s = Ok (map Some qs).
Proof.
  intros s qs [H|eis efs angles LQ HI HF HA LI LF LA TR]; unfold scan_qs; rewrite !get_column. { rewrite H. auto. }
  rewrite LQ, HI. cbn [some bind].
  assert (X : (match match column s "ef" with Ok c => Some c | Err _ => None end with Some l => Ok (Some l)
     | None => match match column s "en" with Ok c => Some c | Err _ => None end with Some en => do d <- bcast nsub (map Some eis) en; Ok (Some d) | None => Ok None end end) = Ok (Some (map Some efs))).
  { destruct HF as [HF|(LE & ens & HE & F2 & ->)]; [rewrite HF; auto|]. rewrite LE, HE. unfold bcast. rewrite !map_length. rewrite F2, Nat.eqb_refl. cbn [bind]. rewrite zipw_some. auto. }
  rewrite X. cbn [bind some]. clear X.
  assert (Y : (match match column s "s2" with Ok c => Some c | Err _ => None end with Some l => Some l | None => match column s "2theta" with Ok c => Some c | Err _ => None end end) = Some (map Some angles)).
  { destruct HA as [HA|[L2 HA]]; [rewrite HA; auto|]. rewrite L2, HA. auto. }
  rewrite Y. cbn [some bind]. clear Y HI HF HA LQ.
  assert (G : exists kis kfs, mapM en2q_num (map Some eis) = Ok kis /\ mapM en2q_num (map Some efs) = Ok kfs /\ mapM (fun '(ki, kf, t) => side_num ki kf (option_map deg2rad t)) (zip3 kis kfs (map Some angles)) = Ok (map Some qs)).
  { revert efs angles qs LI LF LA TR. induction eis as [|ei eis IH]; intros [|ef efs] [|t angles] [|q qs]; cbn [List.length]; intros LI LF LA TR; try discriminate. { exists [], []. auto. }
    destruct (IH efs angles qs) as (kis & kfs & A & B & C); try lia. { intros i I. apply (TR (S i)). cbn. lia. }
    destruct (TR 0%nat) as (MI & MF & T); [cbn; lia|]. cbn [nth] in *. destruct (side_of _ _ _ _ MI MF T) as (ki & kf & E1 & E2 & E3).
    exists (Some ki :: kis), (Some kf :: kfs). cbn [map mapM zip3]. rewrite E1, E2, A, B. cbn [bind]. split; auto. split; auto. rewrite E3. cbn [bind]. rewrite C. auto. }
  destruct G as (kis & kfs & -> & -> & C). cbn [bind]. exact C.
Qed.

Lemma fold_nadd : forall l a, fold_left nadd (map Some l) (Some a) = Some (fold_left Rplus l a).
Proof. induction l; intros x; cbn; auto. Qed.
Lemma fold_sum : forall l a, fold_left Rplus l a = a + fold_right Rplus 0 l.
Proof. induction l as [|b l IH]; intros a; cbn; [lra|]. rewrite IH. lra. Qed.
Lemma nmean_some : forall l, l <> [] -> nmean (map Some l) = Some (average l).
Proof.
  intros l N. unfold nmean. rewrite fold_nadd, map_length. cbn. destruct (Req_EM_T (INR (List.length l)) 0) as [E|_]. { destruct l; [contradiction|]. exfalso. apply (not_0_INR (List.length (r :: l))) in E; auto. discriminate. }
  rewrite fold_sum, Rplus_0_l. reflexivity.
Qed.
Lemma middle_div : forall n m, middle n m -> ((n - 1) / 2)%nat = m.
Proof. intros n m [<-|<-]. - replace (2 * m + 1 - 1)%nat with (m * 2)%nat by lia. apply Nat.div_mul. lia. - replace (2 * m + 2 - 1)%nat with (1 + m * 2)%nat by lia. rewrite Nat.div_add by lia. reflexivity. Qed.
Lemma middle_lt : forall n m, middle n m -> (m < n)%nat.
Proof. unfold middle. lia. Qed.
Lemma spread : forall qs, qs <> [] -> exists hi lo, amax (map Some qs) = Ok (Some hi) /\ amin (map Some qs) = Ok (Some lo) /\ In hi qs /\ In lo qs /\ forall a b, In a qs -> In b qs -> a - b <= hi - lo.
Proof.
  intros [|q qs] N; [contradiction|]. destruct (reduce_some Rmax qs q) as (hi & H). destruct (reduce_some Rmin qs q) as (lo & L). exists hi, lo. cbn [map amax amin]. rewrite H, L. split; auto. split; auto.
  apply reduce_max in H. apply reduce_min in L. destruct H as [H1 H2], L as [L1 L2]. split; auto. split; auto. intros a b A B. pose proof (H2 a A). pose proof (L2 b B). lra.
Qed.
Lemma shown_against : forall s ax y ys xs, plottable s ax y ys -> get_del_q s ax = Ok (map Some xs) -> against s ax y xs ys.
Proof.
  intros s ax y ys xs (OC & PL & CY & ch & v & P) G. unfold against, scan_get_data, get_data, scan_info. rewrite P. cbn [bind fst snd]. apply contains_spec in OC. rewrite OC, G, CY. cbn [bind].
  rewrite (label_plain y ch v PL). cbn. eexists. split; [reflexivity|]. auto.
Qed.

(** * Theorems *)
(** Where the length of Q changes, a point is as far from the middle one as the lengths differ, whatever angle is named. *)
Theorem C77_radial : forall s ax y ys qs m, plottable s ax y ys -> momenta s qs -> changes qs -> middle (List.length qs) m ->
  against s ax y (map (fun q => q - nth m qs 0) qs) ys.
Proof.
  intros s ax y ys qs m PL MO (a & b & IA & IB & AB) MI. apply shown_against; auto. unfold get_del_q. rewrite (qs_of _ _ MO). cbn [bind].
  destruct (spread qs) as (hi & lo & -> & -> & _ & _ & SP). { intros ->. destruct IA. } cbn [bind]. rewrite map_length, (middle_div _ _ MI). cbn [nsub nbin ngt]. specialize (SP a b IA IB). destruct (Rlt_dec _ _) as [_|NL]; [|exfalso; apply NL; lra].
  f_equal. rewrite !map_map. apply map_ext. intros q. rewrite (nth_indep _ None (Some 0)) by (rewrite map_length; apply middle_lt; auto). rewrite (map_nth Some). reflexivity.
Qed.
Print Assumptions C77_radial.
(** Where it does not, a point is as far away as the arc it has moved on. *)
Theorem C77_rocking : forall s ax y ys qs m angle angles, plottable s ax y ys -> momenta s qs -> still qs -> middle (List.length qs) m -> names_angle ax angle -> has s angle angles -> List.length angles = List.length qs ->
  against s ax y (map (fun a => deg2rad (a - nth m angles 0) * average qs) angles) ys.
Proof.
  intros s ax y ys qs m angle angles PL MO (NE & ST) MI NA HA LE. apply shown_against; auto. unfold get_del_q. rewrite (qs_of _ _ MO). cbn [bind].
  destruct (spread qs NE) as (hi & lo & -> & -> & IH & IL & _). cbn [bind]. rewrite map_length, (middle_div _ _ MI). cbn [nsub nbin ngt]. specialize (ST hi lo IH IL). destruct (Rlt_dec _ _) as [L|_]; [exfalso; lra|].
  destruct (axis_groups_name _ _ NA) as (w & -> & ->). rewrite HA. cbn [bind]. pose proof (middle_lt _ _ MI) as LT. rewrite nth_error_map. rewrite (nth_error_nth' angles 0) by lia. cbn [option_map]. f_equal. rewrite !map_map. apply map_ext. intros a. rewrite nmean_some by auto. reflexivity.
Qed.
Print Assumptions C77_rocking.

(** ** What the numbers mean *)
(** Turning the sample by [a] degrees moves the transfer of length [q] on a circle. How far apart are two such places? *)
Definition apart (q phi a b : R) : R :=
  sqrt (Rsqr (q * cos (deg2rad a + phi) - q * cos (deg2rad b + phi)) + Rsqr (q * sin (deg2rad a + phi) - q * sin (deg2rad b + phi))).
Lemma sin_cubic : forall x, 0 <= x -> x - x * x * x / 6 <= sin x <= x.
Proof.
  intros x X. split.
  - destruct (Rle_lt_dec x PI) as [L|L].
    + destruct (pre_sin_bound x 0 X) as [B _]; [pose proof PI2_3_2; pose proof PI_4; lra|]. unfold sin_approx, sin_term in B. cbn in B. lra.
    + pose proof PI2_3_2 as P. pose proof (SIN_bound x) as [S _]. assert (3 < x) by (unfold PI2 in *; lra). assert (9 < x * x) by nra. assert (27 < x * x * x) by nra. nra.
  - destruct (Req_dec x 0) as [->|N]; [rewrite sin_0; lra|]. apply Rlt_le, sin_lt_x. lra.
Qed.
Lemma chord : forall q phi a b, 0 <= q -> apart q phi a b = 2 * q * Rabs (sin (deg2rad (a - b) / 2)).
Proof.
  intros q phi a b Q. unfold apart. replace (2 * q * Rabs (sin (deg2rad (a - b) / 2))) with (sqrt (Rsqr (2 * q * sin (deg2rad (a - b) / 2)))).
  2:{ rewrite sqrt_Rsqr_abs, !Rabs_mult. rewrite (Rabs_pos_eq 2), (Rabs_pos_eq q) by lra. ring. }
  f_equal. set (u := deg2rad a + phi). set (v := deg2rad b + phi). replace (deg2rad (a - b)) with (u - v) by (unfold u, v, deg2rad; field). set (h := (u - v) / 2).
  assert (C : cos (u - v) = 1 - 2 * sin h * sin h) by (replace (u - v) with (2 * h) by (unfold h; field); apply cos_2a_sin).
  rewrite cos_minus in C. pose proof (sin2_cos2 u) as SU. pose proof (sin2_cos2 v) as SV. unfold Rsqr in *. clearbody h u v. 
  replace ((q * cos u - q * cos v) * (q * cos u - q * cos v) + (q * sin u - q * sin v) * (q * sin u - q * sin v)) with (q * q * ((sin u * sin u + cos u * cos u) + (sin v * sin v + cos v * cos v) - 2 * (cos u * cos v + sin u * sin v))) by ring.
  rewrite SU, SV, C. ring.
Qed.
(** The number shown is the distance between the places, but for the difference of arc and chord, with the sign of the angle. *)
Theorem C77_distance : forall s ax y ys qs m angle angles q phi, plottable s ax y ys -> momenta s qs -> (forall a, In a qs -> a = q) -> 0 <= q -> middle (List.length qs) m ->
  names_angle ax angle -> has s angle angles -> List.length angles = List.length qs ->
  exists xs, against s ax y xs ys /\ List.length xs = List.length angles /\ forall i, (i < List.length angles)%nat ->
    let x := nth i xs 0 in let a := nth i angles 0 in let b := nth m angles 0 in let d := apart q phi a b in let t := Rabs (deg2rad (a - b)) in
    d <= Rabs x <= d + q * (t * t * t) / 24 /\ (b < a -> 0 <= x) /\ (a < b -> x <= 0) /\ (0 < q -> a <> b -> x <> 0).
Proof.
  intros s ax y ys qs m angle angles q phi PL MO EQ Q MI NA HA LE.
  assert (NE : qs <> []) by (intros ->; destruct MI; cbn in *; lia).
  assert (AV : average qs = q).
  { unfold average. assert (SU : fold_right Rplus 0 qs = INR (List.length qs) * q). { clear - EQ. induction qs as [|a qs IH]; [cbn; lra|]. cbn [fold_right List.length]. rewrite S_INR, IH by (intros; apply EQ; right; auto). rewrite (EQ a) by (left; auto). ring. }
    rewrite SU. field. apply not_0_INR. destruct qs; [contradiction|discriminate]. }
  exists (map (fun a => deg2rad (a - nth m angles 0) * average qs) angles). split; [|split; [apply map_length|]].
  { eapply C77_rocking; eauto. split; auto. intros a b A B. rewrite (EQ a A), (EQ b B). lra. }
  intros i I. cbv zeta. assert (NX : forall f : R -> R, nth i (map f angles) 0 = f (nth i angles 0)) by (intros f; rewrite (nth_indep (map f angles) 0 (f 0)) by (rewrite map_length; auto); apply map_nth). rewrite NX, AV.
  set (a := nth i angles 0). set (b := nth m angles 0). rewrite chord by auto. set (r := deg2rad (a - b)). assert (PP : 0 < PI / 180) by (pose proof PI_RGT_0; lra). assert (RR : r = (a - b) * (PI / 180)) by (unfold r, deg2rad; field).
  split.
  - rewrite Rabs_mult, (Rabs_pos_eq q) by auto. assert (SA : Rabs (sin (r / 2)) <= Rabs r / 2 /\ Rabs r / 2 - Rabs r * Rabs r * Rabs r / 48 <= Rabs (sin (r / 2))).
    { destruct (Rle_lt_dec 0 r) as [P|P].
      - rewrite (Rabs_pos_eq r) by auto. destruct (sin_cubic (r / 2)) as [L U]; [lra|]. split; [apply Rabs_le; split; [|lra]|].
        + destruct (sin_cubic (r / 2)) as [_ _]; [lra|]. destruct (Rle_lt_dec (r / 2) PI). { pose proof (sin_ge_0 (r / 2)). lra. } pose proof (SIN_bound (r / 2)). pose proof PI2_3_2. unfold PI2 in *. lra.
        + eapply Rle_trans; [|apply Rle_abs]. lra.
      - rewrite (Rabs_left r) by auto. replace (sin (r / 2)) with (- sin (- r / 2)) by (replace (- r / 2) with (- (r / 2)) by field; rewrite sin_neg; ring). rewrite Rabs_Ropp. destruct (sin_cubic (- r / 2)) as [L U]; [lra|]. split; [apply Rabs_le; split; [|lra]|].
        + destruct (Rle_lt_dec (- r / 2) PI). { pose proof (sin_ge_0 (- r / 2)). lra. } pose proof (SIN_bound (- r / 2)). pose proof PI2_3_2. unfold PI2 in *. lra.
        + eapply Rle_trans; [|apply Rle_abs]. lra. }
    destruct SA as [S1 S2]. set (t := Rabs r) in *. set (c := Rabs (sin (r / 2))) in *. clearbody t c. split; nra.
  - assert (P1 : b < a -> 0 < r) by (intros; rewrite RR; apply Rmult_lt_0_compat; lra). assert (P2 : a < b -> r < 0) by (intros; rewrite RR; nra). clearbody r. split; [intros; specialize (P1 H); nra|]. split; [intros; specialize (P2 H); nra|].
    intros Q1 AB Z. destruct (Rtotal_order a b) as [L|[L|L]]; [specialize (P2 L); nra|auto|specialize (P1 L); nra].
Qed.
Print Assumptions C77_distance.

(** ** Where it goes wrong *)
(** Without an angle in brackets a scan at one Q cannot be shown: s1 is not taken by default. *)
Theorem C77_default_angle_refuted : forall s ax y ys qs, plottable s ax y ys -> momenta s qs -> still qs -> every (fun c => c <> "("%char) ax ->
  scan_get_data s (Some ax, Some y) None None None = Err AttributeError.
Proof.
  intros s ax y ys qs (OC & PL & CY & ch & v & P) MO (NE & ST) NO. unfold scan_get_data, get_data, scan_info. rewrite P. cbn [bind fst snd]. apply contains_spec in OC. rewrite OC. unfold get_del_q. rewrite (qs_of _ _ MO). cbn [bind].
  destruct (spread qs NE) as (hi & lo & -> & -> & IH & IL & _). cbn [bind nsub nbin ngt]. specialize (ST hi lo IH IL). destruct (Rlt_dec _ _) as [L|_]; [exfalso; lra|]. rewrite axis_groups_none by auto. auto.
Qed.
Print Assumptions C77_default_angle_refuted.
(** Without q, without initial energies, or without final energies and transfers, or without scattering angles, nothing is shown. *)
Theorem C77_no_momenta : forall s ax y ys, plottable s ax y ys -> lacks s "q" -> lacks s "ei" -> scan_get_data s (Some ax, Some y) None None None = Err TypeError.
Proof.
  intros s ax y ys (OC & PL & CY & ch & v & P) LQ LE. unfold scan_get_data, get_data, scan_info. rewrite P. cbn [bind fst snd]. apply contains_spec in OC. rewrite OC. unfold get_del_q, scan_qs. rewrite !get_column, LQ, LE. cbn [some bind].
  destruct (column s "ef"); [reflexivity|]. destruct (column s "en"); reflexivity.
Qed.
Print Assumptions C77_no_momenta.

Definition ex_rocking (qs : list R) : scan := Scan "s1" "detector" (Normal "monitor" 1)
  [("s1", map Some [-5; 0; 5]); ("detector", map Some [1; 9; 2]); ("q", map Some qs)]%string.
Lemma ex_plottable : forall qs, plottable (ex_rocking qs) "del_q(s1)" "detector" (map Some [1; 9; 2]).
Proof. intros qs. split; [exists ""%string, "(s1)"%string; reflexivity|]. split; [reflexivity|]. split; [reflexivity|]. exists "monitor"%string, 1. reflexivity. Qed.
(** A length that is measured with an error of 2e-4 hides the angle: the sample is turned through 10 degrees, and the first and the last point are shown at the same place. *)
Theorem C77_noise_refuted : exists s xs, plottable s "del_q(s1)" "detector" (map Some [1; 9; 2]) /\ has s "s1" [-5; 0; 5] /\ has s "q" [1; 1.0002; 1] /\
  against s "del_q(s1)" "detector" xs (map Some [1; 9; 2]) /\ nth 0 xs 0 = nth 2 xs 0 /\ apart 1 0 (-5) 5 > 0.1.
Proof.
  exists (ex_rocking [1; 1.0002; 1]). eexists. split; [apply ex_plottable|]. split; [reflexivity|]. split; [reflexivity|]. split.
  { apply (C77_radial _ _ _ _ [1; 1.0002; 1] 1 (ex_plottable _)); [apply recorded; reflexivity| |left; reflexivity]. exists 1.0002, 1. split; [cbn; auto|]. split; [cbn; auto|lra]. }
  split; [reflexivity|]. rewrite chord by lra. replace (deg2rad (-5 - 5) / 2) with (- (5 * PI / 180)) by (unfold deg2rad; field). rewrite sin_neg, Rabs_Ropp. pose proof PI2_3_2 as P. pose proof PI_4. unfold PI2 in P.
  destruct (sin_cubic (5 * PI / 180)) as [L _]; [lra|]. set (t := 5 * PI / 180) in *. assert (0.083 < t < 0.12) by (unfold t; lra). pose proof (Rle_abs (sin t)). assert (t * t * t < 0.002) by nra. nra.
Qed.
Print Assumptions C77_noise_refuted.

(** ** Examples *)
Example C77_rocking_example : plottable (ex_rocking [2; 2; 2]) "del_q(s1)" "detector" (map Some [1; 9; 2]) /\ momenta (ex_rocking [2; 2; 2]) [2; 2; 2] /\ still [2; 2; 2] /\ middle 3 1 /\ names_angle "del_q(s1)" "s1" /\
  against (ex_rocking [2; 2; 2]) "del_q(s1)" "detector" [- (PI / 18); 0; PI / 18] (map Some [1; 9; 2]).
Proof.
  assert (NA : names_angle "del_q(s1)" "s1").
  { exists "del_q"%string, "s1"%string. split; [reflexivity|]. split; [discriminate|]. split; [discriminate|]. split; [repeat (apply every_cons; split; [split; discriminate|]); apply every_nil|]. apply trimmed_iff. reflexivity. }
  assert (ST : still [2; 2; 2]). { split; [discriminate|]. cbn. intros a b [<-|[<-|[<-|[]]]] [<-|[<-|[<-|[]]]]; lra. }
  assert (MO : momenta (ex_rocking [2; 2; 2]) [2; 2; 2]) by (apply recorded; reflexivity).
  split; [apply ex_plottable|]. split; [auto|]. split; [auto|]. split; [left; reflexivity|]. split; [auto|].
  pose proof (C77_rocking _ _ _ _ _ 1 "s1" [-5; 0; 5] (ex_plottable [2; 2; 2]) MO ST (or_introl eq_refl) NA eq_refl eq_refl) as A. replace (average [2; 2; 2]) with 2 in A by (unfold average; cbn; lra). cbn [map nth] in A.
  replace (- (PI / 18)) with (deg2rad (-5 - 0) * 2) by (unfold deg2rad; field). replace (PI / 18) with (deg2rad (5 - 0) * 2) at 1 by (unfold deg2rad; field). replace (deg2rad (0 - 0) * 2) with 0 in A by (unfold deg2rad; field). exact A.
Qed.
(** A scan of the scattering angle without recorded q: two neutrons of equal energy, 60 and 180 degrees apart. *)
Definition ex_th2th : scan := Scan "s2" "detector" (Normal "monitor" 1)
  [("ei", map Some [ksq2eng; ksq2eng]); ("en", map Some [0; 0]); ("2theta", map Some [60; 180]); ("detector", map Some [1; 9])]%string.
Example C77_radial_example : plottable ex_th2th "del_q" "detector" (map Some [1; 9]) /\ momenta ex_th2th [1; 2] /\ changes [1; 2] /\ middle 2 0 /\ against ex_th2th "del_q" "detector" [0; 1] (map Some [1; 9]).
Proof.
  assert (PL : plottable ex_th2th "del_q" "detector" (map Some [1; 9])). { split; [exists ""%string, ""%string; reflexivity|]. split; [reflexivity|]. split; [reflexivity|]. exists "monitor"%string, 1. reflexivity. }
  assert (MO : momenta ex_th2th [1; 2]).
  { apply computed with (eis := [ksq2eng; ksq2eng]) (efs := [ksq2eng - 0; ksq2eng - 0]) (angles := [60; 180]); try reflexivity.
    - right. split; [reflexivity|]. exists [0; 0]. split; [reflexivity|]. split; reflexivity.
    - right. split; reflexivity.
    - assert (KM : moving ksq2eng) by (unfold moving, ksq2eng, tri_zero; lra). intros [|[|i]] I; cbn in I; [| |lia]; cbn [nth]; rewrite Rminus_0_r; (split; [auto|]); (split; [auto|]); (split; [lra|]); exists 1, 1.
      + split; [lra|]. split; [lra|]. split; [lra|]. split; [lra|]. replace (deg2rad 60) with (PI / 3) by (unfold deg2rad; field). rewrite cos_PI3, sin_PI3. pose proof (sqrt_sqrt 3). unfold Rsqr. nra.
      + split; [lra|]. split; [lra|]. split; [lra|]. split; [lra|]. replace (deg2rad 180) with PI by (unfold deg2rad; field). rewrite cos_PI, sin_PI. unfold Rsqr. lra. }
  assert (CH : changes [1; 2]) by (exists 2, 1; split; [cbn; auto|]; split; [cbn; auto|lra]).
  split; [auto|]. split; [auto|]. split; [auto|]. split; [right; reflexivity|]. pose proof (C77_radial _ _ _ _ _ 0 PL MO CH (or_intror eq_refl)) as A. cbn [map nth] in A. replace (1 - 1) with 0 in A by ring. replace (2 - 1) with 1 in A by ring. exact A.
Qed.

(** ** The data of a group of scans *)
(** C57: ScanGroup.get_data gives what every scan of the group gives for the same request, in the order of the group; if a scan raises, so
    does it, with the exception of the first one that does. *)
Theorem C57_each : forall scans axes norm_to grid tol,
  (forall ds, group_get_data scans axes norm_to grid tol = Ok ds <-> Forall2 (fun s d => scan_get_data s axes norm_to grid tol = Ok d) scans ds) /\
  (forall x, group_get_data scans axes norm_to grid tol = Err x <->
    exists before s after, scans = before ++ s :: after /\ scan_get_data s axes norm_to grid tol = Err x /\ forall s', In s' before -> exists d, scan_get_data s' axes norm_to grid tol = Ok d).
Proof.
  intros scans axes norm_to grid tol. unfold group_get_data. induction scans as [|s scans [IHo IHe]]; cbn [mapM].
  - split. { intros ds. split; [intros [= <-]; constructor|]. inversion 1; auto. } intros x. split; [discriminate|]. intros (l & s & r & E & _). destruct l; discriminate.
  - destruct (scan_get_data s axes norm_to grid tol) as [d|y] eqn:G; cbn [bind].
    + split.
      * intros ds. split.
        { intros H. destruct (mapM (fun s => scan_get_data s axes norm_to grid tol) scans) as [l|]; [|discriminate]. cbn [bind] in H. apply Ok_inj in H. subst ds. constructor; auto. apply IHo. auto. }
        { intros F. inversion F as [|? d' ? ds' E F']; subst. rewrite G in E. injection E as <-. apply IHo in F'. rewrite F'. auto. }
      * intros x. split.
        { intros H. destruct (mapM (fun s => scan_get_data s axes norm_to grid tol) scans) as [l|z] eqn:M; [discriminate|]. cbn [bind] in H. destruct (proj1 (IHe x)) as (b & s' & r & -> & E & A); [congruence|].
          exists (s :: b), s', r. split; auto. split; auto. intros s0 [<-|I]; eauto. }
        { intros (b & s' & r & E & X & A). destruct b as [|s0 b]; injection E as <- ->; [congruence|]. assert (M : mapM (fun s => scan_get_data s axes norm_to grid tol) (b ++ s' :: r) = Err x). { apply IHe. exists b, s', r. split; auto. split; auto. intros; apply A; right; auto. } rewrite M. auto. }
    + split.
      * intros ds. split; [discriminate|]. intros F. inversion F as [|? d' ? ds' E F']; subst. congruence.
      * intros x. split. { intros [= <-]. exists [], s, scans. split; auto. split; auto. intros ? []. }
        intros (b & s' & r & E & X & A). destruct b as [|s0 b]; injection E as <- ->; [congruence|]. destruct (A s (or_introl eq_refl)) as (d & E). congruence.
Qed.
Print Assumptions C57_each.
Example C57_each_example : exists d, group_get_data [ex_th2th; ex_th2th] (Some "del_q"%string, Some "detector"%string) None None None = Ok [d; d] /\ dx d = map Some [0; 1].
Proof.
  destruct C77_radial_example as (_ & _ & _ & _ & d & G & X & _). exists d. split; auto. apply C57_each. repeat constructor; auto.
Qed.
