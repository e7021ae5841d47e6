(** C80: plots of a scan, with one curve for each channel of a count file. *)
From Coq Require Import Reals List ZArith Bool String Ascii Lra Lia Decimal DecimalString DecimalPos.
From Verif Require Import Base PyStr L_Str M_Project M_ScanData M_Scan S_ScanData L_ScanData L_ScanData2 P_ScanData P_ScanData2 P_Scan M_ScanPlot.
Import ListNotations.
Open Scope R_scope.
Open Scope string_scope.
Open Scope list_scope.

(** * Numbers in names *)
Lemma digits_step : forall acc c k t, digit c = Some k -> digits acc (String c t) = digits (10 * acc + k)%Z t.
Proof. intros acc c k t E. cbn [digits]. rewrite E. reflexivity. Qed.
Lemma digits_acc : forall d acc, digits (Z.pos acc) (NilEmpty.string_of_uint d) = Ok (Z.pos (Pos.of_uint_acc d acc)).
Proof.
  induction d; intros acc; auto; cbn [NilEmpty.string_of_uint Pos.of_uint_acc]; rewrite <- IHd;
  (erewrite digits_step; [|reflexivity]); f_equal;
  match goal with |- context [(Z.of_nat ?n - 48)%Z] => let v := eval vm_compute in (Z.of_nat n - 48)%Z in change (Z.of_nat n - 48)%Z with v end; lia.
Qed.
Lemma digits_uint : forall d, digits 0 (NilEmpty.string_of_uint d) = Ok (Z.of_N (Pos.of_uint d)).
Proof. induction d; auto; cbn [NilEmpty.string_of_uint digits]; cbn -[Pos.of_uint_acc Pos.mul digits]; auto; apply digits_acc. Qed.
Lemma py_int_str : forall z, (0 < z)%Z -> py_int (str_of z) = Ok z.
Proof.
  intros [|p|p] H; try lia. unfold str_of. cbn [Z.to_int NilZero.string_of_int]. assert (E := digits_uint (Pos.to_uint p)). rewrite Unsigned.of_to in E. cbn in E.
  unfold NilZero.string_of_uint. destruct (Pos.to_uint p) eqn:Q; try exact E.
Qed.
Lemma str_no_bar : forall z, (0 < z)%Z -> split_on "_"%char (str_of z) = [str_of z].
Proof.
  assert (E : forall d, split_on "_"%char (NilEmpty.string_of_uint d) = [NilEmpty.string_of_uint d]). { induction d; auto; cbn [NilEmpty.string_of_uint split_on]; rewrite IHd; reflexivity. }
  intros [|p|p] H; try lia. unfold str_of. cbn [Z.to_int NilZero.string_of_int]. unfold NilZero.string_of_uint. destruct (Pos.to_uint p) eqn:Q; try apply E. reflexivity.
Qed.
Lemma detector_pieces : forall z, (0 < z)%Z -> split_on "_"%char ("detector_" ++ str_of z)%string = ["detector"; str_of z].
Proof. intros z H. cbn [append split_on]. cbn. rewrite (str_no_bar z H). reflexivity. Qed.

(** * The curves *)
(** The name of the column of a channel, counting from zero *)
Definition detector (k : nat) : string := ("detector_" ++ str_of (Z.of_nat k + 1))%string.
(** What the label of the vertical axis has to say *)
Definition counts_per (show : R -> string) (y : string) (v : R) (unit : string) (text : string) : Prop :=
  (v = 1 -> text = (y ++ "/ " ++ unit)%string) /\ (v <> 1 -> text = (y ++ " / " ++ show v ++ " " ++ unit)%string).
Definition unit_of (channel unit : string) : Prop := (channel = "time" -> unit = "seconds") /\ (channel <> "time" -> unit = channel).

Lemma y_label_ok : forall show y v ch unit, unit_of ch unit -> counts_per show y v unit (y_label show y v ch).
Proof.
  intros show y v ch unit (U1 & U2). unfold y_label, counts_per. assert (E : (if String.eqb ch "time" then "seconds" else ch) = unit).
  { destruct (String.eqb_spec ch "time"); symmetry; auto. }
  rewrite E. destruct (Req_EM_T v 1); split; intros; auto; contradiction.
Qed.

Lemma detector_label : forall (ls : list string) k l, nth_error ls k = Some l -> py_int (last (split_on "_"%char (detector k)) "") = Ok (Z.of_nat k + 1)%Z /\ py_index ls (Z.of_nat k + 1 - 1) = Ok l.
Proof.
  intros ls k l H. unfold detector. rewrite detector_pieces by lia. cbn [last]. split; [apply py_int_str; lia|].
  unfold py_index. replace (Z.of_nat k + 1 - 1)%Z with (Z.of_nat k) by lia. destruct (Z.ltb_spec (Z.of_nat k) 0); [lia|].
  rewrite Nat2Z.id, H. destruct (Z.ltb_spec (Z.of_nat k) 0); [lia|auto].
Qed.
Lemma label_detector : forall ls k l, nth_error ls k = Some l -> label (Countfile ls) (detector k) = Ok tt.
Proof.
  intros ls k l H. destruct (detector_label ls k l H) as (A & B). unfold label. rewrite A. cbn [bind]. rewrite B. unfold detector. rewrite detector_pieces by lia. reflexivity.
Qed.

Section Channels.
  Context (dq : string -> result (list num)) (s : scan) (xs ys l : string) (ls : list string) (cx cy : list num).
  Hypothesis (P : s_preset s = Countfile ls) (X : s_def_x s = xs) (CX : column s xs = Ok cx) (CY : column s ys = Ok cy)
    (NQ : contains "del_q" xs = false) (PL : label (Countfile ls) ys = Ok tt).
  Lemma gd_rows : forall v ch grid tol, get_data dq s (None, Some ys) (Some (v, ch)) grid tol =
    let d := new_data1d cx cy None in
    let '(t, params) := select grid tol in
    if negb (match params with Some q => truthy q | None => false end) then
      do c <- column s ch; renorm d (Some (map (fun w => ndiv w (Some v)) c)) 1
    else
      do q <- format_rebin_params (match params with Some q => q | None => POther false end);
      match t with
      | TTol => do c <- column s ch; do ps <- to_params cx q; rebin_tol_renorm d ps (Some c) v
      | TGrid => do c <- column s ch; do ps <- to_params cx q; rebin_grid_renorm d ps (Some c) v
      end.
  Proof using P X CX CY NQ PL.
    intros v ch grid tol. unfold get_data, scan_info. rewrite P. cbn [bind fst snd]. rewrite X, NQ, CX, CY. cbn [bind].
    rewrite PL. cbn [bind]. 
    assert (BI : forall A (r : result A), (do d' <- r; do _ <- make_labels (Some (v, ch)) (Countfile ls); Ok d') = r).
    { intros A [a|e]; auto. }
    destruct (select grid tol) as (t, params). destruct (negb _).
    - rewrite BI. auto.
    - destruct (format_rebin_params _); cbn [bind]; auto.
  Qed.
End Channels.

(** [curve] shows the counts [cy] over [cx], each multiplied by [v] over the count [c] of the normalising channel *)
Definition normalised (cx cy c : list num) (v : R) (curve : data1d) : Prop :=
  dx curve = cx /\ List.length (dy curve) = List.length cy /\
  forall i y w, nth_error cy i = Some (Some y) -> nth_error c i = Some (Some w) -> w <> 0 ->
    nth_error (dy curve) i = Some (Some (y * (v / w))) /\ (0 <= y -> nth_error (derr curve) i = Some (Some (sqrt y * (v / w)))).

Lemma renorm_ok : forall cx cy c v, v <> 0 -> List.length c = List.length cy ->
  exists d, renorm (new_data1d cx cy None) (Some (map (fun w => ndiv w (Some v)) c)) 1 = Ok d /\ normalised cx cy c v d.
Proof.
  intros cx cy c v V L.
  assert (Z : forall f : num -> num -> num, forall l : list num, List.length l = List.length c -> bcast f l (map (fun w => ndiv w (Some v)) c) = Ok (zipw f l (map (fun w => ndiv w (Some v)) c))).
  { intros f l E. unfold bcast. rewrite map_length. unfold num in *. rewrite E, Nat.eqb_refl. auto. }
  unfold renorm. cbn [pick_norm bind new_data1d dy derr dx dnorm]. rewrite !Z by (rewrite ?map_length; unfold num in *; congruence). cbn [bind].
  eexists. split; [reflexivity|]. split; [auto|split; cbn [dx dy derr]].
  { rewrite map_length, zipw_length; auto. rewrite map_length. unfold num in *. congruence. }
  intros i y w Y W NZ.
  assert (WV : nth_error (map (fun w => ndiv w (Some v)) c) i = Some (Some (w / v))).
  { rewrite nth_error_map, W. cbn. destruct (Req_EM_T v 0); [lra|auto]. }
  assert (NZ2 : w / v <> 0). { intros E. apply NZ. replace w with (w / v * v) by (field; auto). rewrite E. ring. }
  split.
  - rewrite nth_error_map, (zipw_nth _ _ _ _ _ _ _ _ _ Y WV). cbn. destruct (Req_EM_T (w / v) 0); [contradiction|]. cbn. do 2 f_equal. field. auto.
  - intros YP. assert (E : nth_error (map nsqrt cy) i = Some (Some (sqrt y))).
    { rewrite nth_error_map, Y. cbn. destruct (Rlt_dec y 0); [lra|auto]. }
    rewrite nth_error_map, (zipw_nth _ _ _ _ _ _ _ _ _ E WV). cbn. destruct (Req_EM_T (w / v) 0); [contradiction|]. cbn. do 2 f_equal. field. auto.
Qed.

(** What the curve of row [k] of the count file says, apart from its numbers *)
Definition says (show : R -> string) (s : pscan) (x y : string) (v : R) (ch extra : string) (q : labelled) : Prop :=
  lb_xlabel q = x /\ lb_title q = ps_title s /\ lb_label q = ("#" ++ str_of (ps_num s) ++ " " ++ extra)%string /\
  forall unit, unit_of ch unit -> counts_per show y v unit (lb_ylabel q).

Lemma channel_curve : forall show dq s rs k ch v l grid tol d, ps_counting s = Rows rs -> nth_error rs k = Some (ch, v, l) ->
  get_data (dq s) (plain_scan s) (None, Some (detector k)) (Some (v, ch)) grid tol = Ok d ->
  exists q, get_labelled show dq s (None, Some (detector k)) (Some (v, ch)) grid tol = Ok q /\ lb_data q = d /\ says show s (ps_x s) (detector k) v ch l q.
Proof.
  intros show dq s rs k ch v l grid tol d C N G. unfold get_labelled. rewrite G. cbn [bind fst snd]. eexists. split; [reflexivity|]. split; [reflexivity|].
  split; [reflexivity|split; [reflexivity|split]].
  - cbn [lb_label]. unfold curve_label. rewrite C. destruct (detector_label (map snd rs) k l) as (A & B). { rewrite nth_error_map, N. reflexivity. }
    rewrite A, B. reflexivity.
  - cbn [lb_ylabel]. intros unit U. apply y_label_ok. auto.
Qed.

Lemma curves_nth : forall show dq s grid tol rs i curves, channel_curves show dq s (Z.of_nat i) rs grid tol = Ok curves ->
  List.length curves = List.length rs /\
  forall k ch v l, nth_error rs k = Some (ch, v, l) -> exists q, nth_error curves k = Some q /\
    get_labelled show dq s (None, Some (detector (i + k))) (Some (v, ch)) grid tol = Ok q.
Proof.
  intros show dq s grid tol. induction rs as [|[[ch v] l] rs IH]; intros i curves H; cbn [channel_curves] in H.
  - injection H as <-. split; [reflexivity|]. intros [|k]; discriminate.
  - destruct (get_labelled _ _ _ _ _ _ _) as [q|e] eqn:G; [|discriminate]. cbn [bind] in H.
    replace (Z.of_nat i + 1)%Z with (Z.of_nat (S i)) in H by lia. destruct (channel_curves show dq s (Z.of_nat (S i)) rs grid tol) as [qs|e] eqn:R; [|discriminate].
    cbn [bind] in H. injection H as <-. destruct (IH (S i) qs R) as (L & N). split; [cbn; congruence|].
    intros [|k] ch' v' l' K; cbn [nth_error] in *.
    + injection K as -> -> ->. exists q. split; auto. rewrite Nat.add_0_r. unfold detector. exact G.
    + destruct (N k ch' v' l' K) as (q' & A & B). exists q'. split; auto. replace (i + S k)%nat with (S i + k)%nat by lia. exact B.
Qed.
Lemma curves_ok : forall show dq s grid tol rs i, (forall k ch v l, nth_error rs k = Some (ch, v, l) -> exists q, get_labelled show dq s (None, Some (detector (i + k))) (Some (v, ch)) grid tol = Ok q) ->
  exists curves, channel_curves show dq s (Z.of_nat i) rs grid tol = Ok curves.
Proof.
  intros show dq s grid tol. induction rs as [|[[ch v] l] rs IH]; intros i H; cbn [channel_curves]; eauto.
  destruct (H 0%nat ch v l eq_refl) as (q & E). rewrite Nat.add_0_r in E. unfold detector in E. rewrite E. cbn [bind].
  replace (Z.of_nat i + 1)%Z with (Z.of_nat (S i)) by lia. destruct (IH (S i)) as (qs & Q).
  { intros k ch' v' l' K. destruct (H (S k) ch' v' l' K) as (q' & A). exists q'. replace (S i + k)%nat with (i + S k)%nat by lia. exact A. }
  rewrite Q. cbn [bind]. eauto.
Qed.

(** A scan counted with a count file: a curve for every row, in order, each with its own normalisation and label *)
Theorem C80_channels : forall show dq s rs cx x norm_to,
  ps_counting s = Rows rs -> dget String.eqb (ps_x s) (ps_data s) = Some cx -> contains "del_q" (ps_x s) = false ->
  (forall k ch v l, nth_error rs k = Some (ch, v, l) -> v <> 0 /\ exists cy c, dget String.eqb (detector k) (ps_data s) = Some cy /\ dget String.eqb ch (ps_data s) = Some c /\ List.length c = List.length cy) ->
  exists curves, scan_plot show dq s (x, None) norm_to None None = Ok curves /\ List.length curves = List.length rs /\
  forall k ch v l cy c, nth_error rs k = Some (ch, v, l) -> dget String.eqb (detector k) (ps_data s) = Some cy -> dget String.eqb ch (ps_data s) = Some c ->
    exists q, nth_error curves k = Some q /\ says show s (ps_x s) (detector k) v ch l q /\ normalised cx cy c v (lb_data q).
Proof.
  intros show dq s rs cx x norm_to C CX NQ H.
  assert (K : forall k ch v l cy c, nth_error rs k = Some (ch, v, l) -> dget String.eqb (detector k) (ps_data s) = Some cy -> dget String.eqb ch (ps_data s) = Some c ->
    exists q, get_labelled show dq s (None, Some (detector k)) (Some (v, ch)) None None = Ok q /\ says show s (ps_x s) (detector k) v ch l q /\ normalised cx cy c v (lb_data q)).
  { intros k ch v l cy c N CY CC. destruct (H k ch v l N) as (V & cy' & c' & CY' & CC' & L). assert (cy' = cy) by congruence. assert (c' = c) by congruence. subst cy' c'.
    destruct (renorm_ok cx cy c v V L) as (d & R & O). destruct (channel_curve show dq s rs k ch v l None None d C N) as (q & A & B & S).
    - rewrite (gd_rows (dq s) (plain_scan s) (ps_x s) (detector k) (map snd rs) cx cy); auto.
      + cbn [select negb]. unfold column. cbn [plain_scan s_data]. rewrite CC. exact R.
      + cbn [plain_scan s_preset]. rewrite C. reflexivity.
      + unfold column. cbn [plain_scan s_data]. rewrite CX. reflexivity.
      + unfold column. cbn [plain_scan s_data]. rewrite CY. reflexivity.
      + apply label_detector with l. rewrite nth_error_map, N. reflexivity.
    - exists q. split; auto. split; auto. rewrite B. exact O. }
  destruct (curves_ok show dq s None None rs 0) as (curves & E).
  { intros k ch v l N. destruct (H k ch v l N) as (V & cy & c & CY & CC & L). destruct (K k ch v l cy c N CY CC) as (q & A & _). exists q. exact A. }
  exists curves. split; [unfold scan_plot; cbn [snd]; rewrite C; exact E|]. destruct (curves_nth show dq s None None rs 0 curves E) as (L & N). split; auto.
  intros k ch v l cy c I CY CC. destruct (N k ch v l I) as (q & A & B). cbn [Nat.add] in B. destruct (K k ch v l cy c I CY CC) as (q' & A' & S & O).
  assert (q' = q) by congruence. subst q'. exists q. auto.
Qed.
Print Assumptions C80_channels.

(** With a grid or a tolerance, each of these curves is the rebinning of its own column with its own normalisation *)
Theorem C80_rebinned : forall show dq s rs cx lo hi step (grid tol : option pparam) x norm_to curves,
  ps_counting s = Rows rs -> dget String.eqb (ps_x s) (ps_data s) = Some cx -> contains "del_q" (ps_x s) = false -> lo < hi -> 0 < step ->
  scan_plot show dq s (x, None) norm_to grid tol = Ok curves ->
  let p := PTup [Some (Some lo); Some (Some hi); Some (Some step)] in
  List.length curves = List.length rs /\
  forall k ch v l cy c, nth_error rs k = Some (ch, v, l) -> dget String.eqb (detector k) (ps_data s) = Some cy -> dget String.eqb ch (ps_data s) = Some c ->
    exists q, nth_error curves k = Some q /\ says show s (ps_x s) (detector k) v ch l q /\
    (grid = Some p -> rebin (GridRenorm v) (new_data1d cx cy None) (Some lo, Some hi, step) (Some c) = Ok (lb_data q)) /\
    (grid = None -> tol = Some p -> rebin (TolRenorm v) (new_data1d cx cy None) (Some lo, Some hi, step) (Some c) = Ok (lb_data q)).
Proof.
  intros show dq s rs cx lo hi step grid tol x norm_to curves C CX NQ LH ST E p.
  assert (F : format_rebin_params p = Ok (Some (Some lo), Some (Some hi), Some (Some step))).
  { apply C28_accepts. split; [left; auto|]. split; [intros u v [= ->] [= ->]; auto|intros v [= <-]; lra]. }
  unfold scan_plot in E. cbn [snd] in E. rewrite C in E. destruct (curves_nth show dq s grid tol rs 0 curves E) as (L & N). split; auto.
  intros k ch v l cy c I CY CC. destruct (N k ch v l I) as (q & A & B). cbn [Nat.add] in B. exists q. split; auto.
  destruct (get_data (dq s) (plain_scan s) (None, Some (detector k)) (Some (v, ch)) grid tol) as [d|e] eqn:G.
  2: { unfold get_labelled in B. rewrite G in B. discriminate. }
  destruct (channel_curve show dq s rs k ch v l grid tol d C I G) as (q' & A' & D & S). assert (q' = q) by congruence. subst q'. split; auto.
  rewrite (gd_rows (dq s) (plain_scan s) (ps_x s) (detector k) (map snd rs) cx cy) in G; auto.
  - unfold column in G. cbn [plain_scan s_data] in G. rewrite CC in G. rewrite D. split.
    + intros ->. cbn [select truthy negb p] in G. fold p in G. rewrite F in G. exact G.
    + intros -> ->. cbn [select truthy negb p] in G. fold p in G. rewrite F in G. exact G.
  - cbn [plain_scan s_preset]. rewrite C. reflexivity.
  - unfold column. cbn [plain_scan s_data]. rewrite CX. reflexivity.
  - unfold column. cbn [plain_scan s_data]. rewrite CY. reflexivity.
  - apply label_detector with l. rewrite nth_error_map, I. reflexivity.
Qed.
Print Assumptions C80_rebinned.

(** Asking for one channel with its own normalisation gives the same curve as the plot of all channels *)
Theorem C80_chosen : forall show dq s rs x norm_to grid tol curves k ch v l q,
  ps_counting s = Rows rs -> scan_plot show dq s (x, None) norm_to grid tol = Ok curves -> nth_error rs k = Some (ch, v, l) -> nth_error curves k = Some q ->
  scan_plot show dq s (None, Some (detector k)) (Some (v, ch)) grid tol = Ok [q].
Proof.
  intros show dq s rs x norm_to grid tol curves k ch v l q C E I Q. unfold scan_plot in *. cbn [snd] in *. rewrite C in E.
  destruct (curves_nth show dq s grid tol rs 0 curves E) as (_ & N). destruct (N k ch v l I) as (q' & A & B). cbn [Nat.add] in B. rewrite B. cbn [bind]. congruence.
Qed.
Print Assumptions C80_chosen.

(** If the column of any channel, or of its normalisation, is missing, there is no plot *)
Theorem C80_missing : forall show dq s rs x norm_to grid tol k ch v l,
  ps_counting s = Rows rs -> nth_error rs k = Some (ch, v, l) ->
  dget String.eqb (detector k) (ps_data s) = None \/ dget String.eqb ch (ps_data s) = None ->
  exists e, scan_plot show dq s (x, None) norm_to grid tol = Err e.
Proof.
  intros show dq s rs x norm_to grid tol k ch v l C I M. unfold scan_plot. cbn [snd]. rewrite C.
  destruct (channel_curves show dq s 0 rs grid tol) as [curves|e] eqn:E; [|eauto]. exfalso.
  destruct (curves_nth show dq s grid tol rs 0 curves E) as (_ & N). destruct (N k ch v l I) as (q & _ & B). cbn [Nat.add] in B.
  unfold get_labelled, get_data, scan_info, plain_scan in B. cbn [s_preset] in B. rewrite C in B. cbn [short bind fst snd] in B.
  cbn [s_def_x] in B. destruct (if contains "del_q" (ps_x s) then _ else _); [|discriminate]. cbn [bind] in B. unfold column in B. cbn [s_data] in B. destruct M as [M|M].
  - rewrite M in B. discriminate.
  - destruct (dget String.eqb (detector k) (ps_data s)); [|discriminate]. cbn [bind] in B. destruct (label _ _); [|discriminate]. cbn [bind] in B.
    destruct (select grid tol) as (t, params). rewrite M in B. destruct (negb _); [discriminate|]. destruct (format_rebin_params _); [|discriminate]. cbn [bind] in B. destruct t; discriminate.
Qed.
Print Assumptions C80_missing.

(** An ordinary scan: one curve, which is named after the columns and the normalisation used *)
Theorem C80_one : forall show dq s ax ay xs ys ch0 v0 cx cy norm_to,
  ps_counting s = OnePreset ch0 v0 -> (ax = Some xs \/ ax = None /\ ps_x s = xs) -> (ay = Some ys \/ ay = None /\ ps_y s = ys) ->
  dget String.eqb xs (ps_data s) = Some cx -> dget String.eqb ys (ps_data s) = Some cy -> contains "del_q" xs = false -> plain ys ->
  (norm_to = None -> exists q, scan_plot show dq s (ax, ay) norm_to None None = Ok [q] /\ says show s xs ys v0 ch0 "" q /\
     dx (lb_data q) = cx /\ dy (lb_data q) = cy /\ derr (lb_data q) = map nsqrt cy) /\
  (forall v ch c, norm_to = Some (v, ch) -> v <> 0 -> dget String.eqb ch (ps_data s) = Some c -> List.length c = List.length cy ->
     exists q, scan_plot show dq s (ax, ay) norm_to None None = Ok [q] /\ says show s xs ys v ch "" q /\ normalised cx cy c v (lb_data q)).
Proof.
  intros show dq s ax ay xs ys ch0 v0 cx cy norm_to C AX AY CX CY NQ PL.
  assert (G : forall n, get_data (dq s) (plain_scan s) (ax, ay) n None None = get_data (dq s) (plain_scan s) (Some xs, Some ys) n None None).
  { intros n. apply head_eq. cbn [plain_scan s_def_x s_def_y]. destruct AX as [-> | (-> & X)], AY as [-> | (-> & Y)]; auto. }
  assert (XS : match ax with Some a => a | None => ps_x s end = xs). { destruct AX as [-> | (-> & X)]; auto. }
  assert (YS : match ay with Some a => a | None => ps_y s end = ys). { destruct AY as [-> | (-> & X)]; auto. }
  assert (SP : scan_plot show dq s (ax, ay) norm_to None None = do c <- get_labelled show dq s (ax, ay) norm_to None None; Ok [c]).
  { unfold scan_plot. cbn [snd]. rewrite C. destruct ay; reflexivity. }
  assert (CL : curve_label s ys = ("#" ++ str_of (ps_num s) ++ " " ++ "")%string). { unfold curve_label. rewrite C. reflexivity. }
  assert (PS : s_preset (plain_scan s) = Normal ch0 v0). { cbn [plain_scan s_preset]. rewrite C. reflexivity. }
  assert (CX' : column (plain_scan s) xs = Ok cx). { unfold column. cbn [plain_scan s_data]. rewrite CX. reflexivity. }
  assert (CY' : column (plain_scan s) ys = Ok cy). { unfold column. cbn [plain_scan s_data]. rewrite CY. reflexivity. }
  split.
  - intros ->. rewrite SP. unfold get_labelled. rewrite G. rewrite (gd_eq (dq s) (plain_scan s) xs ys ch0 v0 cx cy) by auto. cbn [select negb bind fst snd].
    rewrite C. cbn [bind]. rewrite XS, YS. eexists. split; [reflexivity|]. cbn. split; [|auto]. split; [reflexivity|split; [reflexivity|split]].
    + cbn [lb_label]. exact CL.
    + intros unit U. cbn [lb_ylabel]. apply y_label_ok. auto.
  - intros v ch c -> V CC L. rewrite SP. unfold get_labelled. rewrite G. rewrite (gd_eq (dq s) (plain_scan s) xs ys ch0 v0 cx cy) by auto. cbn [select negb fst snd].
    assert (CC' : column (plain_scan s) ch = Ok c). { unfold column. cbn [plain_scan s_data]. rewrite CC. reflexivity. }
    rewrite CC'. cbn [bind]. destruct (renorm_ok cx cy c v V L) as (d & R & O). rewrite R. cbn [bind]. rewrite XS, YS. eexists. split; [reflexivity|]. split; [|exact O].
    split; [reflexivity|split; [reflexivity|split]].
    + cbn [lb_label]. exact CL.
    + intros unit U. cbn [lb_ylabel]. apply y_label_ok. auto.
Qed.
Print Assumptions C80_one.

(** For a count file, an axis or a normalisation that is asked for without naming a channel is silently ignored *)
Theorem C80_ignored_refuted : forall show dq s rs x norm_to grid tol, ps_counting s = Rows rs ->
  scan_plot show dq s (x, None) norm_to grid tol = scan_plot show dq s (None, None) None grid tol /\
  (forall curves q, scan_plot show dq s (x, None) norm_to grid tol = Ok curves -> In q curves -> lb_xlabel q = ps_x s).
Proof.
  intros show dq s rs x norm_to grid tol C. unfold scan_plot. cbn [snd]. rewrite C. split; [reflexivity|]. intros curves q E I.
  destruct (curves_nth show dq s grid tol rs 0 curves E) as (L & N). apply In_nth_error in I as (k & K).
  destruct (nth_error rs k) as [[[ch v] l]|] eqn:R. 2: { apply nth_error_None in R. assert (k < List.length curves)%nat by (apply nth_error_Some; congruence). lia. }
  destruct (N k ch v l R) as (q' & A & B). cbn [Nat.add] in B. assert (q' = q) by congruence. subst q'. unfold get_labelled in B.
  destruct (get_data _ _ _ _ _ _); [|discriminate]. cbn [bind fst snd] in B. injection B as <-. reflexivity.
Qed.
Print Assumptions C80_ignored_refuted.

(** A channel of a count file that is named without a normalisation cannot be plotted at all: its preset is a list, which no label can be made of *)
Theorem C80_unnormalised_refuted : forall show dq s rs k ch v l cx cy, ps_counting s = Rows rs -> nth_error rs k = Some (ch, v, l) ->
  contains "del_q" (ps_x s) = false -> dget String.eqb (ps_x s) (ps_data s) = Some cx -> dget String.eqb (detector k) (ps_data s) = Some cy ->
  scan_plot show dq s (None, Some (detector k)) None None None = Err TypeError.
Proof.
  intros show dq s rs k ch v l cx cy C N DQ CX CY. unfold scan_plot, get_labelled, get_data. cbn [snd fst].
  assert (SI : scan_info (plain_scan s) = Ok (Countfile (map snd rs))). { unfold scan_info, plain_scan. cbn [s_preset]. rewrite C. reflexivity. }
  rewrite SI. cbn [bind plain_scan s_def_x s_data]. rewrite DQ. unfold column. cbn [plain_scan s_data]. rewrite CX, CY. cbn [bind].
  rewrite (label_detector (map snd rs) k l) by (rewrite nth_error_map, N; reflexivity). reflexivity.
Qed.
Print Assumptions C80_unnormalised_refuted.

(** A polarised scan with two channels, of which the second is counted for 30 seconds *)
Definition polarised : pscan := PScan "e" "detector" (Rows [("mcu", 2, "px on"); ("time", 30, "px off")])
  [("e", [Some 1; Some 2]); ("detector_1", [Some 4; Some 9]); ("detector_2", [Some 1; Some 0]); ("mcu", [Some 4; Some 2]); ("time", [Some 60; Some 30]); ("ei", [Some 5; Some 6])] 7 "spins".
Example C80_example : forall show dq, exists a b, scan_plot show dq polarised (Some "ei", None) (Some (5, "time")) None None = Ok [a; b] /\
  lb_label a = "#7 px on" /\ lb_label b = "#7 px off" /\ lb_ylabel b = ("detector_2 / " ++ show 30 ++ " seconds")%string /\ lb_xlabel a = "e" /\
  nth_error (dy (lb_data a)) 1 = Some (Some (9 * (2 / 2))) /\ nth_error (dy (lb_data b)) 0 = Some (Some (1 * (30 / 60))).
Proof.
  intros show dq. destruct (C80_channels show dq polarised [("mcu", 2, "px on"); ("time", 30, "px off")] [Some 1; Some 2] (Some "ei") (Some (5, "time"))) as (curves & E & L & N); try reflexivity.
  { intros [|[|[|k]]] ch v l K; cbn in K; try discriminate; injection K as <- <- <-; (split; [lra|]); do 2 eexists; repeat split. }
  destruct curves as [|a [|b [|]]]; try discriminate. exists a, b. split; [exact E|].
  destruct (N 0%nat "mcu" 2 "px on" [Some 4; Some 9] [Some 4; Some 2]) as (a' & A & (X & _ & LA & _) & (_ & _ & VA)); try reflexivity.
  destruct (N 1%nat "time" 30 "px off" [Some 1; Some 0] [Some 60; Some 30]) as (b' & B & (_ & _ & LB & YB) & (_ & _ & VB)); try reflexivity.
  cbn in A, B. injection A as <-. injection B as <-. split; [exact LA|split; [exact LB|split]].
  { destruct (YB "seconds") as (_ & Y). { split; intros; congruence. } apply Y. lra. }
  split; [exact X|]. split; [apply (VA 1%nat 9 2); auto; lra|apply (VB 0%nat 1 60); auto; lra].
Qed.
Example C80_unnormalised_example : forall show dq, scan_plot show dq polarised (None, Some "detector_2") None None None = Err TypeError.
Proof. intros show dq. apply (C80_unnormalised_refuted show dq polarised [("mcu", 2, "px on"); ("time", 30, "px off")] 1 "time" 30 "px off" [Some 1; Some 2] [Some 1; Some 0]); reflexivity. Qed.
