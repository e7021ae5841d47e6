(** Properties C40-C42, C63, C64: reading the text files written by SPICE. *)
From Coq Require Import Reals List ZArith String Ascii Bool Lia Lra.
From Verif Require Import Base PyStr M_ScanData M_Project M_Spice S_Str L_Str.
Import ListNotations.
Open Scope string_scope.
Open Scope list_scope.

(** * Specification *)
(** The text of a comment line: without the leading marks and without white space at the ends. *)
Definition header_text (line t : string) : Prop :=
  exists h s, line = (h ++ s)%string /\ every (fun c => c = "#"%char) h /\ (forall r, s <> String "#" r) /\ trimmed s t.
(** The line SPICE writes at the end of a scan. *)
Definition closing (t : string) : Prop := occurs "completed" t \/ occurs "stopped" t.
(** [t] reads [k = v]: the key is all before the first "=", the value all after it, white space next to an "=" dropped. *)
Definition field (t k v : string) : Prop :=
  exists a b l l', t = (a ++ "=" ++ b)%string /\ every (fun c => c <> "="%char) a /\ trimmed a k /\
    pieces "=" b l /\ Forall2 trimmed l l' /\ v = String.concat "=" l'.
(** The values given to a key by the header lines, in the order of the file. *)
Inductive collected (k : string) : list string -> list string -> Prop :=
| co_nil : collected k [] []
| co_take : forall line t v ls vs, header_text line t -> ~ closing t -> field t k v ->
    collected k ls vs -> collected k (line :: ls) (v :: vs)
| co_skip : forall line t ls vs, header_text line t -> (closing t \/ forall v, ~ field t k v) ->
    collected k ls vs -> collected k (line :: ls) vs.
(** The lines that are neither closing lines nor fields. *)
Inductive leftover : list string -> list string -> Prop :=
| lo_nil : leftover [] []
| lo_take : forall line t ls us, header_text line t -> ~ closing t -> ~ occurs "=" t -> leftover ls us -> leftover (line :: ls) (t :: us)
| lo_skip : forall line t ls us, header_text line t -> (closing t \/ occurs "=" t) -> leftover ls us -> leftover (line :: ls) us.
(** Keys the reader itself adds. *)
Definition own_keys (md : metadata) : list string :=
  "end_time" :: (if match mget "preset_type" md with Some (MStr s) => String.eqb s "countfile" | _ => false end
                 then ["norm_vals"; "norm_channels"; "labels"] else []).

(** * Auxiliary *)
Lemma dget_dset : forall A k k' (v : A) d, dget String.eqb k (dset String.eqb k' v d) = if String.eqb k k' then Some v else dget String.eqb k d.
Proof.
  induction d as [|[k0 v0] d IH]; cbn [dset dget].
  - destruct (String.eqb k k'); reflexivity.
  - destruct (String.eqb k' k0) eqn:E1; cbn [dget].
    + apply String.eqb_eq in E1; subst. destruct (String.eqb k k0); reflexivity.
    + rewrite IH. destruct (String.eqb k k0) eqn:E2; auto. destruct (String.eqb k k') eqn:E3; auto.
      apply String.eqb_eq in E2, E3; subst. rewrite String.eqb_refl in E1. discriminate.
Qed.
Lemma header_text_iff : forall line t, header_text line t <-> t = strip_ws (PyStr.lstrip hash line).
Proof.
  intros. split.
  - intros (h & s & -> & Hh & Hs & Ht). rewrite lstrip_unique; auto. now apply trimmed_iff.
  - intros ->. destruct (lstrip_split hash line) as (a & E & Ha). exists a, (PyStr.lstrip hash line).
    repeat split; auto; [apply lstrip_not | apply trimmed_strip].
Qed.
Lemma closing_iff : forall t, closing t <-> contains "completed" t || contains "stopped" t = true.
Proof. intros. unfold closing. rewrite orb_true_iff, !contains_spec. tauto. Qed.
Lemma closing_not : forall t, ~ closing t <-> contains "completed" t || contains "stopped" t = false.
Proof. intros. rewrite closing_iff. destruct (_ || _); split; intros; congruence. Qed.
Lemma Forall2_trimmed : forall l l', Forall2 trimmed l l' <-> l' = map strip_ws l.
Proof.
  split.
  - induction 1; cbn; auto. apply trimmed_iff in H. congruence.
  - intros ->. induction l; cbn; constructor; auto using trimmed_strip.
Qed.
Lemma field_iff : forall t k v, field t k v <->
  exists a l, split_on "=" t = a :: l /\ l <> [] /\ k = strip_ws a /\ v = join "=" (map strip_ws l).
Proof.
  intros; split.
  - intros (a & b & l & l' & -> & Ha & Hk & Hp & Hf & ->). apply trimmed_iff in Hk. apply Forall2_trimmed in Hf. subst.
    exists a, l. assert (l <> []) by apply Hp. apply pieces_iff in Hp. subst l.
    repeat split; auto. change (a ++ "=" ++ b)%string with (a ++ String "=" b)%string. now rewrite split_on_app.
  - intros (a & l & E & Hn & -> & ->). destruct (split_on_pieces "=" t) as (_ & Et & Hf). rewrite E in *.
    inversion Hf; subst. destruct l as [|q l]; [congruence|].
    exists a, (String.concat "=" (q :: l)), (q :: l), (map strip_ws (q :: l)).
    repeat split; auto using trimmed_strip; try discriminate. now apply Forall2_trimmed.
Qed.
Lemma split_two : forall c t, contains (String c "") t = true <-> exists a q l, split_on c t = a :: q :: l.
Proof.
  intros. split.
  - intro H. destruct (split_on c t) as [|a [|q l]] eqn:E; [now destruct (split_on_ne c t)| |eauto].
    exfalso. pose proof (split_on_concat c t) as Hc. pose proof (split_on_clean c t) as Hf. rewrite E in *. cbn in Hc. subst.
    inversion Hf; subst. apply contains1 in H2. congruence.
  - intros (a & q & l & E). destruct (contains (String c "") t) eqn:H; auto. apply contains1 in H. rewrite split_on_one in E; auto. discriminate.
Qed.
Lemma field_occurs : forall t, occurs "=" t <-> exists k v, field t k v.
Proof.
  intro t. rewrite <- contains_spec, split_two. split.
  - intros (a & q & l & E). exists (strip_ws a), (join "=" (map strip_ws (q :: l))). apply field_iff. exists a, (q :: l). repeat split; auto. discriminate.
  - intros (k & v & H). apply field_iff in H as (a & l & E & Hn & _). destruct l; [congruence|]. eauto.
Qed.
Lemma field_fun : forall t k v k' v', field t k v -> field t k' v' -> k = k' /\ v = v'.
Proof.
  intros t k v k' v' H H'. apply field_iff in H as (a & l & E & _ & -> & ->). apply field_iff in H' as (a' & l' & E' & _ & -> & ->).
  rewrite E in E'. injection E'; intros; subst; auto.
Qed.

Lemma concat_join : forall s o v vs, String.concat s (o :: v :: vs) = String.concat s ((o ++ s ++ v)%string :: vs).
Proof. intros. destruct vs; cbn; [reflexivity|]. now rewrite !sapp_assoc. Qed.

Definition all_str (md : metadata) : Prop := forall k v, mget k md = Some v -> exists s, v = MStr s.
Definition more (o : option mval) (vs : list string) : option mval :=
  match o with
  | Some (MStr s) => Some (MStr (join ", " (s :: vs)))
  | _ => match vs with [] => None | _ => Some (MStr (join ", " vs)) end
  end.

Lemma meta_step_cases : forall md un line t, header_text line t ->
  (closing t /\ snd (meta_step (md, un) line) = un /\ (forall k, k <> "end_time" -> mget k (fst (meta_step (md, un) line)) = mget k md) /\
     (all_str md -> all_str (fst (meta_step (md, un) line))))
  \/ (~ closing t /\ exists k v, field t k v /\ meta_step (md, un) line =
        (match mget k md with Some (MStr old) => mset k (MStr (old ++ ", " ++ v)%string) md | _ => mset k (MStr v) md end, un))
  \/ (~ closing t /\ ~ occurs "=" t /\ meta_step (md, un) line = (md, un ++ [t])).
Proof.
  intros md un line t Ht. apply header_text_iff in Ht. unfold meta_step. rewrite <- Ht. clear Ht line.
  destruct (contains "completed" t || contains "stopped" t) eqn:Ec.
  - left. apply closing_iff in Ec. split; auto.
    assert (forall s md, (forall k, k <> "end_time" -> mget k (mset "end_time" (MStr s) md) = mget k md) /\
              (all_str md -> all_str (mset "end_time" (MStr s) md))) as Hset.
    { intros s m; unfold mget, mset; split.
      - intros k Hk. rewrite dget_dset. destruct (String.eqb_spec k "end_time"); congruence.
      - intros H k v E. unfold mget, mset in E. rewrite dget_dset in E. destruct (String.eqb k "end_time"); [injection E; intros; subst; eauto | eapply H; eauto]. }
    destruct (words t) as [|w1 [|w2 [|w3 ws]]]; cbn [fst snd]; auto; split; auto; apply Hset.
  - right. apply closing_not in Ec. destruct (contains "=" t) eqn:Ee.
    + left. split; auto. apply split_two in Ee as (a & q & l & E). change equals with "="%char. rewrite E.
      exists (strip_ws a), (join "=" (map strip_ws (q :: l))). split.
      * apply field_iff. exists a, (q :: l). repeat split; auto. discriminate.
      * cbn [map]. destruct (mget (strip_ws a) md) as [[]|]; reflexivity.
    + right. apply contains_false in Ee. auto.
Qed.

Lemma header_text_ex : forall line, exists t, header_text line t.
Proof. intro. eexists. apply header_text_iff. reflexivity. Qed.
Lemma all_str_mset : forall md k s, all_str md -> all_str (mset k (MStr s) md).
Proof. intros md k s H k' v E. unfold mget, mset in E. rewrite dget_dset in E. destruct (String.eqb k' k); [injection E; intros; subst; eauto | eapply H; eauto]. Qed.

Lemma meta_fold : forall lines md un, all_str md ->
  let r := fold_left meta_step lines (md, un) in
  all_str (fst r)
  /\ (forall k, k <> "end_time" -> exists vs, collected k lines vs /\ mget k (fst r) = more (mget k md) vs)
  /\ (exists us, leftover lines us /\ snd r = un ++ us).
Proof.
  induction lines as [|line lines IH]; intros md un Hs; cbn [fold_left].
  - cbn. split; auto. split.
    + intros k Hk. exists []. split; [constructor|]. cbn [fst]. unfold more. destruct (mget k md) as [v|] eqn:E; auto. destruct (Hs _ _ E) as [s ->]. cbn; now rewrite ?E.
    + exists []. split; [constructor | now rewrite app_nil_r].
  - destruct (header_text_ex line) as [t Ht]. destruct (meta_step_cases md un line t Ht) as [(Hc & H1 & H2 & H3) | [(Hc & k & v & Hf & Eq) | (Hc & Ho & Eq)]].
    + destruct (meta_step (md, un) line) as [md' un'] eqn:E; cbn [fst snd] in *. subst un'.
      destruct (IH md' un (H3 Hs)) as (I1 & I2 & us & I3 & I4). split; auto. split.
      * intros k Hk. destruct (I2 k Hk) as (vs & Hv & E2). exists vs. split; [eapply co_skip; eauto|]. rewrite E2, H2; auto.
      * exists us. split; auto. eapply lo_skip; eauto.
    + rewrite Eq. assert (Hs' : all_str (match mget k md with Some (MStr old) => mset k (MStr (old ++ ", " ++ v)%string) md | _ => mset k (MStr v) md end)).
      { destruct (mget k md) as [[]|]; apply all_str_mset; auto. }
      destruct (IH _ un Hs') as (I1 & I2 & us & I3 & I4). split; auto. split.
      * intros k' Hk. destruct (I2 k' Hk) as (vs & Hv & E2). destruct (String.eqb_spec k' k).
        -- subst k'. exists (v :: vs). split; [eapply co_take; eauto|]. etransitivity; [exact E2|].
           destruct (mget k md) as [v0|] eqn:Ek.
           ++ destruct (Hs _ _ Ek) as [s ->]. unfold mget, mset. rewrite dget_dset, String.eqb_refl. cbn [more]. now rewrite (concat_join ", ").
           ++ unfold mget, mset. rewrite dget_dset, String.eqb_refl. reflexivity.
        -- exists vs. split.
           ++ eapply co_skip; eauto. right. intros v' Hf'. destruct (field_fun _ _ _ _ _ Hf Hf'); congruence.
           ++ etransitivity; [exact E2|]. f_equal. destruct (mget k md) as [[]|]; unfold mget, mset; rewrite dget_dset; destruct (String.eqb_spec k' k); congruence.
      * exists us. split; auto. eapply lo_skip; eauto. right. apply field_occurs; eauto.
    + rewrite Eq. destruct (IH md (un ++ [t]) Hs) as (I1 & I2 & us & I3 & I4). split; auto. split.
      * intros k Hk. destruct (I2 k Hk) as (vs & Hv & E2). exists vs. split; auto. eapply co_skip; eauto. right. intros v Hf. apply Ho, field_occurs; eauto.
      * exists (t :: us). split; [eapply lo_take; eauto|]. rewrite I4, <- app_assoc. reflexivity.
Qed.

Corollary meta_fold_eq : forall lines md un, fold_left meta_step lines ([], []) = (md, un) ->
  all_str md
  /\ (forall k, k <> "end_time" -> exists vs, collected k lines vs /\ mget k md = match vs with [] => None | _ => Some (MStr (join ", " vs)) end)
  /\ leftover lines un.
Proof.
  intros lines md un E. assert (H0 : all_str []) by (intros k v E0; discriminate).
  pose proof (meta_fold lines [] [] H0) as H. cbv zeta in H. change (@nil (string * mval)) with (@nil (string * mval) : metadata) in *.
  destruct H as (I1 & I2 & us & I3 & I4).
  assert (E1 : fst (fold_left meta_step lines ([], [])) = md) by now rewrite E.
  assert (E2 : snd (fold_left meta_step lines ([], [])) = un) by now rewrite E.
  split; [rewrite <- E1; exact I1|]. split; [rewrite <- E1; exact I2|]. rewrite <- E2. replace (snd _) with us by (symmetry; exact I4). auto.
Qed.

(** * C40 *)
(** Each key has exactly the values its lines give it, joined in the order of the file, and no other key appears; the
    lines that are neither are returned, in order. *)
Theorem C40_keys_preserved : forall float_of lines md un, metadata_to_dict float_of lines = Ok (md, un) ->
  (forall k, ~ In k (own_keys md) -> exists vs, collected k lines vs /\
     mget k md = match vs with [] => None | _ => Some (MStr (String.concat ", " vs)) end)
  /\ exists us, leftover lines us /\ un = match us with [] => None | _ => Some us end.
Proof.
  intros float_of lines md un H. unfold metadata_to_dict in H.
  destruct (fold_left meta_step lines ([], [])) as [md0 us] eqn:Ef. destruct (meta_fold_eq _ _ _ Ef) as (I1 & I2 & I3).
  assert (Hk : forall k, k <> "end_time" -> exists vs, collected k lines vs /\
     mget k md0 = match vs with [] => None | _ => Some (MStr (String.concat ", " vs)) end) by apply I2.
  assert (Hcase : (md = md0 /\ un = match us with [] => None | _ => Some us end) \/
    (exists a b c, md = mset "labels" c (mset "norm_channels" b (mset "norm_vals" a md0)) /\ un = match us with [] => None | _ => Some us end /\
       mget "preset_type" md0 = Some (MStr "countfile"))).
  { cbv zeta in H. destruct (match mget "preset_type" md0 with Some (MStr p) => String.eqb p "countfile" | _ => false end) eqn:Ep.
    - right. destruct (mget "countfile" md0) as [[c| |]|] eqn:Ec; try discriminate.
      destruct (parse_countfile float_of c) as [[[vals chans] labs]|]; cbn in H; [|discriminate].
      apply Ok_inj in H. injection H; intros; subst. do 3 eexists; split; [reflexivity|]. split; [reflexivity|].
      destruct (mget "preset_type" md0) as [[p| |]|]; try discriminate. apply String.eqb_eq in Ep. congruence.
    - left. apply Ok_inj in H. injection H; intros; subst; auto. }
  clear H. split.
  - intros k Hn. destruct Hcase as [(-> & _)|(a & b & c & -> & _ & Hp)].
    + apply Hk. intros ->. apply Hn. left; auto.
    + assert (Ek : ~ In k ["end_time"; "norm_vals"; "norm_channels"; "labels"]).
      { intro Hin. apply Hn. unfold own_keys. unfold mget, mset in *. rewrite !dget_dset. cbn [String.eqb Ascii.eqb Bool.eqb]. rewrite Hp. exact Hin. }
      cbn in Ek. unfold mget, mset. rewrite !dget_dset.
      destruct (String.eqb_spec k "labels"); [subst; tauto|]. destruct (String.eqb_spec k "norm_channels"); [subst; tauto|].
      destruct (String.eqb_spec k "norm_vals"); [subst; tauto|]. apply Hk. intros ->. tauto.
  - exists us. split; auto. destruct Hcase as [(_ & E)|(a & b & c & _ & E & _)]; auto.
Qed.
Print Assumptions C40_keys_preserved.

(** What a key collects is determined by the lines. *)
Lemma C40_collected_once : forall k lines vs vs', collected k lines vs -> collected k lines vs' -> vs = vs'.
Proof.
  intros k lines vs vs' H. revert vs'. induction H; intros vs' H'; inversion H'; subst; auto;
    repeat match goal with H : header_text _ _ |- _ => apply header_text_iff in H end; subst.
  - match goal with H1 : field _ _ _, H2 : field _ _ _ |- _ => destruct (field_fun _ _ _ _ _ H1 H2) end. f_equal; auto.
  - exfalso. match goal with H : closing _ \/ _ |- _ => destruct H as [H|H]; [auto | eapply H; eauto] end.
  - exfalso. match goal with H : closing _ \/ _ |- _ => destruct H as [H|H]; [auto | eapply H; eauto] end.
Qed.

Definition ends_scan (line : string) : Prop := exists t a b c ws, header_text line t /\ closing t /\ words_of t (a :: b :: c :: ws).
Definition sets_end_time (line : string) : Prop := exists t v, header_text line t /\ ~ closing t /\ field t "end_time" v.

Lemma end_time_kept : forall lines md un, (forall l, In l lines -> ~ ends_scan l /\ ~ sets_end_time l) ->
  mget "end_time" (fst (fold_left meta_step lines (md, un))) = mget "end_time" md.
Proof.
  induction lines as [|line lines IH]; intros md un H; cbn [fold_left]; auto.
  destruct (H line (or_introl eq_refl)) as [H1 H2].
  assert (E : mget "end_time" (fst (meta_step (md, un) line)) = mget "end_time" md).
  { destruct (header_text_ex line) as [t Ht]. pose proof Ht as Ht'. apply header_text_iff in Ht'. unfold meta_step. rewrite <- Ht'.
    destruct (contains "completed" t || contains "stopped" t) eqn:Ec.
    - apply closing_iff in Ec. destruct (words t) as [|w1 [|w2 [|w3 ws]]] eqn:Ew; auto.
      destruct H1. exists t, w1, w2, w3, ws. repeat split; auto. apply words_of_iff. auto.
    - apply closing_not in Ec. destruct (contains "=" t) eqn:Ee; auto. apply split_two in Ee as (a & q & l & E).
      change equals with "="%char. rewrite E. cbn [map]. assert (strip_ws a <> "end_time").
      { intro Ea. apply H2. exists t, (join "=" (map strip_ws (q :: l))). repeat split; auto. apply field_iff. exists a, (q :: l). repeat split; auto. discriminate. }
      destruct (mget (strip_ws a) md) as [[]|]; unfold mget, mset; cbn [fst]; rewrite dget_dset;
        destruct (String.eqb_spec "end_time" (strip_ws a)); congruence. }
  destruct (meta_step (md, un) line) as [md' un'] eqn:Es. cbn [fst] in E. rewrite IH by (intros; apply H; right; auto). auto.
Qed.

(** The end of the scan is the one of the last closing line, rearranged as date, time, meridiem. *)
Theorem C40_end_time : forall float_of l1 line l2 t time meridiem date ws md un,
  header_text line t -> closing t -> words_of t (time :: meridiem :: date :: ws) ->
  (forall l, In l l2 -> ~ ends_scan l /\ ~ sets_end_time l) ->
  metadata_to_dict float_of (l1 ++ line :: l2) = Ok (md, un) ->
  mget "end_time" md = Some (MStr (date ++ " " ++ time ++ " " ++ meridiem)%string).
Proof.
  intros float_of l1 line l2 t time meridiem date ws md un Ht Hc Hw Hl H. unfold metadata_to_dict in H.
  destruct (fold_left meta_step (l1 ++ line :: l2) ([], [])) as [md0 un0] eqn:Ef.
  assert (E0 : mget "end_time" md0 = Some (MStr (date ++ " " ++ time ++ " " ++ meridiem)%string)).
  { rewrite fold_left_app in Ef. cbn [fold_left] in Ef. destruct (fold_left meta_step l1 ([], [])) as [md1 un1].
    assert (Es : meta_step (md1, un1) line = (mset "end_time" (MStr (date ++ " " ++ time ++ " " ++ meridiem)%string) md1, un1)).
    { apply header_text_iff in Ht. unfold meta_step. rewrite <- Ht. apply closing_iff in Hc. rewrite Hc. apply words_of_iff in Hw. now rewrite <- Hw. }
    rewrite Es in Ef. pose proof (end_time_kept l2 (mset "end_time" (MStr (date ++ " " ++ time ++ " " ++ meridiem)%string) md1) un1 Hl) as E.
    assert (E1 : fst (fold_left meta_step l2 (mset "end_time" (MStr (date ++ " " ++ time ++ " " ++ meridiem)%string) md1, un1)) = md0) by now rewrite Ef.
    rewrite <- E1. etransitivity; [exact E|]. unfold mget, mset. now rewrite dget_dset. }
  cbv zeta in H. destruct (match mget "preset_type" md0 with Some (MStr p) => String.eqb p "countfile" | _ => false end).
  - destruct (mget "countfile" md0) as [[c| |]|]; try discriminate.
    destruct (parse_countfile float_of c) as [[[vals chans] labs]|]; cbn in H; [|discriminate].
    apply Ok_inj in H. injection H; intros; subst. unfold mget, mset. rewrite !dget_dset. exact E0.
  - apply Ok_inj in H. injection H; intros; subst; auto.
Qed.
Print Assumptions C40_end_time.

(** A header is refused only when a count file is announced and missing or unreadable. *)
Theorem C40_accepted : forall float_of lines vs, collected "preset_type" lines vs -> String.concat ", " vs <> "countfile" ->
  exists md un, metadata_to_dict float_of lines = Ok (md, un).
Proof.
  intros float_of lines vs Hv Hne. unfold metadata_to_dict. destruct (fold_left meta_step lines ([], [])) as [md un] eqn:Ef.
  destruct (meta_fold_eq _ _ _ Ef) as (_ & I2 & _). destruct (I2 "preset_type") as (vs' & Hv' & E); [discriminate|].
  rewrite (C40_collected_once _ _ _ _ Hv' Hv) in E. rewrite E. unfold join. destruct vs; eauto.
  apply String.eqb_neq in Hne. rewrite Hne. eauto.
Qed.
Print Assumptions C40_accepted.

(** Findings. A title containing "stopped" or "completed" is taken for the closing line and lost ... *)
Theorem C40_title_lost_refuted : exists line k v, (exists t, header_text line t /\ field t k v) /\
  forall float_of, exists md, metadata_to_dict float_of [line] = Ok (md, None) /\ mget k md = None.
Proof.
  exists "# scan_title = stopped flow cell", "scan_title", "stopped flow cell". split.
  - exists "scan_title = stopped flow cell". split; [apply header_text_iff; reflexivity|].
    apply field_iff. exists "scan_title ", [" stopped flow cell"]. repeat split; auto. discriminate.
  - intro. eexists. split; reflexivity.
Qed.
Print Assumptions C40_title_lost_refuted.
(** ... and blanks next to an inner "=" are dropped from a value. *)
Theorem C40_inner_blanks_refuted : exists k v, occurs " = " v /\
  forall float_of, exists md w, metadata_to_dict float_of [("# " ++ k ++ " = " ++ v)%string] = Ok (md, None) /\ mget k md = Some (MStr w) /\ w <> v.
Proof.
  exists "scan_title", "T = 5 K". split; [exists "T", "5 K"; reflexivity|].
  intro. exists [("scan_title", MStr "T=5 K")], "T=5 K". repeat split; discriminate.
Qed.
Print Assumptions C40_inner_blanks_refuted.

Example C40_ex : exists md, metadata_to_dict (fun _ => None)
    ["# proposal = 1234"; "# builtin_command = scan h 0 1"; "# comment"; "# proposal = 5"; "# 3:27:30 PM  7/2/2024 scan completed."] = Ok (md, Some ["comment"])
  /\ mget "proposal" md = Some (MStr "1234, 5") /\ mget "end_time" md = Some (MStr "7/2/2024 3:27:30 PM").
Proof. eexists. repeat split. Qed.

(** * C41 *)
(** The comment lines of a file, trimmed. *)
Inductive comments : list string -> list string -> Prop :=
| cm_nil : comments [] []
| cm_take : forall l r ls hs, trimmed l (String "#" r) -> comments ls hs -> comments (l :: ls) (String "#" r :: hs)
| cm_skip : forall l t ls hs, trimmed l t -> (forall r, t <> String "#" r) -> comments ls hs -> comments (l :: ls) hs.

Lemma comments_iff : forall ls hs, comments ls hs <-> hs = headers ls.
Proof.
  unfold headers. split.
  - induction 1; cbn [map filter]; auto.
    + apply trimmed_iff in H. rewrite <- H. change (prefixb "#" (String "#" r)) with true. cbn iota. f_equal. exact IHcomments.
    + apply trimmed_iff in H. rewrite <- H. destruct t as [|c t]; cbn [prefixb]; auto.
      destruct (Ascii.eqb "#" c) eqn:E; auto. apply Ascii.eqb_eq in E; subst. now destruct (H0 t).
  - intros ->. induction ls; cbn [map filter]; [constructor|].
    destruct (strip_ws a) as [|c t] eqn:E; cbn [prefixb].
    + eapply cm_skip; eauto; [apply trimmed_iff; symmetry; exact E | intros r Er; discriminate].
    + destruct (Ascii.eqb "#" c) eqn:E1; cbn [andb].
      * apply Ascii.eqb_eq in E1; subst. constructor; auto. apply trimmed_iff; auto.
      * eapply cm_skip; eauto; [apply trimmed_iff; symmetry; exact E | intros r Er; injection Er; intros; subst; discriminate].
Qed.
Lemma cut_at_spec : forall x l a b, cut_at x l = Some (a, b) -> l = a ++ x :: b /\ ~ In x a.
Proof.
  induction l as [|y l IH]; cbn; intros a b H; [discriminate|]. destruct (String.eqb_spec x y).
  - injection H; intros; subst; auto.
  - destruct (cut_at x l) as [[a' b']|] eqn:E; [|discriminate]. injection H; intros; subst.
    destruct (IH _ _ eq_refl) as [-> Hn]. split; auto. cbn. intros [|]; auto.
Qed.
Lemma cut_at_none : forall x l, cut_at x l = None <-> ~ In x l.
Proof.
  induction l as [|y l IH]; cbn; [tauto|]. destruct (String.eqb_spec x y); [split; [discriminate | intros H; destruct H; auto]|].
  destruct (cut_at x l) as [[]|] eqn:E.
  - split; [discriminate|]. intro H. assert (Some (l0, l1) = None) by (apply IH; tauto). discriminate.
  - assert (~ In x l) by (apply IH; auto). split; auto. intros _ [|]; auto.
Qed.
Lemma cut_before_spec : forall p l a b, cut_before p l = Some (a, b) ->
  l = a ++ b /\ (forall e, In e a -> forall r, e <> (p ++ r)%string) /\ exists r b', b = (p ++ r)%string :: b'.
Proof.
  induction l as [|y l IH]; cbn; intros a b H; [discriminate|]. destruct (prefixb p y) eqn:Ep.
  - injection H; intros; subst. apply prefixb_spec in Ep as [r ->]. repeat split; eauto; intros e [].
  - destruct (cut_before p l) as [[a' b']|] eqn:E; [|discriminate]. injection H; intros; subst.
    destruct (IH _ _ eq_refl) as (-> & Hn & r & b'' & ->). repeat split; eauto. intros e [<-|He] r' ->; [|eapply Hn; eauto].
    assert (prefixb p (p ++ r')%string = true) by (apply prefixb_spec; eauto). congruence.
Qed.
Lemma cut_before_none : forall p l, cut_before p l = None -> forall e, In e l -> forall r, e <> (p ++ r)%string.
Proof.
  induction l as [|y l IH]; intros H e He r ->; [destruct He|]. cbn in H. destruct He as [->|He].
  - assert (prefixb p (p ++ r)%string = true) by (apply prefixb_spec; eauto). rewrite H0 in H. discriminate.
  - destruct (prefixb p y); [discriminate|]. destruct (cut_before p l) as [[]|]; [discriminate|]. eapply IH; eauto.
Qed.

(** The comment lines of a file that is read are, in order: header, the mark, the column names, messages, summary. *)
Definition layout (content meta : list string) (names : string) (errs summary : list string) : Prop :=
  comments content (meta ++ "# col_headers =" :: names :: errs ++ summary)
  /\ ~ In "# col_headers =" meta
  /\ (forall e, In e errs -> forall r, e <> ("# Sum of Counts =" ++ r)%string)
  /\ (summary = [] \/ exists r l, summary = ("# Sum of Counts =" ++ r)%string :: l).

Theorem C41_lines_classified : forall float_of genfromtxt content f, read_lines float_of genfromtxt content = Ok f ->
  exists meta names errs summary, layout content meta names errs summary
  /\ metadata_to_dict float_of (meta ++ summary) = Ok (sf_metadata f, sf_unrecognized f)
  /\ sf_errors f = (match summary with [] => None | _ => Some errs end).
Proof.
  intros float_of genfromtxt content f H. unfold read_lines in H.
  destruct (cut_at col_mark (headers content)) as [[meta [|names rest]]|] eqn:E; try discriminate.
  apply cut_at_spec in E as [E Hn].
  assert (exists errs summary, rest = errs ++ summary /\ (forall e, In e errs -> forall r, e <> (sum_mark ++ r)%string)
     /\ (summary = [] \/ exists r l, summary = (sum_mark ++ r)%string :: l) /\
     match cut_before sum_mark rest with Some (e, s) => (Some e, meta ++ s) | None => (None, meta) end =
     (match summary with [] => None | _ => Some errs end, meta ++ summary)) as (errs & summary & -> & H1 & H2 & H3).
  { destruct (cut_before sum_mark rest) as [[e s]|] eqn:Ec.
    - apply cut_before_spec in Ec as (-> & He & r & l & ->). exists e, ((sum_mark ++ r)%string :: l). repeat split; eauto.
    - exists rest, []. rewrite !app_nil_r. repeat split; auto. eapply cut_before_none; eauto. }
  rewrite H3 in H. exists meta, names, errs, summary. split; [repeat split; auto; apply comments_iff; symmetry; exact E|].
  destruct (metadata_to_dict float_of (meta ++ summary)) as [[md un]|]; cbn in H; [|discriminate].
  destruct (genfromtxt content) as [t|]; cbn in H; [|discriminate].
  destruct (match t with [] => true | [] :: _ => true | _ => false end).
  - apply Ok_inj in H; subst; auto.
  - destruct (transposed t); cbn in H; [|discriminate]. apply Ok_inj in H; subst; auto.
Qed.
Print Assumptions C41_lines_classified.

(** The layout of a file is unique, so the four parts are determined by the file. *)
Lemma C41_layout_unique : forall content m n e s m' n' e' s', layout content m n e s -> layout content m' n' e' s' ->
  m = m' /\ n = n' /\ e = e' /\ s = s'.
Proof.
  intros content m n e s m' n' e' s' (H1 & H2 & H3 & H4) (H1' & H2' & H3' & H4').
  apply comments_iff in H1, H1'. rewrite <- H1 in H1'. clear H1 content.
  assert (Hcut : forall (x : string) a b a' b', ~ In x a -> ~ In x a' -> a ++ x :: b = a' ++ x :: b' -> a = a' /\ b = b').
  { induction a; destruct a'; cbn; intros b'' Ha Ha' E; injection E; intros; subst; auto; try tauto.
    destruct (IHa b a' b''); auto. subst; auto. }
  destruct (Hcut _ _ _ _ _ H2' H2 H1') as [-> E]. injection E; intros Es ->. clear E H1' Hcut H2 H2'.
  split; auto. split; auto. revert e' H3' Es. induction e; destruct e'; cbn; intros H3' E; auto.
  - exfalso. destruct H4 as [H4|(r & l & H4)]; rewrite H4 in E; [discriminate|]. injection E; intros _ E'. eapply H3'; [left; reflexivity | exact E'].
  - exfalso. destruct H4' as [H4'|(r & l & H4')]; rewrite H4' in E; [discriminate|]. injection E; intros _ E'. eapply H3; [left; reflexivity | symmetry; exact E'].
  - injection E; intros; subst. destruct (IHe (fun x Hx => H3 x (or_intror Hx)) e') as [-> ->]; auto. intros x Hx. apply H3'. right; auto.
Qed.

(** A file without the mark, or with nothing after it, is refused. *)
Theorem C41_refused : forall float_of genfromtxt content hs, comments content hs ->
  (~ In "# col_headers =" hs -> read_lines float_of genfromtxt content = Err ValueError) /\
  (forall meta, hs = meta ++ ["# col_headers ="] -> ~ In "# col_headers =" meta -> read_lines float_of genfromtxt content = Err IndexError).
Proof.
  intros float_of genfromtxt content hs H. apply comments_iff in H. subst. unfold read_lines. split.
  - intro H. apply cut_at_none in H. unfold col_mark. now rewrite H.
  - intros meta E Hn. rewrite E. assert (Ec : cut_at col_mark (meta ++ ["# col_headers ="]) = Some (meta, [])); [|now rewrite Ec].
    clear E. induction meta; auto. cbn [List.app cut_at]. destruct (String.eqb_spec col_mark a); [subst; exfalso; apply Hn; left; auto|].
    rewrite IHmeta; auto. intro; apply Hn; right; auto.
Qed.
Print Assumptions C41_refused.

(** Each column name gets its column of the table. *)
Lemma data_dict_other : forall cols vals d k, ~ In k cols -> dget String.eqb k (data_dict cols vals d) = dget String.eqb k d.
Proof.
  induction cols; intros [|v vals] d k H; cbn in *; auto. rewrite IHcols by tauto. rewrite dget_dset.
  destruct (String.eqb_spec k a); auto. subst; tauto.
Qed.
Lemma data_dict_get : forall cols vals d i k v, NoDup cols -> nth_error cols i = Some k -> nth_error vals i = Some v ->
  dget String.eqb k (data_dict cols vals d) = Some v.
Proof.
  induction cols as [|c cols IH]; intros vals d i k v Hn Hk Hv; [destruct i; discriminate|].
  inversion Hn; subst. destruct vals as [|w vals]; [destruct i; discriminate|]. destruct i; cbn in *.
  - injection Hk; injection Hv; intros; subst. rewrite data_dict_other; auto. rewrite dget_dset, String.eqb_refl. auto.
  - eapply IH; eauto.
Qed.
Theorem C41_columns : forall float_of genfromtxt content f meta names errs summary ns t m,
  read_lines float_of genfromtxt content = Ok f -> layout content meta names errs summary ->
  (exists h s, names = (h ++ s)%string /\ every (fun c => c = "#"%char) h /\ (forall r, s <> String "#" r) /\ words_of s ns) ->
  NoDup ns -> genfromtxt content = Ok t -> t <> [] -> (2 <= m)%nat -> (forall row, In row t -> List.length row = m) ->
  exists d, sf_data f = Some d /\
    (forall i k, nth_error ns i = Some k -> (i < m)%nat -> dget String.eqb k d = Some (map (fun row => nth i row None) t)) /\
    (forall k, ~ In k ns -> dget String.eqb k d = None).
Proof.
  intros float_of genfromtxt content f meta names errs summary ns t m H Hl (h & s & Hs & Hh & Hr & Hw) Hnd Hg Hne Hm Hrow.
  assert (Hns : ns = words (PyStr.lstrip hash names)).
  { subst names. unfold hash. rewrite lstrip_unique by auto. now apply words_of_iff. }
  assert (Hcut : cut_at col_mark (headers content) = Some (meta, names :: errs ++ summary)).
  { destruct Hl as (Hc & Hn & _). apply comments_iff in Hc. rewrite <- Hc. clear - Hn. induction meta; auto.
    cbn [List.app cut_at]. destruct (String.eqb_spec col_mark a); [subst; exfalso; apply Hn; left; auto|].
    rewrite IHmeta; auto. intro; apply Hn; right; auto. }
  unfold read_lines in H. rewrite Hcut in H. rewrite <- Hns in H.
  destruct (match cut_before sum_mark (errs ++ summary) with Some (e, s0) => (Some e, meta ++ s0) | None => (None, meta) end) as [er me].
  destruct (metadata_to_dict float_of me) as [[md un]|]; cbn [bind] in H; [|discriminate]. rewrite Hg in H. cbn [bind] in H.
  destruct t as [|row t]; [congruence|]. pose proof (Hrow row (or_introl eq_refl)) as Hr0. destruct row as [|x row]; [cbn in Hr0; lia|].
  destruct (transposed ((x :: row) :: t)) as [vals|] eqn:Et; cbn [bind] in H; [|discriminate]. apply Ok_inj in H. subst f. cbn [sf_data].
  assert (Hv : forall i, (i < m)%nat -> nth_error vals i = Some (map (fun row0 => nth i row0 None) ((x :: row) :: t))).
  { intros i Hi. unfold transposed in Et. destruct row as [|y row]; [cbn in Hr0; lia|]. destruct t as [|row' t].
    - apply Ok_inj in Et. subst vals. rewrite nth_error_map, (nth_error_nth' (x :: y :: row) (None : num)) by lia. reflexivity.
    - apply Ok_inj in Et. subst vals. rewrite nth_error_map, Hr0, (nth_error_nth' _ O) by (rewrite seq_length; lia). rewrite seq_nth by lia. reflexivity. }
  eexists. split; [reflexivity|]. split.
  - intros i k Hk Hi. eapply data_dict_get; eauto.
  - intros k Hk. rewrite data_dict_other; auto.
Qed.
Print Assumptions C41_columns.

(** Finding: a file with a single column keeps only its first value, and one with a single number is refused. *)
Theorem C41_single_column_refuted : forall float_of, exists content genfromtxt f,
  genfromtxt content = Ok [[Some 1%R]; [Some 2%R]] /\ read_lines float_of genfromtxt content = Ok f /\
  sf_data f = Some [("h", [Some 1%R])].
Proof.
  intro. exists ["# col_headers ="; "# h"; "1"; "2"], (fun _ => Ok [[Some 1%R]; [Some 2%R]]). eexists. repeat split.
Qed.
Print Assumptions C41_single_column_refuted.
(** Finding: without a summary the messages of the scan are dropped. *)
Theorem C41_messages_lost_refuted : forall float_of genfromtxt content f meta names errs,
  layout content meta names errs [] -> read_lines float_of genfromtxt content = Ok f -> sf_errors f = None /\
  metadata_to_dict float_of meta = Ok (sf_metadata f, sf_unrecognized f).
Proof.
  intros float_of genfromtxt content f meta names errs Hl H.
  destruct (C41_lines_classified _ _ _ _ H) as (m & n & e & s & Hl' & H1 & H2).
  destruct (C41_layout_unique _ _ _ _ _ _ _ _ _ Hl Hl') as (<- & <- & <- & <-). rewrite app_nil_r in H1. auto.
Qed.
Print Assumptions C41_messages_lost_refuted.

Example C41_ex : exists f, read_lines (fun _ => None) (fun _ => Ok [[Some 1; Some 2]; [Some 3; Some 4]]%R)
   ["# proposal = 1"; "# col_headers ="; "# Pt. h"; "1 2"; "3 4"; "# motor stalled"; "# Sum of Counts = 7"; "# 3:27:30 PM  7/2/2024 scan completed."] = Ok f /\
   sf_data f = Some [("Pt.", [Some 1; Some 3]%R); ("h", [Some 2; Some 4]%R)] /\ sf_errors f = Some ["# motor stalled"] /\
   mget "Sum of Counts" (sf_metadata f) = Some (MStr "7").
Proof. eexists. repeat split. Qed.
