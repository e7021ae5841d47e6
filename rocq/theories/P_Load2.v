(** Property C65: what a loaded scan holds. *)
From Coq Require Import Reals List ZArith String Ascii Bool Lia Lra.
From Verif Require Import Base PyStr M_ScanData M_Project M_Spice M_Load S_Str L_Str P_Spice P_Load.
Import ListNotations.
Open Scope string_scope.
Open Scope list_scope.

(** * Specification *)
(** [t] is [s] without the characters of the set at its ends. *)
Definition stripped (P : ascii -> Prop) (s t : string) : Prop :=
  exists a b, s = (a ++ t ++ b)%string /\ every P a /\ every P b /\
    (forall c r, t = String c r -> ~ P c) /\ (forall r c, t = (r ++ String c "")%string -> ~ P c).
(** The lines of a file that contain the comment mark, trimmed. *)
Inductive marked : list string -> list string -> Prop :=
| mk_nil : marked [] []
| mk_take : forall l t ls hs, occurs "#" l -> trimmed l t -> marked ls hs -> marked (l :: ls) (t :: hs)
| mk_skip : forall l ls hs, ~ occurs "#" l -> marked ls hs -> marked (l :: ls) hs.
(** The attribute under which a name is stored: "-" and blanks become "_", dots disappear, the rest is kept. *)
Inductive attribute : string -> string -> Prop :=
| at_nil : attribute "" ""
| at_bar : forall s t, attribute s t -> attribute (String "-" s) (String "_" t)
| at_blank : forall s t, attribute s t -> attribute (String " " s) (String "_" t)
| at_dot : forall s t, attribute s t -> attribute (String "." s) t
| at_same : forall c s t, c <> "-"%char -> c <> " "%char -> c <> "."%char -> attribute s t -> attribute (String c s) (String c t).
Definition digit (c : ascii) : Prop := (48 <= nat_of_ascii c <= 57)%nat.
Definition starts_digit (s : string) : Prop := exists c r, s = String c r /\ digit c.
(** A header line giving a key a value: all after the first "=" and the one character following it. *)
Definition entry (line k v : string) : Prop :=
  exists t a, stripped (fun c => c = "#"%char \/ c = " "%char) line t /\ ~ closing t /\ every (fun c => c <> "="%char) a /\ trimmed a k /\
    ((exists c, t = (a ++ "=" ++ String c v)%string) \/ (t = (a ++ "=")%string /\ v = "")).
(** The attribute of a key: a digit at the front is protected by "_". *)
Definition key_attribute (k a : string) : Prop := (starts_digit k /\ attribute (String "_" k) a) \/ (~ starts_digit k /\ attribute k a).
(** The layout of a data file. *)
Definition file_layout (content meta : list string) (names : string) (errs summary : list string) : Prop :=
  marked content (meta ++ "# col_headers =" :: names :: errs ++ summary) /\ ~ In "# col_headers =" meta /\
  (forall e, In e (meta ++ names :: errs) -> forall r, e <> ("# Sum of Counts =" ++ r)%string) /\
  (summary = [] \/ exists r l, summary = ("# Sum of Counts =" ++ r)%string :: l).

(** * Auxiliary *)
Lemma strip_set_stripped : forall p s, stripped (fun c => p c = true) s (strip_set p s).
Proof.
  assert (L : forall p s, exists a, s = (a ++ lstrip_set p s)%string /\ every (fun c => p c = true) a).
  { induction s as [|c s (a & E & H)]; cbn [lstrip_set]; [exists ""; split; auto using every_nil|]. destruct (p c) eqn:Q.
    - exists (String c a). split; [cbn; congruence|]. apply every_cons; auto.
    - exists "". split; auto using every_nil. }
  assert (R : forall p s, exists b, s = (rstrip_set p s ++ b)%string /\ every (fun c => p c = true) b).
  { induction s as [|c s (b & E & H)]; cbn [rstrip_set]; [exists ""; split; auto using every_nil|]. destruct (rstrip_set p s) as [|d t] eqn:Q.
    - destruct (p c) eqn:K; [exists (String c s); split; auto; apply every_cons; cbn in E; subst; auto|]. exists s. split; auto. cbn in E. now subst.
    - exists b. split; auto. cbn in *. congruence. }
  assert (Rl : forall p s r c, rstrip_set p s = (r ++ String c "")%string -> p c <> true).
  { induction s as [|d s IH]; cbn [rstrip_set]; intros r c H; [destruct r; discriminate|]. destruct (rstrip_set p s) as [|e t] eqn:Q.
    - destruct (p d) eqn:K; [destruct r; discriminate|]. destruct r as [|? [|]]; try discriminate. injection H as <-. congruence.
    - destruct r as [|f r]; [discriminate|]. injection H as _ H. eauto. }
  assert (Ll : forall p s c r, lstrip_set p s = String c r -> p c <> true).
  { induction s as [|d s IH]; cbn [lstrip_set]; intros c r H; [discriminate|]. destruct (p d) eqn:K; eauto. injection H as <- _. congruence. }
  intros p s. unfold strip_set. destruct (L p s) as (a & Ea & Ha). destruct (R p (lstrip_set p s)) as (b & Eb & Hb).
  exists a, b. split; [rewrite <- Eb; exact Ea|]. split; auto. split; auto. split; [|intros; eapply Rl; eauto].
  intros c r E. rewrite E in Eb. cbn in Eb. eapply Ll. exact Eb.
Qed.
Lemma rstrip_set_all : forall p b, every (fun c => p c = true) b -> rstrip_set p b = "".
Proof. induction b; auto. intros H. apply every_cons in H as [H1 H2]. cbn. now rewrite IHb, H1. Qed.
Lemma stripped_unique : forall p s t, stripped (fun c => p c = true) s t -> t = strip_set p s.
Proof.
  intros p s t (a & b & -> & Ha & Hb & Hf & Hl). unfold strip_set.
  assert (L : lstrip_set p (a ++ t ++ b) = lstrip_set p (t ++ b)).
  { clear - Ha. induction a; auto. apply every_cons in Ha as [H1 H2]. cbn. rewrite H1. auto. }
  assert (R : forall x y, every (fun c => p c = true) y -> rstrip_set p (x ++ y) = rstrip_set p x).
  { induction x; intros y Hy; cbn; [now apply rstrip_set_all|]. now rewrite IHx. }
  assert (T : rstrip_set p t = t).
  { clear - Hl. induction t as [|c t IH]; auto. cbn. destruct t as [|d t].
    - cbn. destruct (p c) eqn:K; auto. exfalso. apply (Hl "" c); auto.
    - rewrite IH; auto. intros r e E. apply (Hl (String c r) e). cbn. congruence. }
  rewrite L. destruct t as [|c t].
  - cbn. assert (lstrip_set p b = "") as ->; auto. clear - Hb. induction b; auto. apply every_cons in Hb as [H1 H2]. cbn. now rewrite H1, IHb.
  - cbn [append lstrip_set]. destruct (p c) eqn:K; [exfalso; eapply Hf; eauto|]. change (String c (t ++ b)) with (String c t ++ b)%string. now rewrite R, T.
Qed.
Lemma strip_is_set : forall c s, PyStr.strip c s = strip_set (Ascii.eqb c) s.
Proof.
  intros c s. unfold PyStr.strip, strip_set.
  assert (R : forall s, PyStr.rstrip c s = rstrip_set (Ascii.eqb c) s).
  { induction s0; cbn; auto. rewrite IHs0. destruct (rstrip_set _ s0); auto. }
  rewrite R. f_equal. induction s; cbn; auto. now rewrite IHs.
Qed.
Lemma sanitize_attribute : forall s t, attribute s t <-> t = sanitize s.
Proof.
  split.
  - induction 1 as [|s t _ IH|s t _ IH|s t _ IH|c s t H H0 H1 _ IH].
    + reflexivity. + rewrite IH. reflexivity. + rewrite IH. reflexivity. + rewrite IH. reflexivity.
    + cbn [sanitize]. apply Ascii.eqb_neq in H, H0, H1. rewrite H, H0, H1. congruence.
  - intros ->. induction s as [|c s IH]; cbn [sanitize]; [constructor|].
    destruct (Ascii.eqb_spec c "-"); [subst; now constructor|]. destruct (Ascii.eqb_spec c " "); [subst; now constructor|].
    destruct (Ascii.eqb_spec c "."); [subst; now constructor|]. now constructor.
Qed.
Lemma is_digit_spec : forall c, is_digit c = true <-> digit c.
Proof. intros. unfold is_digit, digit. rewrite andb_true_iff, !Nat.leb_le. tauto. Qed.
Lemma marked_iff : forall ls hs, marked ls hs <-> hs = map strip_ws (filter (fun l => contains "#" l) ls).
Proof.
  split.
  - induction 1; cbn [filter map]; auto.
    + apply contains_spec in H. rewrite H. cbn [map]. apply trimmed_iff in H0. congruence.
    + apply contains_false in H. now rewrite H.
  - intros ->. induction ls as [|l ls IH]; cbn [filter map]; [constructor|]. destruct (contains "#" l) eqn:E.
    + cbn [map]. constructor; auto using trimmed_strip. now apply contains_spec.
    + constructor; auto. now apply contains_false.
Qed.
Lemma index_of_some : forall p l1 x l2, p x = true -> (forall y, In y l1 -> p y = false) -> index_of p (l1 ++ x :: l2) = Some (List.length l1).
Proof.
  induction l1 as [|y l1 IH]; intros x l2 H N; cbn; [now rewrite H|]. rewrite N by (left; auto). rewrite IH; auto. intros; apply N; right; auto.
Qed.
Lemma index_of_none : forall p l, (forall y, In y l -> p y = false) -> index_of p l = None.
Proof. induction l as [|y l IH]; intros N; cbn; auto. rewrite N by (left; auto). rewrite IH; auto. intros; apply N; right; auto. Qed.
Lemma prefixb_not : forall p e, (forall r, e <> (p ++ r)%string) -> prefixb p e = false.
Proof. intros p e H. destruct (prefixb p e) eqn:E; auto. apply prefixb_spec in E as [r ->]. now destruct (H r). Qed.
Lemma skipn_at : forall A (l1 l2 : list A) n, n = List.length l1 -> skipn n (l1 ++ l2) = l2.
Proof. intros A l1 l2 n ->. induction l1; cbn; auto. Qed.
Lemma firstn_at : forall A (l1 l2 : list A) n, n = List.length l1 -> firstn n (l1 ++ l2) = l1.
Proof. intros A l1 l2 n ->. induction l1; cbn; auto. congruence. Qed.

Section C65.
  Variable float_of : string -> option R.
  Variable int_of : string -> option Z.
  Variable genfromtxt : list string -> result (list (list num)).
  Variable xml_last : list string -> option (option string).
  Notation load := (load float_of int_of genfromtxt xml_last).

  Lemma read_raw_layout : forall content meta names errs summary, file_layout content meta names errs summary ->
    read_raw genfromtxt content =
      (do (md, others) <- meta_loop ([], []) (meta ++ summary);
       do md' <- (match dget String.eqb "preset_type" md with
                  | Some p => if String.eqb p "countfile"
                              then do cs <- countfile_lines (meta ++ summary); Ok (dset String.eqb "countfile" (join ", " cs) md)
                              else Ok md
                  | None => Ok md
                  end);
       do t <- genfromtxt content; Ok (RawFile t (words (PyStr.strip "#"%char names)) md' others errs)).
  Proof.
    intros content meta names errs summary (Hm & Hn & Hs & Hsum). apply marked_iff in Hm. unfold read_raw. cbv zeta. rewrite <- Hm. clear Hm.
    set (hs := meta ++ "# col_headers =" :: names :: errs ++ summary).
    assert (H1 : index_of (String.eqb "# col_headers =") hs = Some (List.length meta)).
    { apply index_of_some; [reflexivity|]. intros y Hy. apply String.eqb_neq. intros <-. auto. }
    rewrite H1. assert (H2 : nth_error hs (List.length meta + 1) = Some names).
    { unfold hs. rewrite nth_error_app2 by lia. replace (List.length meta + 1 - List.length meta)%nat with 1%nat by lia. reflexivity. }
    rewrite H2. assert (H3 : firstn (List.length meta) hs = meta) by (apply firstn_at; auto). rewrite H3.
    assert (H4 : skipn (List.length meta + 2) hs = errs ++ summary).
    { unfold hs. change (meta ++ "# col_headers =" :: names :: errs ++ summary) with (meta ++ ["# col_headers ="; names] ++ errs ++ summary).
      rewrite app_assoc. apply skipn_at. rewrite app_length. cbn. lia. }
    rewrite H4. assert (H5 : hs = (meta ++ ["# col_headers ="; names] ++ errs) ++ summary) by (unfold hs; rewrite <- !app_assoc; reflexivity).
    assert (H6 : forall y, In y (meta ++ ["# col_headers ="; names] ++ errs) -> prefixb "# Sum of Counts =" y = false).
    { intros y Hy. apply prefixb_not. intros r. rewrite !in_app_iff in Hy. destruct Hy as [Hy|[[<-|[<-|[]]]|Hy]].
      - apply Hs. apply in_app_iff; auto. - discriminate.
      - apply Hs. apply in_app_iff. right. left; auto. - apply Hs. apply in_app_iff. right. right; auto. }
    destruct Hsum as [->|(r & l & ->)].
    - rewrite H5, !app_nil_r, index_of_none by exact H6. reflexivity.
    - rewrite H5, index_of_some; [|apply prefixb_spec; eauto|exact H6]. rewrite skipn_at by reflexivity.
      rewrite firstn_at; [reflexivity|]. rewrite !app_length. lia.
  Qed.

  Lemma one_scan : forall fs folder f ub s, load fs folder [f] ub None = Ok (Some [(f, s)]) ->
    exists ub', load_file float_of int_of genfromtxt xml_last fs folder ub f = Ok (ub', s).
  Proof.
    intros fs folder f ub s H. rewrite one_file in H. destruct (load_file _ _ _ _ fs folder ub f) as [[ub' s']|]; cbn [bind] in H; [|discriminate].
    apply Ok_inj in H. injection H as ->. eauto.
  Qed.
  (** What one file gives, in terms of its layout *)
  Lemma scan_of_file : forall fs folder f ub s content meta names errs summary, load fs folder [f] ub None = Ok (Some [(f, s)]) ->
    content_of fs (folder ++ [f]) = Some content -> file_layout content meta names errs summary ->
    exists md others md' t, meta_loop ([], []) (meta ++ summary) = Ok (md, others) /\
      (match dget String.eqb "preset_type" md with
                  | Some p => if String.eqb p "countfile"
                              then do cs <- countfile_lines (meta ++ summary); Ok (dset String.eqb "countfile" (join ", " cs) md)
                              else Ok md
                  | None => Ok md
                  end) = Ok md' /\ genfromtxt content = Ok t /\
      load_columns (squeeze t) (words (PyStr.strip "#"%char names)) [] (words (PyStr.strip "#"%char names)) = Ok (rs_data s) /\
      rs_cols s = words (PyStr.strip "#"%char names) /\ rs_others s = others /\ rs_errors s = errs /\
      exists d, load_meta float_of int_of xml_last fs folder md' (ub, []) [] = Ok (d, rs_ub s, rs_meta s).
  Proof.
    intros fs folder f ub s content meta names errs summary H Hc Hl. apply one_scan in H as (ub' & H). unfold load_file, read_file in H.
    rewrite Hc in H. cbn [bind] in H. rewrite (read_raw_layout _ _ _ _ _ Hl) in H.
    destruct (meta_loop ([], []) (meta ++ summary)) as [[md others]|]; cbn [bind] in H; [|discriminate].
    match type of H with (do _ <- (do _ <- ?a; _); _) = _ => destruct a as [md'|] eqn:E1 end; cbn [bind] in H; [|discriminate].
    destruct (genfromtxt content) as [t|]; cbn [bind rf_table rf_cols rf_meta rf_others rf_errors] in H; [|discriminate].
    destruct (load_columns _ _ _ _) as [d|] eqn:E2; cbn [bind] in H; [|discriminate].
    destruct (load_meta float_of int_of xml_last fs folder md' _ _) as [[[st1 st2] m]|] eqn:E3; cbn [bind fst snd] in H; [|discriminate].
    apply Ok_inj in H. injection H as <- <-. exists md, others, md', t. cbn. repeat split; auto. exists st1. exact E3.
  Qed.

  (** Messages of the instrument are kept, all of them and in order. *)
  Theorem C65_messages : forall fs folder f ub s content meta names errs summary, load fs folder [f] ub None = Ok (Some [(f, s)]) ->
    content_of fs (folder ++ [f]) = Some content -> file_layout content meta names errs summary -> rs_errors s = errs.
  Proof. intros. edestruct scan_of_file as (md & o & md' & t & _ & _ & _ & _ & _ & _ & E & _); eauto. Qed.

  Lemma column_of_ok : forall t m i, t <> [] -> (2 <= m)%nat -> (forall row, In row t -> List.length row = m) -> (i < m)%nat ->
    column_of (squeeze t) i = Ok (Col (map (fun row => nth i row None) t)).
  Proof.
    intros t m i Hne Hm Hr Hi. destruct t as [|r1 [|r2 t]]; [congruence| |].
    - assert (L : List.length r1 = m) by (apply Hr; left; auto). destruct r1 as [|a [|b r1]]; cbn in L; try lia. cbn [squeeze column_of].
      destruct (nth_error (a :: b :: r1) i) as [x|] eqn:E; [|apply nth_error_None in E; cbn in E; lia].
      do 2 f_equal. cbn [map]. f_equal. symmetry. now apply nth_error_nth.
    - assert (L : List.length r1 = m) by (apply Hr; left; auto). destruct r1 as [|a [|b r1]]; cbn in L; try lia. cbn [squeeze column_of].
      cbn [hd]. destruct (Nat.ltb_spec i (List.length (a :: b :: r1))); [reflexivity|]. cbn in *. lia.
  Qed.
  Lemma load_columns_get : forall t m cols, t <> [] -> (2 <= m)%nat -> (forall row, In row t -> List.length row = m) -> (List.length cols <= m)%nat ->
    NoDup cols -> (forall n, In n cols -> ~ starts_digit n) -> (forall n n', In n cols -> In n' cols -> sanitize n = sanitize n' -> n = n') ->
    forall l pre d d', cols = pre ++ l -> load_columns (squeeze t) cols d l = Ok d' ->
      forall i n, nth_error cols i = Some n -> 
        dget String.eqb (sanitize n) d' = if Nat.ltb i (List.length pre) then dget String.eqb (sanitize n) d else Some (Col (map (fun row => nth i row None) t)).
  Proof.
    intros t m cols Hne Hm Hr Hc Hnd Hdig Hinj. induction l as [|x l IH]; intros pre d d' E H i n Hi; cbn [load_columns] in H.
    - apply Ok_inj in H. subst d'. assert (i < List.length cols)%nat by (apply nth_error_Some; congruence). rewrite E, app_nil_r in H.
      destruct (Nat.ltb_spec i (List.length pre)); auto. lia.
    - destruct (load_column (squeeze t) cols d x) as [d1|] eqn:E1; cbn [bind] in H; [|discriminate].
      rewrite (IH (pre ++ [x]) d1 d') with (i := i); auto; [|rewrite <- app_assoc; exact E]. rewrite app_length. cbn [List.length].
      unfold load_column in E1. destruct x as [|c r]; [discriminate|].
      assert (Hx : In (String c r) cols) by (rewrite E, in_app_iff; right; left; auto).
      destruct (is_digit c) eqn:Ed; [exfalso; apply (Hdig _ Hx); exists c, r; split; auto; now apply is_digit_spec|].
      set (x := String c r) in *.
      assert (Ei : index_of (String.eqb x) cols = Some (List.length pre)).
      { rewrite E. apply index_of_some; [apply String.eqb_refl|]. intros y Hy. apply String.eqb_neq. intros <-. rewrite E in Hnd.
        apply NoDup_remove_2 in Hnd. apply Hnd. rewrite in_app_iff. auto. }
      rewrite Ei in E1. destruct (dmem String.eqb (sanitize x) d || field_name_ok (sanitize x)); [|discriminate].
      rewrite (column_of_ok t m) in E1; auto. 2: { rewrite E, app_length in Hc. cbn in Hc. lia. }
      cbn [bind] in E1. apply Ok_inj in E1. subst d1. rewrite dget_dset.
      destruct (Nat.ltb_spec i (List.length pre + 1)), (Nat.ltb_spec i (List.length pre)); try lia; auto.
      + destruct (String.eqb_spec (sanitize n) (sanitize x)) as [Es|]; auto. exfalso.
        assert (n = x) by (apply Hinj; auto; eapply nth_error_In; eauto). subst n. rewrite E, nth_error_app1 in Hi by auto.
        rewrite E in Hnd. apply NoDup_remove_2 in Hnd. apply Hnd. rewrite in_app_iff. left. eapply nth_error_In; eauto.
      + assert (i = List.length pre) by lia. subst i. rewrite E, nth_error_app2, Nat.sub_diag in Hi by lia. injection Hi as <-.
        now rewrite String.eqb_refl.
  Qed.
  (** Every column is found under its attribute. *)
  Theorem C65_columns : forall fs folder f ub s content meta names errs summary mid ns t m, load fs folder [f] ub None = Ok (Some [(f, s)]) ->
    content_of fs (folder ++ [f]) = Some content -> file_layout content meta names errs summary ->
    stripped (fun c => c = "#"%char) names mid -> words_of mid ns -> NoDup ns -> (forall n, In n ns -> ~ starts_digit n) ->
    (forall n n' a, In n ns -> In n' ns -> attribute n a -> attribute n' a -> n = n') ->
    genfromtxt content = Ok t -> t <> [] -> (2 <= m)%nat -> (forall row, In row t -> List.length row = m) -> (List.length ns <= m)%nat ->
    rs_cols s = ns /\ forall i n a, nth_error ns i = Some n -> attribute n a ->
      dget String.eqb a (rs_data s) = Some (Col (map (fun row => nth i row None) t)).
  Proof.
    intros fs folder f ub s content meta names errs summary mid ns t m H Hc Hl Hs Hw Hnd Hd Ha Ht Hne Hm Hr Hlen.
    destruct (scan_of_file _ _ _ _ _ _ _ _ _ _ H Hc Hl) as (md & o & md' & t' & _ & _ & Ht' & Hcol & E & _).
    assert (t' = t) by congruence. subst t'. assert (En : words (PyStr.strip "#" names) = ns).
    { rewrite strip_is_set. assert (mid = strip_set (Ascii.eqb "#") names) as <-.
      { apply stripped_unique. destruct Hs as (a & b & Es & H1 & H2 & H3 & H4). exists a, b. split; auto.
        assert (W : forall c, Ascii.eqb "#" c = true <-> c = "#"%char) by (intros c; rewrite Ascii.eqb_eq; split; congruence).
        split; [|split; [|split]].
        - intros x c y Ex. apply W. eapply H1; eauto. - intros x c y Ex. apply W. eapply H2; eauto.
        - intros c r Er Hq. apply W in Hq. eapply H3; eauto. - intros r c Er Hq. apply W in Hq. eapply H4; eauto. }
      symmetry. now apply words_of_iff. }
    rewrite En in *. split; auto. intros i n a Hi Hat. apply sanitize_attribute in Hat. subst a.
    rewrite (load_columns_get t m ns Hne Hm Hr Hlen Hnd Hd) with (l := ns) (pre := []) (d := []) (i := i); auto.
    intros n1 n2 I1 I2 Es. eapply Ha; eauto; apply sanitize_attribute; eauto.
  Qed.

  (** Of a table with a single column and several rows only the first number is kept. *)
  Theorem C65_one_column_refuted : forall fs folder f ub s content meta names errs summary mid n a x rows, load fs folder [f] ub None = Ok (Some [(f, s)]) ->
    content_of fs (folder ++ [f]) = Some content -> file_layout content meta names errs summary ->
    stripped (fun c => c = "#"%char) names mid -> words_of mid [n] -> ~ starts_digit n -> attribute n a ->
    genfromtxt content = Ok (map (fun y => [y]) (x :: rows)) -> rows <> [] ->
    dget String.eqb a (rs_data s) = Some (Col [x]).
  Proof.
    intros fs folder f ub s content meta names errs summary mid n a x rows H Hc Hl Hs Hw Hd Ha Ht Hne.
    destruct (scan_of_file _ _ _ _ _ _ _ _ _ _ H Hc Hl) as (md & o & md' & t' & _ & _ & Ht' & Hcol & E & _).
    assert (t' = map (fun y => [y]) (x :: rows)) by congruence. subst t'. assert (En : words (PyStr.strip "#" names) = [n]).
    { rewrite strip_is_set. assert (mid = strip_set (Ascii.eqb "#") names) as <-.
      { apply stripped_unique. destruct Hs as (u & b & Es & H1 & H2 & H3 & H4). exists u, b. split; auto.
        assert (W : forall c, Ascii.eqb "#" c = true <-> c = "#"%char) by (intros c; rewrite Ascii.eqb_eq; split; congruence).
        split; [|split; [|split]].
        - intros p c y Ex. apply W. eapply H1; eauto. - intros p c y Ex. apply W. eapply H2; eauto.
        - intros c r Er Hq. apply W in Hq. eapply H3; eauto. - intros r c Er Hq. apply W in Hq. eapply H4; eauto. }
      symmetry. now apply words_of_iff. }
    rewrite En in *. apply sanitize_attribute in Ha. subst a. destruct rows as [|y rows]; [congruence|]. cbn [map squeeze] in Hcol. cbn [load_columns] in Hcol.
    unfold load_column in Hcol. destruct n as [|c r]; [discriminate|].
    destruct (is_digit c) eqn:Ed; [exfalso; apply Hd; exists c, r; split; auto; now apply is_digit_spec|]. set (n := String c r) in *.
    assert (Ei : index_of (String.eqb n) [n] = Some 0%nat) by (cbn [index_of]; rewrite String.eqb_refl; reflexivity). rewrite Ei in Hcol.
    destruct (dmem String.eqb (sanitize n) [] || field_name_ok (sanitize n)); [|discriminate]. cbn [column_of map nth nth_error bind] in Hcol. apply Ok_inj in Hcol. rewrite <- Hcol.
    rewrite dget_dset, String.eqb_refl. reflexivity.
  Qed.

  Lemma entry_line : forall line k v acc, entry line k v -> meta_line acc line = Ok (dset String.eqb k v (fst acc), snd acc).
  Proof.
    intros line k v [md o] (t & a & Hs & Hcl & Ha & Hk & Ht). cbn [fst snd]. unfold meta_line.
    assert (t = strip_set (fun c => Ascii.eqb c "#" || Ascii.eqb c " ") line) as <-.
    { apply stripped_unique. destruct Hs as (x & y & Es & H1 & H2 & H3 & H4). exists x, y. split; auto.
      assert (W : forall c, Ascii.eqb c "#" || Ascii.eqb c " " = true <-> c = "#"%char \/ c = " "%char) by (intros c; rewrite orb_true_iff, !Ascii.eqb_eq; tauto).
      split; [|split; [|split]].
      - intros p c q Ex. apply W. eapply H1; eauto. - intros p c q Ex. apply W. eapply H2; eauto.
      - intros c r Er Hq. apply W in Hq. eapply H3; eauto. - intros r c Er Hq. apply W in Hq. eapply H4; eauto. }
    apply closing_not in Hcl. rewrite Hcl. apply trimmed_iff in Hk. subst k.
    assert (exists rest, t = (a ++ "=" ++ rest)%string /\ v = match rest with String _ r => r | EmptyString => EmptyString end) as (rest & -> & ->).
    { destruct Ht as [(c & ->)|(-> & ->)]; [exists (String c v) | exists ""]; auto. }
    assert (Hc : contains "=" (a ++ "=" ++ rest)%string = true) by (apply contains_spec; exists a, rest; reflexivity).
    rewrite Hc. change (a ++ "=" ++ rest)%string with (a ++ String "=" rest)%string. rewrite split_on_app by auto.
    unfold join. now rewrite split_on_concat.
  Qed.
  Lemma line_cases : forall line acc acc', meta_line acc line = Ok acc' ->
    fst acc' = fst acc \/ (exists v, fst acc' = dset String.eqb "end_time" v (fst acc)) \/ (exists k v, entry line k v /\ fst acc' = dset String.eqb k v (fst acc)).
  Proof.
    intros line [md o] acc' H. cbn [fst]. unfold meta_line in H. set (t := strip_set _ line) in H.
    assert (Hs : stripped (fun c => c = "#"%char \/ c = " "%char) line t).
    { pose proof (strip_set_stripped (fun c => Ascii.eqb c "#" || Ascii.eqb c " ") line) as (x & y & Es & H1 & H2 & H3 & H4). fold t in Es, H3, H4. exists x, y. split; auto.
      assert (W : forall c, Ascii.eqb c "#" || Ascii.eqb c " " = true <-> c = "#"%char \/ c = " "%char) by (intros c; rewrite orb_true_iff, !Ascii.eqb_eq; tauto).
      split; [|split; [|split]].
      - intros p c q Ex. apply W. eapply H1; eauto. - intros p c q Ex. apply W. eapply H2; eauto.
      - intros c r Er Hq. apply W in Hq. eapply H3; eauto. - intros r c Er Hq. apply W in Hq. eapply H4; eauto. }
    clearbody t. destruct (contains "completed" t || contains "stopped" t) eqn:Ec.
    - destruct (split_on " " t) as [|p0 [|p1 [|? [|p3 ?]]]]; try discriminate. apply Ok_inj in H. subst acc'. right; left. eexists. reflexivity.
    - destruct (contains "=" t) eqn:Ee; [|apply Ok_inj in H; subst; now left].
      destruct (split_on_pieces "=" t) as (Hne & Et & Hf). destruct (split_on "=" t) as [|a vals] eqn:Es; [congruence|].
      apply Ok_inj in H. subst acc'. right; right. exists (strip_ws a). eexists. split; [|reflexivity].
      exists t, a. split; auto. split; [now apply closing_not|]. inversion Hf as [|? ? Ha Hv]; subst. split; auto. split; [apply trimmed_strip|].
      destruct vals as [|v0 vals].
      + exfalso. apply contains_spec in Ee. cbn in Ee. destruct Ee as (x & y & E). eapply (Ha x "="%char y); auto.
      + assert (E : String.concat "=" (a :: v0 :: vals) = (a ++ "=" ++ join "=" (v0 :: vals))%string) by reflexivity.
        rewrite E. destruct (join "=" (v0 :: vals)) as [|c r]; [right; auto|left; eauto].
  Qed.
  Lemma loop_keeps : forall k l acc acc', k <> "end_time" -> (forall line v, In line l -> ~ entry line k v) -> meta_loop acc l = Ok acc' ->
    dget String.eqb k (fst acc') = dget String.eqb k (fst acc).
  Proof.
    intros k. induction l as [|x l IH]; intros acc acc' N Hn H; cbn [meta_loop] in H; [apply Ok_inj in H; now subst|].
    destruct (meta_line acc x) as [acc1|] eqn:E; cbn [bind] in H; [|discriminate]. rewrite (IH acc1); auto; [|intros; apply Hn; right; auto].
    destruct (line_cases _ _ _ E) as [->|[(v & ->)|(k' & v & He & ->)]]; auto; rewrite dget_dset.
    - apply String.eqb_neq in N. now rewrite N.
    - destruct (String.eqb_spec k k'); auto. subst. exfalso. eapply Hn; eauto. left; auto.
  Qed.
  Lemma loop_app : forall l1 l2 acc, meta_loop acc (l1 ++ l2) = (do acc' <- meta_loop acc l1; meta_loop acc' l2).
  Proof. induction l1 as [|x l1 IH]; intros l2 acc; cbn [List.app meta_loop bind]; auto. destruct (meta_line acc x); cbn [bind]; auto. Qed.
  Lemma loop_gets : forall k v l1 line l2 acc acc', k <> "end_time" -> entry line k v -> (forall line' v', In line' l2 -> ~ entry line' k v') ->
    meta_loop acc (l1 ++ line :: l2) = Ok acc' -> dget String.eqb k (fst acc') = Some v.
  Proof.
    intros k v l1 line l2 acc acc' N He Hn H. rewrite loop_app in H. destruct (meta_loop acc l1) as [a1|]; cbn [bind meta_loop] in H; [|discriminate].
    rewrite (entry_line _ _ _ _ He) in H. cbn [bind] in H. rewrite (loop_keeps k _ _ _ N Hn H). cbn [fst]. now rewrite dget_dset, String.eqb_refl.
  Qed.
  Lemma dset_keys : forall A k (v : A) d x, In x (dkeys (dset String.eqb k v d)) <-> x = k \/ In x (dkeys d).
  Proof.
    induction d as [|[k' v'] d IH]; intros x; cbn; [intuition|]. destruct (String.eqb_spec k k'); cbn; [subst; intuition|]. rewrite IH. intuition.
  Qed.
  Lemma dset_nodup : forall A k (v : A) d, NoDup (dkeys d) -> NoDup (dkeys (dset String.eqb k v d)).
  Proof.
    induction d as [|[k' v'] d IH]; intros N; cbn; [repeat constructor; auto|]. inversion N; subst. destruct (String.eqb_spec k k'); cbn; [subst; constructor; auto|].
    constructor; auto. change (map fst (dset String.eqb k v d)) with (dkeys (dset String.eqb k v d)). rewrite dset_keys. intros [->|]; auto.
  Qed.
  Lemma loop_keys : forall l acc acc', NoDup (dkeys (fst acc)) -> meta_loop acc l = Ok acc' ->
    NoDup (dkeys (fst acc')) /\ forall k, In k (dkeys (fst acc')) -> In k (dkeys (fst acc)) \/ k = "end_time" \/ exists line v, In line l /\ entry line k v.
  Proof.
    induction l as [|x l IH]; intros acc acc' N H; cbn [meta_loop] in H; [apply Ok_inj in H; subst; auto|].
    destruct (meta_line acc x) as [acc1|] eqn:E; cbn [bind] in H; [|discriminate].
    assert (N1 : NoDup (dkeys (fst acc1))) by (destruct (line_cases _ _ _ E) as [->|[(v & ->)|(k' & v & He & ->)]]; auto using dset_nodup).
    destruct (IH _ _ N1 H) as (N2 & K). split; auto. intros k Hk. destruct (K k Hk) as [Hi|[->|(line & v & Hi & He)]]; [|auto|right; right; exists line, v; split; [right|]; auto].
    destruct (line_cases _ _ _ E) as [Eq|[(v & Eq)|(k' & v & He & Eq)]]; rewrite Eq in Hi; auto; apply dset_keys in Hi as [->|Hi]; auto.
    right; right. exists x, v. split; [left|]; auto.
  Qed.
  Definition attr_of (k : string) : string := match k with String c _ => sanitize (if is_digit c then String "_" k else k) | EmptyString => "" end.
  Lemma key_attribute_iff : forall k a, key_attribute k a <-> a = attr_of k.
  Proof using. clear float_of int_of genfromtxt xml_last.
    intros k a. unfold key_attribute. rewrite !sanitize_attribute. destruct k as [|c r].
    - cbn. split; [intros [((? & ? & ? & _) & _)|]; [discriminate|tauto]|]. intros ->. right. split; auto. intros (? & ? & ? & _). discriminate.
    - assert (D : starts_digit (String c r) <-> is_digit c = true).
      { rewrite is_digit_spec. split; [intros (c' & r' & E & H); injection E as -> _; auto|]. intros; exists c, r; auto. }
      rewrite D. unfold attr_of. destruct (is_digit c); intuition congruence.
  Qed.
  Lemma load_meta_gets : forall fs folder a l st m st' m', load_meta float_of int_of xml_last fs folder l st m = Ok (st', m') ->
    (forall k, NoDup (dkeys l) -> In k (dkeys l) -> attr_of k = a -> (forall k', In k' (dkeys l) -> attr_of k' = a -> k' = k) -> dget String.eqb a m' = dget String.eqb k l) /\
    ((forall k', In k' (dkeys l) -> attr_of k' <> a) -> dget String.eqb a m' = dget String.eqb a m).
  Proof.
    intros fs folder a. induction l as [|[key value] l IH]; intros st m st' m' H; cbn [load_meta] in H.
    - apply Ok_inj in H. injection H as <- <-. split; auto. intros k _ [].
    - destruct key as [|c r]; [discriminate|]. change (sanitize (if is_digit c then String "_" (String c r) else String c r)) with (attr_of (String c r)) in H.
      set (key := String c r) in *. destruct (add_attr (attr_of key) value m) as [m1|] eqn:Em; cbn [bind] in H; [|discriminate].
      assert (Em1 : m1 = dset String.eqb (attr_of key) value m).
      { unfold add_attr in Em. destruct (dmem _ _ _); [apply Ok_inj in Em; auto|]. destruct (field_name_ok _); [apply Ok_inj in Em; auto|discriminate]. }
      match type of H with (do _ <- ?x; _) = _ => destruct x as [st1|] end; cbn [bind] in H; [|discriminate].
      destruct (IH _ _ _ _ H) as (A & B). clear IH. split.
      + intros k N Hin Hk Hu. cbn in N. inversion N as [|? ? N1 N2]; subst. cbn [map fst dkeys] in Hin. destruct Hin as [E0|Hin]; [cbn in E0; subst k|].
        * cbn [dget]. rewrite String.eqb_refl. rewrite B; [rewrite dget_dset, String.eqb_refl; auto|].
          intros k' Hk' E. apply N1. assert (k' = key) as <- by (apply Hu; auto; right; auto). exact Hk'.
        * cbn [dget]. destruct (String.eqb_spec k key) as [->|_]; [contradiction|]. apply A; auto. intros k' Hk' E. apply Hu; auto. right; auto.
      + intros Hn. rewrite B by (intros; apply Hn; right; auto). subst m1. rewrite dget_dset.
        destruct (String.eqb_spec a (attr_of key)); auto. exfalso. eapply Hn; [left; reflexivity|auto].
  Qed.
  (** Every header entry is found under the attribute of its key: of several lines with the key the last counts. *)
  Theorem C65_metadata : forall fs folder f ub s content meta names errs summary l1 line l2 k v a, load fs folder [f] ub None = Ok (Some [(f, s)]) ->
    content_of fs (folder ++ [f]) = Some content -> file_layout content meta names errs summary ->
    meta ++ summary = l1 ++ line :: l2 -> entry line k v -> (forall line' v', In line' l2 -> ~ entry line' k v') ->
    key_attribute k a -> a <> "end_time" -> a <> "countfile" ->
    (forall line' k' v', In line' (meta ++ summary) -> entry line' k' v' -> key_attribute k' a -> k' = k) ->
    dget String.eqb a (rs_meta s) = Some v.
  Proof.
    intros fs folder f ub s content meta names errs summary l1 line l2 k v a H Hc Hl El He Hlast Hka N1 N2 Hu.
    destruct (scan_of_file _ _ _ _ _ _ _ _ _ _ H Hc Hl) as (md & o & md' & t & Hm & Hp & _ & _ & _ & _ & _ & d & Hlm).
    apply key_attribute_iff in Hka.
    assert (K1 : k <> "end_time") by (intros ->; apply N1; rewrite Hka; reflexivity).
    assert (K2 : k <> "countfile") by (intros ->; apply N2; rewrite Hka; reflexivity).
    assert (G : dget String.eqb k md = Some v) by (rewrite El in Hm; exact (loop_gets _ _ _ _ _ _ _ K1 He Hlast Hm)).
    destruct (loop_keys (meta ++ summary) ([], []) (md, o) (NoDup_nil _) Hm) as (Nd & Ks). cbn [fst] in *.
    assert (P : NoDup (dkeys md') /\ dget String.eqb k md' = Some v /\ forall x, In x (dkeys md') -> x = "countfile" \/ In x (dkeys md)).
    { destruct (dget String.eqb "preset_type" md) as [p|]; [|apply Ok_inj in Hp; subst; auto].
      destruct (String.eqb p "countfile"); [|apply Ok_inj in Hp; subst; auto].
      destruct (countfile_lines _) as [cs|]; cbn [bind] in Hp; [|discriminate]. apply Ok_inj in Hp. subst md'.
      split; [apply dset_nodup; auto|]. split; [rewrite dget_dset; apply String.eqb_neq in K2; now rewrite K2|]. intros x. rewrite dset_keys. auto. }
    destruct P as (Nd' & G' & Ks'). destruct (load_meta_gets fs folder a _ _ _ _ _ Hlm) as (A & _). rewrite A with (k := k); auto.
    - destruct (in_dec string_dec k (dkeys md')); auto. exfalso. clear - G' n. induction md' as [|[x y] md' IH]; [discriminate|]. cbn in *.
      destruct (String.eqb_spec k x); [subst; apply n; auto|]. apply IH; auto.
    - intros k' Hk' Ea. destruct (Ks' k' Hk') as [->|Hin]; [exfalso; apply N2; rewrite <- Ea; reflexivity|].
      destruct (Ks k' Hin) as [[]|[->|(line' & v' & Hi & He')]]; [exfalso; apply N1; rewrite <- Ea; reflexivity|].
      eapply Hu; eauto. now apply key_attribute_iff.
  Qed.

  Lemma fails : forall fs folder f ub content, content_of fs (folder ++ [f]) = Some content ->
    (forall x, load_file float_of int_of genfromtxt xml_last fs folder ub f <> Ok x) -> forall d, load fs folder [f] ub None <> Ok d.
  Proof.
    intros fs folder f ub content Hc N d H. rewrite one_file in H. destruct (load_file _ _ _ _ fs folder ub f) as [[ub' s]|] eqn:E; cbn [bind] in H; [|discriminate].
    eapply N; eauto.
  Qed.
  Lemma columns_fail : forall fs folder f ub content meta names errs summary, content_of fs (folder ++ [f]) = Some content ->
    file_layout content meta names errs summary ->
    (forall t d, genfromtxt content = Ok t -> load_columns (squeeze t) (words (PyStr.strip "#"%char names)) [] (words (PyStr.strip "#"%char names)) <> Ok d) ->
    forall d, load fs folder [f] ub None <> Ok d.
  Proof.
    intros fs folder f ub content meta names errs summary Hc Hl Hn. eapply fails; eauto. intros x H. unfold load_file, read_file in H.
    rewrite Hc in H. cbn [bind] in H. rewrite (read_raw_layout _ _ _ _ _ Hl) in H.
    destruct (meta_loop ([], []) (meta ++ summary)) as [[md others]|]; cbn [bind] in H; [|discriminate].
    match type of H with (do _ <- (do _ <- ?a; _); _) = _ => destruct a as [md'|] eqn:E1 end; cbn [bind] in H; [|discriminate].
    destruct (genfromtxt content) as [t|] eqn:Et; cbn [bind rf_table rf_cols rf_meta rf_others rf_errors] in H; [|discriminate].
    destruct (load_columns _ _ _ _) as [d|] eqn:E2; cbn [bind] in H; [|discriminate]. eapply Hn; eauto.
  Qed.
  Lemma columns_each : forall a cols l d d' x, load_columns a cols d l = Ok d' -> In x l -> exists d1 d2, load_column a cols d1 x = Ok d2.
  Proof.
    induction l as [|y l IH]; intros d d' x H Hin; [destruct Hin|]. cbn [load_columns] in H.
    destruct (load_column a cols d y) as [d1|] eqn:E; cbn [bind] in H; [|discriminate]. destruct Hin as [<-|Hin]; eauto.
  Qed.
  Lemma names_words : forall names mid ns, stripped (fun c => c = "#"%char) names mid -> words_of mid ns -> words (PyStr.strip "#" names) = ns.
  Proof.
    intros names mid ns Hs Hw. rewrite strip_is_set. assert (mid = strip_set (Ascii.eqb "#") names) as <-.
    { apply stripped_unique. destruct Hs as (a & b & Es & H1 & H2 & H3 & H4). exists a, b. split; auto.
      assert (W : forall c, Ascii.eqb "#" c = true <-> c = "#"%char) by (intros c; rewrite Ascii.eqb_eq; split; congruence).
      split; [|split; [|split]].
      - intros x c y Ex. apply W. eapply H1; eauto. - intros x c y Ex. apply W. eapply H2; eauto.
      - intros c r Er Hq. apply W in Hq. eapply H3; eauto. - intros r c Er Hq. apply W in Hq. eapply H4; eauto. }
    symmetry. now apply words_of_iff.
  Qed.
  (** Finding: a file with a column whose name starts with a digit cannot be loaded, though the loader means to store it under "_name". *)
  Theorem C65_digit_column_refuted : forall fs folder f ub content meta names errs summary mid ns n, content_of fs (folder ++ [f]) = Some content ->
    file_layout content meta names errs summary -> stripped (fun c => c = "#"%char) names mid -> words_of mid ns ->
    In n ns -> starts_digit n -> ~ In ("_" ++ n)%string ns -> forall d, load fs folder [f] ub None <> Ok d.
  Proof.
    intros fs folder f ub content meta names errs summary mid ns n Hc Hl Hs Hw Hin (c & r & -> & Hd) Hnot. apply is_digit_spec in Hd.
    eapply columns_fail; eauto. intros t d _ H. rewrite (names_words _ _ _ Hs Hw) in H. destruct (columns_each _ _ _ _ _ _ H Hin) as (d1 & d2 & E).
    unfold load_column in E. rewrite Hd in E. rewrite index_of_none in E; [destruct (_ || _); discriminate|].
    intros y Hy. apply String.eqb_neq. intros <-. auto.
  Qed.
  (** Finding: a file without data points cannot be loaded. *)
  Theorem C65_no_points_refuted : forall fs folder f ub content meta names errs summary mid ns, content_of fs (folder ++ [f]) = Some content ->
    file_layout content meta names errs summary -> stripped (fun c => c = "#"%char) names mid -> words_of mid ns -> ns <> [] ->
    genfromtxt content = Ok [] -> forall d, load fs folder [f] ub None <> Ok d.
  Proof.
    intros fs folder f ub content meta names errs summary mid ns Hc Hl Hs Hw Hne Ht. eapply columns_fail; eauto. intros t d Ht' H.
    rewrite (names_words _ _ _ Hs Hw) in H. assert (t = []) by congruence. subst t. destruct ns as [|n ns]; [congruence|].
    destruct (columns_each _ _ _ _ _ n H (or_introl eq_refl)) as (d1 & d2 & E). unfold load_column in E. destruct n; [discriminate|].
    destruct (index_of _ _) as [i|]; [|destruct (_ || _); discriminate]. destruct (_ || _); [|discriminate]. destruct i; discriminate.
  Qed.

  Lemma load_meta_ub : forall fs folder l st m st' m', load_meta float_of int_of xml_last fs folder l st m = Ok (st', m') ->
    (forall k v, NoDup (dkeys l) -> In (k, v) l -> attr_of k = "ubconf" -> (forall k', In k' (dkeys l) -> attr_of k' = "ubconf" -> k' = k) ->
       load_ub float_of int_of xml_last fs folder v st = Ok st') /\
    ((forall k', In k' (dkeys l) -> attr_of k' <> "ubconf") -> st' = st).
  Proof.
    intros fs folder. induction l as [|[key value] l IH]; intros st m st' m' H; cbn [load_meta] in H.
    - apply Ok_inj in H. injection H as <- <-. split; auto. intros k v _ [].
    - destruct key as [|c r]; [discriminate|]. change (sanitize (if is_digit c then String "_" (String c r) else String c r)) with (attr_of (String c r)) in H.
      set (key := String c r) in *. destruct (add_attr (attr_of key) value m) as [m1|] eqn:Em; cbn [bind] in H; [|discriminate]. split.
      + intros k v N Hin Hk Hu. cbn in N. inversion N as [|? ? N1 N2]; subst. destruct Hin as [E0|Hin].
        * injection E0 as -> ->. rewrite Hk in H. change (String.eqb "ubconf" "ubconf") with true in H. cbn iota in H.
          destruct (load_ub float_of int_of xml_last fs folder v st) as [st1|]; cbn [bind] in H; [|discriminate]. f_equal. symmetry.
          eapply (IH _ _ _ _ H). intros k' Hk' E. apply N1. assert (k' = k) as <- by (apply Hu; auto; right; auto). exact Hk'.
        * assert (Hkk : attr_of key <> "ubconf").
          { intros E. apply N1. assert (key = k) as -> by (apply Hu; auto; left; auto). unfold dkeys. apply (in_map fst) in Hin. exact Hin. }
          apply String.eqb_neq in Hkk. rewrite Hkk in H. cbn [bind] in H. eapply (IH _ _ _ _ H); eauto. intros k' Hk' E. apply Hu; auto. right; auto.
      + intros Hn. assert (Hkk : attr_of key <> "ubconf") by (apply Hn; left; auto). apply String.eqb_neq in Hkk. rewrite Hkk in H. cbn [bind] in H.
        eapply (IH _ _ _ _ H). intros; apply Hn; right; auto.
  Qed.
  Lemma scan_ub : forall fs folder f ub s content meta names errs summary l1 line l2 v, load fs folder [f] ub None = Ok (Some [(f, s)]) ->
    content_of fs (folder ++ [f]) = Some content -> file_layout content meta names errs summary ->
    meta ++ summary = l1 ++ line :: l2 -> entry line "ubconf" v -> (forall line' v', In line' l2 -> ~ entry line' "ubconf" v') ->
    (forall line' k' v', In line' (meta ++ summary) -> entry line' k' v' -> key_attribute k' "ubconf" -> k' = "ubconf") ->
    exists d, load_ub float_of int_of xml_last fs folder v (ub, []) = Ok (d, rs_ub s).
  Proof.
    intros fs folder f ub s content meta names errs summary l1 line l2 v H Hc Hl El He Hlast Hu.
    destruct (scan_of_file _ _ _ _ _ _ _ _ _ _ H Hc Hl) as (md & o & md' & t & Hm & Hp & _ & _ & _ & _ & _ & d & Hlm).
    assert (G : dget String.eqb "ubconf" md = Some v) by (rewrite El in Hm; refine (loop_gets _ _ _ _ _ _ _ _ He Hlast Hm); discriminate).
    destruct (loop_keys (meta ++ summary) ([], []) (md, o) (NoDup_nil _) Hm) as (Nd & Ks). cbn [fst] in *.
    assert (P : NoDup (dkeys md') /\ dget String.eqb "ubconf" md' = Some v /\ forall x, In x (dkeys md') -> x = "countfile" \/ In x (dkeys md)).
    { destruct (dget String.eqb "preset_type" md) as [p|]; [|apply Ok_inj in Hp; subst; auto].
      destruct (String.eqb p "countfile"); [|apply Ok_inj in Hp; subst; auto].
      destruct (countfile_lines _) as [cs|]; cbn [bind] in Hp; [|discriminate]. apply Ok_inj in Hp. subst md'.
      split; [apply dset_nodup; auto|]. split; [rewrite dget_dset; exact G|]. intros x. rewrite dset_keys. auto. }
    destruct P as (Nd' & G' & Ks'). destruct (load_meta_ub fs folder _ _ _ _ _ Hlm) as (A & _). exists d. apply (A "ubconf"); auto.
    - clear - G'. induction md' as [|[x y] md' IH]; [discriminate|]. cbn [dget] in G'. destruct (String.eqb_spec "ubconf" x); [subst; left; congruence|]. right. auto.
    - intros k' Hk' Ea. destruct (Ks' k' Hk') as [->|Hin]; [discriminate|].
      destruct (Ks k' Hin) as [[]|[->|(line' & v' & Hi & He')]]; [discriminate|]. eapply Hu; eauto. now apply key_attribute_iff.
  Qed.
  Lemma add_all_get : forall (l : ubdict) (c c' : klass uval) k, NoDup (dkeys l) -> add_all l c = Ok c' ->
    dget String.eqb k c' = match dget String.eqb k l with Some v => Some v | None => dget String.eqb k c end.
  Proof.
    induction l as [|[k0 v0] l IH]; intros c c' k N H; cbn [add_all] in H; [apply Ok_inj in H; subst; auto|].
    destruct (add_attr k0 v0 c) as [c1|] eqn:E; cbn [bind] in H; [|discriminate]. inversion N as [|? ? N1 N2]; subst.
    assert (c1 = dset String.eqb k0 v0 c) as ->.
    { unfold add_attr in E. destruct (dmem _ _ _); [apply Ok_inj in E; auto|]. destruct (field_name_ok _); [apply Ok_inj in E; auto|discriminate]. }
    rewrite (IH _ _ k N2 H). cbn [dget]. rewrite dget_dset. destruct (String.eqb_spec k k0) as [->|]; auto.
    destruct (dget String.eqb k0 l) eqn:G; auto. exfalso. apply N1. clear - G. induction l as [|[x y] l IH]; [discriminate|]. cbn in *.
    destruct (String.eqb_spec k0 x); auto.
  Qed.
  Lemma read_ub_nodup : forall c u, read_ub float_of int_of xml_last c = Ok u -> NoDup (dkeys u).
  Proof.
    assert (L : forall prev line u u', NoDup (dkeys u) -> ub_line float_of int_of prev line u = Ok u' -> NoDup (dkeys u')).
    { intros prev line u u' N H. unfold ub_line in H. cbv zeta in H.
      repeat match goal with
      | H : (if ?b then _ else _) = Ok _ |- _ => destruct b
      | H : match ?x with _ => _ end = Ok _ |- _ => destruct x
      | H : (do _ <- ?x; _) = Ok _ |- _ => destruct x; cbn [bind] in H
      | H : Ok _ = Ok _ |- _ => apply Ok_inj in H; subst
      | H : Err _ = Ok _ |- _ => discriminate
      end; auto using dset_nodup. }
    assert (LL : forall l prev u u', NoDup (dkeys u) -> ub_loop float_of int_of prev l u = Ok u' -> NoDup (dkeys u')).
    { induction l as [|x l IH]; intros prev u u' N H; cbn [ub_loop] in H; [apply Ok_inj in H; subst; auto|].
      destruct (ub_line float_of int_of prev x u) as [u1|] eqn:E; cbn [bind] in H; [|discriminate]. eauto. }
    intros [|f c] u H; cbn [read_ub] in H; [discriminate|]. destruct (String.eqb f _); [eapply LL; [|exact H]; constructor|].
    destruct (xml_last _) as [[m|]|]; try discriminate. cbv zeta in H. destruct (Nat.ltb _ 9).
    - destruct (floats _ _); cbn [bind] in H; discriminate.
    - destruct (floats _ _); cbn [bind] in H; [|discriminate]. apply Ok_inj in H. subst. cbn. repeat constructor; auto.
  Qed.
  (** The folder searched for UB configurations: the one given, else the folder UBConf beside the data folder. *)
  Definition ub_folder (fs : tree) (folder : path) (given : option path) (d : path) : Prop :=
    given = Some d \/ (given = None /\ d = folder ++ [".."; "UBConf"] /\ exists l, listing fs (Some (folder ++ [".."])) = Some l /\ In "UBConf" l).
  (** The UB configuration named in the header is attached to the scan: exactly what its file holds. *)
  Theorem C65_ub : forall fs folder f ub s content meta names errs summary l1 line l2 name d files c, load fs folder [f] ub None = Ok (Some [(f, s)]) ->
    content_of fs (folder ++ [f]) = Some content -> file_layout content meta names errs summary ->
    meta ++ summary = l1 ++ line :: l2 -> entry line "ubconf" name -> (forall line' v', In line' l2 -> ~ entry line' "ubconf" v') ->
    (forall line' k' v', In line' (meta ++ summary) -> entry line' k' v' -> key_attribute k' "ubconf" -> k' = "ubconf") ->
    name <> "" -> ub_folder fs folder ub d -> listing fs (Some d) = Some files -> In name files -> content_of fs (d ++ [name]) = Some c ->
    exists u, read_ub float_of int_of xml_last c = Ok u /\ forall k, dget String.eqb k (rs_ub s) = dget String.eqb k u.
  Proof.
    intros fs folder f ub s content meta names errs summary l1 line l2 name d files c H Hc Hl El He Hlast Hu Hne Hd Hf Hin Hcc.
    destruct (scan_ub _ _ _ _ _ _ _ _ _ _ _ _ _ _ H Hc Hl El He Hlast Hu) as (d' & G).
    assert (G' : load_ub float_of int_of xml_last fs folder name (Some d, []) = Ok (d', rs_ub s)).
    { destruct Hd as [->|(-> & -> & l & Hl' & Hin')]; auto. rewrite (load_ub_found _ _ _ fs folder name [] l Hl') in G; auto.
      unfold in_list. apply existsb_exists. exists "UBConf". split; auto. }
    unfold load_ub in G'. apply String.eqb_neq in Hne. rewrite Hne in G'. cbn [bind] in G'. rewrite Hf in G'.
    assert (in_list name files = true) as E by (unfold in_list; apply existsb_exists; exists name; split; auto; apply String.eqb_refl).
    rewrite E in G'. unfold read_file in G'. rewrite Hcc in G'. cbn [bind] in G'.
    destruct (read_ub float_of int_of xml_last c) as [u|] eqn:Eu; cbn [bind] in G'; [|discriminate].
    destruct (add_all u []) as [u'|] eqn:Ea; cbn [bind] in G'; [|discriminate]. apply Ok_inj in G'. injection G' as <- <-.
    exists u. split; auto. intros k. rewrite (add_all_get _ _ _ k (read_ub_nodup _ _ Eu) Ea). destruct (dget String.eqb k u); auto.
  Qed.
End C65.
Print Assumptions C65_digit_column_refuted.
Print Assumptions C65_no_points_refuted.
Print Assumptions C65_ub.
Print Assumptions C65_messages.
Print Assumptions C65_one_column_refuted.
Print Assumptions C65_columns.
Print Assumptions C65_metadata.

(** * Examples and findings on files *)
Definition in_dir (folder : path) (p : path) : bool := if list_eq_dec string_dec folder p then true else false.
(** A folder data with the file a.dat, and beside it (or not) UBConf with the files given, and its tmp folder. *)
Definition ex_data (ubline : string) : list string :=
  ["# scan = 12"; ubline; "# s1 pre-offset = 0.5"; "# col_headers ="; "#   Pt.  s1 s-2 "; "1 2 3"; "4 5 6"; "# motor stalled"; "# Sum of Counts = 7"; "# 3:27:30 PM  7/2/2024 scan completed."].
Definition ex_tree (ubline : string) (parent ubfiles tmp : list string) : tree :=
  Tree (fun p => if in_dir ["data"; "a.dat"] p then Some (ex_data ubline)
                 else if in_dir ["data"; ".."; "UBConf"; "tmp"; "b.ini"] p || (in_dir ["data"; ".."; "UBConf"; "b.ini"] p && in_list "b.ini" ubfiles)
                 then Some [("[UBMode]" ++ newline)%string; "Mode=1"] else None)
       (fun d => match d with
                 | None => Some []
                 | Some p => if in_dir ["data"] p then Some ["a.dat"] else if in_dir ["data"; ".."] p then Some parent
                             else if in_dir ["data"; ".."; "UBConf"] p then Some ubfiles else if in_dir ["data"; ".."; "UBConf"; "tmp"] p then Some tmp else None
                 end).
Definition ex_table : list string -> result (list (list num)) := fun _ => Ok [[Some 1; Some 2; Some 3]; [Some 4; Some 5; Some 6]]%R.
Definition ex_load (fs : tree) := load (fun _ => None) (fun s => if String.eqb s "1" then Some 1%Z else None) ex_table (fun _ => None) fs ["data"] [] None None.

Example C65_ex : exists s, ex_load (ex_tree "# ubconf = b.ini" ["data"; "UBConf"] ["b.ini"] []) = Ok (Some [("a.dat", s)]) /\
  rs_data s = [("Pt", Col [Some 1; Some 4]); ("s1", Col [Some 2; Some 5]); ("s_2", Col [Some 3; Some 6])]%R /\ rs_cols s = ["Pt."; "s1"; "s-2"] /\
  rs_meta s = [("scan", "12"); ("ubconf", "b.ini"); ("s1_pre_offset", "0.5"); ("Sum_of_Counts", "7"); ("end_time", "7/2/2024 3:27:30 PM")] /\
  rs_errors s = ["# motor stalled"] /\ rs_ub s = [("UBMode", UInt 1)].
Proof. vm_compute. eexists. repeat split. Qed.
Example C65_ex_layout : file_layout (ex_data "# ubconf = b.ini") ["# scan = 12"; "# ubconf = b.ini"; "# s1 pre-offset = 0.5"] "#   Pt.  s1 s-2" ["# motor stalled"]
  ["# Sum of Counts = 7"; "# 3:27:30 PM  7/2/2024 scan completed."] /\ entry "# s1 pre-offset = 0.5" "s1 pre-offset" "0.5" /\ key_attribute "s1 pre-offset" "s1_pre_offset".
Proof.
  split; [|split].
  - split; [apply marked_iff; reflexivity|]. split; [cbn; intuition discriminate|]. split; [|right; eexists; eexists; reflexivity].
    intros e He r. cbn in He. destruct He as [<-|[<-|[<-|[<-|[<-|[]]]]]]; discriminate.
  - exists "s1 pre-offset = 0.5", "s1 pre-offset ". split.
    { pose proof (strip_set_stripped (fun c => Ascii.eqb c "#" || Ascii.eqb c " ") "# s1 pre-offset = 0.5") as (a & b & E & H1 & H2 & H3 & H4).
      exists a, b. split; auto. assert (W : forall c, Ascii.eqb c "#" || Ascii.eqb c " " = true <-> c = "#"%char \/ c = " "%char) by (intros c; rewrite orb_true_iff, !Ascii.eqb_eq; tauto).
      split; [|split; [|split]].
      - intros p c q Ex. apply W. eapply H1; eauto. - intros p c q Ex. apply W. eapply H2; eauto.
      - intros c r Er Hq. apply W in Hq. eapply H3; eauto. - intros r c Er Hq. apply W in Hq. eapply H4; eauto. }
    split; [apply closing_not; reflexivity|]. split; [apply contains1; reflexivity|]. split; [apply trimmed_iff; reflexivity|]. left. exists " "%char. reflexivity.
  - apply (proj2 (key_attribute_iff "s1 pre-offset" "s1_pre_offset")). reflexivity.
Qed.
(** Finding: a UB configuration lying in the tmp folder is found there but looked for elsewhere: the load fails. *)
Theorem C65_tmp_ub_refuted : ex_load (ex_tree "# ubconf = b.ini" ["data"; "UBConf"] [] ["b.ini"]) = Err FileNotFoundError.
Proof. vm_compute. reflexivity. Qed.
Print Assumptions C65_tmp_ub_refuted.
(** Finding: without a UBConf folder a scan whose header names a UB configuration cannot be loaded; the loader means to warn. *)
Theorem C65_no_ubconf_folder_refuted : ex_load (ex_tree "# ubconf = b.ini" ["data"] [] []) = Err TypeError.
Proof. vm_compute. reflexivity. Qed.
Print Assumptions C65_no_ubconf_folder_refuted.
(** Finding: a value written without a blank after "=" loses its first character. *)
Theorem C65_first_character_refuted : exists s, ex_load (ex_tree "# temp=300" ["data"] [] []) = Ok (Some [("a.dat", s)]) /\ dget String.eqb "temp" (rs_meta s) = Some "00".
Proof. vm_compute. eexists. split; reflexivity. Qed.
Print Assumptions C65_first_character_refuted.
Example C53_ex : rank_facility score = "ORNL" /\ exists s, ex_load (ex_tree "# temp = 300" ["data"] [] []) = Ok (Some [("a.dat", s)]) /\ rank_facility (fun s => Z.of_nat (String.length s)) = "ANSTO".
Proof. vm_compute. split; auto. eexists. split; reflexivity. Qed.
