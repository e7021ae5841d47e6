(** Property C64: reading UB configuration files. *)
From Coq Require Import Reals List ZArith String Ascii Bool Lia Lra.
From Verif Require Import Base PyStr M_ScanData M_Project M_Spice S_Str L_Str P_Spice.
Import ListNotations.
Open Scope string_scope.
Open Scope list_scope.

(** * Specification *)
Definition quote : ascii := ascii_of_nat 34.
(** A line of an ini file giving [key = val]; lines such as [[UBMode]] give nothing. *)
Definition setting (line key val : string) : Prop :=
  exists t a b, trimmed line t /\ (forall m, t <> ("[" ++ m ++ "]")%string) /\
    t = (a ++ "=" ++ b)%string /\ every (fun c => c <> "="%char) a /\ trimmed a key /\ trimmed b val.
(** The value a text stands for: a vector when it contains a comma, else a number when it can be read as one, else itself. *)
Inductive stands_for (float_of : string -> option R) : string -> uval -> Prop :=
| sv_vector : forall q1 q2 body l xs, every (fun c => c = quote) q1 -> every (fun c => c = quote) q2 ->
    (forall r, body <> String quote r) -> (forall r, body <> (r ++ String quote "")%string) ->
    occurs "," (q1 ++ body ++ q2) -> pieces "," body l -> Forall2 (fun s x => float_of s = Some x) l xs ->
    stands_for float_of (q1 ++ body ++ q2) (UVec xs)
| sv_number : forall s x, ~ occurs "," s -> s <> String quote (String quote "") -> float_of s = Some x -> stands_for float_of s (UNum x)
| sv_text : forall s, ~ occurs "," s -> s <> String quote (String quote "") -> float_of s = None -> stands_for float_of s (UStr s).
(** The line gives the key a value; an empty pair of quotes gives none. *)
Definition gives float_of (line key : string) (x : uval) : Prop := exists val, setting line key val /\ stands_for float_of val x.
Definition gives_some (line key : string) : Prop := exists val, setting line key val /\ val <> String quote (String quote "").

(** * Auxiliary *)
Lemma ends_with_spec : forall c s, ends_with c s = true <-> exists r, s = (r ++ String c "")%string.
Proof.
  induction s as [|a s IH].
  - cbn; split; [discriminate | intros [[|] H]; discriminate].
  - destruct s as [|b s].
    + cbn. rewrite Ascii.eqb_eq. split; [intros ->; exists ""; reflexivity|]. intros [[|? [|]] H]; try discriminate. cbn in H. congruence.
    + change (ends_with c (String a (String b s))) with (ends_with c (String b s)). rewrite IH. split; intros [r H].
      * exists (String a r). cbn. congruence.
      * destruct r as [|? r]; [discriminate|]. injection H; intros. exists r. auto.
Qed.
Lemma bracketed : forall t, starts_with "[" t && ends_with "]" t = true <-> exists m, t = ("[" ++ m ++ "]")%string.
Proof.
  intro t. rewrite andb_true_iff, ends_with_spec. split.
  - intros [H1 [r ->]]. destruct r as [|c r]; cbn [append starts_with] in H1; [discriminate|]. apply Ascii.eqb_eq in H1. subst. exists r. reflexivity.
  - intros [m ->]. split; [reflexivity|]. exists ("[" ++ m)%string. reflexivity.
Qed.
Lemma split_first_spec : forall c s, contains (String c "") s = true ->
  exists a b, split_first c s = (a, b) /\ s = (a ++ String c b)%string /\ every (fun d => d <> c) a.
Proof.
  induction s as [|x s IH]; intro H; [discriminate|]. cbn [split_first]. destruct (Ascii.eqb x c) eqn:E.
  - apply Ascii.eqb_eq in E. subst. exists "", s. repeat split; auto using every_nil.
  - destruct IH as (a & b & E1 & -> & Ha).
    { cbn [contains prefixb] in H. rewrite Ascii.eqb_sym, E in H. exact H. }
    rewrite E1. exists (String x a), b. repeat split; auto. apply every_cons. split; auto. now apply Ascii.eqb_neq.
Qed.
Lemma first_sep_unique : forall c a b a' b', every (fun d => d <> c) a -> every (fun d => d <> c) a' ->
  (a ++ String c b = a' ++ String c b')%string -> a = a' /\ b = b'.
Proof.
  induction a; destruct a'; cbn; intros b' Ha Ha' E; injection E; intros; subst; auto.
  - apply every_cons in Ha'. tauto.
  - apply every_cons in Ha. tauto.
  - apply every_cons in Ha, Ha'. destruct (IHa b a' b'); try tauto. subst; auto.
Qed.
Lemma setting_fun : forall line k v k' v', setting line k v -> setting line k' v' -> k = k' /\ v = v'.
Proof.
  intros line k v k' v' (t & a & b & Ht & _ & E & Ha & Hk & Hv) (t' & a' & b' & Ht' & _ & E' & Ha' & Hk' & Hv').
  apply trimmed_iff in Ht, Ht'. rewrite <- Ht in Ht'. subst t'. rewrite E in E'. cbn [append] in E'.
  destruct (first_sep_unique _ _ _ _ _ Ha Ha' E') as [<- <-]. apply trimmed_iff in Hk, Hk', Hv, Hv'. split; congruence.
Qed.

Lemma rstrip_split : forall c s, exists b, s = (rstrip c s ++ b)%string /\ every (fun d => d = c) b.
Proof.
  induction s as [|a s IH]; cbn [rstrip].
  - exists ""; split; auto using every_nil.
  - destruct IH as (x & H & Hx). destruct (rstrip c s) as [|d t] eqn:Er.
    + destruct (Ascii.eqb c a) eqn:E.
      * exists (String a x). cbn in *. split; [congruence|]. apply every_cons; split; auto. apply Ascii.eqb_eq in E; auto.
      * exists x; cbn in *; split; [congruence | auto].
    + exists x; split; auto. cbn. cbn in H. congruence.
Qed.
Lemma rstrip_last : forall c s r, rstrip c s <> (r ++ String c "")%string.
Proof.
  induction s as [|a s IH]; cbn [rstrip]; intros r H.
  - destruct r; discriminate.
  - destruct (rstrip c s) as [|d t] eqn:Er.
    + destruct (Ascii.eqb c a) eqn:E; [destruct r; discriminate|].
      destruct r as [|? [|]]; cbn in H; try discriminate. injection H; intros; subst. rewrite Ascii.eqb_refl in E. discriminate.
    + destruct r as [|e r']; cbn in H; [discriminate|]. injection H; intros; subst. eapply IH; eauto.
Qed.
Lemma strip_spec : forall c s, exists a b, s = (a ++ strip c s ++ b)%string /\ every (fun d => d = c) a /\ every (fun d => d = c) b /\
  (forall r, strip c s <> String c r) /\ (forall r, strip c s <> (r ++ String c "")%string).
Proof.
  intros c s. unfold strip. destruct (lstrip_split c s) as (a & Ha & Haa). destruct (rstrip_split c (PyStr.lstrip c s)) as (b & Hb & Hbb).
  exists a, b. split; [rewrite <- Hb; exact Ha|]. repeat split; auto.
  - intros r E. rewrite E in Hb. cbn in Hb. eapply lstrip_not. exact Hb.
  - apply rstrip_last.
Qed.

Section Ini.
  Context (float_of : string -> option R) (int_of : string -> option Z).
  Notation step := (ini_step float_of int_of).

  Lemma floats_spec : forall l xs, floats float_of l = Ok xs -> Forall2 (fun s x => float_of s = Some x) l xs.
  Proof.
    induction l as [|s l IH]; cbn; intros xs H; [apply Ok_inj in H; subst; constructor|].
    destruct (float_of s) eqn:E; [|discriminate]. destruct (floats float_of l); cbn in H; [|discriminate]. apply Ok_inj in H. subst. constructor; auto.
  Qed.

  (** What one line does. *)
  Lemma step_spec : forall prev line u u', step prev line u = Ok u' ->
    (u' = u /\ (forall k v, setting line k v -> k = "Mode" \/ v = String quote (String quote ""))) \/
    (exists v z, setting line "Mode" v /\ int_of v = Some z /\
       ((trimmed prev "[UBMode]" /\ u' = dset String.eqb "UBMode" (UInt z) u) \/ (trimmed prev "[AngleMode]" /\ u' = dset String.eqb "AngleMode" (UInt z) u))) \/
    (exists k x, k <> "Mode" /\ gives float_of line k x /\ gives_some line k /\ u' = dset String.eqb k x u).
  Proof.
    intros prev line u u' H. unfold ini_step in H. cbv zeta in H. pose proof (trimmed_strip line) as Ht. set (t := strip_ws line) in *.
    destruct (String.eqb_spec t "") as [E0|E0].
    { left. apply Ok_inj in H. subst u'. split; auto. intros k v (t' & a & b & Ht' & _ & E & _). apply trimmed_iff in Ht'. fold t in Ht'. rewrite Ht', E0 in E. destruct a; discriminate. }
    destruct (starts_with "[" t && ends_with "]" t) eqn:Eb.
    { left. apply Ok_inj in H. subst u'. split; auto. intros k v (t' & a & b & Ht' & Hn & _). apply trimmed_iff in Ht'. apply bracketed in Eb as [m E]. destruct (Hn m). rewrite Ht'. exact E. }
    destruct (contains "=" t) eqn:Ee; cbn [negb] in H.
    2: { left. apply Ok_inj in H. subst u'. split; auto. intros k v (t' & a & b & Ht' & _ & E & _). apply trimmed_iff in Ht'. apply contains_false in Ee. destruct Ee. exists a, b. fold t in Ht'. rewrite <- Ht'. exact E. }
    destruct (split_first_spec _ _ Ee) as (k0 & v0 & Es & Et & Hk0). unfold equals in H. rewrite Es in H.
    assert (Hset : setting line (strip_ws k0) (strip_ws v0)).
    { exists t, k0, v0. repeat split; auto using trimmed_strip. intros m E. assert (starts_with "[" t && ends_with "]" t = true) by (apply bracketed; eauto). congruence. }
    set (key := strip_ws k0) in *. set (val := strip_ws v0) in *. clearbody key val. clear Es Et Hk0 k0 v0.
    destruct (String.eqb_spec key "Mode") as [->|Hm].
    { destruct (String.eqb_spec (strip_ws prev) "[UBMode]") as [Ep|Ep].
      { destruct (int_of val) as [z|] eqn:Ei; [|discriminate]. apply Ok_inj in H. right; left. exists val, z. repeat split; auto. left. split; auto. apply trimmed_iff. auto. }
      destruct (String.eqb_spec (strip_ws prev) "[AngleMode]") as [Ep'|Ep'].
      { destruct (int_of val) as [z|] eqn:Ei; [|discriminate]. apply Ok_inj in H. right; left. exists val, z. repeat split; auto. right. split; auto. apply trimmed_iff. auto. }
      left. apply Ok_inj in H. split; auto. intros k v Hs. destruct (setting_fun _ _ _ _ _ Hset Hs); auto. }
    destruct (contains "," val) eqn:Ec.
    { destruct (floats float_of (split_on comma (strip (ascii_of_nat 34) val))) as [xs|] eqn:Ef; cbn [bind] in H; [|discriminate]. apply Ok_inj in H.
      right; right. exists key, (UVec xs). repeat split; auto.
      - exists val. split; auto. apply contains_spec in Ec. destruct (strip_spec quote val) as (a & b & E & Ha & Hb & H1 & H2).
        rewrite E. eapply sv_vector; eauto; [rewrite <- E; auto | apply pieces_iff; reflexivity | apply floats_spec; exact Ef].
      - exists val. split; auto. intros ->. discriminate. }
    apply contains_false in Ec. fold quote in H. destruct (String.eqb_spec val (String quote "" ++ String quote "")%string) as [Eq|Eq]; cbn [append] in Eq.
    { subst val. rewrite String.eqb_refl in H. left. apply Ok_inj in H. split; auto. intros k v Hs. destruct (setting_fun _ _ _ _ _ Hset Hs); auto. }
    pose proof Eq as Eq'. apply String.eqb_neq in Eq'. rewrite Eq' in H. right; right.
    destruct (float_of val) eqn:Ev; apply Ok_inj in H; exists key; eexists; (split; [exact Hm|]); (split; [|split; [exists val; eauto | symmetry; exact H]]); exists val; split; auto; constructor; auto.
  Qed.

  Definition reserved (k : string) : Prop := k = "Mode" \/ k = "UBMode" \/ k = "AngleMode".

  Lemma loop_value : forall l prev u u' k, ~ reserved k -> ini_loop float_of int_of prev l u = Ok u' ->
    (exists l1 line l2 x, l = l1 ++ line :: l2 /\ gives float_of line k x /\ (forall y, In y l2 -> ~ gives_some y k) /\ dget String.eqb k u' = Some x) \/
    ((forall y, In y l -> ~ gives_some y k) /\ dget String.eqb k u' = dget String.eqb k u).
  Proof.
    induction l as [|line l IH]; intros prev u u' k Hk H; cbn [ini_loop] in H.
    - apply Ok_inj in H. subst. right. split; auto.
    - destruct (step prev line u) as [u1|] eqn:E; cbn [bind] in H; [|discriminate]. destruct (IH _ _ _ _ Hk H) as [(l1 & y & l2 & x & -> & H1 & H2 & H3)|[H1 H2]].
      + left. exists (line :: l1), y, l2, x. repeat split; auto.
      + apply step_spec in E as [[-> E]|[(v & z & Hs & _ & E)|(k' & x & Hm & Hg & Hgs & ->)]].
        * right. split; auto. intros y [<-|Hy]; auto. intros (v & Hv & Hn). destruct (E _ _ Hv); auto. subst. apply Hk. left; auto.
        * right. split.
          -- intros y [<-|Hy]; auto. intros (v' & Hv & Hn). destruct (setting_fun _ _ _ _ _ Hv Hs). subst. apply Hk. left; auto.
          -- rewrite H2. destruct E as [[_ ->]|[_ ->]]; rewrite dget_dset.
             ++ destruct (String.eqb_spec k "UBMode"); auto. subst. destruct Hk. right; left; auto.
             ++ destruct (String.eqb_spec k "AngleMode"); auto. subst. destruct Hk. right; right; auto.
        * rewrite dget_dset in H2. destruct (String.eqb_spec k k').
          -- subst k'. left. exists [], line, l, x. repeat split; auto.
          -- right. split; auto. intros y [<-|Hy]; auto. intros (v & Hv & Hn). destruct Hgs as (v' & Hv' & _). destruct (setting_fun _ _ _ _ _ Hv Hv'). congruence.
  Qed.

  (** Every key has the value of the last line that gives it one. *)
  Theorem C64_values : forall contents u k, parse_ini float_of int_of contents = Ok u -> ~ reserved k ->
    (exists l1 line l2 x, contents = l1 ++ line :: l2 /\ gives float_of line k x /\ (forall y, In y l2 -> ~ gives_some y k) /\ dget String.eqb k u = Some x) \/
    ((forall y, In y contents -> ~ gives_some y k) /\ dget String.eqb k u = None).
  Proof. intros contents u k H Hk. unfold parse_ini in H. apply (loop_value _ _ _ _ _ Hk H). Qed.

  Lemma loop_untouched : forall l prev u u' m, (m = "UBMode" \/ m = "AngleMode") ->
    (forall y v, In y l -> ~ setting y "Mode" v /\ ~ setting y m v) -> ini_loop float_of int_of prev l u = Ok u' -> dget String.eqb m u' = dget String.eqb m u.
  Proof.
    induction l as [|line l IH]; intros prev u u' m Hm Hn H; cbn [ini_loop] in H.
    - apply Ok_inj in H. subst; auto.
    - destruct (step prev line u) as [u1|] eqn:E; cbn [bind] in H; [|discriminate].
      rewrite (IH line u1 u' m Hm); auto; [|intros y v Hy; apply Hn; right; auto].
      apply step_spec in E as [[-> E]|[(v & z & Hs & _ & E)|(k' & x & Hk & (v & Hv & _) & Hgs & ->)]]; auto.
      + exfalso. destruct (Hn line v (or_introl eq_refl)); auto.
      + rewrite dget_dset. destruct (String.eqb_spec m k'); auto. subst k'. exfalso. destruct (Hn line v (or_introl eq_refl)); auto.
  Qed.
  Lemma loop_app : forall l1 l2 prev u u', ini_loop float_of int_of prev (l1 ++ l2) u = Ok u' ->
    exists u1, ini_loop float_of int_of prev l1 u = Ok u1 /\ ini_loop float_of int_of (last l1 prev) l2 u1 = Ok u'.
  Proof.
    induction l1 as [|x l1 IH]; intros l2 prev u u' H; cbn [List.app ini_loop last] in *; [eauto|].
    destruct (step prev x u) as [u1|]; cbn [bind] in *; [|discriminate]. destruct (IH _ _ _ _ H) as (u2 & H1 & H2). exists u2. split; auto.
    destruct l1; [exact H2|]. replace (last (s :: l1) prev) with (last (s :: l1) x); auto. clear. revert s. induction l1; intros; auto. cbn [last] in *. apply IHl1.
  Qed.

  Lemma mode_step : forall prev line u m v z, m = "UBMode" \/ m = "AngleMode" -> trimmed prev ("[" ++ m ++ "]") ->
    setting line "Mode" v -> int_of v = Some z -> step prev line u = Ok (dset String.eqb m (UInt z) u).
  Proof.
    intros prev line u m v z Hm Hp (t & a & b & Ht & Hb & Et & Ha & Hk & Hv) Hz. unfold ini_step. cbv zeta.
    apply trimmed_iff in Ht, Hp, Hk, Hv. rewrite <- Ht, <- Hp.
    destruct (String.eqb_spec t "") as [E|_]; [rewrite E in Et; destruct a; discriminate|].
    destruct (starts_with "[" t && ends_with "]" t) eqn:Eb; [apply bracketed in Eb as [x E]; now destruct (Hb x)|].
    assert (Ec : contains "=" t = true) by (apply contains_spec; exists a, b; exact Et). rewrite Ec. cbn [negb].
    destruct (split_first_spec _ _ Ec) as (a' & b' & Es & Et' & Ha'). unfold equals. rewrite Es.
    rewrite Et in Et'. cbn [append] in Et'. destruct (first_sep_unique _ _ _ _ _ Ha Ha' Et') as [<- <-]. rewrite <- Hk, <- Hv, Hz.
    destruct Hm as [->| ->]; reflexivity.
  Qed.

  (** The mode is read from the line directly below its section title. *)
  Theorem C64_modes : forall contents u l1 title line l2 m v z, parse_ini float_of int_of contents = Ok u ->
    contents = l1 ++ title :: line :: l2 -> m = "UBMode" \/ m = "AngleMode" -> trimmed title ("[" ++ m ++ "]") ->
    setting line "Mode" v -> int_of v = Some z -> (forall y w, In y l2 -> ~ setting y "Mode" w /\ ~ setting y m w) ->
    dget String.eqb m u = Some (UInt z).
  Proof.
    intros contents u l1 title line l2 m v z H -> Hm Ht Hs Hz Hl. unfold parse_ini in H. apply loop_app in H as (u1 & _ & H).
    cbn [ini_loop] in H. destruct (step _ title u1) as [u2|]; cbn [bind] in H; [|discriminate].
    rewrite (mode_step _ _ _ _ _ _ Hm Ht Hs Hz) in H. cbn [bind] in H.
    rewrite (loop_untouched _ _ _ _ _ Hm Hl H). now rewrite dget_dset, String.eqb_refl.
  Qed.

  Context (xml_matrix : string -> option (option string)).
  (** A readable file has one of the two known formats; an XML file gives exactly the nine numbers of the matrix. *)
  Theorem C64_formats : forall fs p u, read_spice_ubconf float_of int_of xml_matrix fs p = Ok u ->
    exists first rest, lines_of fs p = Some (first :: rest) /\
      ((occurs "[UBMode]" first /\ parse_ini float_of int_of (first :: rest) = Ok u) \/
       (~ occurs "[UBMode]" first /\ occurs "xml" first /\ exists text ws xs, xml_matrix (String.concat newline (first :: rest)) = Some text /\
          words_of (match text with Some s => s | None => "" end) ws /\ Forall2 (fun s x => float_of s = Some x) ws xs /\
          List.length xs = 9%nat /\ u = [("UBMatrix", UVec xs)])).
  Proof.
    intros fs p u H. unfold read_spice_ubconf in H. destruct (lines_of fs p) as [[|first rest]|]; [| |destruct (is_dir fs p); discriminate];
      (destruct (existsb (String.eqb (suffix (base p))) [".ini"; ".dat"]); [|discriminate]); [discriminate|].
    exists first, rest. split; auto. destruct (contains "[UBMode]" first) eqn:E1; [apply contains_spec in E1; auto|]. apply contains_false in E1. right. split; auto.
    destruct (contains "xml" first) eqn:E2; [|discriminate]. apply contains_spec in E2. split; auto. unfold parse_xml, join in H.
    destruct (xml_matrix (String.concat newline (first :: rest))) as [text|]; [|discriminate].
    destruct (floats float_of (words match text with Some s => s | None => "" end)) as [xs|] eqn:Ef; cbn [bind] in H; [|discriminate].
    destruct (Nat.eqb_spec (List.length xs) 9); [|discriminate]. apply Ok_inj in H. subst.
    exists text, (words match text with Some s => s | None => "" end), xs. repeat split; auto; [apply words_words_of | now apply floats_spec].
  Qed.
  (** Finding: a file in any other format fails with an internal error (UnboundLocalError) instead of being refused. *)
  Theorem C64_unknown_format_refuted : forall fs p first rest, lines_of fs p = Some (first :: rest) ->
    suffix (base p) = ".ini" \/ suffix (base p) = ".dat" -> ~ occurs "[UBMode]" first -> ~ occurs "xml" first ->
    read_spice_ubconf float_of int_of xml_matrix fs p = Err UnboundLocalError.
  Proof.
    intros fs p first rest Hl Hs H1 H2. unfold read_spice_ubconf. rewrite Hl. apply contains_false in H1, H2. rewrite H1, H2.
    destruct Hs as [->| ->]; reflexivity.
  Qed.
  (** Finding: a blank line between the title and the mode loses the mode. *)
  Theorem C64_mode_lost_refuted : forall z, int_of "1" = Some z ->
    parse_ini float_of int_of ["[UBMode]"; "Mode=1"] = Ok [("UBMode", UInt z)] /\ parse_ini float_of int_of ["[UBMode]"; ""; "Mode=1"] = Ok [].
  Proof. intros z Hz. split; [|reflexivity]. unfold parse_ini. cbn [ini_loop last].
    change (step "Mode=1" "[UBMode]" []) with (@Ok ubdict []). cbn [bind].
    rewrite (mode_step "[UBMode]" "Mode=1" _ "UBMode" "1" z); auto; [apply trimmed_iff; reflexivity|].
    exists "Mode=1", "Mode", "1". repeat split; try (apply trimmed_iff; reflexivity); [intros [|? [|]]; discriminate|].
    apply contains1. reflexivity. Qed.
End Ini.
Print Assumptions C64_values.
Print Assumptions C64_modes.
Print Assumptions C64_formats.
Print Assumptions C64_unknown_format_refuted.
Print Assumptions C64_mode_lost_refuted.
Example C64_ex : parse_ini (fun s => if String.eqb s "1" then Some 1%R else None) (fun s => if String.eqb s "2" then Some 2%Z else None)
  ["[UBMode]"; "Mode=2"; "[Data]"; "energy = 1"; "Name=abc"; ("v=" ++ String quote ("1,1" ++ String quote ""))%string] =
  Ok [("UBMode", UInt 2); ("energy", UNum 1); ("Name", UStr "abc"); ("v", UVec [1; 1]%R)].
Proof. reflexivity. Qed.
