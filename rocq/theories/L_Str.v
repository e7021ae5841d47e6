(** Lemmas relating the string functions of the models to the vocabulary of S_Str. *)
From Coq Require Import List String Ascii Bool Lia Arith.
From Verif Require Import Base PyStr M_Spice S_Str.
Import ListNotations.
Open Scope string_scope.

Lemma sapp_nil : forall s, (s ++ "" = s)%string.
Proof. induction s; cbn; congruence. Qed.
Lemma sapp_assoc : forall a b c, ((a ++ b) ++ c = a ++ (b ++ c))%string.
Proof. induction a; cbn; intros; congruence. Qed.

Lemma every_nil : forall P, every P "".
Proof. intros P a c b H. destruct a; discriminate. Qed.
Lemma every_cons : forall (P : ascii -> Prop) c s, every P (String c s) <-> P c /\ every P s.
Proof.
  intros; split.
  - intro H; split; [apply (H "" c s); reflexivity | intros a d b E; apply (H (String c a) d b); cbn; congruence].
  - intros [Hc Hs] a d b E. destruct a; cbn in E; injection E; intros; subst; auto. eapply Hs; eauto.
Qed.
Lemma every_app : forall P a b, every P (a ++ b)%string <-> every P a /\ every P b.
Proof.
  induction a; cbn; intros.
  - split; [intro; split; auto using every_nil | tauto].
  - rewrite !every_cons, IHa. tauto.
Qed.

Lemma is_space_white : forall c, is_space c = true <-> white c.
Proof.
  intro c; unfold is_space, white. rewrite orb_true_iff, !andb_true_iff, !Nat.leb_le. lia.
Qed.
Lemma is_space_false : forall c, is_space c = false <-> ~ white c.
Proof. intro c. rewrite <- is_space_white. destruct (is_space c); split; intros; congruence. Qed.

Lemma lstrip_ws_blank : forall a x, blank a -> lstrip_ws (a ++ x) = lstrip_ws x.
Proof.
  induction a; cbn; intros; auto. apply every_cons in H as [H1 H2].
  apply is_space_white in H1. rewrite H1. auto.
Qed.
Lemma lstrip_ws_tight : forall c r, ~ white c -> lstrip_ws (String c r) = String c r.
Proof. intros; cbn. apply is_space_false in H. now rewrite H. Qed.
Lemma rstrip_ws_blank : forall t b, blank b -> rstrip_ws (t ++ b) = rstrip_ws t.
Proof.
  induction t; cbn; intros.
  - induction b; cbn; auto. apply every_cons in H as [H1 H2]. rewrite IHb by auto. apply is_space_white in H1. now rewrite H1.
  - now rewrite IHt.
Qed.
Lemma rstrip_ws_tight : forall t, (forall r c, t = (r ++ String c "")%string -> ~ white c) -> rstrip_ws t = t.
Proof.
  induction t; cbn; intros H; auto. destruct t as [|c' t'].
  - cbn. assert (E : is_space a = false) by (apply is_space_false; apply (H "" a); reflexivity). now rewrite E.
  - rewrite IHt; auto. intros r c E. apply (H (String a r) c). cbn. now rewrite E.
Qed.
Lemma trimmed_unique : forall s t, trimmed s t -> t = strip_ws s.
Proof.
  intros s t (a & b & -> & Ha & Hb & Hl & Hr). unfold strip_ws. rewrite lstrip_ws_blank by auto.
  destruct t as [|c r].
  - cbn. rewrite <- (sapp_nil b), lstrip_ws_blank by auto. reflexivity.
  - change (String c r ++ b)%string with (String c (r ++ b)). rewrite lstrip_ws_tight by eauto.
    change (String c (r ++ b)) with (String c r ++ b)%string. rewrite rstrip_ws_blank, rstrip_ws_tight; auto.
Qed.
Lemma lstrip_ws_split : forall s, exists a, s = (a ++ lstrip_ws s)%string /\ blank a.
Proof.
  induction s; cbn.
  - exists ""; split; auto. apply every_nil.
  - destruct (is_space a) eqn:E.
    + destruct IHs as (x & H & Hx). exists (String a x); cbn; split; [congruence|]. apply every_cons; split; auto. now apply is_space_white.
    + exists ""; split; auto. apply every_nil.
Qed.
Lemma rstrip_ws_split : forall s, exists b, s = (rstrip_ws s ++ b)%string /\ blank b.
Proof.
  induction s; cbn.
  - exists ""; split; auto. apply every_nil.
  - destruct IHs as (x & H & Hx). destruct (rstrip_ws s) as [|c t] eqn:Er.
    + destruct (is_space a) eqn:E.
      * exists (String a x). cbn in *. split; [congruence|]. apply every_cons; split; auto. now apply is_space_white.
      * exists x; cbn in *; split; [congruence | auto].
    + exists x; split; auto. cbn. cbn in H. congruence.
Qed.
Lemma rstrip_ws_last : forall s r c, rstrip_ws s = (r ++ String c "")%string -> ~ white c.
Proof.
  induction s; cbn; intros r c H.
  - destruct r; discriminate.
  - destruct (rstrip_ws s) as [|d t] eqn:Er.
    + destruct (is_space a) eqn:E; [destruct r; discriminate|].
      destruct r as [|? [|]]; cbn in H; try discriminate. injection H; intros; subst. now apply is_space_false.
    + destruct r as [|e r']; cbn in H; [discriminate|]. injection H; intros; subst. eapply IHs; eauto.
Qed.
Lemma trimmed_strip : forall s, trimmed s (strip_ws s).
Proof.
  intro s. unfold strip_ws. destruct (lstrip_ws_split s) as (a & Ha & Hab). destruct (rstrip_ws_split (lstrip_ws s)) as (b & Hb & Hbb).
  exists a, b. split; [rewrite <- Hb; exact Ha|]. split; [auto|]. split; [auto|]. split.
  - intros c r E. rewrite E in Hb. cbn in Hb. clear - Hb. revert Hb. generalize (r ++ b)%string as z. intros z Hb.
    revert c z Hb. induction s; cbn; intros; [discriminate|]. destruct (is_space a) eqn:E; eauto.
    injection Hb; intros; subst. now apply is_space_false.
  - apply rstrip_ws_last.
Qed.
Lemma trimmed_iff : forall s t, trimmed s t <-> t = strip_ws s.
Proof. split; [apply trimmed_unique | intros ->; apply trimmed_strip]. Qed.

(** ** Containing *)
Lemma prefixb_spec : forall p s, prefixb p s = true <-> exists b, s = (p ++ b)%string.
Proof.
  induction p; cbn; intros.
  - split; [eauto | auto].
  - destruct s; [split; [discriminate | intros [b E]; discriminate]|].
    rewrite andb_true_iff, Ascii.eqb_eq, IHp. split.
    + intros [-> [b ->]]. eauto.
    + intros [b E]. injection E; intros; subst. eauto.
Qed.
Lemma contains_spec : forall p s, contains p s = true <-> occurs p s.
Proof.
  intros p s; unfold occurs. revert p. induction s; intros; cbn [contains]; rewrite orb_true_iff, prefixb_spec.
  - split.
    + intros [[b ->]|]; [|discriminate]. exists "", b; reflexivity.
    + intros (a & b & E). left. destruct a; [|discriminate]. eauto.
  - rewrite IHs. split.
    + intros [[b E]|(x & y & ->)]; [exists "", b; auto | exists (String a x), y; auto].
    + intros (x & y & E). destruct x as [|c x]; cbn in E; [left; eauto|]. right. injection E; intros; subst. eauto.
Qed.
Lemma contains_false : forall p s, contains p s = false <-> ~ occurs p s.
Proof. intros. rewrite <- contains_spec. destruct (contains p s); split; intros; congruence. Qed.
Lemma contains1 : forall c s, contains (String c "") s = false <-> every (fun d => d <> c) s.
Proof.
  intros. rewrite contains_false. split.
  - intros H a d b E ->. apply H. exists a, b. auto.
  - intros H (a & b & E). apply (H a c b); auto.
Qed.

(** ** Stripping a character *)
Lemma lstrip_split : forall c s, exists a, s = (a ++ PyStr.lstrip c s)%string /\ every (fun d => d = c) a.
Proof.
  induction s; cbn.
  - exists ""; split; auto using every_nil.
  - destruct (Ascii.eqb c a) eqn:E.
    + apply Ascii.eqb_eq in E; subst. destruct IHs as (x & H & Hx). exists (String a x); cbn; split; [congruence|].
      apply every_cons; auto.
    + exists ""; split; auto using every_nil.
Qed.
Lemma lstrip_not : forall c s r, PyStr.lstrip c s <> String c r.
Proof.
  induction s; cbn; intros r H; [discriminate|]. destruct (Ascii.eqb c a) eqn:E; [eapply IHs; eauto|].
  injection H; intros; subst. rewrite Ascii.eqb_refl in E; discriminate.
Qed.
Lemma lstrip_unique : forall c a x, every (fun d => d = c) a -> (forall r, x <> String c r) -> PyStr.lstrip c (a ++ x) = x.
Proof.
  induction a; cbn; intros x Ha Hx.
  - destruct x; cbn; auto. destruct (Ascii.eqb c a) eqn:E; auto. apply Ascii.eqb_eq in E; subst. now destruct (Hx x).
  - apply every_cons in Ha as [-> Ha]. rewrite Ascii.eqb_refl. auto.
Qed.

(** ** Splitting *)
Lemma split_on_ne : forall c s, split_on c s <> [].
Proof. destruct s; cbn; [discriminate|]. destruct (Ascii.eqb a c); [discriminate|]. destruct (split_on c s); discriminate. Qed.
Lemma split_on_concat : forall c s, String.concat (String c "") (split_on c s) = s.
Proof.
  induction s; cbn [split_on]; auto. destruct (Ascii.eqb a c) eqn:E.
  - apply Ascii.eqb_eq in E; subst. destruct (split_on c s) eqn:Es; [now destruct (split_on_ne c s)|]. cbn in *. now rewrite IHs.
  - destruct (split_on c s) as [|p ps] eqn:Es; [now destruct (split_on_ne c s)|]. destruct ps; cbn in *; congruence.
Qed.
Lemma split_on_clean : forall c s, Forall (every (fun d => d <> c)) (split_on c s).
Proof.
  induction s; cbn [split_on].
  - constructor; auto using every_nil.
  - destruct (Ascii.eqb a c) eqn:E; [constructor; auto using every_nil|].
    destruct (split_on c s) as [|p ps]; inversion IHs; subst; constructor; auto; apply every_cons; split; auto using every_nil;
      intros ->; rewrite Ascii.eqb_refl in E; discriminate.
Qed.
Lemma split_on_pieces : forall c s, pieces c s (split_on c s).
Proof. intros; split; [apply split_on_ne | split; [symmetry; apply split_on_concat | apply split_on_clean]]. Qed.
Lemma split_on_app : forall c p s, every (fun d => d <> c) p -> split_on c (p ++ String c s) = p :: split_on c s.
Proof.
  induction p; cbn; intros.
  - now rewrite Ascii.eqb_refl.
  - apply every_cons in H as [H1 H2]. apply Ascii.eqb_neq in H1. rewrite H1, IHp; auto.
Qed.
Lemma split_on_one : forall c p, every (fun d => d <> c) p -> split_on c p = [p].
Proof.
  induction p; cbn; intros; auto. apply every_cons in H as [H1 H2]. apply Ascii.eqb_neq in H1. rewrite H1, IHp; auto.
Qed.
Lemma pieces_unique : forall c s l, pieces c s l -> l = split_on c s.
Proof.
  intros c s l (Hn & -> & Hf). induction l as [|p l IH]; [congruence|]. inversion Hf; subst. destruct l as [|q l].
  - cbn. now rewrite split_on_one.
  - change (String.concat (String c "") (p :: q :: l)) with (p ++ String c (String.concat (String c "") (q :: l)))%string.
    rewrite split_on_app by auto. f_equal. apply IH; auto. discriminate.
Qed.
Lemma pieces_iff : forall c s l, pieces c s l <-> l = split_on c s.
Proof. split; [apply pieces_unique | intros ->; apply split_on_pieces]. Qed.

(** ** Words *)
Lemma words_blank : forall a x, blank a -> words (a ++ x) = words x.
Proof.
  induction a; cbn [append words]; intros; auto. apply every_cons in H as [H1 H2]. apply is_space_white in H1. rewrite H1. auto.
Qed.
Lemma words_word : forall w x, w <> "" -> every (fun c => ~ white c) w ->
  (forall c r, x = String c r -> white c) -> words (w ++ x) = w :: words x.
Proof.
  induction w as [|c w IH]; intros x Hn Hw Hx; [congruence|]. apply every_cons in Hw as [Hc Hw].
  apply is_space_false in Hc. destruct w as [|d w].
  - destruct x as [|e x']; cbn [append words]; rewrite Hc; auto.
    specialize (Hx e x' eq_refl). apply is_space_white in Hx. now rewrite Hx.
  - change ((String c (String d w)) ++ x)%string with (String c (String d (w ++ x))).
    assert (Hd : is_space d = false) by (apply every_cons in Hw; apply is_space_false; tauto).
    remember (String d (w ++ x)) as y eqn:Ey.
    assert (words y = String d w :: words x) by (subst y; apply (IH x); auto; discriminate).
    subst y. cbn [words] in *. rewrite Hc, Hd in *. rewrite H. reflexivity.
Qed.
Lemma words_of_words : forall s ws, words_of s ws -> ws = words s.
Proof.
  induction 1.
  - rewrite <- (sapp_nil s), words_blank by auto. reflexivity.
  - rewrite words_blank, words_word by auto. congruence.
Qed.
Lemma words_words_of : forall s, words_of s (words s).
Proof.
  intro s. remember (String.length s) as n eqn:En. assert (Hle : String.length s <= n) by lia. clear En. revert s Hle.
  induction n; intros s Hle.
  - destruct s; [|cbn in Hle; lia]. constructor. apply every_nil.
  - destruct (lstrip_ws_split s) as (a & Ha & Hb). destruct (lstrip_ws s) as [|c r] eqn:El.
    + rewrite sapp_nil in Ha; subst. replace (words a) with (@nil string); [now constructor|].
      rewrite <- (sapp_nil a), words_blank by auto. reflexivity.
    + assert (Hc : ~ white c).
      { destruct (trimmed_strip s) as (x & y & Hs & Hx & Hy & Hl & _). unfold strip_ws in *. rewrite El in Hs, Hl. cbn [rstrip_ws] in Hs, Hl.
        destruct (rstrip_ws r) eqn:Er.
        - destruct (is_space c) eqn:Ec; [|now apply is_space_false].
          exfalso. clear - El Ec. revert El. induction s; cbn; [discriminate|]. destruct (is_space a) eqn:E; auto. congruence.
        - eapply Hl. reflexivity. }
      assert (exists w s', String c r = (w ++ s')%string /\ w <> "" /\ every (fun c => ~ white c) w /\ (forall c r, s' = String c r -> white c)) as (w & s' & E1 & E2 & E3 & E4).
      { clear - Hc. revert c Hc. induction r as [|d r IH]; intros.
        - exists (String c ""), "". repeat split; auto; try discriminate. apply every_cons; split; auto using every_nil.
        - destruct (is_space d) eqn:Ed.
          + exists (String c ""), (String d r). repeat split; auto; try discriminate.
            * apply every_cons; split; auto using every_nil.
            * intros c0 r0 E. injection E; intros; subst. now apply is_space_white.
          + apply is_space_false in Ed. destruct (IH d Ed) as (w & s' & E & Hn & Hw & Hs).
            exists (String c w), s'. rewrite E. repeat split; auto; try discriminate. apply every_cons; auto. }
      rewrite E1 in Ha. rewrite Ha. rewrite words_blank, words_word by auto. constructor; auto. apply IHn.
      assert (String.length s = String.length a + (String.length w + String.length s')).
      { rewrite Ha. clear. induction a; cbn; [|lia]. induction w; cbn; lia. }
      destruct w; [congruence|]. cbn in H. lia.
Qed.
Lemma words_of_iff : forall s ws, words_of s ws <-> ws = words s.
Proof. split; [apply words_of_words | intros ->; apply words_words_of]. Qed.
