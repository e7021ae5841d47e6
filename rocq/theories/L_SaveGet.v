(** Lemmas for C73: lookups in an entry that was saved and read back. *)
From Coq Require Import Reals List String Ascii Bool Lia Lra.
From Verif Require Import Base PyStr M_Tavi P_Tavi M_Nexus P_Nexus L_NexusFile L_NexusLinks P_NexusFile L_Str L_ScanFields S_Save L_Save.
Import ListNotations.
Open Scope string_scope.
Open Scope list_scope.
Notation child := P_Nexus.child.
Notation find_group := P_NexusFile.find_group.

(** A lookup does not see attributes, and sees only what is in the datasets. *)
Definition via (f : leaf -> leaf) (r : result (option val)) : result (option val) := rmap (option_map (bare f)) r.
Lemma bares_mem : forall f k l, named k -> dmem String.eqb k (bares f l) = dmem String.eqb k l.
Proof. intros f k l [NA _]. pose proof (bares_get f l k NA) as E. rewrite !dmem_get. rewrite E. destruct (sget k l); auto. Qed.
Lemma go_bare : forall full f t, Forall named full -> groups t -> forall w, match w with Some ks => Forall named ks | None => True end ->
  go full "dataset" (bare f t) w = via f (go full "dataset" t w).
Proof.
  intros full f t NF G. induction G as [l _ IH]. intros w NW. rewrite bare_dict, !go_dict.
  assert (S : search full "dataset" (bares f l) = via f (search full "dataset" l)).
  { clear NW w. induction l as [|[a v] l]; auto. rewrite bares_cons. cbn [search].
    assert (IHl' : search full "dataset" (bares f l) = via f (search full "dataset" l)) by (apply IHl; intros; eapply IH; eauto; right; eauto). clear IHl.
    destruct (String.eqb a "attrs") eqn:QA; cbn [orb]; [auto|]. cbn [search]. rewrite QA. cbn [orb]. destruct (String.eqb a "dataset") eqn:QD; auto.
    assert (NA : named a) by (split; apply String.eqb_neq; auto). destruct v as [x|d]; [exact IHl'|]. pose proof (IH a (Dict d) (or_introl eq_refl) NA None Logic.I) as E.
    destruct (bare f (Dict d)) eqn:B; [rewrite bare_dict in B; discriminate|]. rewrite E. destruct (go full "dataset" (Dict d) None) as [[y|]|]; cbn; auto. }
  assert (C : forall k ks, named k -> Forall named ks -> child full "dataset" k ks (bares f l) = via f (child full "dataset" k ks l)).
  { intros k ks NK NKS. rewrite !child_get, bares_get by apply NK. destruct (sget k l) as [v|] eqn:E; auto. cbn [option_map]. apply (IH k v); auto. apply sget_in; auto. }
  destruct w as [[|k ks]|].
  - rewrite bares_get by discriminate. destruct (sget "dataset" l) as [v|]; cbn; auto.
  - inversion NW; subst. auto.
  - destruct full as [|k ks]; auto. inversion NF; subst. rewrite bares_mem by auto. destruct (dmem String.eqb k l); auto.
Qed.

(** A group of bare datasets. *)
Definition plain (l : list (string * val)) : Prop := forall k v, In (k, v) l -> named k /\ exists x, v = Dict [("dataset", Leaf x)].
Lemma search_plain : forall full l, Forall named full -> plain l -> search full "dataset" l = Ok None.
Proof.
  intros full l NF. induction l as [|[k v] l]; intros P; auto. cbn [search]. destruct (P k v (or_introl eq_refl)) as [[NA ND] (x & ->)].
  apply String.eqb_neq in NA, ND. rewrite NA, ND. cbn [orb]. assert (G : go full "dataset" (Dict [("dataset", Leaf x)]) None = Ok None).
  { rewrite go_dict. destruct full as [|a full]; auto. inversion NF; subst. unfold dmem. cbn. destruct (String.eqb a "dataset") eqn:Q; auto. apply String.eqb_eq in Q. subst. destruct H1. contradiction. }
  rewrite G. cbn [bind]. apply IHl. intros k' v' I. apply P. right. auto.
Qed.
(** The same but for the order below "data", and for what is new there. *)
Definition settled (A : list (string * val)) (k : string) (y : leaf) : Prop :=
  (exists p, Forall named p /\ lasting (p ++ [k]) /\ follow (p ++ [k]) (Dict A) <> None) /\
  (forall p w, hd "" (p ++ [k]) <> "SPICElogs" -> hd "" (p ++ [k]) <> "DASlogs" -> follow (p ++ [k]) (Dict A) = Some w -> w = Dict [("dataset", Leaf y)]).
Definition as_before (A dA dB : list (string * val)) : Prop := forall k, sget k dA = sget k dB \/
  sget k dA = None /\ exists y, sget k dB = Some (Dict [("dataset", Leaf y)]) /\ (k = "detector" \/ k = "monitor" \/ settled A k y).
Definition matches (A B : list (string * val)) : Prop := A = B \/ exists l1 l2 dA dB, A = l1 ++ ("data", Dict dA) :: l2 /\ B = l1 ++ ("data", Dict dB) :: l2 /\
  ~ In "data" (map fst l1) /\ plain dA /\ plain dB /\ as_before A dA dB.
Lemma settled_go : forall A k y, distinct (Dict A) -> ~ In "SPICElogs" (map fst A) -> ~ In "DASlogs" (map fst A) -> settled A k y -> go [k] "dataset" (Dict A) None = Ok (Some (Leaf y)).
Proof.
  intros A k y D N1 N2 [(p & NP & LA & F) ALL].
  assert (ALL' : forall p w, follow (p ++ [k]) (Dict A) = Some w -> w = Dict [("dataset", Leaf y)]).
  { intros q w FQ. apply (ALL q); auto; intros E; destruct q as [|a q]; cbn [List.app hd follow items] in *; subst.
    - rewrite in_none in FQ by auto. discriminate. - rewrite in_none in FQ by auto. discriminate. - rewrite in_none in FQ by auto. discriminate. - rewrite in_none in FQ by auto. discriminate. }
  assert (FA : forall p q v w, follow p v = Some w -> follow (p ++ q) v = follow q w). { clear. induction p as [|a p]; intros q u w F; cbn in *. { injection F as ->. auto. } destruct (sget a (items u)); [auto|discriminate]. }
  assert (U : unambiguous k [] "dataset" (Dict A)). { intros q NQ FQ. destruct (follow (q ++ [k]) (Dict A)) as [w|] eqn:E; [|congruence]. exists (Leaf y). cbn [List.app]. change (q ++ [k; "dataset"]) with (q ++ [k] ++ ["dataset"]). rewrite app_assoc, (FA _ _ _ _ E), (ALL' q w E). reflexivity. }
  destruct (go_complete k [] "dataset" (Dict A) D U) as (v & V); eauto. rewrite V. destruct (go_sound [k] "dataset" (Dict A) D None v V) as [(ks & X & _)|(q & _ & FQ)]; [discriminate|].
  change (q ++ [k] ++ ["dataset"]) with (q ++ ([k] ++ ["dataset"])) in FQ. rewrite app_assoc in FQ. destruct (follow (q ++ [k]) (Dict A)) as [w|] eqn:E.
  - rewrite (FA _ _ _ _ E), (ALL' q w E) in FQ. cbn in FQ. congruence.
  - exfalso. assert (FN : forall p q v, follow p v = None -> follow (p ++ q) v = None). { clear. induction p as [|a p]; intros q u F; cbn in *; [discriminate|]. destruct (sget a (items u)); auto. } rewrite FN in FQ by auto. discriminate.
Qed.
Lemma search_app : forall full l1 l2, search full "dataset" (l1 ++ l2) = do r <- search full "dataset" l1; match r with Some x => Ok (Some x) | None => search full "dataset" l2 end.
Proof.
  intros full. induction l1 as [|[k v] l1]; intros l2; auto. cbn [List.app search]. rewrite IHl1. destruct (String.eqb k "attrs" || String.eqb k "dataset"); auto. destruct v as [x|d]; auto. destruct (go full "dataset" (Dict d) None) as [[y|]|]; auto.
Qed.
(** a key asks for nothing that is new below "data" *)
Definition settled_key (A B : list (string * val)) (full : list string) : Prop :=
  full <> ["detector"] /\ full <> ["monitor"] /\ forall k, full = ["data"; k] -> leaf_at ["data"; k; "dataset"] (Dict A) <> None \/ leaf_at ["data"; k; "dataset"] (Dict B) = None.
Lemma matches_go : forall A B full, matches A B -> Forall named full -> distinct (Dict A) -> ~ In "SPICElogs" (map fst A) -> ~ In "DASlogs" (map fst A) -> settled_key A B full ->
  go full "dataset" (Dict A) None = go full "dataset" (Dict B) None.
Proof.
  intros A B full [->|(l1 & l2 & dA & dB & EA & EB & N & PA & PB & E)] NF D NS1 NS2 (K1 & K2 & K3); auto.
  assert (GA : sget "data" A = Some (Dict dA)) by (rewrite EA, sget_app, (in_none "data" l1) by auto; auto).
  assert (GB : sget "data" B = Some (Dict dB)) by (rewrite EB, sget_app, (in_none "data" l1) by auto; auto).
  assert (G : forall k, k <> "data" -> sget k A = sget k B). { intros k NK. rewrite EA, EB, !sget_app. destruct (sget k l1); auto. cbn. apply String.eqb_neq in NK. rewrite NK. auto. }
  assert (SA : forall l, plain l -> search full "dataset" l = Ok None) by (intros; apply search_plain; auto).
  rewrite !go_dict. destruct full as [|k ks].
  { assert (X : search [] "dataset" A = search [] "dataset" B); [|auto]. rewrite EA, EB, !search_app. cbn [search]. change (String.eqb "data" "attrs" || String.eqb "data" "dataset") with false. cbv iota. rewrite !go_dict, (SA dA PA), (SA dB PB). auto. }
  inversion NF as [|? ? NK NKS]; subst.
  assert (M : dmem String.eqb k (l1 ++ ("data", Dict dA) :: l2) = dmem String.eqb k (l1 ++ ("data", Dict dB) :: l2)). { rewrite !dmem_get. destruct (String.eqb k "data") eqn:Q. { apply String.eqb_eq in Q. subst. rewrite GA, GB. auto. } apply String.eqb_neq in Q. rewrite G; auto. }
  assert (DS : forall d, plain d -> sget "dataset" d = None). { intros d P. destruct (sget "dataset" d) eqn:X; auto. apply sget_in in X. destruct (P _ _ X) as [[_ Y] _]. contradiction. }
  assert (LB : forall d k y, sget k d = Some (Dict [("dataset", Leaf y)]) -> leaf_at [k; "dataset"] (Dict d) = Some y). { intros d b y X. rewrite leaf_cons, X. reflexivity. }
  assert (DEEP : forall y b bs, named b -> go (k :: ks) "dataset" (Dict [("dataset", Leaf y)]) (Some (b :: bs)) = Ok None). { intros y b bs [_ NB]. rewrite go_dict, child_get. cbn. apply String.eqb_neq in NB. rewrite NB. auto. }
  assert (C : child (k :: ks) "dataset" k ks (l1 ++ ("data", Dict dA) :: l2) = child (k :: ks) "dataset" k ks (l1 ++ ("data", Dict dB) :: l2)).
  { rewrite !child_get. destruct (String.eqb k "data") eqn:Q; [|apply String.eqb_neq in Q; rewrite G; auto]. apply String.eqb_eq in Q. subst k. rewrite GA, GB. rewrite !go_dict. destruct ks as [|b bs]. { rewrite !DS, (SA dA PA), (SA dB PB) by auto. auto. }
    rewrite !child_get. destruct (E b) as [X|(X1 & y & X2 & _)]; [rewrite X; auto|]. rewrite X1, X2. inversion NKS as [|? ? NB NBS]; subst. destruct bs as [|b2 bs].
    - exfalso. destruct (K3 b eq_refl) as [X|X]; rewrite leaf_cons in X; [rewrite GA, leaf_cons, X1 in X; auto|rewrite GB, (LB dB b y X2) in X; discriminate].
    - inversion NBS; subst. rewrite DEEP; auto. }
  rewrite M, C. destruct (dmem String.eqb k (l1 ++ ("data", Dict dB) :: l2)) eqn:MB; auto.
  assert (NOTA : go (k :: ks) "dataset" (Dict dA) None = go (k :: ks) "dataset" (Dict dB) None \/ ks = [] /\ go (k :: ks) "dataset" (Dict dA) None = Ok None /\ exists y, go (k :: ks) "dataset" (Dict dB) None = Ok (Some (Leaf y)) /\ settled (l1 ++ ("data", Dict dA) :: l2) k y).
  { rewrite !go_dict, !dmem_get, !child_get, (SA dA PA), (SA dB PB). destruct (E k) as [X|(X1 & y & X2 & FR)]; [rewrite X; auto|]. rewrite X1, X2. destruct ks as [|b bs].
    - right. split; auto. split; auto. exists y. split; auto. destruct FR as [->|[->|FR]]; auto; exfalso; auto.
    - left. inversion NKS; subst. rewrite DEEP; auto. }
  destruct NOTA as [X|(-> & X1 & y & X2 & ST)].
  - rewrite !search_app. cbn [search]. change (String.eqb "data" "attrs" || String.eqb "data" "dataset") with false. cbv iota. rewrite X. auto.
  - pose proof (settled_go _ k y D NS1 NS2 ST) as W. rewrite go_dict, M in W. rewrite search_app in W. rewrite !search_app. cbn [search] in W |- *. change (String.eqb "data" "attrs" || String.eqb "data" "dataset") with false in W |- *. cbv iota in W |- *.
    rewrite X1 in W. rewrite X1, X2. cbn [bind] in *. destruct (search [k] "dataset" l1) as [[z|]|]; cbn [bind] in *; auto.
Qed.
Lemma sget_filter : forall (P : string -> bool) k (l : list (string * val)), sget k (filter (fun kv => P (fst kv)) l) = if P k then sget k l else None.
Proof.
  intros P k. induction l as [|[a v] l]; [destruct (P k); auto|]. cbn [filter fst]. destruct (P a) eqn:R; cbn [dget]; destruct (String.eqb k a) eqn:Q; auto; try (apply String.eqb_eq in Q; subst; rewrite R in *; auto).
Qed.
Lemma matches_filter : forall P A B, (forall k, k <> "SPICElogs" -> k <> "DASlogs" -> P k = true) -> matches A B -> matches (filter (fun kv : string * val => P (fst kv)) A) (filter (fun kv => P (fst kv)) B).
Proof.
  intros P A B PK [->|(l1 & l2 & dA & dB & -> & -> & N & PA & PB & E)]; [left; auto|].
  assert (AB : as_before (filter (fun kv : string * val => P (fst kv)) (l1 ++ ("data", Dict dA) :: l2)) dA dB).
  { intros k. destruct (E k) as [X|(X1 & y & X2 & FR)]; auto. right. split; auto. exists y. split; auto. destruct FR as [F|[F|[(p & NP & LA & F) ALL]]]; auto. right. right. split.
    - exists p. split; auto. split; auto. destruct LA as (L1 & L2 & _). destruct p as [|a p]; cbn [List.app follow items hd] in *; rewrite sget_filter, PK; auto.
    - intros q w Q1 Q2 FQ. apply (ALL q w); auto. destruct q as [|a q]; cbn [List.app follow items hd] in *; rewrite sget_filter, PK in FQ; auto. }
  rewrite !filter_app in *. cbn [filter fst] in *. rewrite (PK "data") in * by discriminate.
  right. do 4 eexists. split; [reflexivity|]. split; [reflexivity|]. split; auto. intros I. apply N. apply in_map_iff in I. destruct I as (x & Q & I). apply filter_In in I. rewrite <- Q. apply in_map. tauto.
Qed.
Lemma matches_sget : forall A B k, matches A B -> k <> "data" -> sget k A = sget k B.
Proof.
  intros A B k [->|(l1 & l2 & dA & dB & -> & -> & N & PA & PB & E)] NK; auto. rewrite !sget_app. destruct (sget k l1); auto. cbn. apply String.eqb_neq in NK. rewrite NK. auto.
Qed.
Lemma sset_cons_ne : forall {A} k (v : A) a b l, k <> a -> sset k v ((a, b) :: l) = (a, b) :: sset k v l.
Proof. intros A k v a b l N. cbn. apply String.eqb_neq in N. rewrite N. auto. Qed.
(** the monitor loses what it holds under "data" *)
Lemma matches_sset : forall A B m, matches A B -> sget "monitor" A = Some (Dict m) -> NoDup (map fst m) -> matches (sset "monitor" (Dict (ddel String.eqb "data" m)) A) (sset "monitor" (Dict (ddel String.eqb "data" m)) B).
Proof.
  intros A B m [->|(l1 & l2 & dA & dB & EA & EB & N & PA & PB & E)] GM NM; [left; auto|]. right. set (v := Dict (ddel String.eqb "data" m)).
  assert (AB : as_before (sset "monitor" v A) dA dB).
  { intros k. destruct (E k) as [X|(X1 & y & X2 & FR)]; auto. right. split; auto. exists y. split; auto. destruct FR as [F|[F|[(p & NP & LA & F) ALL]]]; auto. destruct (String.eqb k "monitor") eqn:QK; [apply String.eqb_eq in QK; auto|]. apply String.eqb_neq in QK. right. right.
    assert (FO : forall q, firstn 2 (q ++ [k]) <> ["monitor"; "data"] -> follow (q ++ [k]) (Dict (sset "monitor" v A)) = follow (q ++ [k]) (Dict A)).
    { intros q FN. destruct q as [|a q]; cbn [List.app follow items]. { rewrite sget_sset. apply String.eqb_neq in QK. rewrite QK. auto. } rewrite sget_sset. destruct (String.eqb a "monitor") eqn:Q; auto. apply String.eqb_eq in Q. subst a. rewrite GM. unfold v.
      destruct q as [|b q]; cbn [List.app follow items firstn] in *; rewrite ddel_get by auto.
      - destruct (String.eqb k "data") eqn:R; auto. apply String.eqb_eq in R. subst. exfalso. auto.
      - destruct (String.eqb b "data") eqn:R; auto. apply String.eqb_eq in R. subst. exfalso. auto. }
    split.
    - exists p. split; auto. split; auto. rewrite FO; auto. apply LA.
    - intros q w Q1 Q2 FQ. destruct (list_eq_dec String.string_dec (firstn 2 (q ++ [k])) ["monitor"; "data"]) as [X|X]; [|rewrite FO in FQ; eauto]. exfalso.
      destruct q as [|a [|b q]]; cbn [List.app firstn] in X; [destruct k; discriminate| |]; injection X as -> ->; cbn [List.app follow items] in FQ; rewrite sget_sset in FQ; change (String.eqb "monitor" "monitor") with true in FQ; cbv iota in FQ; unfold v in FQ; cbn [items] in FQ; rewrite ddel_get in FQ by auto; discriminate. }
  subst A B. destruct (in_dec String.string_dec "monitor" (map fst l1)) as [I|I].
  - rewrite !sset_left in * by auto. exists (sset "monitor" v l1), l2, dA, dB. split; auto. split; auto. split; auto. intros J. apply N. clear - J. induction l1 as [|[a b] l1]; [cbn in J; destruct J as [J|[]]; discriminate|]. cbn [dset] in J. destruct (String.eqb "monitor" a) eqn:Q; cbn [map fst] in J; destruct J as [J|J]; (left; exact J) || (right; auto; fail) || (right; exact J).
  - rewrite !sset_right in * by auto. rewrite !sset_cons_ne in * by discriminate. exists l1, (sset "monitor" v l2), dA, dB. auto 10.
Qed.

Lemma savable_dataset : forall f l x, savable (Dict l) -> sget "dataset" l = Some (Leaf x) -> bare f (Dict l) = Dict [("dataset", Leaf (f x))].
Proof.
  intros f l x W D. inversion W as [? y N K D' PA WT|? N ND PA WM]; subst; [|congruence]. rewrite bare_dict. f_equal. rewrite D in D'. injection D' as <-.
  assert (KM : forall k v, In (k, v) (members l) -> k = "dataset" /\ v = Leaf x). { intros k v I. unfold members in I. apply filter_In in I. destruct I as [I Q]. cbn in Q. apply negb_true_iff, String.eqb_neq in Q. destruct (K k v I) as [?| ->]; [contradiction|]. split; auto. apply in_sget in I; auto. congruence. }
  assert (G : sget "dataset" (members l) = Some (Leaf x)) by (rewrite members_get; auto; discriminate). destruct (members_nodup l N) as [M _]. unfold bares. revert KM G M. generalize (members l). intros m KM G M.
  destruct m as [|[k1 v1] m]; [discriminate|]. destruct (KM k1 v1 (or_introl eq_refl)) as [-> ->]. destruct m as [|[k2 v2] m]; auto. destruct (KM k2 v2) as [-> ->]; [right; left; auto|]. inversion M as [|? ? NI _]; subst. exfalso. apply NI. left. auto.
Qed.
Lemma bares_in : forall f l k v, In (k, v) (bares f l) -> exists u, In (k, u) l /\ k <> "attrs" /\ v = bare f u.
Proof.
  intros f l k v I. unfold bares in I. apply in_map_iff in I. destruct I as ([k0 u] & E & I). injection E as <- <-. unfold members in I. apply filter_In in I. destruct I as [I Q]. apply negb_true_iff, String.eqb_neq in Q. cbn in *. eauto.
Qed.
Lemma follow_app : forall p q v w, follow p v = Some w -> follow (p ++ q) v = follow q w.
Proof. induction p as [|a p]; intros q u w F; cbn in *. { injection F as ->. auto. } destruct (sget a (items u)); [auto|discriminate]. Qed.
Lemma follow_prefix : forall p q v w, follow (p ++ q) v = Some w -> exists u, follow p v = Some u /\ follow q u = Some w.
Proof. induction p as [|a p]; intros q u w F; cbn in *. { eauto. } destruct (sget a (items u)); [auto|discriminate]. Qed.
Lemma follow_bare : forall f p v w, ~ In "attrs" p -> follow p v = Some w -> follow p (bare f v) = Some (bare f w).
Proof.
  intros f. induction p as [|a p]; intros v w N F; cbn [follow] in *. { congruence. } destruct v as [x|l]; [discriminate|]. rewrite bare_dict. cbn [items] in *. rewrite bares_get by (intros ->; apply N; left; auto). destruct (sget a l); [|discriminate]. cbn [option_map]. apply IHp; auto. intros I. apply N. right. auto.
Qed.
Lemma bare_follow : forall f p v w, follow p (bare f v) = Some w -> exists u, follow p v = Some u /\ ~ In "attrs" p /\ w = bare f u.
Proof.
  intros f. induction p as [|a p]; intros v w F; cbn [follow] in *. { injection F as <-. exists v. split; auto. } destruct v as [x|l]; [discriminate|]. rewrite bare_dict in F. cbn [items] in *. destruct (String.eqb a "attrs") eqn:Q.
  { apply String.eqb_eq in Q. subst. exfalso. destruct (sget "attrs" (bares f l)) as [z|] eqn:G; [|discriminate]. apply sget_in, bares_in in G. destruct G as (? & _ & X & _). contradiction. }
  apply String.eqb_neq in Q. rewrite bares_get in F by auto. destruct (sget a l) as [u|]; [|discriminate]. cbn [option_map] in F. destruct (IHp u w F) as (u' & F' & N & ->). exists u'. split; auto. split; auto. intros [X|X]; auto.
Qed.
Lemma savable_follow : forall p v w k, savable v -> follow (p ++ [k]) v = Some w -> ~ In "attrs" (p ++ [k]) -> k <> "dataset" -> savable w.
Proof.
  induction p as [|a p]; intros v w k SV F N ND; cbn [List.app follow] in *; inversion SV as [l x NN K D PA WT|l NN D PA WM]; subst; cbn [items] in F.
  - destruct (sget k l) as [u|] eqn:G; [|discriminate]. injection F as ->. destruct (K k w (sget_in _ _ _ G)) as [->|]; [|contradiction]. exfalso. apply N. left. auto.
  - destruct (sget k l) as [u|] eqn:G; [|discriminate]. injection F as ->. eapply WM; [eapply sget_in; eauto|]. intros ->. apply N. left. auto.
  - destruct (sget a l) as [u|] eqn:G; [|discriminate]. destruct (K a u (sget_in _ _ _ G)) as [->| ->]. { exfalso. apply N. left. auto. } rewrite D in G. injection G as <-. destruct p; discriminate.
  - destruct (sget a l) as [u|] eqn:G; [|discriminate]. apply (IHp u w k); auto; [|intros I; apply N; right; auto]. eapply WM; [eapply sget_in; eauto|]. intros ->. apply N. left. auto.
Qed.
(** nothing is below the content of a dataset *)
Lemma no_dataset_inside : forall r1 r2 v w, savable v -> ~ In "attrs" r1 -> r2 <> [] -> follow (r1 ++ "dataset" :: r2) v = Some w -> False.
Proof.
  induction r1 as [|a r1]; intros r2 v w SV N N2 F; cbn [List.app follow] in F; inversion SV as [l x NN K D PA WT|l NN D PA WM]; subst; cbn [items] in F.
  - rewrite D in F. destruct r2; [contradiction|discriminate].
  - rewrite D in F. discriminate.
  - destruct (sget a l) as [u|] eqn:G; [|discriminate]. destruct (K a u (sget_in _ _ _ G)) as [->| ->]. { apply N. left. auto. } rewrite D in G. injection G as <-. destruct r1; discriminate.
  - destruct (sget a l) as [u|] eqn:G; [|discriminate]. eapply (IHr1 r2 u w); eauto. { eapply WM; [eapply sget_in; eauto|]. intros ->. apply N. left. auto. } intros I. apply N. right. auto.
Qed.
Lemma restored_matches : forall show e v, savable (Dict e) -> sget "dataset" e = None -> plot_ready e -> agreed e -> restored show e v -> matches (bares (after show) e) (bares ident v).
Proof.
  intros show e v SV ND PR AG [_ _ _ RS RD]. destruct (sget "data" e) as [dv|] eqn:GD; [|left; symmetry; auto].
  inversion SV as [? x N K D PA WT|? N _ PA WM]; subst. { congruence. } assert (SD : savable dv). { eapply WM; [eapply sget_in; eauto|discriminate]. }
  assert (DD : exists dl, dv = Dict dl) by (inversion SD; eauto). destruct DD as (dl & ->). destruct (PR dl GD) as (NDD & FD & _ & _ & _). inversion SD as [? z NN KK DZ PAD WT|? NDL _ VD SMD]; subst. { congruence. }
  destruct (RD dl eq_refl) as (l1 & l2 & dw & E1 & E2 & N1 & N2 & _ & _ & NW & EQ). right. exists l1, l2, (bares (after show) dl), (bares ident dw). rewrite bare_dict in E1, E2. split; auto. split; auto. split; auto.
  assert (FLD : forall k u, sget k dl = Some u -> k <> "attrs" -> exists l x, u = Dict l /\ sget "dataset" l = Some (Leaf x) /\ bare (after show) u = Dict [("dataset", Leaf (after show x))]).
  { intros k u G NK. pose proof (sget_in _ _ _ G) as I. destruct (FD k u I NK) as (m & -> & DM). pose proof (SMD _ _ I NK) as SM. inversion SM as [? x ? ? DX ? ?|? ? DX ? ?]; subst; [|exfalso; apply DM; auto]. exists m, x. split; auto. split; auto. apply savable_dataset; auto. }
  assert (SAME : as_before (bares (after show) e) (bares (after show) dl) (bares ident dw)).
  { intros k. destruct (String.eqb k "attrs") eqn:Q.
    { left. apply String.eqb_eq in Q. subst. rewrite !in_none; auto; unfold bares; rewrite map_map; intros I; [apply (proj2 (members_nodup dw NW))|apply (proj2 (members_nodup dl NDL))]; exact I. }
    apply String.eqb_neq in Q. rewrite !bares_get by auto. destruct (EQ k Q) as [E|(p0 & x & PK & _ & HN & NA & LF & E)]; auto. rewrite E.
    destruct (AG k p0 x PK HN NA LF) as [L|[L ONE]].
    - left. rewrite leaf_cons, GD, leaf_cons in L. destruct (sget k dl) as [u|] eqn:G; [|discriminate]. destruct (FLD k u G Q) as (l & y & -> & DX & B). cbn [option_map]. rewrite B. rewrite leaf_cons, DX in L. unfold leaf_at in L. cbn in L. injection L as ->. auto.
    - right. split. { rewrite leaf_cons, GD, leaf_cons in L. destruct (sget k dl) as [u|] eqn:G; auto. destruct (FLD k u G Q) as (l & y & -> & DX & B). rewrite leaf_cons, DX in L. discriminate. }
      exists (after show x). split; auto. destruct (String.eqb k "detector") eqn:Q1; [apply String.eqb_eq in Q1; auto|]. destruct (String.eqb k "monitor") eqn:Q2; [apply String.eqb_eq in Q2; auto|]. right. right.
      assert (IK : inside k = []) by (unfold inside; rewrite Q1, Q2; auto). rewrite IK in LF. cbn [List.app] in LF. destruct (ONE IK) as [LA ALL]. destruct (PR dl GD) as (_ & _ & _ & _ & DD).
      assert (KD : k <> "dataset"). { intros ->. unfold leaf_at in LF. destruct (follow (p0 ++ ["dataset"; "dataset"]) (Dict e)) as [w|] eqn:F; [|discriminate]. apply (no_dataset_inside p0 ["dataset"] (Dict e) w SV); auto; [|discriminate]. intros J. apply NA. apply in_or_app. auto. }
      split.
      + exists p0. split; [|split; auto].
        * apply Forall_forall. intros b I. split. { intros ->. apply NA. apply in_or_app. auto. } intros ->. apply in_split in I. destruct I as (r1 & r2 & ->). unfold leaf_at in LF. destruct (follow ((r1 ++ "dataset" :: r2) ++ [k; "dataset"]) (Dict e)) as [w|] eqn:F; [|discriminate].
          rewrite <- app_assoc in F. cbn [List.app] in F. apply (no_dataset_inside r1 (r2 ++ [k; "dataset"]) (Dict e) w SV); auto. { intros J. apply NA. rewrite <- app_assoc. apply in_or_app. auto. } destruct r2; discriminate.
        * rewrite <- bare_dict. unfold leaf_at in LF. destruct (follow (p0 ++ [k; "dataset"]) (Dict e)) as [w|] eqn:F; [|discriminate]. change (p0 ++ [k; "dataset"]) with (p0 ++ ([k] ++ ["dataset"])) in F. rewrite app_assoc in F.
          apply follow_prefix in F. destruct F as (u & F & _). rewrite (follow_bare (after show) _ _ _ NA F). discriminate.
      + intros q w H1 H2 F. rewrite <- bare_dict in F. apply bare_follow in F. destruct F as (u & F & NQ & ->). assert (SU : savable u). { apply (savable_follow q (Dict e) u k); auto. }
        assert (DU : exists m, u = Dict m) by (inversion SU; eauto). destruct DU as (m & ->). assert (DM : is_dataset m). { apply (DD k q m PK). rewrite IK. auto. }
        inversion SU as [? z ? ? DZ ? ?|? ? DZ ? ?]; subst; [|exfalso; apply DM; auto]. rewrite (savable_dataset _ m z) by auto. f_equal. f_equal. f_equal. f_equal. f_equal. apply (ALL q z); auto. { intros J. apply NQ. apply in_or_app. auto. }
        unfold leaf_at. change (q ++ [k; "dataset"]) with (q ++ ([k] ++ ["dataset"])). rewrite app_assoc, (follow_app _ _ _ _ F). cbn. rewrite DZ. auto. }
  assert (PL : forall k v0, sget k (bares (after show) dl) = Some v0 -> named k /\ exists x, v0 = Dict [("dataset", Leaf x)]).
  { intros k v0 G. assert (I := sget_in _ _ _ G). destruct (bares_in _ _ _ _ I) as (u & IU & NK & ->). apply in_sget in IU; auto. destruct (FLD k u IU NK) as (l & x & -> & DX & B). split; [split; auto|eauto]. intros ->. rewrite NDD in IU. discriminate. }
  assert (NB : forall f l, NoDup (map fst l) -> NoDup (map fst (bares f l))). { intros f l NL. unfold bares. rewrite map_map. apply (members_nodup l). auto. }
  split. { intros k v0 I. apply PL. apply in_sget; auto. apply NB; auto. }
  split; auto. intros k v0 I. apply in_sget in I; [|apply NB; auto]. destruct (SAME k) as [X|(X1 & y & X2 & _)]; [apply PL; rewrite X; auto|]. rewrite X2 in I. injection I as <-. split; [|eauto]. split; intros ->.
  - rewrite in_none in X2; [discriminate|]. unfold bares. rewrite map_map. apply (members_nodup dw NW).
  - rewrite bares_get in X2 by discriminate. destruct (EQ "dataset") as [E|(p0 & x & PK & _ & HN & NA & LF & E)]; [discriminate| |].
    + rewrite E, NDD in X2. discriminate.
    + unfold inside in LF. cbn [String.eqb Ascii.eqb Bool.eqb] in LF. unfold leaf_at in LF. destruct (follow (p0 ++ "dataset" :: [] ++ ["dataset"]) (Dict e)) as [w|] eqn:F; [|discriminate]. apply (no_dataset_inside p0 ["dataset"] (Dict e) w SV); auto; [|discriminate]. intros J. apply NA. apply in_or_app. auto.
Qed.

Lemma savable_groups : forall v, savable v -> groups v.
Proof.
  induction v as [x|l IH] using val_ind2; intros W; [inversion W|]. rewrite Forall_forall in IH. inversion W as [? x N K D PA WT|? N ND PA WM]; subst; constructor; intros k v I [NA NDS].
  - destruct (K k v I); contradiction. - apply (IH (k, v)); auto. eapply WM; eauto.
Qed.
Lemma bare_groups : forall f t, groups (bare f t) -> groups t.
Proof.
  intros f. induction t as [x|l IH] using val_ind2; intros G; [inversion G|]. rewrite bare_dict in G. inversion G as [? GM]; subst. rewrite Forall_forall in IH. constructor. intros k v I NK. apply (IH (k, v)); auto. apply (GM k); auto.
  unfold bares. apply in_map_iff. exists (k, v). split; auto. unfold members. apply filter_In. split; auto. apply negb_true_iff, String.eqb_neq. apply NK.
Qed.
Lemma groups_bare : forall f t, groups t -> groups (bare f t).
Proof.
  intros f t G. induction G as [l _ IH]. rewrite bare_dict. constructor. intros k v I NK. destruct (bares_in _ _ _ _ I) as (u & IU & _ & ->). eauto.
Qed.
Lemma matches_groups : forall A B, matches A B -> groups (Dict A) -> groups (Dict B).
Proof.
  intros A B [->|(l1 & l2 & dA & dB & -> & -> & N & PA & PB & E)] G; auto. inversion G as [? GM]; subst. constructor. intros k v I NK. apply in_app_or in I. destruct I as [I|[I|I]].
  - apply (GM k); auto. apply in_or_app. auto.
  - injection I as <- <-. constructor. intros k v I NK'. destruct (PB k v I) as (_ & x & ->). constructor. intros k' v' [J|[]] [_ X]. injection J as <- <-. contradiction.
  - apply (GM k); auto. apply in_or_app. right. right. auto.
Qed.
Lemma savable_distinct : forall v, savable v -> distinct v.
Proof.
  assert (A : forall l, (forall k v, In (k, v) l -> distinct v) -> (fix all (l : list (string * val)) : Prop := match l with [] => True | (_, v') :: l' => distinct v' /\ all l' end) l).
  { induction l as [|[k v] l]; intros H; auto. split. { eapply H. left. eauto. } apply IHl. intros; eapply H; right; eauto. }
  assert (V : forall o a, valued o -> o = Some a -> distinct a). { intros o a V E. subst. destruct a as [x|l]; [destruct V|]. destruct V as [N P]. split; auto. apply A. intros k v I. destruct (P k v I) as (x & ->). exact Logic.I. }
  induction v as [x|l IH] using val_ind2; intros W; [inversion W|]. rewrite Forall_forall in IH. inversion W as [? x N K D PA WT|? N ND PA WM]; subst; split; auto; apply A; intros k v I.
  - destruct (K k v I) as [-> | ->]. { eapply V; eauto. apply in_sget; auto. } apply in_sget in I; auto. rewrite I in D. injection D as ->. exact Logic.I.
  - destruct (String.eqb k "attrs") eqn:Q. { apply String.eqb_eq in Q. subst. eapply V; eauto. apply in_sget; auto. } apply String.eqb_neq in Q. apply (IH (k, v)); auto. eapply WM; eauto.
Qed.
Lemma go_leaf : forall full t, Forall named full -> savable t -> forall w, match w with Some ks => Forall named ks | None => True end -> exists r, go full "dataset" t w = Ok (option_map Leaf r).
Proof.
  intros full. induction t as [x|l IH] using val_ind2; intros NF W w NW; [inversion W|]. rewrite go_dict. rewrite Forall_forall in IH.
  assert (SUB : forall k v, In (k, v) l -> named k -> savable v). { intros k v I [NA NDS]. inversion W as [? x N K D PA WT|? N ND PA WM]; subst; [destruct (K k v I); contradiction|eauto]. }
  assert (DS : forall v, sget "dataset" l = Some v -> exists x, v = Leaf x). { intros v G. inversion W as [? x N K D PA WT|? N ND PA WM]; subst; [rewrite D in G; injection G as <-; eauto|congruence]. }
  assert (S : exists r, search full "dataset" l = Ok (option_map Leaf r)).
  { clear NW w W DS. induction l as [|[k v] l]; [exists None; auto|]. cbn [search]. assert (IHl' : exists r, search full "dataset" l = Ok (option_map Leaf r)). { apply IHl; intros; [apply IH|eapply SUB]; eauto; right; auto. }
    destruct (String.eqb k "attrs" || String.eqb k "dataset") eqn:Q; auto. destruct v as [x|d]; auto.
    destruct (IH (k, Dict d) (or_introl eq_refl) NF (SUB k _ (or_introl eq_refl) (not_reserved _ Q)) None Logic.I) as ([y|] & E); cbn [snd] in E; rewrite E; cbn [bind option_map]; auto. exists (Some y). auto. }
  assert (C : forall k ks, named k -> Forall named ks -> exists r, child full "dataset" k ks l = Ok (option_map Leaf r)).
  { intros k ks NK NKS. rewrite child_get. destruct (sget k l) as [v|] eqn:G; [|exists None; auto]. apply sget_in in G. apply (IH (k, v)); auto. cbn. eauto. }
  destruct w as [[|k ks]|].
  - destruct (sget "dataset" l) as [v|]; auto. destruct (DS v eq_refl) as (x & ->). exists (Some x). auto.
  - inversion NW; subst. auto.
  - destruct full as [|k ks]; auto. inversion NF; subst. destruct (dmem String.eqb k l); auto.
Qed.

Record alike (show : list string -> string) (e v : list (string * val)) : Prop := Alike {
  al_e : savable (Dict e); al_ds : sget "dataset" e = None; al_v : NoDup (map fst v); al_m : matches (bares (after show) e) (bares ident v) }.
Lemma restored_alike : forall show e v, savable (Dict e) -> sget "dataset" e = None -> plot_ready e -> agreed e -> restored show e v -> alike show e v.
Proof. intros. constructor; auto. apply H3. apply restored_matches; auto. Qed.
Lemma savable_nodup : forall l, savable (Dict l) -> NoDup (map fst l).
Proof. intros l W. inversion W; auto. Qed.
Lemma alike_groups : forall show e v, alike show e v -> groups (Dict v).
Proof. intros show e v [SE _ _ M]. apply (bare_groups ident). rewrite bare_dict. eapply matches_groups; eauto. rewrite <- bare_dict. apply groups_bare, savable_groups. auto. Qed.
Lemma bares_filter : forall f P l, bares f (filter (fun kv : string * val => P (fst kv)) l) = filter (fun kv => P (fst kv)) (bares f l).
Proof.
  intros f P. induction l as [|[k v] l]; auto. rewrite bares_cons. cbn [filter fst]. destruct (P k) eqn:Q; [rewrite bares_cons|]; destruct (String.eqb k "attrs"); cbn [filter fst]; rewrite ?Q, ?IHl; auto.
Qed.
Lemma savable_filter : forall P l, P "attrs" = true -> savable (Dict l) -> sget "dataset" l = None -> savable (Dict (filter (fun kv => P (fst kv)) l)).
Proof.
  intros P l PA W D. inversion W as [? x N K D' A WT|? N ND A WM]; subst; [congruence|]. assert (G : forall k, P k = true -> sget k (filter (fun kv : string * val => P (fst kv)) l) = sget k l).
  { clear - PA. intros k Q. induction l as [|[a v] l]; auto. cbn. destruct (P a) eqn:R; cbn; destruct (String.eqb k a) eqn:S; auto. apply String.eqb_eq in S. subst. congruence. }
  apply Sv_group.
  - apply filter_nodup. auto.
  - apply in_none. intros I. apply in_map_iff in I. destruct I as ((k & v) & E & I). apply filter_In in I. destruct I as [I _]. cbn in E. subst k. apply in_sget in I; auto. congruence.
  - rewrite G; auto.
  - intros k v I. apply filter_In in I. destruct I. eauto.
Qed.
Lemma filter_none : forall (P : string * val -> bool) k l, sget k l = None -> sget k (filter P l) = None.
Proof. intros P k. induction l as [|[a v] l]; intros H; auto. cbn in *. destruct (String.eqb k a) eqn:Q; [discriminate|]. destruct (P (a, v)); cbn; rewrite ?Q; auto. Qed.
Lemma alike_contents : forall show e v, alike show e v -> alike show (items (contents e)) (items (contents v)).
Proof.
  intros show e v [SE DE NV M]. unfold contents. cbn [items]. set (P := fun k => negb (String.eqb k "SPICElogs" || String.eqb k "DASlogs")). change (fun kv : string * val => negb (String.eqb (fst kv) "SPICElogs" || String.eqb (fst kv) "DASlogs")) with (fun kv : string * val => P (fst kv)). constructor.
  - apply savable_filter; auto.
  - apply filter_none. auto.
  - apply filter_nodup. auto.
  - rewrite !bares_filter. apply matches_filter; auto. intros k N1 N2. unfold P. apply String.eqb_neq in N1, N2. rewrite N1, N2. auto.
Qed.
Lemma distinct_bare : forall f t, distinct t -> distinct (bare f t).
Proof.
  intros f. induction t as [x|l IH] using val_ind2; intros D; [exact Logic.I|]. rewrite bare_dict. rewrite Forall_forall in IH. split. { unfold bares. rewrite map_map. apply (members_nodup l). apply D. }
  assert (A : forall k v, In (k, v) (bares f l) -> distinct v). { intros k v I. destruct (bares_in _ _ _ _ I) as (u & J & _ & ->). apply (IH (k, u)); auto. eapply distinct_in; eauto. }
  revert A. generalize (bares f l). induction l0 as [|[k v] l0]; intros A; auto. split. { eapply A. left. eauto. } apply IHl0. intros; eapply A; right; eauto.
Qed.
Lemma one_name : forall key k, split_on "/" key = [k] -> key = k.
Proof. intros key k H. pose proof (split_on_concat "/" key) as C. rewrite H in C. cbn in C. auto. Qed.
(** the key does not ask for something under "data" that is there only after the round trip *)
Definition not_new (e v : list (string * val)) (key : string) : Prop :=
  forall k, field_path key false = ["data"; k] -> leaf_at ["data"; k; "dataset"] (Dict e) <> None \/ leaf_at ["data"; k; "dataset"] (Dict v) = None.
Lemma field_path_own : forall key, field_path key false <> ["detector"] /\ field_path key false <> ["monitor"].
Proof.
  intros key. unfold field_path. destruct (String.eqb key "detector") eqn:Q1; [split; discriminate|]. destruct (String.eqb key "monitor") eqn:Q2; [split; discriminate|]. destruct (String.eqb key "sample") eqn:Q3; [split; discriminate|].
  apply String.eqb_neq in Q1, Q2. split; intros H; apply one_name in H; contradiction.
Qed.
Lemma bare_leaf : forall f p l, ~ In "attrs" p -> leaf_at p (Dict (bares f l)) = option_map f (leaf_at p (Dict l)).
Proof.
  intros f p l N. unfold leaf_at. rewrite <- bare_dict. destruct (follow p (Dict l)) as [w|] eqn:F.
  - rewrite (follow_bare f _ _ _ N F). destruct w as [x|d]; [reflexivity|]. rewrite bare_dict. auto.
  - destruct (follow p (bare f (Dict l))) as [w|] eqn:B; auto. apply bare_follow in B. destruct B as (u & X & _). congruence.
Qed.
Lemma alike_get : forall show e v key, alike show e v -> Forall named (field_path key false) -> not_new e v key ->
  exists r, get e key false None = (items (contents e), Ok (option_map Leaf r)) /\ get v key false None = (items (contents v), Ok (option_map Leaf (option_map (after show) r))).
Proof.
  intros show e v key A NF NN. pose proof (alike_contents _ _ _ A) as AC. destruct A as [SE DE NV M]. rewrite !get_unfold by (auto; apply savable_nodup; auto). unfold item.
  destruct AC as [SC DC NC MC]. change (contents e) with (Dict (items (contents e))). change (contents v) with (Dict (items (contents v))). set (ce := items (contents e)) in *. set (cv := items (contents v)) in *.
  destruct (go_leaf _ _ NF SC None Logic.I) as (r & G). exists r. rewrite G. split. { cbn [bind]. destruct r; auto. } f_equal.
  assert (GV : groups (Dict cv)). { eapply alike_groups. constructor; eauto. }
  assert (E : via (after show) (go (field_path key false) "dataset" (Dict ce) None) = via ident (go (field_path key false) "dataset" (Dict cv) None)).
  { rewrite <- !go_bare; auto; [|apply savable_groups; auto]. rewrite !bare_dict. destruct (field_path_own key) as [O1 O2].
    assert (NL : forall k l, k = "SPICElogs" \/ k = "DASlogs" -> ~ In k (map fst (bares (after show) (items (contents l))))). { intros k l K I. unfold bares in I. rewrite map_map in I. apply in_map_iff in I. destruct I as ((a & w) & <- & I). apply filter_In in I. destruct I as [I _]. unfold contents in I. cbn [items] in I. apply filter_In in I. destruct I as [_ Q]. cbn in *. destruct K; subst; discriminate. }
    apply matches_go; auto; [rewrite <- bare_dict; apply distinct_bare, savable_distinct; auto|apply NL; auto|apply NL; auto|]. split; auto. split; auto.
    intros k FP. rewrite !bare_leaf by (intros [?|[?|[?|[]]]]; try discriminate; subst; rewrite FP in NF; inversion NF as [|? ? _ X]; inversion X as [|? ? [Y _] _]; auto).
    assert (CL : forall l k, leaf_at ["data"; k; "dataset"] (Dict (items (contents l))) = leaf_at ["data"; k; "dataset"] (Dict l)) by (intros; rewrite !leaf_cons, contents_sget by discriminate; auto).
    unfold ce, cv. rewrite !CL. destruct (NN k FP) as [X|X]; [left|right; rewrite X; auto]. destruct (leaf_at ["data"; k; "dataset"] (Dict e)); [discriminate|auto]. }
  rewrite G in E. destruct (go (field_path key false) "dataset" (Dict cv) None) as [[w|]|]; destruct r as [x|]; cbn in E; try discriminate; auto. apply Ok_inj in E. cbn [bind option_map]. destruct w as [y|d]; [|discriminate]. cbn in E. injection E as ->. auto.
Qed.
