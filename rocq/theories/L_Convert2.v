(** Lemmas for C76: the entries the builder makes can be saved and read again as scans. *)
From Coq Require Import Reals List ZArith String Ascii Bool Lia DecimalString.
From Verif Require Import Base PyStr S_Str L_Str M_ScanData M_Spice M_Project M_Tavi P_Tavi M_Nexus P_Nexus L_NexusFile L_NexusLinks P_NexusFile M_Builder L_Builder P_Builder P_Builder2 P_Builder3 P_Builder4 P_Builder5 P_Builder6
  L_ScanFields P_Folder P_ScanFields M_ScanInfo L_ScanInfo P_ScanInfo P_ScanInfo2 S_Save L_Save L_SaveGet L_SaveScan P_Save S_Convert L_Convert.
Import ListNotations.
Open Scope string_scope.
Open Scope list_scope.

(** * Where the fields of an entry are *)
Lemma tame_leafs : forall a p m, tame a -> p <> [] -> follow p (Dict a) = Some (Dict m) -> False.
Proof.
  intros a [|k p] m (_ & _ & P) N F; [contradiction|]. cbn [follow items] in F. destruct (sget k a) as [v|] eqn:E; [|discriminate]. apply sget_in in E. destruct (P _ _ E) as (_ & x & ->). destruct p; discriminate.
Qed.
Lemma good_attrs : forall v, good v -> forall p m, follow p v = Some (Dict m) -> In "attrs" p -> exists q, p = q ++ ["attrs"].
Proof.
  induction 1 as [x a T S|l N A K G IH]; intros [|k p] m F I; try (destruct I; fail).
  - cbn [follow items field_val dget] in F. destruct (String.eqb k "dataset"). { destruct p; discriminate. } destruct (String.eqb k "attrs") eqn:Q; [|discriminate]. apply String.eqb_eq in Q. subst k. destruct p as [|b p]; [exists []; auto|]. exfalso. eapply tame_leafs; eauto. discriminate.
  - cbn [follow items] in F. destruct (sget k l) as [v|] eqn:E; [|discriminate]. apply sget_in in E. destruct (String.string_dec k "attrs") as [->|NK].
    + destruct (A _ E) as (a & -> & T). destruct p as [|b p]; [exists []; auto|]. exfalso. eapply tame_leafs; eauto. discriminate.
    + destruct I as [I|I]; [congruence|]. destruct (IH _ _ E NK _ _ F I) as (q & ->). exists (k :: q). auto.
Qed.
Section Places.
  Context (i : option config) (s : option (dict string pv)) (L : logs) (e instrument : entry) (part : string -> entry) (spice da : entry) (EN : entire i s L e instrument part spice da).
  Inductive home : list string -> entry -> Prop :=
  | H_top : home [] e
  | H_instrument : home ["instrument"] instrument
  | H_logs : home ["SPICElogs"] spice
  | H_data : home ["data"] [("attrs", Dict da)]
  | H_component : forall c, In c component_names_ -> home ["instrument"; c] (part c)
  | H_group : forall g, In g group_names -> home [g] (part g).
  Lemma flat_field : forall d k v, flat d -> sget k d = Some v -> k <> "attrs" -> named k /\ exists x a, v = field_val x a.
  Proof using. intros d k v F G N. apply sget_in in G. destruct (F _ _ G) as [[X _]|(NK & x & a & ->)]; [contradiction|]. split; auto. exists x, a. auto. Qed.
  Lemma home_inside : forall h d k v, home h d -> sget k d = Some v -> k <> "attrs" -> (exists d', v = Dict d' /\ home (h ++ [k]) d') \/ (named k /\ (h = [] -> In k single_names) /\ (h = ["instrument"] -> k = "name") /\ exists x a, v = field_val x a).
  Proof using EN.
    pose proof (en_shape _ _ _ _ _ _ _ _ EN) as SH.
    intros h d k v H G NK. destruct H as [| | | |c I|g I].
    - destruct (String.string_dec k "SPICElogs") as [->|NS]. { rewrite (en_logs _ _ _ _ _ _ _ _ EN) in G. injection G as <-. left. eexists. split; [reflexivity|constructor]. }
      assert (KN : named k). { split; auto. pose proof (en_good _ _ _ _ _ _ _ _ EN) as GD. apply sget_in in G. intros ->. inversion GD as [x a T S X|l N A K GG]; [|destruct (K _ _ G) as [X _]; contradiction].
        pose proof (sh_instrument _ _ _ _ _ SH) as Y. rewrite <- X in Y. discriminate Y. }
      destruct (sh_top _ _ _ _ _ SH k v (sget_in _ _ _ G) KN NS) as [->|[J|[J F]]].
      + left. rewrite (sh_instrument _ _ _ _ _ SH) in G. injection G as <-. eexists. split; [reflexivity|constructor].
      + left. rewrite (sh_group _ _ _ _ _ SH k J) in G. injection G as <-. eexists. split; [reflexivity|constructor; auto].
      + destruct F as [(x & a & ->)|(a & ->)].
        * right. split; auto. split; auto. split; [discriminate|]. exists x, a. auto.
        * destruct (String.string_dec k "data") as [->|ND]. { left. rewrite (en_data _ _ _ _ _ _ _ _ EN) in G. injection G as <-. eexists. split; [reflexivity|constructor]. }
          exfalso. destruct (en_single _ _ _ _ _ _ _ _ EN k _ J ND G) as (x & b & X & _). discriminate X.
    - destruct (sh_below _ _ _ _ _ SH k v (sget_in _ _ _ G) NK) as [J|(-> & x & a & ->)].
      + left. rewrite (sh_component _ _ _ _ _ SH k J) in G. injection G as <-. eexists. split; [reflexivity|constructor; auto].
      + right. split; [split; discriminate|]. split; [discriminate|]. split; auto. exists x, a. auto.
    - right. destruct (flat_field _ _ _ (en_logs_flat _ _ _ _ _ _ _ _ EN) G NK) as [KN F]. split; auto. split; [discriminate|]. split; [discriminate|auto].
    - cbn in G. destruct (String.eqb k "attrs") eqn:Q; [|discriminate]. apply String.eqb_eq in Q. contradiction.
    - right. assert (FL : flat (part c)) by (apply (sh_keyed _ _ _ _ _ SH); apply in_or_app; auto). destruct (flat_field _ _ _ FL G NK) as [KN F]. split; auto. split; [discriminate|]. split; [discriminate|auto].
    - right. assert (FL : flat (part g)) by (apply (sh_keyed _ _ _ _ _ SH); apply in_or_app; auto). destruct (flat_field _ _ _ FL G NK) as [KN F]. split; auto. split; [discriminate|]. split; [|auto]. intros X. injection X as ->. cbn in I. intuition discriminate.
  Qed.
  (** [f] is a field of the group at [h]. *)
  Definition placed (h : list string) (d : entry) (f : string) (x : leaf) (a : entry) : Prop :=
    home h d /\ sget f d = Some (field_val x a) /\ named f /\ (h = [] -> In f single_names) /\ (h = ["instrument"] -> f = "name").
  Lemma home_follow : forall p h d w, home h d -> ~ In "attrs" p -> follow p (Dict d) = Some w ->
    (exists d', w = Dict d' /\ home (h ++ p) d') \/ (exists h' d' f x a, placed h' d' f x a /\ h ++ p = h' ++ [f] /\ w = field_val x a) \/
    (exists h' d' f x a, placed h' d' f x a /\ h ++ p = h' ++ [f; "dataset"] /\ w = Leaf x).
  Proof using EN.
    induction p as [|k p IH]; intros h d w H N F; cbn [follow items] in F. { injection F as <-. left. exists d. rewrite app_nil_r. auto. }
    destruct (sget k d) as [v|] eqn:G; [|discriminate]. assert (NK : k <> "attrs") by (intros ->; apply N; left; auto). assert (NP : ~ In "attrs" p) by (intros J; apply N; right; auto).
    destruct (home_inside _ _ _ _ H G NK) as [(d' & -> & H')|(KN & TOP & INS & x & a & ->)].
    - specialize (IH _ _ _ H' NP F). rewrite <- app_assoc in IH. exact IH.
    - right. destruct p as [|b p]. { left. cbn in F. injection F as <-. exists h, d, k, x, a. split; [split; auto|auto]. }
      right. cbn [follow items field_val dget] in F. destruct (String.eqb b "dataset") eqn:Q.
      + apply String.eqb_eq in Q. subst b. destruct p; [|discriminate]. injection F as <-. exists h, d, k, x, a. split; [split; auto|auto].
      + destruct (String.eqb b "attrs") eqn:Q2; [|discriminate]. apply String.eqb_eq in Q2. subst b. exfalso. apply NP. left. auto.
  Qed.
  Lemma no_attr_leaf : forall v, good v -> forall p, In "attrs" p -> follow (p ++ ["dataset"]) v = None.
  Proof using.
    assert (T0 : forall a p, tame a -> follow (p ++ ["dataset"]) (Dict a) = None).
    { intros a [|k p] (_ & D & P); cbn [List.app follow items]; [rewrite D; auto|]. destruct (sget k a) as [v|] eqn:E; auto. apply sget_in in E. destruct (P _ _ E) as (_ & x & ->). destruct p; reflexivity. }
    induction 1 as [x a T S|l N A K G IH]; intros [|k p] I; try (destruct I; fail); cbn [List.app follow items].
    - unfold field_val. cbn [items dget]. destruct (String.eqb k "dataset") eqn:Q1. { destruct p; reflexivity. } destruct (String.eqb k "attrs"); auto.
    - destruct (sget k l) as [v|] eqn:E; auto. apply sget_in in E. destruct (String.string_dec k "attrs") as [->|NK]. { destruct (A _ E) as (a & -> & T). auto. } destruct I as [I|I]; [congruence|]. eapply IH; eauto.
  Qed.
  Lemma leaf_place : forall p x, leaf_at (p ++ ["dataset"]) (Dict e) = Some x -> exists h d f a, placed h d f x a /\ p = h ++ [f].
  Proof using EN.
    intros p x LF. unfold leaf_at in LF. destruct (follow (p ++ ["dataset"]) (Dict e)) as [[y|]|] eqn:F; try discriminate. injection LF as ->.
    destruct (in_dec String.string_dec "attrs" p) as [I|N]. { rewrite (no_attr_leaf _ (en_good _ _ _ _ _ _ _ _ EN) _ I) in F. discriminate. }
    assert (N' : ~ In "attrs" (p ++ ["dataset"])). { intros J. apply in_app_iff in J. destruct J as [J|[J|[]]]; [auto|discriminate]. }
    destruct (home_follow _ _ _ _ H_top N' F) as [(d' & X & _)|[(h & d & f & y & a & _ & _ & X)|(h & d & f & y & a & PL & Q & X)]]; try discriminate. injection X as <-.
    exists h, d, f, a. split; auto. cbn [List.app] in Q. change [f; "dataset"] with ([f] ++ ["dataset"]) in Q. rewrite app_assoc in Q. apply app_inj_tail in Q. apply Q.
  Qed.
  (** ** Names have one place *)
  Definition part_key (g k : string) : Prop := In k (static g) \/ numbered_key g k.
  Lemma key_once : forall g g' k, In g all_parts -> In g' all_parts -> ~ In k other_names -> part_key g k -> part_key g' k -> g = g'.
  Proof using.
    assert (T : forallb (fun g => forallb (fun g' => String.eqb g g' || forallb (fun k => existsb (String.eqb k) other_names || negb (existsb (String.eqb k) (static g'))) (static g)) all_parts) all_parts = true) by (vm_compute; reflexivity).
    assert (NF : forall g k, numbered_key g k -> exists w z, In w ["detector"; "mode"; "preset"; "time"; "monitor"; "mcu"; "label"] /\ (1 <= z)%Z /\ k = numbered w z /\ (w = "detector" -> g = "detector") /\ (w <> "detector" -> g = "monitor")).
    { intros g k [(-> & z & Z & ->)|(-> & w & z & Z & I & ->)].
      - exists "detector", z. split; [left; auto|]. split; auto. split; auto. split; auto. intros X. contradiction.
      - exists w, z. split; [right; exact I|]. split; auto. split; auto. split; auto. intros ->. unfold six in I. cbn in I. intuition discriminate. }
    intros g g' k I I' O [S|S] [S'|S'].
    - rewrite forallb_forall in T. specialize (T g I). rewrite forallb_forall in T. specialize (T g' I'). apply orb_true_iff in T. destruct T as [T|T]; [apply String.eqb_eq; auto|].
      rewrite forallb_forall in T. specialize (T k S). exfalso. apply orb_true_iff in T. destruct T as [T|T].
      + apply existsb_exists in T. destruct T as (y & J & Q). apply String.eqb_eq in Q. subst y. auto.
      + apply negb_true_iff in T. assert (X : existsb (String.eqb k) (static g') = true) by (apply existsb_exists; exists k; split; [auto|apply String.eqb_refl]). congruence.
    - exfalso. destruct (NF _ _ S') as (w & z & J & Z & -> & _). destruct (numbered_free w z J Z) as (_ & _ & _ & X). apply (X g S).
    - exfalso. destruct (NF _ _ S) as (w & z & J & Z & -> & _). destruct (numbered_free w z J Z) as (_ & _ & _ & X). apply (X g' S').
    - destruct (NF _ _ S) as (w & z & J & Z & E & W1 & W2). destruct (NF _ _ S') as (w' & z' & J' & Z' & E' & W1' & W2').
      assert (WW : w = w' \/ w <> "detector" /\ w' <> "detector").
      { rewrite E in E'. unfold numbered in E'. cbn [In] in J, J'.
        destruct J as [<-|J]; destruct J' as [<-|J']; auto; [repeat (destruct J' as [<-|J']; [discriminate E'|]); destruct J'|repeat (destruct J as [<-|J]; [discriminate E'|]); destruct J|].
        right. split; intros ->; [clear - J; intuition discriminate|clear - J'; intuition discriminate]. }
      destruct WW as [->|[N N']]; [|rewrite W2, W2' by auto; auto]. destruct (String.string_dec w' "detector") as [->|N]; [rewrite W1, W1' by auto; auto|rewrite W2, W2' by auto; auto].
  Qed.
  Lemma all_parts_in : forall g, In g (component_names_ ++ group_names) -> In g all_parts.
  Proof using. apply all_in. vm_compute. reflexivity. Qed.
  (** A quantity that can be plotted is a field of one part, outside the logs. *)
  Lemma axis_place : forall h d f x a, placed h d f x a -> hd "" h <> "SPICElogs" -> plain_axis i s f ->
    exists g, In g (component_names_ ++ group_names) /\ part_key g f /\ d = part g /\ (h = ["instrument"; g] /\ In g component_names_ \/ h = [g] /\ In g group_names).
  Proof using EN.
    pose proof (en_shape _ _ _ _ _ _ _ _ EN) as SH.
    intros h d f x a (H & G & NF & TOP & INS) NS [O NC].
    assert (KEY : forall g, In g (component_names_ ++ group_names) -> sget f (part g) = Some (field_val x a) -> part_key g f).
    { intros g I GF. destruct (sh_keyed _ _ _ _ _ SH g I) as [_ K]. apply sget_in in GF. destruct (K f (in_map fst _ _ GF)) as [X|[X|[X|X]]]; [destruct NF; contradiction|left; auto|right; auto|contradiction]. }
    destruct H as [| | | |c I|g I].
    - exfalso. apply O. specialize (TOP eq_refl). revert TOP. apply (all_in single_names other_names). reflexivity.
    - exfalso. apply O. rewrite (INS eq_refl). vm_compute. tauto.
    - exfalso. apply NS. reflexivity.
    - exfalso. cbn in G. destruct (String.eqb f "attrs") eqn:Q; [|discriminate]. apply String.eqb_eq in Q. destruct NF; contradiction.
    - exists c. assert (J : In c (component_names_ ++ group_names)) by (apply in_or_app; auto). split; auto.
    - exists g. assert (J : In g (component_names_ ++ group_names)) by (apply in_or_app; auto). split; auto.
  Qed.
  Lemma data_leaf : forall k, leaf_at ["data"; "attrs"; k] (Dict e) = match sget k da with Some (Leaf x) => Some x | _ => None end.
  Proof using EN. intros k. rewrite leaf_cons, (en_data _ _ _ _ _ _ _ _ EN). unfold leaf_at. cbn [follow items dget String.eqb Ascii.eqb Bool.eqb]. destruct (sget k da) as [[|]|]; auto. Qed.
  Lemma plots_plain : says_axes L i s -> (exists y, leaf_at ["data"; "attrs"; "signal"] (Dict e) = Some (LStr y)) /\ (exists x, leaf_at ["data"; "attrs"; "axes"] (Dict e) = Some (LStr x)) /\ forall d, plots e d -> plain_axis i s d.
  Proof using EN.
    intros (x & y & t & HX & HY & AX & PT & PY). pose proof (en_signal _ _ _ _ _ _ _ _ EN y HY) as SY. destruct (en_axes _ _ _ _ _ _ _ _ EN x HX) as (t' & AX' & SX).
    assert (TT : t' = t). { clear - AX AX'. inversion AX; subst; inversion AX'; subst; auto; exfalso; match goal with H : ~ In _ _ |- _ => apply H; cbn; tauto end. } subst t'.
    unfold plots. rewrite !data_leaf, SY, SX. split; [eauto|]. split; [eauto|]. intros d [X|X]; injection X as <-; auto.
  Qed.
  Lemma inside_cases : forall d, (inside d = [] /\ d <> "detector" /\ d <> "monitor") \/ (d = "detector" /\ inside d = ["data"]) \/ (d = "monitor" /\ inside d = ["monitor"]).
  Proof using. intros d. unfold inside. destruct (String.eqb d "detector") eqn:Q. { apply String.eqb_eq in Q. auto. } destruct (String.eqb d "monitor") eqn:Q2. { apply String.eqb_eq in Q2. auto. } apply String.eqb_neq in Q, Q2. auto. Qed.
  Lemma built_storable : says_axes L i s -> storable e.
  Proof using EN.
    intros SA. destruct (plots_plain SA) as (SIG & AXE & PP). pose proof (en_shape _ _ _ _ _ _ _ _ EN) as SH. pose proof (en_good _ _ _ _ _ _ _ _ EN) as GD.
    assert (DN : forall d, d <> "attrs" -> leaf_at ["data"; d; "dataset"] (Dict e) = None).
    { intros d N. rewrite leaf_cons, (en_data _ _ _ _ _ _ _ _ EN), leaf_cons. cbn [dget]. apply String.eqb_neq in N. rewrite N. auto. }
    split; [apply good_savable; auto|]. split; [|split].
    - intros X. destruct (sget "dataset" e) as [v|] eqn:G; [|apply X; auto]. destruct (home_inside _ _ _ _ H_top G ltac:(discriminate)) as [(d' & _ & H)|([_ N] & _)]; [|contradiction]. inversion H; subst; cbn in *; intuition discriminate.
    - intros l GL. rewrite (en_data _ _ _ _ _ _ _ _ EN) in GL. injection GL as <-. split; [reflexivity|]. split. { intros k v [X|[]] N. injection X as <- _. contradiction. } split; auto. split; auto.
      intros d p m PD F. destruct (PP d PD) as [O NC]. destruct (in_dec String.string_dec "attrs" (p ++ d :: inside d)) as [I|N].
      + exfalso. destruct (good_attrs _ GD _ _ F I) as (q & Q). destruct (inside_cases d) as [(ID & _)|[(-> & ID)|(-> & ID)]]; rewrite ID in Q.
        * apply app_inj_tail in Q. destruct Q as [_ ->]. apply O. vm_compute. tauto.
        * change (p ++ ["detector"; "data"]) with (p ++ (["detector"] ++ ["data"])) in Q. rewrite app_assoc in Q. apply app_inj_tail in Q. destruct Q as [_ Q]. discriminate.
        * change (p ++ ["monitor"; "monitor"]) with (p ++ (["monitor"] ++ ["monitor"])) in Q. rewrite app_assoc in Q. apply app_inj_tail in Q. destruct Q as [_ Q]. discriminate.
      + destruct (home_follow _ _ _ _ H_top N F) as [(d' & X & H)|[(h & d' & f & x & a & _ & _ & X)|(h & d' & f & x & a & _ & _ & X)]]; try discriminate; [exfalso|injection X as ->; discriminate].
        cbn [List.app] in H. assert (LST : forall h d0, home h d0 -> h = [] \/ (exists q k, h = q ++ [k] /\ (q = [] \/ q = ["instrument"]) /\ (In k other_names \/ k = "detector" /\ q = ["instrument"] \/ k = "monitor" /\ q = []))).
        { clear. intros h d0 []; auto; right.
          - exists [], "instrument". split; auto. split; auto. left. vm_compute. tauto.
          - exists [], "SPICElogs". split; auto. split; auto. left. vm_compute. tauto.
          - exists [], "data". split; auto. split; auto. left. vm_compute. tauto.
          - exists ["instrument"], c. split; auto. split; auto. destruct (in_dec String.string_dec c other_names) as [J|J]; auto. right. left. split; auto. cbn in H. repeat (destruct H as [<-|H]; [auto; exfalso; apply J; vm_compute; tauto|]). destruct H.
          - exists [], g. split; auto. split; auto. destruct (in_dec String.string_dec g other_names) as [J|J]; auto. right. right. split; auto. cbn in H. repeat (destruct H as [<-|H]; [auto; exfalso; apply J; vm_compute; tauto|]). destruct H. }
        destruct (LST _ _ H) as [Q|(q & k & Q & QQ & KK)]; [destruct p; discriminate|].
        destruct (inside_cases d) as [(ID & N1 & N2)|[(-> & ID)|(-> & ID)]]; rewrite ID in Q.
        * apply app_inj_tail in Q. destruct Q as [-> ->]. destruct KK as [K|[[K _]|[K _]]]; [|congruence|congruence]. apply O. auto.
        * change (p ++ ["detector"; "data"]) with (p ++ (["detector"] ++ ["data"])) in Q. rewrite app_assoc in Q. apply app_inj_tail in Q. destruct Q as [Q _]. destruct QQ as [-> | ->]; [destruct p; discriminate|]. destruct p as [|p0 [|]]; discriminate.
        * change (p ++ ["monitor"; "monitor"]) with (p ++ (["monitor"] ++ ["monitor"])) in Q. rewrite app_assoc in Q. apply app_inj_tail in Q. destruct Q as [Q _]. destruct QQ as [-> | ->]; [destruct p; discriminate|]. destruct p as [|p0 [|]]; discriminate.
    - intros d p x PD NS NA LF. destruct (PP d PD) as [O NC]. right. split. { apply DN. intros ->. apply O. vm_compute. tauto. }
      intros ID. rewrite ID in LF. cbn [List.app] in LF. change (p ++ [d; "dataset"]) with (p ++ ([d] ++ ["dataset"])) in LF. rewrite app_assoc in LF.
      destruct (leaf_place _ _ LF) as (h & d0 & f & a & PL & Q). apply app_inj_tail in Q. destruct Q as [<- <-].
      assert (HS : hd "" p <> "SPICElogs") by (destruct p; [discriminate|auto]).
      destruct (axis_place _ _ _ _ _ PL HS (conj O NC)) as (g & GI & KG & -> & HP).
      split.
      + destruct HP as [[-> IC]|[-> IG]]; (split; [exact NS|]); (split; [|cbn [firstn List.app]]); cbn [List.app hd]; try discriminate.
        * intros ->. cbn in IG. intuition discriminate.
        * intros X. assert (XD : d = "data") by congruence. apply O. rewrite XD. vm_compute. tauto.
      + intros q y NQ _ NAQ LQ. change (q ++ [d; "dataset"]) with (q ++ ([d] ++ ["dataset"])) in LQ. rewrite app_assoc in LQ.
        destruct (leaf_place _ _ LQ) as (h' & d1 & f' & a' & PL' & Q). apply app_inj_tail in Q. destruct Q as [<- <-]. assert (HS' : hd "" q <> "SPICElogs") by (destruct q; [discriminate|auto]).
        destruct (axis_place _ _ _ _ _ PL' HS' (conj O NC)) as (g' & GI' & KG' & -> & HP'). assert (g' = g) by (eapply key_once; eauto; apply all_parts_in; auto). subst g'.
        destruct PL as (_ & G1 & _). destruct PL' as (_ & G2 & _). rewrite G1 in G2. injection G2 as <- _. auto.
  Qed.
  (** ** Contents that are read back as they are *)
  Lemma firm_after : forall show x, firm x -> after show x = x.
  Proof using. intros show []; cbn; tauto. Qed.
  (** All fields but the divergences, the people and the count file are texts, numbers or arrays. *)
  Lemma placed_firm : forall h d f x a, placed h d f x a ->
    firm x \/ h = ["instrument"; "collimator"] /\ In f ["divergence_x"; "divergence_y"] \/ h = ["user"] /\ f = "name" \/ h = ["monitor"] /\ f = "countfile" /\ by_countfile L.
  Proof using EN.
    pose proof (en_shape _ _ _ _ _ _ _ _ EN) as SH.
    intros h d f x a (H & G & NF & TOP & INS). destruct H as [| | | |c I|g I].
    - destruct (String.string_dec f "data") as [->|ND]. { rewrite (en_data _ _ _ _ _ _ _ _ EN) in G. discriminate. } destruct (en_single _ _ _ _ _ _ _ _ EN f _ (TOP eq_refl) ND G) as (y & b & X & F). injection X as -> _. auto.
    - rewrite (INS eq_refl) in G. destruct (en_name _ _ _ _ _ _ _ _ EN _ _ G) as (t & ->). left. exact Logic.I.
    - destruct (en_logs_sound _ _ _ _ _ _ _ _ EN) as [_ S]. destruct (S _ _ _ G) as [[]|F]; auto.
    - cbn in G. destruct (String.eqb f "attrs") eqn:Q; [|discriminate]. apply String.eqb_eq in Q. destruct NF; contradiction.
    - destruct (en_part _ _ _ _ _ _ _ _ EN c (in_or_app _ _ _ (or_introl I))) as [_ S]. destruct (S _ _ _ G) as [J|F]; auto. unfold component_names_ in I. cbn [In] in I. repeat (destruct I as [<-|I]; [try (destruct J; fail)|]); try (destruct I; fail). right. left. auto.
    - destruct (en_part _ _ _ _ _ _ _ _ EN g (in_or_app _ _ _ (or_intror I))) as [_ S]. destruct (S _ _ _ G) as [J|F]; auto. cbn [group_names In] in I. destruct I as [<-|[<-|[<-|[]]]].
      + right. right. right. split; auto. unfold soft in J. cbn [String.eqb Ascii.eqb Bool.eqb] in J. destruct (is_text (meta L "preset_type") "countfile") eqn:T; [|destruct J]. destruct J as [<-|[]]. split; auto.
        unfold is_text in T. unfold by_countfile. unfold meta in T. destruct (sget "preset_type" (lg_meta L)) as [[[y|y|y]|y|]|]; cbn in T; try discriminate. apply String.eqb_eq in T. congruence.
      + destruct J.
      + right. right. left. destruct J as [<-|[]]. auto.
  Qed.
  Lemma built_solid : forall show k, ~ In k ["instrument"; "collimator"; "divergence_x"; "divergence_y"; "user"; "name"; "countfile"] -> (k = "monitor" -> ~ by_countfile L) -> solid show e k.
  Proof using EN.
    intros show k NK NM p q x LF. apply firm_after. change (p ++ k :: q ++ ["dataset"]) with (p ++ ((k :: q) ++ ["dataset"])) in LF. rewrite app_assoc in LF.
    destruct (leaf_place _ _ LF) as (h & d & f & a & PL & Q). assert (KI : In k (h ++ [f])) by (rewrite <- Q; apply in_or_app; right; left; auto).
    destruct (placed_firm _ _ _ _ _ PL) as [F|[(-> & [<-|[<-|[]]])|[(-> & ->)|(-> & -> & BC)]]]; auto; exfalso; cbn [In List.app] in KI.
    - apply NK. destruct KI as [<-|[<-|[<-|[]]]]; cbn; tauto.
    - apply NK. destruct KI as [<-|[<-|[<-|[]]]]; cbn; tauto.
    - apply NK. destruct KI as [<-|[<-|[]]]; cbn; tauto.
    - destruct KI as [<-|[<-|[]]]; [apply (NM eq_refl BC)|apply NK; cbn; tauto].
  Qed.
  Lemma built_scannable : forall show, scannable show e.
  Proof using EN.
    intros show. constructor.
    - apply good_tidy. apply (en_good _ _ _ _ _ _ _ _ EN).
    - intros p k w F. eapply good_follow; [apply (en_good _ _ _ _ _ _ _ _ EN)|eauto].
    - apply built_solid; [cbn; intuition discriminate|discriminate].
    - intros c x LF. destruct (leaf_place ["instrument"; c] x LF) as (h & d & f & a & PL & Q). change ["instrument"; c] with (["instrument"] ++ [c]) in Q. apply app_inj_tail in Q. destruct Q as [<- <-]. apply firm_after.
      destruct (placed_firm _ _ _ _ _ PL) as [F|[(X & _)|[(X & _)|(X & _)]]]; auto; discriminate.
    - assert (N : forall g, ~ In g single_names -> leaf_at [g; "dataset"] (Dict e) = None).
      { intros g NG. destruct (leaf_at [g; "dataset"] (Dict e)) as [x|] eqn:LF; auto. destruct (leaf_place [g] x LF) as (h & d & f & a & (_ & _ & _ & TOP & _) & Q). change [g] with ([] ++ [g]) in Q. apply app_inj_tail in Q. destruct Q as [<- <-]. destruct (NG (TOP eq_refl)). }
      split; apply N; cbn; intuition discriminate.
  Qed.
End Places.

(** * Entries marked with their data set *)
Definition stamped (name : string) (a e : entry) : entry := sset "attrs" (Dict (sset "dataset_name" (Leaf (LStr name)) a)) e.
Lemma marked_entire : forall i s L e instrument part spice da name a, entire i s L e instrument part spice da -> sget "attrs" e = Some (Dict a) ->
  marked name e (stamped name a e) /\ entire i s L (stamped name a e) instrument part spice da.
Proof.
  intros i s L e instrument part spice da name a EN GA. pose proof (en_shape _ _ _ _ _ _ _ _ EN) as SH.
  assert (MK : marked name e (stamped name a e)) by (apply P_Folder.mark; auto). split; auto. destruct MK as (G & K & _).
  assert (AL : Forall2 L_ScanInfo.alike e (stamped name a e)) by (apply alike_of; auto; apply (sh_e _ _ _ _ _ SH)).
  constructor.
  - eapply alike_shape; eauto.
  - pose proof (en_good _ _ _ _ _ _ _ _ EN) as GD. inversion GD as [x b T S X|l N A KK GG X]; subst.
    { pose proof (sh_instrument _ _ _ _ _ SH) as Y. discriminate Y. }
    assert (TA : tame a). { destruct (A _ (sget_in _ _ _ GA)) as (b & X & T). injection X as ->. auto. }
    assert (SI : forall k v, In (k, v) (stamped name a e) -> (k = "attrs" /\ v = Dict (sset "dataset_name" (Leaf (LStr name)) a)) \/ (k <> "attrs" /\ In (k, v) e)).
    { intros k v I. destruct (String.string_dec k "attrs") as [->|NK].
      - left. split; auto. apply in_sget in I; [|apply L_Builder.sset_nodup; auto]. unfold stamped in I. rewrite sget_sset_eq in I. congruence.
      - right. split; auto. apply in_sset in I. destruct I as [[X _]|I]; [contradiction|auto]. }
    apply Good_group.
    + unfold stamped. apply L_Builder.sset_nodup. auto.
    + intros v I. destruct (SI _ _ I) as [[_ ->]|[X _]]; [|contradiction]. eexists. split; [reflexivity|]. destruct TA as (NT & DT & PT). split; [apply L_Builder.sset_nodup; auto|]. split; [rewrite sget_sset_ne; [auto|discriminate]|].
      intros k v I2. apply in_sset in I2. destruct I2 as [[-> ->]|I2]; [split; [reflexivity|eauto]|eauto].
    + intros k v I. destruct (SI _ _ I) as [[-> _]|[_ J]]; [split; [discriminate|reflexivity]|eauto].
    + intros k v I NK. destruct (SI _ _ I) as [[X _]|[_ J]]; [contradiction|eauto].
  - unfold stamped. rewrite sget_sset_eq. eauto.
  - rewrite G by discriminate. apply (en_logs _ _ _ _ _ _ _ _ EN).
  - apply (en_logs_sound _ _ _ _ _ _ _ _ EN).
  - apply (en_logs_flat _ _ _ _ _ _ _ _ EN).
  - apply (en_part _ _ _ _ _ _ _ _ EN).
  - intros k v I ND GK. rewrite G in GK; [|intros ->; cbn in I; intuition discriminate]. eapply (en_single _ _ _ _ _ _ _ _ EN); eauto.
  - apply (en_name _ _ _ _ _ _ _ _ EN).
  - rewrite G by discriminate. apply (en_data _ _ _ _ _ _ _ _ EN).
  - apply (en_signal _ _ _ _ _ _ _ _ EN).
  - apply (en_axes _ _ _ _ _ _ _ _ EN).
Qed.

(** * What a folder of SPICE files becomes *)
Section FolderOf.
  Variable float_of : string -> option R.
  Variable int_of : string -> option Z.
  Variable repr : pv -> string.
  Variable date_of : string -> option string.
  Variable genfromtxt : list string -> result (list (list num)).
  Variable xml_matrix : string -> option (option string).
  Notation build := (spice_scan_to_nxdict float_of int_of repr date_of).
  Notation convert := (convert float_of int_of repr date_of genfromtxt xml_matrix).
  Notation scan_file := (scan_file float_of int_of repr date_of genfromtxt xml_matrix).
  Notation create_spicelogs := (create_spicelogs float_of int_of genfromtxt xml_matrix).
  Definition came (fs : files) (dir : path) (name : string) (i : option config) (s : option (dict string pv)) (all : list string) (k : string) (v : entry) : Prop :=
    exists f e a, In f all /\ scan_of f k /\ scan_file fs (dir ++ [f]) i s = Ok e /\ sget "attrs" e = Some (Dict a) /\ v = stamped name a e.
  Lemma convert_origin : forall fs dir name i s all names acc d, incl names all -> convert fs dir name i s names acc = Ok d -> (forall k v, In (k, v) acc -> came fs dir name i s all k v) -> NoDup (map fst acc) ->
    NoDup (map fst d) /\ forall k v, In (k, v) d -> came fs dir name i s all k v.
  Proof.
    intros fs dir name i s all. induction names as [|f names IH]; intros acc d IN H ACC ND; cbn [M_Builder.convert] in H. { apply Ok_inj in H. subst d. auto. }
    destruct (split_on "_"%char f) as [|a [|b [|c r]]] eqn:SP; try discriminate. destruct (scan_file fs (dir ++ [f]) i s) as [e|] eqn:SF; [|discriminate]. cbn [bind] in H.
    destruct (sget "attrs" e) as [[|at_]|] eqn:A; try discriminate. cbn [bind] in H. cbv zeta in H. apply (IH _ _ (fun x I => IN x (or_intror I)) H).
    - intros k v I. apply in_sset in I. destruct I as [[-> ->]|I]; [|eauto]. exists f, e, at_. split; [apply IN; left; auto|]. split; [apply (scan_split _ _ _ _ _ SP)|]. auto.
    - apply L_Builder.sset_nodup. auto.
  Qed.
  (** ** The headers of a file are texts *)
  Definition texted (md : metadata) : Prop := forall k v, In (k, v) md -> exists t, v = MStr t.
  Lemma meta_step_texted : forall md un raw, texted md -> texted (fst (meta_step (md, un) raw)).
  Proof.
    intros md un raw T. assert (S : forall k t, texted (mset k (MStr t) md)). { intros k t a v I. apply in_sset in I. destruct I as [[_ ->]|I]; [eauto|apply (T _ _ I)]. }
    unfold meta_step. cbv zeta. destruct (_ || _). { destruct (words _) as [|? [|? [|? ?]]]; cbn [fst]; auto. }
    destruct (contains _ _); [|exact T]. destruct (map strip_ws _) as [|k vs]; [exact T|]. destruct (mget k md) as [[]|]; apply S.
  Qed.
  Lemma metadata_texted : forall lines md un, metadata_to_dict float_of lines = Ok (md, un) -> forall k v, In (k, v) md -> (exists t, v = MStr t) \/ In k ["norm_vals"; "norm_channels"; "labels"].
  Proof.
    intros lines md un H. unfold metadata_to_dict in H. assert (T : forall l st, texted (fst st) -> texted (fst (fold_left meta_step l st))).
    { induction l as [|x l IH]; intros [m u] T; cbn [fold_left]; auto. apply IH. apply meta_step_texted. auto. }
    specialize (T lines ([], [])). destruct (fold_left meta_step lines ([], [])) as [m u]. cbn [fst] in T. assert (TM : texted m) by (apply T; intros k v []). cbv zeta in H.
    destruct (match mget "preset_type" m with Some (MStr p) => String.eqb p "countfile" | _ => false end).
    - destruct (mget "countfile" m) as [[c| |]|]; try discriminate. apply bind_ok in H. destruct H as ([[vals chans] labs] & _ & H). apply Ok_inj in H. injection H as <- _.
      intros k v I. apply in_sset in I. destruct I as [[-> _]|I]; [right; cbn; tauto|]. apply in_sset in I. destruct I as [[-> _]|I]; [right; cbn; tauto|]. apply in_sset in I. destruct I as [[-> _]|I]; [right; cbn; tauto|]. left. apply (TM _ _ I).
    - apply Ok_inj in H. injection H as <- _. intros k v I. left. apply (TM _ _ I).
  Qed.
  Lemma logs_texts : forall fs p L, logs_at float_of int_of genfromtxt xml_matrix fs p L -> forall k a, In (k, a) (lg_meta L) -> (exists t, a = AMeta (MStr t)) \/ In k ["norm_vals"; "norm_channels"; "labels"; "Error Messages"; "Others"].
  Proof.
    intros fs p L (sl & CS & LO). unfold logs_of in LO. apply bind_ok in LO. destruct LO as (dd & _ & LO). apply Ok_inj in LO. subst L. cbn [lg_meta].
    unfold M_Spice.create_spicelogs in CS. apply bind_ok in CS. destruct CS as (sf & RS & CS). cbv zeta in CS.
    assert (MT : forall k v, In (k, v) (sf_metadata sf) -> (exists t, v = MStr t) \/ In k ["norm_vals"; "norm_channels"; "labels"]).
    { unfold read_spice_datafile in RS. destruct (lines_of fs p) as [content|]; [|destruct (is_dir fs p); discriminate]. destruct (String.eqb _ _); [|discriminate]. unfold read_lines in RS.
      destruct (cut_at _ _) as [[meta [|names rest]]|]; try discriminate. cbv zeta in RS. destruct (match cut_before sum_mark rest with Some (er, summary) => (Some er, meta ++ summary) | None => (None, meta) end) as [errs meta'].
      apply bind_ok in RS. destruct RS as ([md un] & MD & RS). apply bind_ok in RS. destruct RS as (t & _ & RS).
      assert (Q : sf_metadata sf = md). { destruct (match t with [] => true | [] :: _ => true | _ => false end); [apply Ok_inj in RS; subst sf; reflexivity|]. apply bind_ok in RS. destruct RS as (vals & _ & RS). apply Ok_inj in RS. subst sf. reflexivity. }
      rewrite Q. eapply metadata_texted; eauto. }
    match type of CS with match _ with Some _ => _ | None => _ end = _ => idtac end.
    set (a1 := dupdate String.eqb _ _) in CS. set (a2 := match sf_errors sf with None => _ | Some _ => _ end) in CS. set (a3 := match sf_unrecognized sf with Some _ => _ | None => _ end) in CS.
    assert (SA : sl_attrs sl = a3). { destruct (mget "ubconf" (sf_metadata sf)) as [[name| |]|]; try discriminate. destruct (is_file fs _); [|destruct (is_file fs _)]; [apply bind_ok in CS; destruct CS as (u & _ & CS)|apply bind_ok in CS; destruct CS as (u & _ & CS)|]; apply Ok_inj in CS; subst sl; reflexivity. }
    rewrite SA.
    assert (A1 : forall k a, In (k, a) a1 -> (exists t, a = AMeta (MStr t)) \/ In k ["norm_vals"; "norm_channels"; "labels"; "Error Messages"; "Others"]).
    { intros k a I. unfold a1 in I. assert (D : forall l acc, In (k, a) (dupdate String.eqb acc l) -> In (k, a) acc \/ In (k, a) l). { clear. induction l as [|[b w] l IH]; intros acc I; cbn in I; auto. apply IH in I. destruct I as [I|I]; [|cbn; auto]. apply in_sset in I. destruct I as [[-> ->]|I]; cbn; auto. }
      apply D in I. destruct I as [[X|[]]|I]; [injection X as _ <-; eauto|]. apply in_map_iff in I. destruct I as ([k0 v0] & X & I). cbn in X. injection X as <- <-. destruct (MT _ _ I) as [(t & ->)|J]; [eauto|]. right. cbn in J |- *. tauto. }
    assert (A2 : forall k a, In (k, a) a2 -> (exists t, a = AMeta (MStr t)) \/ In k ["norm_vals"; "norm_channels"; "labels"; "Error Messages"; "Others"]).
    { intros k a I. unfold a2 in I. destruct (sf_errors sf) as [[|]|]; auto; apply in_sset in I; destruct I as [[-> _]|I]; auto; right; cbn; tauto. }
    intros k a I. unfold a3 in I. destruct (sf_unrecognized sf); auto. apply in_sset in I. destruct I as [[-> _]|I]; auto. right. cbn. tauto.
  Qed.
  Lemma plain_of : forall fs p L, logs_at float_of int_of genfromtxt xml_matrix fs p L -> plain_names L -> plain_logs L.
  Proof. intros fs p L LA [PM PD]. split; auto. intros k a I. destruct (PM _ _ I). pose proof (logs_texts _ _ _ LA _ _ I). auto. Qed.
  Lemma scan_file_logs : forall fs p i s e, scan_file fs p i s = Ok e <-> exists L, logs_at float_of int_of genfromtxt xml_matrix fs p L /\ build L i s = Ok e.
  Proof.
    intros fs p i s e. unfold M_Builder.scan_file, logs_at. split.
    - intros H. apply bind_ok in H. destruct H as (sl & CS & H). apply bind_ok in H. destruct H as (L & LO & H). exists L. eauto.
    - intros (L & (sl & CS & LO) & B). rewrite CS. cbn [bind]. rewrite LO. exact B.
  Qed.
  Lemma logs_once : forall fs p L L', logs_at float_of int_of genfromtxt xml_matrix fs p L -> logs_at float_of int_of genfromtxt xml_matrix fs p L' -> L = L'.
  Proof. intros fs p L L' (sl & A & B) (sl' & A' & B'). congruence. Qed.
End FolderOf.
