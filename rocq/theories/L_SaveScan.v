(** Lemmas for C73: the scan made from an entry that was saved and read back. *)
From Coq Require Import Reals List ZArith String Ascii Bool Lia Lra.
From Verif Require Import Base PyStr M_Tavi P_Tavi M_Builder P_Builder2 M_Nexus P_Nexus L_NexusFile L_NexusLinks P_NexusFile L_ScanFields M_ScanInfo S_Save L_Save L_SaveGet.
Import ListNotations.
Open Scope string_scope.
Open Scope list_scope.
Notation part := M_Builder.child.

(** * Names of data sets *)
Definition named_part (d : list (string * val)) : Prop := forall a, In ("attrs", a) d -> exists l, a = Dict l /\ sget "dataset" l = None.
Definition size (n : nat) (k : string) (v : val) : result (list string) :=
  match v with
  | Dict d => match sget "dataset" d with
              | Some (Leaf (LArr a)) => Ok (if Nat.eqb (List.length a) n then [k] else [])
              | Some (Leaf (LStrs a)) => Ok (if Nat.eqb (List.length a) n then [k] else [])
              | _ => Ok []
              end
  | Leaf (LStr s) => if contains "dataset" s then Err TypeError else Ok []
  | Leaf (LNum _) => Err TypeError
  | Leaf _ => Ok []
  end.
Lemma get_names_cons : forall n k v l, get_names n ((k, v) :: l) = do here <- size n k v; do rest <- get_names n l; Ok (here ++ rest).
Proof. reflexivity. Qed.
Lemma bind_nil : forall (r : result (list string)), (do rest <- r; Ok ([] ++ rest)) = r.
Proof. intros []; reflexivity. Qed.
Lemma size_ident : forall n k v, size n k (bare ident v) = size n k v.
Proof.
  intros n k [x|d]; [reflexivity|]. rewrite bare_dict. unfold size. rewrite bares_get by discriminate. destruct (sget "dataset" d) as [[x|d']|]; auto.
Qed.
Lemma get_names_ident : forall n l, named_part l -> get_names n (bares ident l) = get_names n l.
Proof.
  intros n. induction l as [|[k v] l]; intros T; auto. assert (T' : named_part l) by (intros a I; apply T; right; auto). rewrite bares_cons, get_names_cons. destruct (String.eqb k "attrs") eqn:Q.
  - apply String.eqb_eq in Q. subst. destruct (T v (or_introl eq_refl)) as (d & -> & E). unfold size. rewrite E. cbn [bind]. rewrite bind_nil. auto.
  - rewrite get_names_cons, size_ident, IHl; auto.
Qed.
Lemma get_names_from : forall n l ns k, get_names n l = Ok ns -> In k ns -> exists d, In (k, Dict d) l /\ sget "dataset" d <> None.
Proof.
  intros n. induction l as [|[a v] l]; intros ns k H I. { apply Ok_inj in H. subst. destruct I. }
  rewrite get_names_cons in H. apply bind_ok in H. destruct H as (here & HH & H). apply bind_ok in H. destruct H as (rest & HR & H). apply Ok_inj in H. subst ns. apply in_app_or in I. destruct I as [I|I].
  - assert (X : forall (b : bool), In k (if b then [a] else []) -> k = a). { intros [] J; [destruct J as [->|[]]; auto|destruct J]. }
    destruct v as [x|d]; cbn [size] in HH. { destruct x; try discriminate; try (apply Ok_inj in HH; subst; destruct I). destruct (contains "dataset" s); [discriminate|]. apply Ok_inj in HH; subst; destruct I. }
    destruct (sget "dataset" d) as [[x|d']|] eqn:E; try (apply Ok_inj in HH; subst; destruct I; fail). destruct x; apply Ok_inj in HH; subst; try (destruct I; fail); apply X in I; subst; exists d; split; [left; auto|congruence|left; auto|congruence].
  - destruct (IHl rest k HR I) as (d & J & E). exists d. split; auto. right. auto.
Qed.
Lemma get_names_after : forall f n l ns, named_part l -> (forall k x, In (k, Leaf x) l -> k <> "attrs" -> f x = x) -> get_names n l = Ok ns ->
  exists ns', get_names n (bares f l) = Ok ns' /\ forall k, (forall d x, In (k, Dict d) l -> sget "dataset" d = Some (Leaf x) -> f x = x) -> (In k ns <-> In k ns').
Proof.
  intros f n. induction l as [|[a v] l]; intros ns T SL H. { apply Ok_inj in H. subst. exists []. split; auto. tauto. }
  assert (T' : named_part l) by (intros b I; apply T; right; auto). rewrite get_names_cons in H. apply bind_ok in H. destruct H as (here & HH & H). apply bind_ok in H. destruct H as (rest & HR & H). apply Ok_inj in H. subst ns.
  destruct (IHl rest T') as (rest' & R' & S'); auto. { intros; eapply SL; eauto. right. eauto. } rewrite bares_cons. destruct (String.eqb a "attrs") eqn:Q.
  { apply String.eqb_eq in Q. subst. destruct (T v (or_introl eq_refl)) as (d & -> & E). cbn [size] in HH. rewrite E in HH. apply Ok_inj in HH. subst here. exists rest'. split; auto. intros k SK. apply S'. intros; eapply SK; eauto. right. eauto. }
  rewrite get_names_cons, R'. apply String.eqb_neq in Q.
  assert (X : exists here', size n a (bare f v) = Ok here' /\ forall k, (forall d x, In (k, Dict d) ((a, v) :: l) -> sget "dataset" d = Some (Leaf x) -> f x = x) -> (In k here <-> In k here')).
  { destruct v as [x|d].
    - cbn [bare]. rewrite (SL a x (or_introl eq_refl) Q). exists here. split; auto. tauto.
    - rewrite bare_dict. unfold size. rewrite bares_get by discriminate. cbn [size] in HH. destruct (sget "dataset" d) as [[x|d']|] eqn:E; cbn [option_map]; try rewrite bare_dict; cbn iota; try (exists []; split; auto; apply Ok_inj in HH; subst here; tauto).
      cbn [bare]. assert (TOT : forall y, exists h, match y with LArr z => Ok (if Nat.eqb (List.length z) n then [a] else []) | LStrs z => Ok (if Nat.eqb (List.length z) n then [a] else []) | _ => Ok [] end = Ok h /\ forall k, In k h -> k = a).
      { assert (X : forall k (b : bool), In k (if b then [a] else []) -> k = a). { intros k [] J; [destruct J as [->|[]]; auto|destruct J]. } intros []; eexists; split; eauto; intros k []. }
      destruct (TOT (f x)) as (h' & E' & A'). destruct (TOT x) as (h & E0 & A0). rewrite E0 in HH. apply Ok_inj in HH. subst h. exists h'. split; [destruct (f x); exact E'|]. intros k SK.
      split; intros I; [pose proof (A0 k I)|pose proof (A' k I)]; subst k; rewrite (SK d x (or_introl eq_refl) E) in E'; rewrite E0 in E'; apply Ok_inj in E'; subst; auto. }
  destruct X as (here' & E' & X). rewrite E'. cbn [bind]. exists (here' ++ rest'). split; auto. intros k SK. rewrite !in_app_iff, (X k SK). rewrite (S' k); [tauto|]. intros; eapply SK; eauto. right. eauto.
Qed.

Lemma component_names_cons : forall n k v l, component_names n ((k, v) :: l) =
  do here <- (if String.eqb k "attrs" then Ok [] else match v with Leaf _ => Err AttributeError
    | Dict d => if String.eqb k "detector" then if dmem String.eqb "data" d then Ok ["detector"] else do a <- get_names n d; Ok (a ++ a) else get_names n d end);
  do rest <- component_names n l; Ok (here ++ rest).
Proof. reflexivity. Qed.
Lemma component_names_ident : forall n l, (forall k d, In (k, Dict d) l -> k <> "attrs" -> named_part d) -> component_names n (bares ident l) = component_names n l.
Proof.
  intros n. induction l as [|[k v] l]; intros T; auto. assert (T' : forall k d, In (k, Dict d) l -> k <> "attrs" -> named_part d) by (intros; eapply T; eauto; right; eauto).
  rewrite bares_cons, component_names_cons. destruct (String.eqb k "attrs") eqn:Q. { cbn [bind]. rewrite bind_nil. auto. }
  rewrite component_names_cons, Q, IHl by auto. destruct v as [x|d]; [reflexivity|]. rewrite bare_dict. rewrite bares_mem by (split; discriminate). rewrite get_names_ident; auto. eapply T; [left; eauto|]. apply String.eqb_neq. auto.
Qed.
Lemma component_names_after : forall f n l ns, (forall k d, In (k, Dict d) l -> k <> "attrs" -> named_part d /\ forall k' x, In (k', Leaf x) d -> k' <> "attrs" -> f x = x) -> component_names n l = Ok ns ->
  exists ns', component_names n (bares f l) = Ok ns' /\ forall k, (forall c d m x, In (c, Dict d) l -> In (k, Dict m) d -> sget "dataset" m = Some (Leaf x) -> f x = x) -> (In k ns <-> In k ns').
Proof.
  intros f n. induction l as [|[c v] l]; intros ns T H. { apply Ok_inj in H. subst. exists []. split; auto. tauto. }
  rewrite component_names_cons in H. apply bind_ok in H. destruct H as (here & HH & H). apply bind_ok in H. destruct H as (rest & HR & H). apply Ok_inj in H. subst ns.
  destruct (IHl rest) as (rest' & R' & S'); auto. { intros; eapply T; eauto. right. eauto. } rewrite bares_cons. destruct (String.eqb c "attrs") eqn:Q.
  { apply Ok_inj in HH. subst here. exists rest'. split; auto. intros k SK. apply S'. intros; eapply SK; eauto. right. eauto. }
  rewrite component_names_cons, Q, R'. destruct v as [x|d]; [discriminate|]. rewrite bare_dict. rewrite bares_mem by (split; discriminate). apply String.eqb_neq in Q. destruct (T c d (or_introl eq_refl) Q) as [ND SL].
  assert (X : exists here', (if String.eqb c "detector" then if dmem String.eqb "data" d then Ok ["detector"] else do a <- get_names n (bares f d); Ok (a ++ a) else get_names n (bares f d)) = Ok here' /\
    forall k, (forall m x, In (k, Dict m) d -> sget "dataset" m = Some (Leaf x) -> f x = x) -> (In k here <-> In k here')).
  { destruct (String.eqb c "detector").
    - destruct (dmem String.eqb "data" d). { exists here. apply Ok_inj in HH. subst here. split; auto. tauto. }
      apply bind_ok in HH. destruct HH as (a & HA & HH). apply Ok_inj in HH. subst here. destruct (get_names_after f n d a ND SL HA) as (a' & -> & S). cbn [bind]. exists (a' ++ a'). split; auto. intros k SK. rewrite !in_app_iff, (S k SK). tauto.
    - destruct (get_names_after f n d here ND SL HH) as (a' & E & S). exists a'. auto. }
  destruct X as (here' & -> & X). cbn [bind]. exists (here' ++ rest'). split; auto. intros k SK. rewrite !in_app_iff. rewrite (X k), (S' k); [tauto| |].
  - intros; eapply SK; eauto. right. eauto.
  - intros; eapply SK; eauto. left. eauto.
Qed.
Lemma component_names_from : forall n l ns k, component_names n l = Ok ns -> In k ns -> k = "detector" \/ exists c d m, In (c, Dict d) l /\ c <> "attrs" /\ In (k, Dict m) d /\ sget "dataset" m <> None.
Proof.
  intros n. induction l as [|[c v] l]; intros ns k H I. { apply Ok_inj in H. subst. destruct I. }
  rewrite component_names_cons in H. apply bind_ok in H. destruct H as (here & HH & H). apply bind_ok in H. destruct H as (rest & HR & H). apply Ok_inj in H. subst ns. apply in_app_or in I. destruct I as [I|I].
  - destruct (String.eqb c "attrs") eqn:Q. { apply Ok_inj in HH. subst. destruct I. } apply String.eqb_neq in Q. destruct v as [x|d]; [discriminate|]. destruct (String.eqb c "detector").
    + destruct (dmem String.eqb "data" d). { apply Ok_inj in HH. subst. destruct I as [<-|[]]. auto. } apply bind_ok in HH. destruct HH as (a & HA & HH). apply Ok_inj in HH. subst here.
      assert (J : In k a) by (apply in_app_or in I; tauto). destruct (get_names_from _ _ _ _ HA J) as (m & IM & E). right. exists c, d, m. split; [left; auto|auto].
    + destruct (get_names_from _ _ _ _ HH I) as (m & IM & E). right. exists c, d, m. split; [left; auto|auto].
  - destruct (IHl rest k HR I) as [->|(c' & d & m & J & E)]; auto. right. exists c', d, m. split; auto. right. auto.
Qed.

(** * Removing and replacing members *)
Lemma bares_ddel : forall f k l, k <> "attrs" -> bares f (ddel String.eqb k l) = ddel String.eqb k (bares f l).
Proof.
  intros f k l NK. induction l as [|[a v] l]; auto. rewrite bares_cons. cbn [ddel]. destruct (String.eqb k a) eqn:Q.
  - apply String.eqb_eq in Q. subst a. apply String.eqb_neq in NK. rewrite NK. cbn [ddel]. rewrite String.eqb_refl. auto.
  - rewrite bares_cons, IHl. destruct (String.eqb a "attrs"); auto. cbn [ddel]. rewrite Q. auto.
Qed.
Lemma bares_sset : forall f k v l, k <> "attrs" -> bares f (sset k v l) = sset k (bare f v) (bares f l).
Proof.
  intros f k v l NK. assert (NK' := NK). apply String.eqb_neq in NK'. induction l as [|[a w] l]. { cbn [dset]. rewrite bares_cons, NK'. auto. }
  cbn [dset]. rewrite bares_cons. destruct (String.eqb k a) eqn:Q.
  - apply String.eqb_eq in Q. subst a. rewrite bares_cons, NK'. cbn [dset]. rewrite String.eqb_refl. auto.
  - rewrite bares_cons, IHl. destruct (String.eqb a "attrs"); auto. cbn [dset]. rewrite Q. auto.
Qed.
Lemma ddel_in : forall k l (a : string) (v : val), In (a, v) (ddel String.eqb k l) -> In (a, v) l.
Proof. intros k. induction l as [|[b w] l]; intros a v I; auto. cbn in *. destruct (String.eqb k b); cbn in *; [auto|]. destruct I; auto. Qed.
Lemma savable_ddel : forall k l, k <> "attrs" -> savable (Dict l) -> sget "dataset" l = None -> savable (Dict (ddel String.eqb k l)).
Proof.
  intros k l NK W D. rewrite ddel_filter by (apply savable_nodup; auto). apply (savable_filter (fun a => negb (String.eqb a k))); auto. apply negb_true_iff, String.eqb_neq. auto.
Qed.
Lemma sset_nodup : forall k (v : val) l, NoDup (map fst l) -> NoDup (map fst (sset k v l)).
Proof.
  intros k v l. assert (K : forall a, In a (map fst (sset k v l)) -> a = k \/ In a (map fst l)). { induction l as [|[b w] l]; intros a I; cbn in *. { destruct I as [<-|[]]. auto. } destruct (String.eqb k b) eqn:Q; cbn in *; destruct I as [I|I]; auto. destruct (IHl a I); auto. }
  clear K. induction l as [|[b w] l]; intros N. { constructor; [intros []|constructor]. } cbn [map fst] in N. inversion N; subst. cbn [dset]. destruct (String.eqb k b) eqn:Q; cbn [map fst]. { apply String.eqb_eq in Q. subst. auto. }
  constructor; auto. intros I. apply H1. apply String.eqb_neq in Q. clear - I Q. induction l as [|[c u] l]; cbn in *. { destruct I as [I|[]]. congruence. } destruct (String.eqb k c) eqn:R; cbn in *; destruct I as [I|I]; auto. 
Qed.
Lemma sset_other : forall {A} k k' (v : A) l, k' <> k -> sget k' (sset k v l) = sget k' l.
Proof. intros A k k' v l N. rewrite sget_sset. apply String.eqb_neq in N. rewrite N. auto. Qed.
Lemma savable_sset : forall k v l, k <> "attrs" -> k <> "dataset" -> savable (Dict l) -> sget "dataset" l = None -> savable v -> savable (Dict (sset k v l)).
Proof.
  intros k v l NA NDS W D SV. inversion W as [? x N K D' A WT|? N ND A WM]; subst; [congruence|]. apply Sv_group.
  - apply sset_nodup. auto.
  - rewrite sset_other; auto.
  - rewrite sset_other; auto.
  - intros a u I NAA. destruct (sset_in _ _ _ _ _ I) as [->|J]; eauto.
Qed.

(** * The names of the data sets before and after *)
Lemma field_path_named : forall k, split_on "/" k = [k] -> named k -> Forall named (field_path k false).
Proof.
  intros k S N. unfold field_path. destruct (String.eqb k "detector"); [repeat constructor; discriminate|]. destruct (String.eqb k "monitor"); [repeat constructor; discriminate|].
  destruct (String.eqb k "sample"); [repeat constructor; discriminate|]. rewrite S. constructor; auto.
Qed.
Lemma leaf_solid : forall show e k p q d x, solid show e k -> follow p (Dict e) = Some (Dict d) -> leaf_at (k :: q ++ ["dataset"]) (Dict d) = Some x -> after show x = x.
Proof.
  intros show e k p q d x S F L. apply (S p q). unfold leaf_at in *. rewrite <- L. clear - F. revert F. generalize (Dict e). induction p as [|a p]; intros v F. { cbn in F. injection F as ->. auto. }
  cbn [follow app] in *. destruct (sget a (items v)); [auto|discriminate].
Qed.
Lemma leaf_two : forall k (m : list (string * val)) d x, sget k d = Some (Dict m) -> sget "dataset" m = Some (Leaf x) -> leaf_at (k :: [] ++ ["dataset"]) (Dict d) = Some x.
Proof. intros k m d x G D. cbn [app]. rewrite leaf_cons, G, leaf_cons, D. reflexivity. Qed.

(** get_dataset_names in steps *)
Definition points (p : option val) : result nat :=
  match p with
  | Some (Leaf (LArr a)) | Some (Leaf (LList a)) => Ok (List.length a)
  | Some (Leaf (LStrs a)) => Ok (List.length a)
  | Some (Leaf (LStr s)) => Ok (String.length s)
  | Some (Dict d) => Ok (List.length d)
  | Some (Leaf (LNum _)) | None => Err TypeError
  end.
Definition names_last (n : nat) (a : list string) (o : option val) (monitor : list (string * val)) (e3 : list (string * val)) : result (list string) :=
  do _ <- (match o with Some _ => if dmem String.eqb "data" monitor then Ok tt else Err KeyError | None => Ok tt end);
  do m <- part "monitor" e3;
  do b <- get_names n m;
  do s <- part "sample" e3;
  do c <- get_names n s;
  Ok (a ++ b ++ c).
Definition names_rest (n : nat) (e1 : list (string * val)) : list (string * val) * result (list string) :=
  match (do instru <- part "instrument" e1; do a <- component_names n instru; do monitor <- part "monitor" e1; Ok (a, monitor)) with
  | Err x => (e1, Err x)
  | Ok (a, monitor) =>
      let (e2, md) := get e1 "monitor/data" false None in
      match md with
      | Err x => (e2, Err x)
      | Ok o => let e3 := match o with Some _ => sset "monitor" (Dict (ddel String.eqb "data" monitor)) e2 | None => e2 end in (e3, names_last n a o monitor e3)
      end
  end.
Lemma names_steps : forall e, get_dataset_names e = let (e1, pts) := get e "Pt." false None in match (do p <- pts; points p) with Err x => (e1, Err x) | Ok n => names_rest n e1 end.
Proof.
  intros e. unfold get_dataset_names. destruct (get e "Pt." false None) as [e1 pts]. destruct pts as [p|x]; [|reflexivity]. cbn [bind]. fold (points p). destruct (points p) as [n|x]; [|reflexivity]. cbn [bind]. unfold names_rest.
  destruct (part "instrument" e1) as [i|x]; [|reflexivity]. cbn [bind]. destruct (component_names n i) as [a|x]; [|reflexivity]. cbn [bind]. destruct (part "monitor" e1) as [m|x]; reflexivity.
Qed.
Lemma filter_sub : forall (P : string * val -> bool) l k v, NoDup (map fst l) -> sget k (filter P l) = Some v -> sget k l = Some v.
Proof. intros P l k v N G. apply in_sget; auto. apply sget_in in G. apply filter_In in G. tauto. Qed.
Lemma get_solid : forall show e key k q x, savable (Dict e) -> field_path key false = k :: q -> snd (get e key false None) = Ok (Some (Leaf x)) -> solid show e k -> after show x = x.
Proof.
  intros show e key k q x SE FP G SO. destruct (C37_sound e key false None (Leaf x) (savable_distinct _ SE) G) as [(p & F)|X]; [|discriminate]. unfold found_at in F. rewrite FP in F. apply (SO p q).
  cbn [app item] in F. unfold leaf_at. assert (X : forall a r w, follow (a :: r) (contents e) = Some w -> follow (a :: r) (Dict e) = Some w).
  { intros a r w H. cbn [follow items] in *. unfold contents in H. cbn [items] in H. destruct (sget a (filter _ e)) as [u|] eqn:E; [|discriminate]. apply filter_sub in E; [|apply savable_nodup; auto]. rewrite E. auto. }
  destruct p as [|a p]; cbn [app] in *; apply X in F; rewrite F; auto.
Qed.

Lemma leaf_contents : forall (l : list (string * val)) p x, NoDup (map fst l) -> leaf_at p (Dict (items (contents l))) = Some x -> leaf_at p (Dict l) = Some x.
Proof.
    intros l [|k p] x N L; [discriminate|]. rewrite leaf_cons in *. destruct (sget k (items (contents l))) as [w|] eqn:G; [|discriminate]. unfold contents in G. cbn [items] in G. apply filter_sub in G; auto. rewrite G. auto.
Qed.
Lemma leaf_ddel : forall k (l : list (string * val)) p x, NoDup (map fst l) -> leaf_at p (Dict (ddel String.eqb k l)) = Some x -> leaf_at p (Dict l) = Some x.
Proof.
    intros k l [|a p] x N L; [discriminate|]. rewrite leaf_cons in *. rewrite ddel_filter in L by auto. destruct (sget a (filter _ l)) as [w|] eqn:G; [|discriminate]. apply filter_sub in G; auto. rewrite G. auto.
Qed.
Lemma get_contents : forall e key, NoDup (map fst e) -> get (items (contents e)) key false None = get e key false None.
Proof.
  intros e key N. rewrite !get_unfold; auto; [|unfold contents; cbn [items]; apply filter_nodup; auto]. assert (C : contents (items (contents e)) = contents e) by (unfold contents; cbn [items]; rewrite P_Nexus.filter_twice; auto). rewrite C. auto.
Qed.
Lemma data_of_get : forall ns e acc, NoDup (map fst e) -> (forall k, In k ns -> exists r, snd (get e k false None) = Ok r) ->
  exists d, data_of ns e acc = Ok d /\ (forall k r, In k ns -> snd (get e k false None) = Ok r -> sget k d = Some r) /\ (forall k, ~ In k ns -> sget k d = sget k acc).
Proof.
  induction ns as [|k ns]; intros e acc N T; cbn [data_of]. { exists acc. split; auto. split; [intros k r []|auto]. }
  destruct (T k (or_introl eq_refl)) as (r & G). destruct (get e k false None) as [e1 r1] eqn:GE. cbn in G. subst r1. cbn [bind]. assert (E1 : e1 = items (contents e)). { rewrite get_unfold in GE by auto. injection GE as <- _. auto. } subst e1.
  destruct (IHns (items (contents e)) (sset k r acc)) as (d & D & A & B). { unfold contents. cbn [items]. apply filter_nodup. auto. } { intros k' I. rewrite get_contents by auto. apply T. right. auto. }
  exists d. split; auto. split.
  - intros k' r' I G'. destruct (in_dec String.string_dec k' ns) as [J|J]; [apply A; auto; rewrite get_contents; auto|]. destruct I as [<-|I]; [|contradiction]. rewrite B by auto. rewrite GE in G'. cbn in G'. apply Ok_inj in G'. subst. rewrite sget_sset, String.eqb_refl. auto.
  - intros k' NI. rewrite B by (intros I; apply NI; right; auto). rewrite sset_other; auto. intros ->. apply NI. left. auto.
Qed.

Section Names.
  Variable show : list string -> string.
  Variables e v : list (string * val).
  Hypothesis AL : alike show e v.
  Hypothesis TE : tidy (Dict e).
  Hypothesis TV : forall k w, In (k, w) v -> k <> "attrs" -> k <> "data" -> tidy w.
  Hypothesis PT : solid show e "Pt.".
  Hypothesis NAME : forall c x, leaf_at ["instrument"; c; "dataset"] (Dict e) = Some x -> after show x = x.
  Hypothesis GROUP : leaf_at ["monitor"; "dataset"] (Dict e) = None /\ leaf_at ["sample"; "dataset"] (Dict e) = None.
  Hypothesis SL : slashless e.

  Lemma content_get : forall (l : list (string * val)) k, k <> "SPICElogs" -> k <> "DASlogs" -> sget k (items (contents l)) = sget k l.
  Proof using. intros l k A B. apply contents_sget; auto. Qed.
  Lemma content_twice : forall (l : list (string * val)), contents (items (contents l)) = contents l.
  Proof using. intros l. unfold contents. cbn [items]. rewrite P_Nexus.filter_twice. auto. Qed.
  (** a part of the entry, before and after *)
  Lemma part_of : forall k d, k <> "data" -> k <> "attrs" -> k <> "dataset" -> part k (items (contents e)) = Ok d -> k <> "SPICElogs" -> k <> "DASlogs" ->
    exists d', sget k e = Some (Dict d) /\ part k (items (contents v)) = Ok d' /\ sget k v = Some (Dict d') /\ bares ident d' = bares (after show) d /\ savable (Dict d) /\ tidy (Dict d) /\ tidy (Dict d').
  Proof using AL TE TV.
    intros k d ND NA NDS P NS1 NS2. unfold part in *. rewrite content_get in * by auto. destruct (sget k e) as [[x|d0]|] eqn:G; try discriminate. apply Ok_inj in P. subst d0.
    destruct AL as [SE DE NV M]. pose proof (matches_sget _ _ k M ND) as E. rewrite !bares_get in E by auto. rewrite G in E. destruct (sget k v) as [w|] eqn:GV; [|discriminate]. cbn [option_map] in E. rewrite bare_dict in E.
    destruct w as [y|d']; [discriminate|]. rewrite bare_dict in E. injection E as E. exists d'. split; auto. split; auto. split; auto. split; auto. split.
    { inversion SE as [? x N K D A WT|? N ND' A WM]; subst; [congruence|]. eapply WM; [eapply sget_in; eauto|auto]. }
    split. { inversion TE as [|? _ TM]; subst. eapply TM; [eapply sget_in; eauto|auto]. } eapply TV; [eapply sget_in; eauto|auto|auto].
  Qed.
  Lemma tidy_part : forall d, tidy (Dict d) -> named_part d.
  Proof using. intros d T a I. inversion T as [|? TA _]; subst. auto. Qed.
  Lemma tidy_in : forall d k w, tidy (Dict d) -> In (k, w) d -> k <> "attrs" -> tidy w.
  Proof using. intros d k w T I N. inversion T as [|? _ TM]; subst. eauto. Qed.
  Definition own (k : string) : Prop := split_on "/" k = [k] /\ named k.
  Lemma own_in : forall p k w d, follow p (Dict e) = Some (Dict d) -> In (k, w) d -> NoDup (map fst d) -> named k -> own k.
  Proof using SL.
    intros p k w d F I N NK. split; auto. apply (SL p k w). assert (FA : forall p q v w, follow p v = Some w -> follow (p ++ q) v = follow q w). { clear. induction p as [|a p]; intros q u w F; cbn in *. { injection F as ->. auto. } destruct (sget a (items u)); [auto|discriminate]. }
    rewrite (FA _ _ _ _ F). cbn. rewrite (in_sget k d w); auto.
  Qed.
  Lemma in_bares : forall f d k w, In (k, w) (bares f d) -> exists u, In (k, u) d /\ k <> "attrs" /\ w = bare f u.
  Proof using. intros. apply bares_in. auto. Qed.
  (** the member called "dataset" of a savable thing is a leaf *)
  Lemma dataset_leaf : forall d m, savable (Dict d) -> ~ In ("dataset", Dict m) d.
  Proof using. intros d m W I. inversion W as [? x N K D A WT|? N ND A WM]; subst; apply in_sget in I; auto; congruence. Qed.
  Lemma names_part : forall n p d d' ns, follow p (Dict e) = Some (Dict d) -> savable (Dict d) -> tidy (Dict d) -> tidy (Dict d') -> bares ident d' = bares (after show) d ->
    (forall x, sget "dataset" d = Some (Leaf x) -> after show x = x) -> get_names n d = Ok ns ->
    exists ns', get_names n d' = Ok ns' /\ (forall k, solid show e k -> (In k ns <-> In k ns')) /\ forall k, In k ns \/ In k ns' -> own k.
  Proof using SL.
    intros n p d d' ns F W T T' B SD G. pose proof (savable_nodup _ W) as N. destruct (get_names_after (after show) n d ns) as (ns' & G' & S); auto using tidy_part.
    { intros k x I NK. inversion W as [? y ? K D A WT|? ? ND A WM]; subst. { destruct (K k _ I) as [?| ->]; [contradiction|]. apply in_sget in I; auto. } pose proof (WM k _ I NK) as X. inversion X. }
    exists ns'. assert (E : get_names n d' = Ok ns') by (rewrite <- get_names_ident, B by (apply tidy_part; auto); auto). split; auto. split.
    - intros k SK. apply S. intros m x I D. apply (leaf_solid show e k p [] d x); auto. apply (leaf_two k m); auto. apply in_sget; auto.
    - intros k [I|I].
      + destruct (get_names_from _ _ _ _ G I) as (m & J & DM). apply (own_in p k (Dict m) d); auto. split. { intros ->. destruct (tidy_part d T _ J) as (l & E' & X). injection E' as ->. contradiction. } intros ->. eapply dataset_leaf; eauto.
      + destruct (get_names_from _ _ _ _ G' I) as (m & J & DM). apply in_bares in J. destruct J as (u & J & NA & EU). apply (own_in p k u d); auto. split; auto. intros ->. destruct u as [x|d0]; [discriminate|]. eapply dataset_leaf; eauto.
  Qed.
  Lemma names_components : forall n d d' ns, sget "instrument" e = Some (Dict d) -> savable (Dict d) -> tidy (Dict d) -> tidy (Dict d') -> bares ident d' = bares (after show) d -> component_names n d = Ok ns ->
    exists ns', component_names n d' = Ok ns' /\ (forall k, solid show e k -> (In k ns <-> In k ns')) /\ forall k, In k ns \/ In k ns' -> own k.
  Proof using SL NAME.
    intros n d d' ns F W T T' B G. pose proof (savable_nodup _ W) as N.
    assert (SUB : forall c m, In (c, Dict m) d -> c <> "attrs" -> savable (Dict m)). { intros c m I NC. inversion W as [? y ? K D A WT|? ? ND A WM]; subst; [|eauto]. destruct (K c _ I) as [?| ->]; [contradiction|]. apply in_sget in I; auto. congruence. }
    destruct (component_names_after (after show) n d ns) as (ns' & G' & S); auto.
    { intros c m I NC. split. { apply tidy_part. exact (tidy_in d c (Dict m) T I NC). } intros k x J NK. pose proof (SUB c m I NC) as WM. pose proof (savable_nodup _ WM) as NM. inversion WM as [? y ? K D A WT|? ? ND A WMM]; subst.
      - destruct (K k _ J) as [?| ->]; [contradiction|]. apply in_sget in J; auto. apply (NAME c). rewrite leaf_cons, F, leaf_cons, (in_sget c d (Dict m)), leaf_cons, J; auto.
      - pose proof (WMM k _ J NK) as X. inversion X. }
    exists ns'. assert (E : component_names n d' = Ok ns'). { rewrite <- component_names_ident, B; auto. intros k m I NK. apply tidy_part. exact (tidy_in d' k (Dict m) T' I NK). } split; auto.
    assert (FD : forall c m, In (c, Dict m) d -> follow ["instrument"; c] (Dict e) = Some (Dict m)). { intros c m I. cbn. rewrite F. cbn. rewrite (in_sget c d (Dict m)); auto. }
    split.
    - intros k SK. apply S. intros c m m' x I J D. destruct (String.eqb c "attrs") eqn:Q.
      { apply String.eqb_eq in Q. subst. exfalso. destruct (tidy_part d T _ I) as (l & E' & X). injection E' as ->. inversion W as [? y ? K D' A WT|? ? ND A WM]; subst; rewrite (in_sget "attrs" d (Dict l)) in A by auto; destruct A as [_ A]; destruct (A _ _ J) as (z & Q); discriminate. }
      apply String.eqb_neq in Q. apply (leaf_solid show e k ["instrument"; c] [] m x); auto. apply (leaf_two k m'); auto. apply in_sget; auto. apply (savable_nodup m). eauto.
    - intros k [I|I].
      + destruct (component_names_from _ _ _ _ G I) as [->|(c & m & m' & J & NC & J' & DM)]; [split; [reflexivity|split; discriminate]|]. pose proof (SUB _ _ J NC) as WM.
        apply (own_in ["instrument"; c] k (Dict m') m); auto. { apply (savable_nodup m). auto. } split. { intros ->. pose proof (tidy_in _ _ _ T J NC) as TM. destruct (tidy_part m TM _ J') as (l & E' & X). injection E' as ->. contradiction. } intros ->. eapply dataset_leaf; eauto.
      + destruct (component_names_from _ _ _ _ G' I) as [->|(c & m & m' & J & NC & J' & DM)]; [split; [reflexivity|split; discriminate]|].
        apply in_bares in J. destruct J as (u & J & NA & EU). destruct u as [x|m0]; [discriminate|]. rewrite bare_dict in EU. injection EU as ->. apply in_bares in J'. destruct J' as (u & J' & NA' & EU). pose proof (SUB _ _ J NC) as WM.
        apply (own_in ["instrument"; c] k u m0); auto. { apply (savable_nodup m0). auto. } split; auto. intros ->. destruct u as [x|d0]; [discriminate|]. eapply dataset_leaf; eauto.
  Qed.
  Record names_same (e3 v3 : list (string * val)) (ns ns' : list string) : Prop := NamesSame {
    nk_alike : alike show e3 v3;
    nk_names : forall k, solid show e k -> (In k ns <-> In k ns');
    nk_own : forall k, In k ns \/ In k ns' -> own k;
    nk_other : forall k, k <> "monitor" -> k <> "SPICElogs" -> k <> "DASlogs" -> sget k e3 = sget k e /\ sget k v3 = sget k v;
    nk_sub : forall p x, leaf_at p (Dict e3) = Some x -> leaf_at p (Dict e) = Some x }.
  Lemma names_kept : forall e3 ns, get_dataset_names e = (e3, Ok ns) -> exists v3 ns', get_dataset_names v = (v3, Ok ns') /\ names_same e3 v3 ns ns'.
  Proof using AL TE TV PT NAME GROUP SL.
    intros e3 ns H. rewrite names_steps in *. destruct (alike_get show e v "Pt." AL) as (r & G1 & G2). { repeat constructor; discriminate. } { intros k0 X. discriminate. } rewrite G1 in H. rewrite G2. cbn [bind] in *.
    destruct r as [x|]; [|discriminate]. cbn [option_map] in *. assert (SE := al_e _ _ _ AL). rewrite (get_solid show e "Pt." "Pt." [] x SE) by (auto; rewrite G1; auto).
    destruct (points (Some (Leaf x))) as [n|]; [|discriminate]. clear x G1 G2. unfold names_rest in *.
    assert (NE := savable_nodup _ SE). assert (NV := al_v _ _ _ AL). set (ce := items (contents e)) in *. set (cv := items (contents v)) in *.
    destruct (part "instrument" ce) as [i|] eqn:PI; [|discriminate]. cbn [bind] in H. destruct (component_names n i) as [a|] eqn:CN; [|discriminate]. cbn [bind] in H. destruct (part "monitor" ce) as [m|] eqn:PM; [|discriminate]. cbn [bind] in H.
    destruct (part_of "instrument" i) as (i' & GI & PI' & _ & BI & SI & TI & TI'); try discriminate; auto. destruct (part_of "monitor" m) as (m' & GM & PM' & GM' & BM & SM & TM & TM'); try discriminate; auto.
    destruct (names_components n i i' a GI SI TI TI' BI CN) as (a' & CN' & SA & OA). fold cv in PI', PM'. rewrite PI', PM'. cbn [bind]. rewrite CN'. cbn [bind].
    pose proof (alike_contents _ _ _ AL) as AC. fold ce cv in AC. destruct (alike_get show ce cv "monitor/data" AC) as (o & G1 & G2). { repeat constructor; discriminate. } { intros k0 X. discriminate. }
    assert (C1 : items (contents ce) = ce) by (unfold ce; rewrite content_twice; auto). assert (C2 : items (contents cv) = cv) by (unfold cv; rewrite content_twice; auto). rewrite C1 in G1. rewrite C2 in G2.
    rewrite G1 in H. rewrite G2. cbv zeta in *. injection H as E3 HL. rewrite E3 in HL. destruct GROUP as [GR1 GR2].
    assert (DSM : sget "dataset" m = None). { rewrite leaf_cons, GM, leaf_cons in GR1. inversion SM as [? z ? ? D ? ?|]; subst; auto. rewrite D in GR1. discriminate. }
    (* the entry and the monitor before the last step *)
    set (v3 := match option_map Leaf (option_map (after show) o) with Some _ => sset "monitor" (Dict (ddel String.eqb "data" m')) cv | None => cv end).
    assert (X : alike show e3 v3 /\ exists m3 m3', part "monitor" e3 = Ok m3 /\ part "monitor" v3 = Ok m3' /\ savable (Dict m3) /\ tidy (Dict m3) /\ tidy (Dict m3') /\ bares ident m3' = bares (after show) m3 /\ sget "dataset" m3 = None /\
      (forall k w, In (k, w) m3 -> In (k, w) m) /\ (forall k, k <> "monitor" -> sget k e3 = sget k ce /\ sget k v3 = sget k cv) /\ (forall p x, leaf_at p (Dict e3) = Some x -> leaf_at p (Dict ce) = Some x)).
    { unfold v3. subst e3. destruct o as [y|]; cbn [option_map].
      - destruct AC as [SC DC NC MC].
        assert (NA : "data" <> "attrs") by discriminate.
        assert (TD : forall d, tidy (Dict d) -> tidy (Dict (ddel String.eqb "data" d))). { intros d T. inversion T as [|? TA TMM]; subst. constructor; intros; [apply TA|eapply TMM; eauto]; eapply ddel_in; eauto. }
        assert (BD : bares ident (ddel String.eqb "data" m') = bares (after show) (ddel String.eqb "data" m)) by (rewrite !bares_ddel, BM by auto; auto).
        assert (SD : savable (Dict (ddel String.eqb "data" m))) by (apply savable_ddel; auto).
        split.
        + constructor; [apply savable_sset; auto; discriminate|rewrite sset_other; auto; discriminate|apply sset_nodup; auto|]. rewrite !bares_sset by discriminate. rewrite !bare_dict, BD. rewrite bares_ddel by discriminate. apply matches_sset; auto. { rewrite bares_get by discriminate. unfold ce. rewrite content_get, GM by discriminate. cbn [option_map]. rewrite bare_dict. auto. } unfold bares. rewrite map_map. apply (members_nodup m). apply savable_nodup. auto.
        + exists (ddel String.eqb "data" m), (ddel String.eqb "data" m'). unfold part. rewrite !sget_sset. change (String.eqb "monitor" "monitor") with true. cbv iota. split; auto. split; auto. split; auto. split; auto. split; auto. split; auto.
          split. { rewrite ddel_filter by (apply savable_nodup; auto). apply filter_none. auto. } split. { intros; eapply ddel_in; eauto. }
          split. { intros k NK. rewrite !sset_other; auto. }
          intros [|k p] z L; [discriminate|]. rewrite leaf_cons in *. rewrite sget_sset in L. destruct (String.eqb k "monitor") eqn:Q; auto. apply String.eqb_eq in Q. subst k. unfold part in PM. destruct (sget "monitor" ce) as [[|m0]|]; try discriminate. apply Ok_inj in PM. subst m0. eapply leaf_ddel; eauto. apply savable_nodup; auto.
      - split; auto. exists m, m'. repeat (split; auto). }
    destruct X as (A3 & m3 & m3' & P3 & P3' & S3 & T3 & T3' & B3 & D3 & SUB3 & OTH & LSUB). exists v3. unfold names_last in *. rewrite P3 in HL. rewrite P3'. cbn [bind] in *.
    assert (MEM : dmem String.eqb "data" m' = dmem String.eqb "data" m). { rewrite <- (bares_mem ident "data" m'), BM, bares_mem by (split; discriminate). auto. }
    assert (HL' : (do b <- get_names n m3; do s <- part "sample" e3; do c <- get_names n s; Ok (a ++ b ++ c)) = Ok ns).
    { destruct o as [y|]; cbn [option_map] in HL; [|exact HL]. destruct (dmem String.eqb "data" m); [exact HL|discriminate]. }
    assert (FIRST : forall B (f : unit -> result B), (do u <- (match option_map Leaf (option_map (after show) o) with Some _ => if dmem String.eqb "data" m' then Ok tt else Err KeyError | None => Ok tt end); f u) = f tt).
    { intros B f. destruct o as [y|]; [|reflexivity]. cbn [option_map] in HL |- *. rewrite MEM. destruct (dmem String.eqb "data" m); [reflexivity|discriminate]. }
    rewrite FIRST. clear HL FIRST. apply bind_ok in HL'. destruct HL' as (b & GB & HL). apply bind_ok in HL. destruct HL as (sm & PS & HL). apply bind_ok in HL. destruct HL as (c & GC & HL). apply Ok_inj in HL. subst ns.
    assert (PSC : part "sample" ce = Ok sm). { unfold part in *. destruct (OTH "sample") as [E _]; [discriminate|]. rewrite E in PS. auto. }
    destruct (part_of "sample" sm) as (sm' & GS & PS' & _ & BS & SS & TS & TS'); try discriminate; auto.
    assert (PSV : part "sample" v3 = Ok sm'). { unfold part in *. destruct (OTH "sample") as [_ E]; [discriminate|]. rewrite E. auto. }
    assert (DSS : sget "dataset" sm = None). { rewrite leaf_cons, GS, leaf_cons in GR2. inversion SS as [? z ? ? D ? ?|]; subst; auto. rewrite D in GR2. discriminate. }
    destruct (get_names_after (after show) n m3 b) as (b' & GB' & SB); auto using tidy_part. { intros k x I NK. inversion S3 as [? y ? K D A WT|? ? ND A WM]; subst; [congruence|]. pose proof (WM k _ I NK) as X. inversion X. }
    assert (GB2 : get_names n m3' = Ok b') by (rewrite <- get_names_ident, B3 by (apply tidy_part; auto); auto). rewrite GB2. cbn [bind]. rewrite PSV. cbn [bind].
    destruct (names_part n ["sample"] sm sm' c) as (c' & GC' & SC & OC); auto. { cbn. rewrite GS. auto. } { intros x D. congruence. } rewrite GC'. cbn [bind].
    exists (a' ++ b' ++ c'). split; auto. assert (NM := savable_nodup _ SM). assert (FM : follow ["monitor"] (Dict e) = Some (Dict m)) by (cbn; rewrite GM; auto).
    constructor; auto.
    - intros k SK. rewrite !in_app_iff, (SA k SK), (SC k SK). rewrite (SB k); [tauto|]. intros d x I D. apply (leaf_solid show e k ["monitor"] [] m x); auto. apply (leaf_two k d); auto. apply in_sget; auto.
    - intros k I. assert (J : In k a \/ In k a' \/ In k b \/ In k b' \/ In k c \/ In k c') by (rewrite !in_app_iff in I; tauto). destruct J as [J|[J|[J|[J|[J|J]]]]]; auto.
      + destruct (get_names_from _ _ _ _ GB J) as (d & K & DM). apply (own_in ["monitor"] k (Dict d) m); auto. split. { intros ->. destruct (tidy_part m3 T3 _ K) as (l & E' & X). injection E' as ->. contradiction. } intros ->. eapply (dataset_leaf m3); eauto.
      + destruct (get_names_from _ _ _ _ GB' J) as (d & K & DM). apply in_bares in K. destruct K as (u & K & NA & EU). apply (own_in ["monitor"] k u m); auto. split; auto. intros ->. destruct u as [x|d0]; [discriminate|]. eapply (dataset_leaf m3); eauto.
    - intros k N1 N2 N3. destruct (OTH k N1) as [-> ->]. unfold ce, cv. rewrite !content_get; auto.
    - intros p x L. apply leaf_contents; auto.
  Qed.

  (** * The scan before and after *)
  Lemma scan_kept : forall name c, new_scan name e = Ok c -> exists c', new_scan name v = Ok c' /\ sn_name c' = sn_name c /\ alike show (sn_entry c) (sn_entry c') /\
    (forall k, solid show e k -> sget k (sn_data c') = sget k (sn_data c)) /\
    (forall k, k <> "monitor" -> k <> "SPICElogs" -> k <> "DASlogs" -> sget k (sn_entry c) = sget k e /\ sget k (sn_entry c') = sget k v) /\
    (forall p x, leaf_at p (Dict (sn_entry c)) = Some x -> leaf_at p (Dict e) = Some x).
  Proof using AL TE TV PT NAME GROUP SL.
    intros name c H. unfold new_scan in *. destruct (get_dataset_names e) as [e3 r] eqn:GD. apply bind_ok in H. destruct H as (ns & -> & H). apply bind_ok in H. destruct H as (d & HD & H). apply Ok_inj in H. subst c.
    destruct (names_kept e3 ns GD) as (v3 & ns' & -> & [A S O OT LS]). cbn [bind]. assert (N3 := savable_nodup _ (al_e _ _ _ A)). assert (NV3 := al_v _ _ _ A).
    assert (GET : forall k, own k -> exists r, snd (get e3 k false None) = Ok (option_map Leaf r) /\ snd (get v3 k false None) = Ok (option_map Leaf (option_map (after show) r))).
    { intros k [O1 O2]. destruct (alike_get show e3 v3 k A) as (r & -> & ->). { apply field_path_named; auto. } { intros k0 X. exfalso. unfold field_path in X. destruct (String.eqb k "detector"); [discriminate|]. destruct (String.eqb k "monitor"); [discriminate|]. destruct (String.eqb k "sample"); [discriminate|]. rewrite O1 in X. discriminate. } exists r. auto. }
    destruct (data_of_get ns e3 [] N3) as (d1 & D1 & A1 & B1). { intros k I. destruct (GET k) as (r & G & _); eauto. } rewrite D1 in HD. apply Ok_inj in HD. subst d1.
    destruct (data_of_get ns' v3 [] NV3) as (d' & D' & A' & B'). { intros k I. destruct (GET k) as (r & _ & G); eauto. } rewrite D'. cbn [bind]. eexists. split; [reflexivity|]. cbn [sn_name sn_entry sn_data]. split; auto. split; auto. split; auto.
    intros k SK. destruct (in_dec String.string_dec k ns) as [I|I].
    - destruct (GET k) as (r & G & G'); auto. rewrite (A1 k _ I G). assert (I' : In k ns') by (apply S; auto). rewrite (A' k _ I' G'). destruct r as [x|]; auto. cbn [option_map].
      assert (OK : own k) by auto. destruct OK as [O1 O2]. assert (F : exists q, field_path k false = k :: q). { unfold field_path. destruct (String.eqb k "detector") eqn:Q1; [apply String.eqb_eq in Q1; subst; eauto|]. destruct (String.eqb k "monitor") eqn:Q2; [apply String.eqb_eq in Q2; subst; eauto|]. destruct (String.eqb k "sample") eqn:Q3; [apply String.eqb_eq in Q3; subst; eauto|]. rewrite O1. eauto. }
      destruct F as (q & F). rewrite (get_solid show e3 k k q x); auto. { apply (al_e _ _ _ A). } intros p1 q1 y L. eapply SK. eauto.
    - rewrite B1 by auto. apply B'. intros I'. apply I. apply S; auto.
  Qed.
End Names.
