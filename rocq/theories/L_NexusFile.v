(** Writing an entry to a fresh group and reading it back. *)
From Coq Require Import Reals List String Ascii Bool Lia Lra.
From Verif Require Import Base PyStr M_Tavi P_Tavi M_Nexus P_Nexus.
Import ListNotations.
Open Scope string_scope.
Open Scope list_scope.

(** * Specification *)
(** The value of the dataset or attribute at a path of keys. *)
Definition leaf_at (p : list string) (v : val) : option leaf := match follow p v with Some (Leaf x) => Some x | _ => None end.
(** A dataset whose content suits its declared type (the types the builder declares). *)
Definition well_typed (attrs : option val) (x : leaf) : Prop :=
  match type_of attrs with
  | Some "NX_CHAR" => exists s, x = LStr s
  | Some "NX_FLOAT" => (exists r, x = LNum r) \/ (exists l, x = LArr l)
  | Some "NX_INT" => (exists z, x = LNum (IZR z)) \/ (exists l, x = LArr (map IZR l))
  | _ => (forall l, x <> LStrs l) /\ (forall l, x <> LList l)
  end.
Definition plain_attrs (o : option val) : Prop :=
  match o with None => True | Some (Leaf _) => False | Some (Dict a) => NoDup (map fst a) /\ forall k v, In (k, v) a -> exists x, v = Leaf x /\ forall l, x <> LList l end.
(** Groups of groups and datasets with plain attributes. *)
Inductive writable : val -> Prop :=
| W_dataset : forall l x, NoDup (map fst l) -> (forall k v, In (k, v) l -> k = "attrs" \/ k = "dataset") -> sget "dataset" l = Some (Leaf x) ->
    plain_attrs (sget "attrs" l) -> well_typed (sget "attrs" l) x -> writable (Dict l)
| W_group : forall l, NoDup (map fst l) -> sget "dataset" l = None -> plain_attrs (sget "attrs" l) ->
    (forall k v, In (k, v) l -> k <> "attrs" -> writable v) -> writable (Dict l).

(** * Lemmas *)
Lemma sset_fresh : forall {A} k (v : A) d, ~ In k (map fst d) -> sset k v d = d ++ [(k, v)].
Proof. induction d as [|[a b] d]; intros N; cbn in *; auto. destruct (String.eqb k a) eqn:Q. { apply String.eqb_eq in Q. exfalso. auto. } f_equal. auto. Qed.
Lemma ddel_fresh : forall {A} k (d : dict string A), ~ In k (map fst d) -> ddel String.eqb k d = d.
Proof. induction d as [|[a b] d]; intros N; cbn in *; auto. destruct (String.eqb k a) eqn:Q. { apply String.eqb_eq in Q. exfalso. auto. } f_equal. auto. Qed.
Lemma sget_app : forall {A} k (d e : dict string A), sget k (d ++ e) = match sget k d with Some v => Some v | None => sget k e end.
Proof. induction d as [|[a b] d]; intros; cbn; auto. destruct (String.eqb k a); auto. Qed.

Lemma stored_id : forall x, (forall l, x <> LList l) -> stored x = x.
Proof. intros [] H; auto. exfalso. eapply H. reflexivity. Qed.
Lemma set_attrs_spec : forall l a, NoDup (map fst l) -> (forall k v, In (k, v) l -> exists x, v = Leaf x /\ forall l, x <> LList l) -> (forall k, In k (map fst a) -> ~ In k (map fst l)) ->
  exists a', set_attrs l a = Ok a' /\ attr_items a' = attr_items a ++ l.
Proof.
  induction l as [|[k v] l]; intros a N P F; cbn [set_attrs].
  - exists a. rewrite app_nil_r. auto.
  - destruct (P k v (or_introl eq_refl)) as (x & -> & NL). cbn in N. inversion N; subst. rewrite (stored_id x NL).
    assert (NK : ~ In k (map fst a)). { intros I. apply (F k I). left. auto. }
    rewrite sset_fresh by auto. destruct (IHl (a ++ [(k, x)])) as (a' & S & E); auto.
    + intros; eapply P; right; eauto.
    + intros k' I J. rewrite map_app, in_app_iff in I. cbn in I. destruct I as [I|[<-|[]]]; [|contradiction]. apply (F k' I). right. auto.
    + exists a'. split; auto. rewrite E. unfold attr_items. rewrite map_app, <- app_assoc. auto.
Qed.

Lemma trunc_int : forall z, trunc (IZR z) = IZR z.
Proof.
  intros z. unfold trunc. assert (I : forall n, Int_part (IZR n) = n).
  { intros n. unfold Int_part. destruct (archimed (IZR n)) as [A B]. apply lt_IZR in A. assert (up (IZR n) <= n + 1)%Z; [|lia]. apply le_IZR. rewrite plus_IZR. lra. }
  destruct (Rle_dec 0 (IZR z)). - rewrite I. auto. - rewrite <- (opp_IZR z), I, opp_IZR. lra.
Qed.
Lemma format_ok : forall attrs x, well_typed attrs x -> format_dataset attrs x = Ok x /\ (forall show, read_leaf show x = x).
Proof.
  intros attrs x W. unfold well_typed, format_dataset in *. destruct (type_of attrs) as [t|].
  2:{ destruct W as [W1 W2]. split. { rewrite stored_id; auto. } intros show. destruct x; auto. exfalso. eapply W1. reflexivity. }
  assert (D : (forall l, x <> LStrs l) -> forall show, read_leaf show x = x) by (intros N show; destruct x; auto; exfalso; eapply N; reflexivity).
  destruct (String.eqb t "NX_CHAR") eqn:Q1. { apply String.eqb_eq in Q1. subst. destruct W as (s & ->). auto. }
  destruct (String.eqb t "NX_FLOAT") eqn:Q2. { apply String.eqb_eq in Q2. subst. destruct W as [(s & ->)|(s & ->)]; auto. }
  destruct (String.eqb t "NX_INT") eqn:Q3. { apply String.eqb_eq in Q3. subst. destruct W as [(s & ->)|(s & ->)]; cbn.
    - rewrite trunc_int. auto. - split; auto. do 2 f_equal. rewrite map_map. apply map_ext. intros. apply trunc_int. }
  apply String.eqb_neq in Q1, Q2, Q3.
  assert (G : forall (A : Type) (a b c d : A), match t with "NX_CHAR" => a | "NX_FLOAT" => b | "NX_INT" => c | _ => d end = d).
  { intros A a b c d. repeat (match goal with |- context [match ?s with EmptyString => _ | String _ _ => _ end] => destruct s; auto
      | |- context [match ?c0 with Ascii.Ascii _ _ _ _ _ _ _ _ => _ end] => destruct c0
      | |- context [if ?b then _ else _] => destruct b; auto end); exfalso; auto. }
  rewrite (G Prop) in W. destruct W. rewrite (G (result leaf)). rewrite stored_id; auto.
Qed.

(** * Files *)
(** Members have distinct names, none of them "attrs". *)
Inductive hok : h5 -> Prop :=
| hok_group : forall a c, NoDup (map fst c) -> ~ In "attrs" (map fst c) -> (forall k m, In (k, m) c -> hok m) -> hok (HGroup a c)
| hok_data : forall a d, hok (HData a d)
| hok_link : forall p, hok (HLink p).
(** A file object has the groups and datasets of an entry. *)
Definition shape (v : val) (n : h5) : Prop := forall p, ~ In "attrs" p ->
  match at_path p n, follow p v with
  | Some (HGroup _ _), Some (Dict l) => sget "dataset" l = None
  | Some (HData _ _), Some (Dict l) => sget "dataset" l <> None
  | None, None | None, Some (Leaf _) => True
  | _, _ => False
  end.

Section ReadBack.
  Context (show : list string -> string) (resolve : list string -> option (dict string leaf * leaf)).
  Notation read := (read_node show resolve).
  (** [n] holds [v] *)
  Definition holds (v : val) (n : h5) : Prop := (exists v', read n = Some v' /\ forall p, leaf_at p v' = leaf_at p v) /\ hok n /\ shape v n.
  Definition attrs_of (l : list (string * val)) : list (string * val) := match sget "attrs" l with Some v => items v | None => [] end.
  Fixpoint read_all (c : list (string * h5)) : list (string * val) :=
    match c with [] => [] | (k, n') :: c' => match read n' with Some v => (k, v) :: read_all c' | None => read_all c' end end.
  Lemma read_group : forall a c, read (HGroup a c) = Some (Dict (("attrs", Dict (attr_items a)) :: read_all c)).
  Proof. reflexivity. Qed.

  Lemma leaf_cons : forall k p l, leaf_at (k :: p) (Dict l) = match sget k l with Some v => leaf_at p v | None => None end.
  Proof. intros. unfold leaf_at. cbn. destruct (sget k l); auto. Qed.
  Lemma leaf_nil : forall l, leaf_at [] (Dict l) = None.
  Proof. reflexivity. Qed.
  Lemma leaf_empty : forall p, leaf_at p (Dict []) = None.
  Proof. destruct p; reflexivity. Qed.

  Lemma attrs_dict : forall l p, plain_attrs (sget "attrs" l) -> match sget "attrs" l with Some v => leaf_at p v | None => None end = leaf_at p (Dict (attrs_of l)).
  Proof. intros l p H. unfold attrs_of. destruct (sget "attrs" l) as [[x|a]|]; cbn in *; try tauto. rewrite leaf_empty. auto. Qed.

  Lemma write_data_spec : forall l a, NoDup (map fst l) -> (forall k v, In (k, v) l -> k = "attrs" \/ exists x, v = Leaf x) -> plain_attrs (sget "attrs" l) ->
    (forall k, In k (map fst a) -> sget "attrs" l = None) ->
    exists a', write_data_items l a = Ok a' /\ attr_items a' = attr_items a ++ attrs_of l.
  Proof.
    induction l as [|[k v] l]; intros a N P PA F; cbn [write_data_items].
    - exists a. unfold attrs_of. cbn. rewrite app_nil_r. auto.
    - cbn in N. inversion N; subst. assert (P' : forall k v, In (k, v) l -> k = "attrs" \/ exists x, v = Leaf x) by (intros; eapply P; right; eauto).
      destruct (String.eqb k "attrs") eqn:Q.
      + apply String.eqb_eq in Q. subst k. unfold attrs_of. cbn in PA |- *. destruct v as [x|x]; [destruct PA|]. destruct PA as [NX PX].
        assert (a = []). { destruct a as [|[k0 x0] a]; auto. specialize (F k0 (or_introl eq_refl)). discriminate. } subst a.
        destruct (set_attrs_spec x [] NX PX) as (a1 & S & E). { intros ? []. } rewrite S. cbn [bind].
        assert (G : sget "attrs" l = None). { destruct (sget "attrs" l) eqn:G; auto. apply sget_in in G. exfalso. apply H1. apply (in_map fst) in G. auto. }
        destruct (IHl a1 H2 P') as (a' & W & E'). { rewrite G. cbn. auto. } { auto. }
        exists a'. split; auto. rewrite E', E. unfold attrs_of. rewrite G, app_nil_r. auto.
      + assert (Q' : String.eqb "attrs" k = false) by (rewrite String.eqb_sym; auto).
        assert (G : sget "attrs" ((k, v) :: l) = sget "attrs" l) by (cbn [dget]; rewrite Q'; auto).
        destruct (P k v (or_introl eq_refl)) as [->|(x & ->)]. { rewrite String.eqb_refl in Q. discriminate. }
        rewrite G in PA. destruct (IHl a H2 P') as (a' & W & E'); auto. { intros k' I. rewrite <- G. eauto. }
        exists a'. split; auto. rewrite E'. unfold attrs_of. rewrite G. auto.
  Qed.

  Lemma sget_none_in : forall {A} k (l : list (string * A)), sget k l = None -> ~ In k (map fst l).
  Proof. intros A k l H I. induction l as [|[a b] l]; cbn in *; [destruct I|]. destruct (String.eqb k a) eqn:Q; [discriminate|]. destruct I as [->|I]; auto. rewrite String.eqb_refl in Q. discriminate. Qed.
  Lemma in_none : forall {A} k (l : list (string * A)), ~ In k (map fst l) -> sget k l = None.
  Proof. intros A k l H. destruct (sget k l) eqn:G; auto. apply sget_in in G. exfalso. apply H. apply (in_map fst) in G. auto. Qed.

  Lemma data_holds : forall l x, NoDup (map fst l) -> (forall k v, In (k, v) l -> k = "attrs" \/ k = "dataset") -> sget "dataset" l = Some (Leaf x) ->
    plain_attrs (sget "attrs" l) -> well_typed (sget "attrs" l) x ->
    exists a, format_dataset (sget "attrs" l) x = Ok x /\ write_data_items l [] = Ok a /\ holds (Dict l) (HData a x).
  Proof.
    intros l x N K D PA WT. destruct (format_ok _ _ WT) as [F RD].
    destruct (write_data_spec l [] N) as (a & W & E); auto.
    { intros k v I. destruct (K k v I) as [->| ->]; auto. right. apply in_sget in I; auto. rewrite D in I. injection I as <-. eauto. } { intros k []. }
    exists a. split; [auto|]. split; [auto|]. split; [|split; [constructor|]].
    2:{ intros [|k p] NA; cbn. { rewrite D. discriminate. } destruct (sget k l) as [v|] eqn:G; auto. pose proof (sget_in _ _ _ G) as I.
        destruct (K _ _ I) as [->| ->]. { exfalso. apply NA. left. auto. } rewrite D in G. injection G as <-. destruct p; cbn; auto. }
    exists (read_data show a x). split; [reflexivity|]. cbn in E. intros p.
    assert (RDX : read_data show a x = match attrs_of l with [] => Dict [("dataset", Leaf x)] | al => Dict [("attrs", Dict al); ("dataset", Leaf x)] end).
    { unfold read_data. rewrite RD. destruct a as [|kx a]; cbn in E |- *; rewrite <- E; auto. }
    rewrite RDX. destruct p as [|k p]. { destruct (attrs_of l); auto. }
    rewrite (leaf_cons k p l). destruct (String.eqb k "attrs") eqn:QA.
    - apply String.eqb_eq in QA. subst k. rewrite attrs_dict by auto. destruct (attrs_of l); rewrite leaf_cons; cbn [dget]; cbn; auto. rewrite leaf_empty. auto.
    - destruct (String.eqb k "dataset") eqn:QD.
      + apply String.eqb_eq in QD. subst k. rewrite D. destruct (attrs_of l); rewrite leaf_cons; cbn; auto.
      + rewrite in_none with (l := l).
        * destruct (attrs_of l); rewrite leaf_cons; cbn; rewrite ?QA, ?QD; auto.
        * intros I. apply in_map_iff in I. destruct I as ([k' v] & <- & I). cbn in *. destruct (K _ _ I) as [->| ->]; discriminate.
  Qed.

  Definition wstep (k : string) (v : val) (node : dict string leaf * list (string * h5)) : result (dict string leaf * list (string * h5)) :=
    if String.eqb k "attrs" then match v with Dict x => do a <- set_attrs x (fst node); Ok (a, snd node) | Leaf _ => Err AttributeError end
    else match v with
         | Leaf _ => Ok node
         | Dict x =>
             match sget "dataset" x with
             | Some (Leaf dv) =>
                 do d <- format_dataset (sget "attrs" x) dv;
                 do a <- write_data_items x [];
                 Ok (fst node, ddel String.eqb k (snd node) ++ [(k, HData a d)])
             | Some (Dict _) => Err TypeError
             | None =>
                 match sget k (snd node) with
                 | None => do g <- write_group v ([], []); Ok (fst node, snd node ++ [(k, HGroup (fst g) (snd g))])
                 | Some (HGroup a c) => do g <- write_group v (a, c); Ok (fst node, sset k (HGroup (fst g) (snd g)) (snd node))
                 | Some _ => Err TypeError
                 end
             end
         end.
  Fixpoint wloop (l : list (string * val)) (node : dict string leaf * list (string * h5)) : result (dict string leaf * list (string * h5)) :=
    match l with [] => Ok node | (k, v) :: l' => do node' <- wstep k v node; wloop l' node' end.
  Lemma write_group_dict : forall l node, write_group (Dict l) node = wloop l node.
  Proof. reflexivity. Qed.

  Definition members (l : list (string * val)) := filter (fun kv => negb (String.eqb (fst kv) "attrs")) l.
  Definition holds_entry (kv : string * val) (kn : string * h5) : Prop := fst kv = fst kn /\ holds (snd kv) (snd kn).
  (** A group written into a fresh group. *)
  Definition group_written (l : list (string * val)) (a : dict string leaf) (c : list (string * h5)) : Prop :=
    attr_items a = attrs_of l /\ Forall2 holds_entry (members l) c.

  Lemma read_all_get : forall m c, Forall2 holds_entry m c -> forall k p,
    match sget k (read_all c) with Some v => leaf_at p v | None => None end = match sget k m with Some v => leaf_at p v | None => None end.
  Proof.
    induction 1 as [|[k v] [k' n] m c [E [(v' & R & L) _]] F IH]; intros k0 p; cbn [fst snd] in *; auto. subst k'. cbn [read_all]. rewrite R. cbn.
    destruct (String.eqb k0 k); auto.
  Qed.
  Lemma members_get : forall l k, k <> "attrs" -> sget k (members l) = sget k l.
  Proof.
    induction l as [|[a b] l]; intros k N; auto. unfold members in *. cbn. destruct (String.eqb a "attrs") eqn:Q; cbn.
    - apply String.eqb_eq in Q. subst a. destruct (String.eqb k "attrs") eqn:Q; [apply String.eqb_eq in Q; contradiction|]. auto.
    - destruct (String.eqb k a); auto.
  Qed.
  Lemma f2_keys : forall m c, Forall2 holds_entry m c -> map fst c = map fst m.
  Proof. induction 1 as [|[k v] [k' n] m c [E _] F IH]; cbn in *; auto. congruence. Qed.
  Lemma f2_hok : forall m c, Forall2 holds_entry m c -> forall k n, In (k, n) c -> hok n.
  Proof. induction 1 as [|[k v] [k' n] m c [E [_ [H _]]] F IH]; intros k0 n0 I; [destruct I|]. destruct I as [[= <- <-]|I]; eauto. Qed.
  Lemma f2_get : forall m c, Forall2 holds_entry m c -> forall k, match sget k m, sget k c with Some v, Some n => shape v n | None, None => True | _, _ => False end.
  Proof. induction 1 as [|[k v] [k' n] m c [E [_ [_ H]]] F IH]; intros k0; cbn in *; auto. subst k'. destruct (String.eqb k0 k); auto. apply IH. Qed.
  Lemma members_nodup : forall l, NoDup (map fst l) -> NoDup (map fst (members l)) /\ ~ In "attrs" (map fst (members l)).
  Proof.
    induction l as [|[a b] l]; intros N; cbn in *. { split; [constructor|auto]. } inversion N; subst. destruct (IHl H2) as [A B]. unfold members in *. cbn.
    destruct (String.eqb a "attrs") eqn:Q; cbn; auto. split.
    - constructor; auto. intros I. apply H1. apply in_map_iff in I. destruct I as (x & E & I). apply filter_In in I. apply in_map_iff. exists x. tauto.
    - intros [->|I]; auto. rewrite String.eqb_refl in Q. discriminate.
  Qed.
  Lemma group_holds : forall l a c, NoDup (map fst l) -> sget "dataset" l = None -> plain_attrs (sget "attrs" l) -> group_written l a c -> holds (Dict l) (HGroup a c).
  Proof.
    intros l a c N ND PA [E F]. destruct (members_nodup l N) as [M1 M2]. split; [|split].
    - eexists. split; [apply read_group|]. intros [|k p]; auto.
      rewrite !leaf_cons. destruct (String.eqb k "attrs") eqn:Q.
      + apply String.eqb_eq in Q. subst k. rewrite (attrs_dict l) by auto. rewrite E. reflexivity.
      + cbn [dget]. rewrite Q. rewrite (read_all_get _ _ F). rewrite members_get; auto. apply String.eqb_neq. auto.
    - constructor; [rewrite (f2_keys _ _ F); auto|rewrite (f2_keys _ _ F); auto|apply (f2_hok _ _ F)].
    - intros [|k p] NA; [exact ND|]. assert (k <> "attrs"). { intros ->. apply NA. left. auto. }
      pose proof (f2_get _ _ F k) as G. rewrite members_get in G by auto. cbn. destruct (sget k l) as [v|], (sget k c) as [n|]; try destruct G; auto.
      apply G. intros I. apply NA. right. auto.
  Qed.

  Lemma write_spec : forall v, writable v -> forall l, v = Dict l -> sget "dataset" l = None ->
    exists a c, write_group v ([], []) = Ok (a, c) /\ group_written l a c.
  Proof.
    induction v as [x|l IH] using val_ind2; intros W l0 EV ND; [discriminate|]. injection EV as <-.
    inversion W as [? x N K D PA WT|? N _ PA WM]; subst. { rewrite ND in D. discriminate. }
    rewrite write_group_dict.
    assert (G : forall l1 a c, NoDup (map fst l1) -> (forall kv, In kv l1 -> In kv l) -> plain_attrs (sget "attrs" l1) ->
      (forall k, In k (map fst a) -> sget "attrs" l1 = None) -> (forall k, In k (map fst c) -> ~ In k (map fst l1)) ->
      exists a' c', wloop l1 (a, c) = Ok (a', c ++ c') /\ attr_items a' = attr_items a ++ attrs_of l1 /\ Forall2 holds_entry (members l1) c').
    { induction l1 as [|[k v] l1 IHl]; intros a c N1 SUB PA1 FA FC; cbn [wloop].
      { exists a, []. rewrite app_nil_r. split; auto. split; [|constructor]. unfold attrs_of. cbn. rewrite app_nil_r. auto. }
      cbn in N1. inversion N1 as [|? ? NK N1']; subst. assert (SUB' : forall kv, In kv l1 -> In kv l) by (intros; apply SUB; right; auto).
      destruct (String.eqb k "attrs") eqn:Q.
      - apply String.eqb_eq in Q. subst k. unfold attrs_of, members, wstep. cbn in PA1 |- *. destruct v as [x|x]; [destruct PA1|]. destruct PA1 as [NX PX].
        assert (a = []). { destruct a as [|[k0 x0] a]; auto. specialize (FA k0 (or_introl eq_refl)). discriminate. } subst a.
        destruct (set_attrs_spec x [] NX PX) as (a1 & S & E). { intros ? []. } rewrite S. cbn [bind fst snd].
        assert (G : sget "attrs" l1 = None) by (apply in_none; auto).
        destruct (IHl a1 c N1' SUB') as (a' & c' & W' & E' & F'). { rewrite G. cbn. auto. } { auto. } { intros k I J. apply (FC k I). right. auto. }
        exists a', c'. split; auto. split; auto. rewrite E', E. unfold attrs_of. rewrite G, app_nil_r. auto.
      - assert (Q' : String.eqb "attrs" k = false) by (rewrite String.eqb_sym; auto).
        assert (G : sget "attrs" ((k, v) :: l1) = sget "attrs" l1) by (cbn [dget]; rewrite Q'; auto).
        assert (GA : attrs_of ((k, v) :: l1) = attrs_of l1) by (unfold attrs_of; rewrite G; auto).
        assert (GM : members ((k, v) :: l1) = (k, v) :: members l1) by (unfold members; cbn; rewrite Q; auto).
        assert (WV : writable v). { apply (WM k). apply SUB. left. auto. apply String.eqb_neq. auto. }
        assert (NC : ~ In k (map fst c)). { intros I. apply (FC k I). left. auto. }
        assert (STEP : exists n, holds v n /\ wstep k v (a, c) = Ok (a, c ++ [(k, n)])).
        { unfold wstep. rewrite Q. inversion WV as [l2 x N2 K2 D2 PA2 WT2|l2 N2 D2 PA2 WM2]; subst v.
          - destruct (data_holds l2 x N2 K2 D2 PA2 WT2) as (a2 & F2 & W2 & H2). exists (HData a2 x). split; auto.
            rewrite D2, F2. cbn [bind]. rewrite W2. cbn [bind fst snd]. rewrite ddel_fresh by auto. auto.
          - rewrite Forall_forall in IH. destruct (IH (k, Dict l2) (SUB _ (or_introl eq_refl)) WV l2 eq_refl D2) as (a2 & c2 & W2 & H2).
            exists (HGroup a2 c2). split. { apply group_holds; auto. }
            rewrite D2. cbn [fst snd]. rewrite (in_none k c NC). cbn [snd] in W2. rewrite W2. auto. }
        destruct STEP as (n & HN & ->). cbn [bind]. rewrite G in PA1.
        destruct (IHl a (c ++ [(k, n)]) N1' SUB' PA1) as (a' & c' & W' & E' & F').
        { intros k' I. rewrite <- G. eauto. }
        { intros k' I J. rewrite map_app, in_app_iff in I. cbn in I. destruct I as [I|[<-|[]]]; [|contradiction]. apply (FC k' I). right. auto. }
        exists a', ((k, n) :: c'). rewrite W', <- app_assoc. split; auto. rewrite GA, GM. split; auto. constructor; auto. split; auto. }
    destruct (G l [] []) as (a & c & W' & E & F); auto; try (intros k []; fail).
    exists a, c. cbn in W'. split; auto. split; auto.
  Qed.
End ReadBack.
