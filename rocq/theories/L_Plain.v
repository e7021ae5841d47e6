(** Lists and texts in an entry: writing an entry that has them is writing the entry in the form in which the file gives it back. *)
From Coq Require Import Reals List String Ascii Bool Lia Lra.
From Verif Require Import Base PyStr M_Tavi P_Tavi M_Nexus P_Nexus L_NexusFile L_NexusLinks P_NexusFile S_Save.
Import ListNotations.
Open Scope string_scope.
Open Scope list_scope.

(** What a value of an entry is read as: attributes (below "attrs") and contents. *)
Definition form (show : list string -> string) (b : bool) (x : leaf) : leaf := if b then as_array x else after show x.
Fixpoint plain (show : list string -> string) (b : bool) (v : val) {struct v} : val :=
  match v with
  | Leaf x => Leaf (form show b x)
  | Dict l => Dict ((fix all (l : list (string * val)) : list (string * val) := match l with [] => [] | (k, w) :: l' => (k, plain show (b || String.eqb k "attrs") w) :: all l' end) l)
  end.
Definition plains (show : list string -> string) (b : bool) (l : list (string * val)) : list (string * val) := map (fun kv => (fst kv, plain show (b || String.eqb (fst kv) "attrs") (snd kv))) l.
Lemma plain_dict : forall show b l, plain show b (Dict l) = Dict (plains show b l).
Proof. intros. cbn [plain]. f_equal. induction l as [|[k w] l IH]; auto. cbn [plains map fst snd]. f_equal. exact IH. Qed.
Lemma plains_get : forall show b l k, sget k (plains show b l) = option_map (plain show (b || String.eqb k "attrs")) (sget k l).
Proof. induction l as [|[a w] l IH]; intros k; cbn [plains map fst snd dget]; auto. destruct (String.eqb k a) eqn:Q; [apply String.eqb_eq in Q; subst; auto|apply IH]. Qed.
Lemma plains_keys : forall show b l, map fst (plains show b l) = map fst l.
Proof. intros. unfold plains. rewrite map_map. auto. Qed.
Lemma plains_in : forall show b l k v, In (k, v) (plains show b l) -> exists w, In (k, w) l /\ v = plain show (b || String.eqb k "attrs") w.
Proof. intros show b l k v I. apply in_map_iff in I. destruct I as ([a w] & E & I). injection E as <- <-. eauto. Qed.
Definition inattrs (p : list string) : bool := existsb (fun k => String.eqb k "attrs") p.
Lemma plain_follow : forall show p b v, follow p (plain show b v) = option_map (plain show (b || inattrs p)) (follow p v).
Proof.
  induction p as [|k p IH]; intros b v; cbn [follow inattrs existsb]. { rewrite orb_false_r. auto. }
  destruct v as [x|l]. { reflexivity. } rewrite plain_dict. cbn [items]. rewrite plains_get. destruct (sget k l) as [w|]; auto. cbn [option_map]. rewrite IH. rewrite <- orb_assoc. auto.
Qed.
Lemma plain_leaf_at : forall show p b v, leaf_at p (plain show b v) = option_map (form show (b || inattrs p)) (leaf_at p v).
Proof. intros. unfold leaf_at. rewrite plain_follow. destruct (follow p v) as [[x|l]|]; cbn [option_map plain]; auto. Qed.
Lemma plain_is_dataset : forall show b l, is_dataset (plains show b l) <-> is_dataset l.
Proof. intros. unfold is_dataset. rewrite plains_get. destruct (sget "dataset" l); cbn; split; intros H; auto; discriminate. Qed.

(** The same of a file. *)
Fixpoint hplain (show : list string -> string) (n : h5) {struct n} : h5 :=
  match n with
  | HGroup a c => HGroup a ((fix all (c : list (string * h5)) : list (string * h5) := match c with [] => [] | (k, m) :: c' => (k, hplain show m) :: all c' end) c)
  | HData a d => HData a (read_leaf show d)
  | HLink t => HLink t
  end.
Definition hplains (show : list string -> string) (c : list (string * h5)) : list (string * h5) := map (fun km => (fst km, hplain show (snd km))) c.
Lemma hplain_group : forall show a c, hplain show (HGroup a c) = HGroup a (hplains show c).
Proof. intros. cbn [hplain]. f_equal. induction c as [|[k m] c IH]; auto. cbn [hplains map fst snd]. f_equal. exact IH. Qed.
Lemma hplains_get : forall show c k, sget k (hplains show c) = option_map (hplain show) (sget k c).
Proof. induction c as [|[a m] c IH]; intros k; cbn [hplains map fst snd dget]; auto. destruct (String.eqb k a); auto. Qed.
Lemma hplains_del : forall show c k, ddel String.eqb k (hplains show c) = hplains show (ddel String.eqb k c).
Proof. induction c as [|[a m] c IH]; intros k; cbn [hplains map fst snd ddel]; auto. destruct (String.eqb k a); auto. cbn [map fst snd]. f_equal. apply IH. Qed.
Lemma hplains_set : forall show c k m, sset k (hplain show m) (hplains show c) = hplains show (sset k m c).
Proof. induction c as [|[a n] c IH]; intros k m; cbn [hplains map fst snd dset]; auto. destruct (String.eqb k a); auto. cbn [map fst snd]. f_equal. apply IH. Qed.
Lemma hplains_app : forall show c c', hplains show (c ++ c') = hplains show c ++ hplains show c'.
Proof. intros. apply map_app. Qed.
Lemma hplain_at : forall show p n, at_path p (hplain show n) = option_map (hplain show) (at_path p n).
Proof. induction p as [|k p IH]; intros n; cbn [at_path]; auto. destruct n as [a c|a d|t]; auto. rewrite hplain_group. rewrite hplains_get. destruct (sget k c); cbn [option_map]; auto. Qed.

Definition thenp (show : list string -> string) (r : result (dict string leaf * list (string * h5))) : result (dict string leaf * list (string * h5)) :=
  do g <- r; Ok (fst g, hplains show (snd g)).
Lemma stored_form : forall show x, stored (form show true x) = stored x.
Proof. intros show []; auto. Qed.
Lemma set_attrs_plain : forall show l a, set_attrs (plains show true l) a = set_attrs l a.
Proof. induction l as [|[k [x|d]] l IH]; intros a; auto. - cbn [plains map fst snd]. cbn [plain orb]. cbn [set_attrs]. rewrite stored_form. apply IH. Qed.
Lemma write_items_plain : forall show l a, write_data_items (plains show false l) a = write_data_items l a.
Proof.
  induction l as [|[k v] l IH]; intros a; auto. cbn [plains map fst snd orb]. cbn [write_data_items]. fold (plains show false l). destruct (String.eqb k "attrs") eqn:Q.
  - destruct v as [x|d]; auto. rewrite plain_dict. rewrite set_attrs_plain. destruct (set_attrs d a); auto. cbn [bind]. apply IH.
  - destruct v as [x|d]; [|rewrite plain_dict; auto]. cbn [plain]. apply IH.
Qed.
Lemma type_plain : forall show b o, type_of (option_map (plain show (b || true)) o) = type_of o.
Proof.
  intros show b [[x|a]|]; auto. rewrite orb_true_r. cbn [option_map]. rewrite plain_dict. cbn [type_of]. rewrite plains_get. destruct (sget "type" a) as [[[]|]|]; auto.
Qed.
Lemma declares_type : forall o t, type_of o = Some t -> declares o t.
Proof. intros [[x|a]|] t H; try discriminate. cbn in H. exists a. split; auto. destruct (sget "type" a) as [[[]|]|]; congruence. Qed.
Lemma other_type : forall t, t <> "NX_CHAR" -> t <> "NX_FLOAT" -> t <> "NX_INT" -> forall (A : Type) (a b c d : A), match t with "NX_CHAR" => a | "NX_FLOAT" => b | "NX_INT" => c | _ => d end = d.
Proof.
  intros t Q1 Q2 Q3 A a b c d. repeat (match goal with |- context [match ?s with EmptyString => _ | String _ _ => _ end] => destruct s; auto
      | |- context [match ?c0 with Ascii.Ascii _ _ _ _ _ _ _ _ => _ end] => destruct c0
      | |- context [if ?b then _ else _] => destruct b; auto end); exfalso; auto.
Qed.
Lemma format_plain : forall show o x, suits o x -> format_dataset (option_map (plain show true) o) (after show x) = do d <- format_dataset o x; Ok (read_leaf show d).
Proof.
  intros show o x (S1 & S2 & S3). unfold format_dataset. pose proof (type_plain show false o) as T. cbn [orb] in T. rewrite T. destruct (type_of o) as [t|] eqn:TO; [|destruct x; auto].
  pose proof (declares_type _ _ TO) as D. destruct (string_dec t "NX_CHAR") as [->|N1]. { specialize (S1 D). destruct x; try destruct S1; auto. }
  destruct (string_dec t "NX_FLOAT") as [->|N2]. { specialize (S2 D). destruct x; try destruct S2; auto. }
  destruct (string_dec t "NX_INT") as [->|N3]. { specialize (S3 D). destruct x; try destruct S3; auto. }
  rewrite !(other_type t) by auto. destruct x; auto.
Qed.

Lemma bind_thenp : forall show (P Q : result (dict string leaf * list (string * h5))) (F G : _ -> result (dict string leaf * list (string * h5))), P = thenp show Q -> (forall g, F (fst g, hplains show (snd g)) = thenp show (G g)) -> bind P F = thenp show (bind Q G).
Proof. intros show P Q F G -> H. destruct Q; [apply H|reflexivity]. Qed.
Lemma write_plain : forall show v, savable v -> forall l, v = Dict l -> sget "dataset" l = None -> forall a c, write_group (plain show false v) (a, hplains show c) = thenp show (write_group v (a, c)).
Proof.
  intros show. induction v as [x|l IH] using val_ind2; intros W l0 EV ND a c; [discriminate|]. injection EV as <-. rewrite plain_dict. cbn [write_group].
  inversion W as [? ? ? ? D|? N _ PA WM]; subst; [congruence|].
  assert (SUB : forall k v, In (k, v) l -> k <> "attrs" -> savable v) by exact WM. clear W N ND PA WM.
  revert a c. induction l as [|[k v] l IHl]; intros a c; [reflexivity|]. inversion IH as [|? ? IV IH']; subst. cbn [snd] in IV.
  cbn [plains map fst snd orb]. fold (plains show false l).
  assert (REST : forall (r r' : result (dict string leaf * list (string * h5))), r' = thenp show r -> 
    bind r' (fun node' => (fix loop (l : list (string * val)) (node : dict string leaf * list (string * h5)) : result (dict string leaf * list (string * h5)) :=
         match l with
         | [] => Ok node
         | (k, v) :: l' =>
             do node' <-
               (if String.eqb k "attrs" then match v with Dict x => do a <- set_attrs x (fst node); Ok (a, snd node) | Leaf _ => Err AttributeError end
                else match v with
                     | Leaf _ => Ok node
                     | Dict x =>
                         match sget "dataset" x with
                         | Some (Leaf dv) =>
                             do d <- format_dataset (sget "attrs" x) dv;
                             do a <- write_data_items x [];
                             Ok (fst node, ddel String.eqb k (snd node) ++ [(k, HData a d)])
                         | Some (Dict _) => Err TypeError
                         | None =>
                             match sget k (snd node) with
                             | None => do g <- write_group v ([], []); Ok (fst node, snd node ++ [(k, HGroup (fst g) (snd g))])
                             | Some (HGroup a c) => do g <- write_group v (a, c); Ok (fst node, sset k (HGroup (fst g) (snd g)) (snd node))
                             | Some _ => Err TypeError
                             end
                         end
                     end);
             loop l' node'
         end) (plains show false l) node') =
    thenp show (bind r (fun node' => (fix loop (l : list (string * val)) (node : dict string leaf * list (string * h5)) : result (dict string leaf * list (string * h5)) :=
         match l with
         | [] => Ok node
         | (k, v) :: l' =>
             do node' <-
               (if String.eqb k "attrs" then match v with Dict x => do a <- set_attrs x (fst node); Ok (a, snd node) | Leaf _ => Err AttributeError end
                else match v with
                     | Leaf _ => Ok node
                     | Dict x =>
                         match sget "dataset" x with
                         | Some (Leaf dv) =>
                             do d <- format_dataset (sget "attrs" x) dv;
                             do a <- write_data_items x [];
                             Ok (fst node, ddel String.eqb k (snd node) ++ [(k, HData a d)])
                         | Some (Dict _) => Err TypeError
                         | None =>
                             match sget k (snd node) with
                             | None => do g <- write_group v ([], []); Ok (fst node, snd node ++ [(k, HGroup (fst g) (snd g))])
                             | Some (HGroup a c) => do g <- write_group v (a, c); Ok (fst node, sset k (HGroup (fst g) (snd g)) (snd node))
                             | Some _ => Err TypeError
                             end
                         end
                     end);
             loop l' node'
         end) l node'))).
  { intros r r' ->. destruct r as [[a1 c1]|]; [|reflexivity]. cbn [thenp bind fst snd]. apply IHl; auto. intros k0 v0 I. apply SUB. right. auto. }
  apply REST. clear REST. cbn [fst snd]. destruct (String.eqb k "attrs") eqn:KA.
  - destruct v as [x|d]; [reflexivity|]. rewrite plain_dict, set_attrs_plain. destruct (set_attrs d a); reflexivity.
  - assert (KN : k <> "attrs") by (apply String.eqb_neq; auto). pose proof (SUB k v (or_introl eq_refl) KN) as SV. destruct v as [x|d]; [inversion SV|]. rewrite plain_dict. rewrite !plains_get. cbn [orb]. rewrite ?String.eqb_refl.
    change (String.eqb "dataset" "attrs") with false. cbn match. inversion SV as [? x N K D PA WT|? N D PA WM]; subst; rewrite D.
    + cbn [option_map plain]. cbn match. unfold form. cbn match. rewrite (format_plain show (sget "attrs" d) x WT). rewrite write_items_plain. destruct (format_dataset (sget "attrs" d) x); [|reflexivity]. cbn [bind]. destruct (write_data_items d []); [|reflexivity]. cbn [bind thenp fst snd].
      rewrite hplains_app, hplains_del. reflexivity.
    + cbn [option_map]. rewrite hplains_get. rewrite <- plain_dict. destruct (sget k c) as [[a1 c1|a1 d1|t]|]; cbn [option_map]; [|reflexivity|reflexivity|].
      * rewrite hplain_group. rewrite (IV SV d eq_refl D a1 c1). destruct (write_group (Dict d) (a1, c1)) as [[a2 c2]|]; [|reflexivity]. cbn [thenp bind fst snd]. rewrite <- hplain_group, hplains_set. reflexivity.
      * refine (bind_thenp show _ _ _ _ (IV SV d eq_refl D [] []) _). intros [a2 c2]. cbn [thenp bind fst snd]. rewrite hplains_app. cbn [hplains map fst snd]. rewrite hplain_group. reflexivity.
Qed.

(** The links. *)
Lemma h5_ind2 : forall P : h5 -> Prop, (forall a c, (forall k m, In (k, m) c -> P m) -> P (HGroup a c)) -> (forall a d, P (HData a d)) -> (forall t, P (HLink t)) -> forall n, P n.
Proof.
  intros P HG HD HL. fix IH 1. intros [a c|a d|t]; [|apply HD|apply HL]. apply HG. induction c as [|[k m] c IHc]; intros k0 m0 I; [destruct I|]. destruct I as [[= <- <-]|I]; [apply IH|apply (IHc k0 m0 I)].
Qed.
Lemma find_plain : forall show d n, find_path d (hplain show n) = find_path d n.
Proof.
  intros show d. induction n as [a c IH|a x|t] using h5_ind2; auto. rewrite hplain_group. cbn [find_path]. induction c as [|[k m] c IHc]; auto. cbn [hplains map fst snd]. fold (hplains show c).
  rewrite IHc by (intros; eapply IH; right; eauto). destruct (String.eqb k "SPICElogs" || String.eqb k "data"); auto. destruct (String.eqb d k); auto. pose proof (IH k m (or_introl eq_refl)) as E. destruct m as [a1 c1|a1 d1|t]; auto. rewrite hplain_group in *. rewrite E. auto.
Qed.
Lemma edit_plain : forall show f g p n, (forall m, g (hplain show m) = hplain show (f m)) -> edit p g (hplain show n) = hplain show (edit p f n).
Proof.
  intros show f g p n H. revert n. induction p as [|k p IH]; intros n; cbn [edit]; auto. destruct n as [a c|a d|t]; auto. rewrite hplain_group, hplains_get. destruct (sget k c) as [m|]; cbn [option_map]; [|rewrite hplain_group; auto]. rewrite hplain_group, IH, hplains_set. auto.
Qed.
Lemma target_plain : forall show t n, set_target t (hplain show n) = hplain show (set_target t n).
Proof. intros show t [a c|a d|q]; reflexivity. Qed.
Lemma is_data_plain : forall show name scan m, is_data name (hplain show scan) (hplain show m) = is_data name scan m.
Proof.
  intros show name scan [a c|a d|q]; cbn [is_data]; auto. change (hplain show (HLink q)) with (HLink q). cbn [is_data]. destruct (strip name q); auto. rewrite hplain_at. destruct (at_path l scan) as [[]|]; cbn [option_map]; auto.
Qed.
Definition then1 (show : list string -> string) (r : result h5) : result h5 := do n <- r; Ok (hplain show n).
Lemma put_plain : forall show name d path scan, put_link name d path (hplain show scan) = then1 show (put_link name d path scan).
Proof.
  intros show name d [p|] scan; [|reflexivity]. unfold put_link. rewrite hplain_at. destruct (at_path p scan) as [m|]; [|reflexivity]. cbn [option_map]. rewrite hplain_at. destruct (at_path ["data"] scan) as [[da dc|? ?|?]|]; try reflexivity. cbn [option_map]. rewrite hplain_group. rewrite hplains_get.
  assert (E : match option_map (hplain show) (sget d dc) with Some m => if is_data name (hplain show scan) m then ddel String.eqb d (hplains show dc) else hplains show dc | None => hplains show dc end =
    hplains show (match sget d dc with Some m => if is_data name scan m then ddel String.eqb d dc else dc | None => dc end)).
  { destruct (sget d dc) as [m0|]; cbn [option_map]; auto. rewrite is_data_plain, hplains_del. destruct (is_data name scan m0); auto. }
  cbv zeta. rewrite E. set (dc' := match sget d dc with Some m => if is_data name scan m then ddel String.eqb d dc else dc | None => dc end).
  assert (M : dmem String.eqb d (hplains show dc') = dmem String.eqb d dc'). { unfold dmem. rewrite hplains_get. destruct (sget d dc'); auto. }
  match goal with |- context [hplains show ?z] => change z with dc' end. rewrite M. destruct (dmem String.eqb d dc'); [reflexivity|]. cbn [then1 bind]. f_equal. rewrite <- (edit_plain show (set_target (slashed (name ++ p))) (set_target (slashed (name ++ p)))) by apply target_plain. f_equal.
  apply edit_plain. intros _. rewrite hplain_group, hplains_app. auto.
Qed.
Lemma link_plain : forall show name x path scan, link1 name x path (hplain show scan) = then1 show (link1 name x path scan).
Proof. intros. unfold link1. destruct (text x); [apply put_plain|reflexivity]. Qed.
Lemma links_plain : forall show name scan, make_links name (hplain show scan) = then1 show (make_links name scan).
Proof.
  intros. unfold make_links. rewrite hplain_at. destruct (at_path ["data"] scan) as [data|]; [|reflexivity]. cbn [option_map]. assert (E : attrs_h5 (hplain show data) = attrs_h5 data). { destruct data; auto. } rewrite E.
  destruct (sget "signal" (attrs_h5 data)) as [y|]; [|reflexivity]. destruct (sget "axes" (attrs_h5 data)) as [x|]; [|reflexivity]. cbv zeta.
  assert (F : forall z, path_for z (hplain show scan) = path_for z scan). { intros z. unfold path_for. destruct (text z); auto. apply find_plain. } rewrite !F, link_plain. destruct (link1 name y (path_for y scan) scan); [|reflexivity]. cbn [then1 bind]. apply link_plain.
Qed.
Lemma entry_plain : forall show name e s, savable (Dict e) -> sget "dataset" e = None -> write_entry name (plains show false e) (hplain show s) = then1 show (write_entry name e s).
Proof.
  intros show name e [a c|a d|t] SV ND; try reflexivity. rewrite hplain_group. cbn [write_entry]. rewrite <- plain_dict, (write_plain show (Dict e) SV e eq_refl ND). destruct (write_group (Dict e) (a, c)) as [[a1 c1]|]; [|reflexivity]. cbn [thenp bind fst snd]. rewrite <- hplain_group. apply links_plain.
Qed.
Lemma to_plain : forall show name e stamp root, savable (Dict e) -> sget "dataset" e = None -> to_nexus [name] (plains show false e) stamp (hplain show root) = then1 show (to_nexus [name] e stamp root).
Proof.
  intros show name e stamp [a c|a d|t] SV ND; try reflexivity. rewrite hplain_group. unfold to_nexus. cbn [in_group]. rewrite hplains_get.
  assert (E : match option_map (hplain show) (sget name c) with Some m => m | None => HGroup [] [] end = hplain show (match sget name c with Some m => m | None => HGroup [] [] end)) by (destruct (sget name c); auto).
  rewrite E, entry_plain by auto. match goal with |- context [write_entry [name] e ?s] => destruct (write_entry [name] e s); [|reflexivity] end. cbn [then1 bind]. rewrite hplains_set, hplain_group. auto.
Qed.
(** Reading. *)
Lemma read_leaf_twice : forall show x, read_leaf show (read_leaf show x) = read_leaf show x.
Proof. intros show []; auto. Qed.
Lemma read_data_plain : forall show a d, read_data show a (read_leaf show d) = read_data show a d.
Proof. intros. unfold read_data. rewrite read_leaf_twice. auto. Qed.
Lemma read_plain : forall show res res' n, (forall t, res' t = option_map (fun ad => (fst ad, read_leaf show (snd ad))) (res t)) -> read_node show res' (hplain show n) = read_node show res n.
Proof.
  intros show res res' n R. induction n as [a c IH|a d|t] using h5_ind2.
  - rewrite hplain_group, !read_group. f_equal. f_equal. f_equal. induction c as [|[k m] c IHc]; auto. cbn [hplains map fst snd read_all]. rewrite (IH k m (or_introl eq_refl)). fold (hplains show c). rewrite IHc by (intros; eapply IH; right; eauto). auto.
  - cbn [hplain read_node]. rewrite read_data_plain. auto.
  - cbn [hplain read_node]. rewrite R. destruct (res t) as [[a d]|]; cbn [option_map fst snd]; auto. rewrite read_data_plain. auto.
Qed.
Lemma from_plain : forall show root, from_nexus show (hplain show root) [] None = from_nexus show root [] None.
Proof.
  intros show root. unfold from_nexus. cbn [at_path]. destruct root as [a c|a d|t]; auto. rewrite hplain_group at 1. f_equal. unfold read_members. rewrite <- (hplain_group show [] c). rewrite (read_plain show (resolve_in (HGroup a c))); auto.
  intros t. unfold resolve_in. rewrite hplain_at. destruct (at_path t (HGroup a c)) as [[]|]; auto.
Qed.

(** Such an entry conforms. *)
Lemma valued_plain : forall show o, valued o -> plain_attrs (option_map (plain show true) o).
Proof.
  intros show [[x|a]|] H; cbn [valued option_map] in *; auto. rewrite plain_dict. cbn [plain_attrs]. destruct H as [N H]. rewrite plains_keys. split; auto. intros k v I. apply plains_in in I. destruct I as (w & I & ->). destruct (H k w I) as (x & ->). cbn [orb plain]. eexists. split; [reflexivity|]. destruct x; discriminate.
Qed.
Lemma suits_plain : forall show o x, suits o x -> well_typed (option_map (plain show true) o) (after show x).
Proof.
  intros show o x (S1 & S2 & S3). unfold well_typed. pose proof (type_plain show false o) as T. cbn [orb] in T. rewrite T. clear T.
  assert (OTH : (forall l, after show x <> LStrs l) /\ (forall l, after show x <> LList l)) by (destruct x; split; discriminate).
  destruct (type_of o) as [t|] eqn:TO; [|exact OTH]. pose proof (declares_type _ _ TO) as D.
  destruct (string_dec t "NX_CHAR") as [->|N1]. { specialize (S1 D). destruct x; try destruct S1; cbn [after]; eauto. }
  destruct (string_dec t "NX_FLOAT") as [->|N2]. { specialize (S2 D). destruct x; try destruct S2; cbn [after]; eauto. }
  destruct (string_dec t "NX_INT") as [->|N3].
  { specialize (S3 D). assert (L : forall l, Forall (fun r => exists z, r = IZR z) l -> exists zs, l = map IZR zs). { induction 1 as [|r l (z & ->) _ (zs & ->)]; [exists []|exists (z :: zs)]; auto. }
    destruct x; try contradiction; cbn [after]; [destruct S3 as (z & ->); left; eauto| |]; right; destruct (L _ S3) as (zs & ->); eauto. }
  rewrite (other_type t) by auto. exact OTH.
Qed.
Lemma savable_plain : forall show v, savable v -> writable (plain show false v).
Proof.
  intros show. induction v as [x|l IH] using val_ind2; intros W; [inversion W|]. rewrite plain_dict. inversion W as [? x N K D PA WT|? N D PA WM]; subst.
  - apply W_dataset with (x := after show x).
    + rewrite plains_keys. auto.
    + intros k v I. apply plains_in in I. destruct I as (w & I & _). eauto.
    + rewrite plains_get, D. auto.
    + rewrite plains_get. apply valued_plain. auto.
    + rewrite plains_get. apply suits_plain. auto.
  - apply W_group.
    + rewrite plains_keys. auto.
    + rewrite plains_get, D. auto.
    + rewrite plains_get. apply valued_plain. auto.
    + intros k v I KA. apply plains_in in I. destruct I as (w & I & ->). apply String.eqb_neq in KA as KQ. rewrite KQ. cbn [orb]. rewrite Forall_forall in IH. apply (IH (k, w) I). apply (WM k); auto.
Qed.
Lemma plots_flat : forall show e d, plots (plains show false e) d <-> plots e d.
Proof.
  intros show e d. unfold plots. rewrite <- plain_dict, !plain_leaf_at. cbn [inattrs existsb orb]. rewrite ?String.eqb_refl. change (String.eqb "data" "attrs") with false. cbn [orb form].
  assert (E : forall o, option_map (form show true) o = Some (LStr d) <-> o = Some (LStr d)). { intros [[]|]; cbn; split; intros H; congruence. } rewrite !E. tauto.
Qed.
Lemma plain_followd : forall show p b v l', follow p (plain show b v) = Some (Dict l') -> exists l, follow p v = Some (Dict l) /\ (is_dataset l <-> is_dataset l').
Proof.
  intros show p b v l' F. rewrite plain_follow in F. destruct (follow p v) as [[x|l]|]; try discriminate. cbn [option_map] in F. rewrite plain_dict in F. injection F as <-. exists l. split; auto. symmetry. apply plain_is_dataset.
Qed.
Lemma ready_plain : forall show e, savable (Dict e) -> ~ is_dataset e -> plot_ready e -> conforming (plains show false e).
Proof.
  intros show e SV ND PR. split; [rewrite <- plain_dict; apply savable_plain; auto|]. split; [rewrite plain_is_dataset; auto|]. unfold plottable.
  rewrite <- plain_dict. destruct (follow ["data"] (plain show false (Dict e))) as [dv|] eqn:FD; [right|left; auto]. assert (GD : exists w, sget "data" e = Some w). { rewrite plain_follow in FD. cbn [follow items] in FD. destruct (sget "data" e); [eauto|discriminate]. } destruct GD as (w & GD).
  assert (DD : exists dl, w = Dict dl). { inversion SV as [? x ? K|? ? ? ? WM]; subst; [destruct (K _ _ (sget_in _ _ _ GD)); discriminate|]. assert (SD : savable w). { eapply WM; [eapply sget_in; eauto|discriminate]. } inversion SD; eauto. } destruct DD as (dl & ->).
  destruct (PR dl GD) as (D0 & MM & (y & SY) & (x & SX) & FO). split; [|split; [|split]].
  - rewrite plain_follow in FD. cbn [follow items] in FD. rewrite GD in FD. cbn [option_map] in FD. rewrite plain_dict in FD. injection FD as <-. eexists. split; [reflexivity|]. rewrite plain_is_dataset. unfold is_dataset. rewrite D0. auto.
  - exists y. rewrite plain_leaf_at, SY. reflexivity.
  - exists x. rewrite plain_leaf_at, SX. reflexivity.
  - intros d PD. apply plots_flat in PD. split.
    + intros p l F. rewrite <- plain_dict in F. destruct (plain_followd _ _ _ _ _ F) as (l0 & F0 & E). apply E. eapply FO; eauto.
    + intros l F. rewrite <- plain_dict in F. destruct (plain_followd _ _ _ _ _ F) as (l0 & F0 & E). apply E. destruct (string_dec d "attrs") as [->|NA]. { apply (FO "attrs" ["data"] l0); auto. }
      cbn [follow items] in F0. rewrite GD in F0. cbn [items] in F0. destruct (sget d dl) as [u|] eqn:G; [|discriminate]. injection F0 as ->. destruct (MM d _ (sget_in _ _ _ G) NA) as (m & [= <-] & H). auto.
Qed.
