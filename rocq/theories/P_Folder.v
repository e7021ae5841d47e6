(** Property C67: a folder of SPICE scans becomes one entry per scan. *)
From Coq Require Import Reals List ZArith String Ascii Bool Lia Sorted Permutation DecimalString.
From Verif Require Import Base PyStr PySort L_Sort S_Str L_Str M_ScanData M_Spice M_Project M_Tavi P_Tavi M_Nexus P_Nexus L_NexusFile L_NexusLinks M_Builder L_Builder P_Builder P_Builder2 P_Builder3 P_Builder6.
Import ListNotations.
Open Scope string_scope.
Open Scope list_scope.

(** * Specification *)
(** The data files asked for: those ending in .dat, or in scanNNNN.dat for one scan. *)
Definition name_end (scan_num : option Z) : string := match scan_num with None => ".dat" | Some n => (scan_name n ++ ".dat")%string end.
Definition data_file (listing : list string) (scan_num : option Z) (f : string) : Prop := In f listing /\ exists stem, f = (stem ++ name_end scan_num)%string.
(** The scan a file name stands for: the third piece between underscores, up to a dot. *)
Definition scan_of (f key : string) : Prop := exists a b c rest more, pieces "_"%char f (a :: b :: c :: rest) /\ pieces "."%char c (key :: more).
Definition one_file_per_scan (listing : list string) (scan_num : option Z) : Prop :=
  forall f g key, data_file listing scan_num f -> data_file listing scan_num g -> scan_of f key -> scan_of g key -> f = g.
(** An entry that is marked with its data set and otherwise unchanged. *)
Definition marked (name : string) (e e' : entry) : Prop :=
  (forall k, k <> "attrs" -> sget k e' = sget k e) /\ map fst e' = map fst e /\
  exists a a', sget "attrs" e = Some (Dict a) /\ sget "attrs" e' = Some (Dict a') /\
    sget "dataset_name" a' = Some (Leaf (LStr name)) /\ forall k, k <> "dataset_name" -> sget k a' = sget k a.
(** The first file of a folder, by name. *)
Definition first_file (listing : list string) (scan_num : option Z) (f : string) : Prop :=
  data_file listing scan_num f /\ forall g, data_file listing scan_num g -> String.leb f g = true.

Lemma substring_all : forall t, String.substring 0 (String.length t) t = t.
Proof. induction t; cbn; congruence. Qed.
Lemma substring_tail : forall a t, String.substring (String.length a) (String.length t) (a ++ t)%string = t.
Proof. induction a; intros t; cbn; auto. apply substring_all. Qed.
Lemma cut : forall n s, (n <= String.length s)%nat -> exists a b, s = (a ++ b)%string /\ String.length a = n.
Proof.
  induction n; intros s H. { exists "", s. auto. } destruct s as [|c s]; cbn in H; [lia|]. destruct (IHn s) as (a & b & -> & L); [lia|]. exists (String c a), b. cbn. auto.
Qed.
Lemma slength_app : forall a b, String.length (a ++ b)%string = (String.length a + String.length b)%nat.
Proof. induction a; intros b; cbn; auto. Qed.
Lemma ends_spec : forall t s, ends_str t s = true <-> exists a, s = (a ++ t)%string.
Proof.
  intros t s. unfold ends_str. rewrite andb_true_iff, String.eqb_eq, Nat.leb_le. split.
  - intros [E L]. destruct (cut (String.length s - String.length t) s) as (a & b & -> & LA); [lia|]. exists a. f_equal. rewrite slength_app in *.
    assert (LB : String.length t = String.length b) by lia. rewrite <- LA, LB, substring_tail in E. auto.
  - intros (a & ->). rewrite slength_app. replace (String.length a + String.length t - String.length t)%nat with (String.length a) by lia. split; [apply substring_tail|lia].
Qed.

Lemma data_files : forall listing n f, In f (sort (filter (ends_str (name_end n)) listing)) <-> data_file listing n f.
Proof. intros. rewrite sort_in, filter_In, ends_spec. reflexivity. Qed.
Lemma scan_split : forall f a b c r, split_on "_"%char f = a :: b :: c :: r -> scan_of f (hd "" (split_on "."%char c)).
Proof.
  intros f a b c r E. destruct (split_on "."%char c) as [|k m] eqn:D; [exfalso; eapply split_on_ne; eauto|]. exists a, b, c, r, m. rewrite !pieces_iff. auto.
Qed.
Lemma scan_split_inv : forall f key, scan_of f key -> exists a b c r, split_on "_"%char f = a :: b :: c :: r /\ key = hd "" (split_on "."%char c).
Proof. intros f key (a & b & c & r & m & P & Q). apply pieces_iff in P. apply pieces_iff in Q. exists a, b, c, r. rewrite <- Q. auto. Qed.
Lemma scan_unique : forall f k k', scan_of f k -> scan_of f k' -> k = k'.
Proof. intros f k k' H H'. apply scan_split_inv in H, H'. destruct H as (a & b & c & r & E & ->), H' as (a' & b' & c' & r' & E' & ->). rewrite E in E'. injection E' as <- <- <- <-. auto. Qed.

Section C67.
  Variable float_of : string -> option R.
  Variable int_of : string -> option Z.
  Variable repr : pv -> string.
  Variable date_of : string -> option string.
  Variable genfromtxt : list string -> result (list (list num)).
  Variable xml_matrix : string -> option (option string).
  Notation scan_file := (scan_file float_of int_of repr date_of genfromtxt xml_matrix).
  Notation convert := (convert float_of int_of repr date_of genfromtxt xml_matrix).
  Notation spice_data_to_nxdict := (spice_data_to_nxdict float_of int_of repr date_of genfromtxt xml_matrix).
  Notation from_spice := (from_spice float_of int_of repr date_of genfromtxt xml_matrix).
  Notation read := (read_spice_datafile float_of genfromtxt).

  Lemma mark : forall name e a, sget "attrs" e = Some (Dict a) -> marked name e (sset "attrs" (Dict (sset "dataset_name" (Leaf (LStr name)) a)) e).
  Proof using.
    clear. intros name e a A. split. { intros k N. apply sget_sset_ne. auto. } split. { apply sset_keys_in. apply sget_in in A. apply (in_map fst) in A. exact A. }
    exists a, (sset "dataset_name" (Leaf (LStr name)) a). repeat split; auto. { apply sget_sset_eq. } { apply sget_sset_eq. } intros k N. apply sget_sset_ne. auto.
  Qed.
  Lemma sset_new : forall {A} k (v : A) d, ~ In k (dkeys d) -> sset k v d = d ++ [(k, v)].
  Proof using. clear. induction d as [|[a b] d]; intros N; cbn; auto. cbn in N. destruct (String.eqb k a) eqn:Q. { apply String.eqb_eq in Q. subst. tauto. } f_equal. tauto. Qed.

  Lemma convert_spec : forall fs dir name i s names acc d, NoDup names ->
    (forall f g key, In f names -> In g names -> scan_of f key -> scan_of g key -> f = g) ->
    (forall f key, In f names -> scan_of f key -> ~ In key (dkeys acc)) ->
    convert fs dir name i s names acc = Ok d ->
    exists l, d = acc ++ l /\ Forall2 (fun f kv => scan_of f (fst kv) /\ exists e, scan_file fs (dir ++ [f]) i s = Ok e /\ marked name e (snd kv)) names l.
  Proof using.
    intros fs dir name i s. induction names as [|f names IH]; intros acc d ND U NEW H; cbn [M_Builder.convert] in H.
    { apply Ok_inj in H. subst. exists []. rewrite app_nil_r. auto. }
    inversion ND as [|? ? NI ND']; subst. destruct (split_on "_"%char f) as [|a [|b [|c r]]] eqn:SP; try discriminate.
    destruct (scan_file fs (dir ++ [f]) i s) as [e|] eqn:SF; [|discriminate]. cbn [bind] in H.
    destruct (sget "attrs" e) as [[|at_]|] eqn:A; try discriminate. cbn [bind] in H. cbv zeta in H.
    pose proof (scan_split _ _ _ _ _ SP) as SO. set (key := hd "" (split_on "."%char c)) in *. set (e' := sset "attrs" _ e) in *.
    rewrite sset_new in H by (apply (NEW f); [left; auto|auto]). apply IH in H; auto.
    - destruct H as (l & -> & F). exists ((key, e') :: l). rewrite <- app_assoc. split; auto. constructor; auto. cbn [fst snd]. split; auto. exists e. split; auto. apply mark. auto.
    - intros f0 g k I J. apply U; right; auto.
    - intros f0 k I S0. unfold dkeys. rewrite map_app, in_app_iff. intros [J|[J|[]]].
      + eapply NEW; [right; exact I|exact S0|exact J].
      + cbn in J. subst k. apply NI. rewrite <- (U f0 f key); auto; [right; auto|left; auto].
  Qed.

  (** One entry per data file, in the order of the file names, under the scan of its name: the entry of that file alone, marked with the
      data set of the first file. *)
  Theorem C67_folder : forall fs dir listing n i s d, spice_data_to_nxdict fs dir listing n i s = Ok d -> NoDup listing -> one_file_per_scan listing n ->
    exists files first instrument exp scan sf,
      (forall f, In f files <-> data_file listing n f) /\ NoDup files /\ StronglySorted sle files /\
      first_file listing n first /\ pieces "_"%char first [instrument; exp; scan] /\ read fs (dir ++ [first]) = Ok sf /\
      let proposal := match mget "proposal" (sf_metadata sf) with Some (MStr p) => p | Some _ => "" | None => "UNKNOWN" end in
      Forall2 (fun f kv => scan_of f (fst kv) /\ exists e, scan_file fs (dir ++ [f]) i s = Ok e /\ marked ("IPTS" ++ proposal ++ "_" ++ instrument ++ "_" ++ exp)%string e (snd kv)) files d.
  Proof using.
    intros fs dir listing n i s d H ND U. unfold M_Builder.spice_data_to_nxdict in H. cbv zeta in H. fold (name_end n) in H.
    set (files := sort (filter (ends_str (name_end n)) listing)) in *.
    assert (IN : forall f, In f files <-> data_file listing n f) by apply data_files. assert (NF : NoDup files) by (apply sort_nodup, NoDup_filter; auto).
    assert (SS : StronglySorted sle files) by apply sort_sorted. clearbody files.
    destruct files as [|first files]; [discriminate|]. destruct (read fs (dir ++ [first])) as [sf|] eqn:RD; [|discriminate]. cbn [bind] in H.
    destruct (split_on "_"%char first) as [|instrument [|exp [|scan [|]]]] eqn:SP; try discriminate.
    apply convert_spec in H; auto.
    - destruct H as (l & -> & F). cbn [List.app]. exists (first :: files), first, instrument, exp, scan, sf. split; [auto|]. split; [auto|]. split; [auto|]. split; [|split; [|split; auto]].
      + split; [apply IN; left; auto|]. intros g G. apply IN in G. destruct G as [<-|G]. { apply sle_refl. }
        inversion SS as [|? ? _ FA]; subst. rewrite Forall_forall in FA. apply FA. auto.
      + apply pieces_iff. auto.
    - intros f g key I J. apply (U f g key); apply IN; auto.
  Qed.

  Lemma scan_file_attrs : forall fs p i s e, scan_file fs p i s = Ok e -> exists a, sget "attrs" e = Some (Dict a).
  Proof using.
    intros fs p i s e H. unfold M_Builder.scan_file in H. apply bind_ok in H. destruct H as (sl & _ & H). apply bind_ok in H. destruct H as (L & _ & H).
    unfold spice_scan_to_nxdict in H. repeat (let x := fresh "x" in let E := fresh "E" in apply bind_ok in H; destruct H as (x & E & H)).
    apply Ok_inj in H. rewrite <- H. rewrite nxentry_attrs; [eauto| |].
    - apply nodupb_ok. vm_compute. reflexivity.
    - cbn. intuition discriminate.
  Qed.
  Lemma scan_file_read : forall fs p i s e, scan_file fs p i s = Ok e -> exists sf, read fs p = Ok sf.
  Proof using.
    intros fs p i s e H. unfold M_Builder.scan_file in H. apply bind_ok in H. destruct H as (sl & H & _). unfold create_spicelogs in H. apply bind_ok in H. destruct H as (sf & H & _). eauto.
  Qed.
  Lemma convert_total : forall fs dir name i s names acc, (exists d, convert fs dir name i s names acc = Ok d) <->
    Forall (fun f => (exists key, scan_of f key) /\ exists e, scan_file fs (dir ++ [f]) i s = Ok e) names.
  Proof using.
    intros fs dir name i s. induction names as [|f names IH]; intros acc; cbn [M_Builder.convert].
    { split; [constructor|eauto]. }
    split.
    - intros (d & H). destruct (split_on "_"%char f) as [|a [|b [|c r]]] eqn:SP; try discriminate. apply bind_ok in H. destruct H as (e & SF & H). apply bind_ok in H. destruct H as (at_ & _ & H).
      constructor; [|eapply IH; eauto]. split; [|eauto]. eexists. eapply scan_split; eauto.
    - intros F. inversion F as [|? ? [(key & K) (e & E)] F']; subst. apply scan_split_inv in K. destruct K as (a & b & c & r & -> & _). rewrite E. cbn [bind].
      destruct (scan_file_attrs _ _ _ _ _ E) as (at_ & ->). cbn [bind]. apply IH. auto.
  Qed.

  (** The conversion succeeds exactly when the folder has a Datafiles folder with a data file, the name of the first file has three pieces, and
      every data file can be converted and names its scan. *)
  Theorem C67_converts : forall fs folder listing n i s,
    (exists d, from_spice fs folder listing n i s = Ok d) <->
    is_dir fs folder = true /\ is_dir fs (folder ++ ["Datafiles"]) = true /\
    (exists first a b c, first_file listing n first /\ pieces "_"%char first [a; b; c]) /\
    forall f, data_file listing n f -> (exists key, scan_of f key) /\ exists e, scan_file fs ((folder ++ ["Datafiles"]) ++ [f]) i s = Ok e.
  Proof using.
    intros fs folder listing n i s. unfold M_Builder.from_spice. destruct (is_dir fs folder); cbn [negb].
    2:{ split; [intros (d & H); destruct (is_file fs folder); discriminate|intros (H & _); discriminate]. }
    destruct (is_dir fs (folder ++ ["Datafiles"])); cbn [negb]. 2:{ split; [intros (d & H); discriminate|intros (_ & H & _); discriminate]. }
    set (dir := folder ++ ["Datafiles"]). unfold M_Builder.spice_data_to_nxdict. cbv zeta. fold (name_end n).
    set (files := sort (filter (ends_str (name_end n)) listing)) in *.
    assert (IN : forall f, In f files <-> data_file listing n f) by apply data_files.
    assert (SS : StronglySorted sle files) by apply sort_sorted. clearbody files.
    destruct files as [|f0 files].
    { split; [intros (d & H); discriminate|]. intros (_ & _ & (f & a & b & c & (H & _) & _) & _). apply IN in H. destruct H. }
    assert (FF : first_file listing n f0).
    { split; [apply IN; left; auto|]. intros g G. apply IN in G. destruct G as [<-|G]; [apply sle_refl|]. inversion SS as [|? ? _ FA]; subst. rewrite Forall_forall in FA. apply FA. auto. }
    split.
    - intros (d & H). apply bind_ok in H. destruct H as (sf & RD & H). destruct (split_on "_"%char f0) as [|a [|b [|c [|]]]] eqn:SP; try discriminate.
      split; auto. split; auto. split. { exists f0, a, b, c. split; auto. apply pieces_iff. auto. }
      assert (F : Forall (fun f => (exists key, scan_of f key) /\ exists e, scan_file fs (dir ++ [f]) i s = Ok e) (f0 :: files)) by (eapply convert_total; eauto).
      rewrite Forall_forall in F. intros f DF. apply F, IN. auto.
    - intros (_ & _ & (g & a & b & c & (G & GL) & P) & A).
      assert (g = f0) by (apply sle_antisym; [apply GL, FF|apply (proj2 FF); auto]). subst g. destruct (A f0 (proj1 FF)) as (_ & e & E). destruct (scan_file_read _ _ _ _ _ E) as (sf & ->). cbn [bind].
      apply pieces_iff in P. rewrite <- P. apply convert_total. apply Forall_forall. intros f I. apply A, IN. auto.
  Qed.

End C67.
Print Assumptions C67_folder.
Print Assumptions C67_converts.

(** ** Standard file names *)
Lemma digits_clean : forall (P : ascii -> Prop) u, (forall c, In c ["0"; "1"; "2"; "3"; "4"; "5"; "6"; "7"; "8"; "9"]%char -> P c) -> every P (NilEmpty.string_of_uint u).
Proof. intros P u H. induction u; cbn; [apply every_nil| | | | | | | | | |]; apply every_cons; (split; [apply H; cbn; tauto|auto]). Qed.
Lemma pad_clean : forall (P : ascii -> Prop) n, (0 <= n)%Z -> (forall c, In c ["0"; "1"; "2"; "3"; "4"; "5"; "6"; "7"; "8"; "9"]%char -> P c) -> every P (pad4 n).
Proof.
  intros P n H A. unfold pad4. destruct (n <? 0)%Z eqn:Q; [lia|]. cbv zeta. apply every_app. split.
  - generalize (4 - String.length (str_of n))%nat. induction n0; cbn [zeros]; [apply every_nil|]. apply every_cons. split; [apply A; cbn; tauto|auto].
  - destruct (str_of_nonneg n H) as (u & -> & _). destruct u; try (apply digits_clean with (u := _ _); intros c I; apply A; cbn in I |- *; tauto).
    unfold NilZero.string_of_uint. apply every_cons; split; [apply A; cbn; tauto | apply every_nil].
Qed.
Lemma name_clean : forall (P : ascii -> Prop) n, (0 <= n)%Z -> (forall c, In c ["0"; "1"; "2"; "3"; "4"; "5"; "6"; "7"; "8"; "9"; "s"; "c"; "a"; "n"]%char -> P c) -> every P (scan_name n).
Proof.
  intros P n H A. unfold scan_name. apply every_app. split. { repeat (apply every_cons; split; [apply A; cbn; tauto|]). apply every_nil. }
  apply pad_clean; auto. intros c I. apply A. cbn in I |- *. tauto.
Qed.
Definition standard_name (instrument exp : string) (n : Z) : string := (instrument ++ "_" ++ exp ++ "_" ++ scan_name n ++ ".dat")%string.

(** A file INSTRUMENT_EXP_scanNNNN.dat stands for the scan scanNNNN, *)
Theorem C67_scan_name : forall instrument exp n key, (0 <= n)%Z -> every (fun c => c <> "_"%char) instrument -> every (fun c => c <> "_"%char) exp ->
  (scan_of (standard_name instrument exp n) key <-> key = scan_name n).
Proof.
  intros instrument exp n key N A B.
  assert (E : every (fun c => c <> "_"%char) (scan_name n ++ ".dat")%string).
  { apply every_app. split. { apply name_clean; auto. cbn. intros c I. repeat (destruct I as [<-|I]; [discriminate|]). destruct I. } repeat (apply every_cons; split; [discriminate|]). apply every_nil. }
  assert (P : split_on "_"%char (standard_name instrument exp n) = [instrument; exp; (scan_name n ++ ".dat")%string]).
  { unfold standard_name. change (instrument ++ "_" ++ exp ++ "_" ++ scan_name n ++ ".dat")%string with (instrument ++ String "_" (exp ++ String "_" (scan_name n ++ ".dat")))%string. rewrite !split_on_app, split_on_one; auto. }
  assert (K : hd "" (split_on "."%char (scan_name n ++ ".dat")) = scan_name n).
  { change ".dat" with (String "." "dat"). rewrite split_on_app; auto. apply name_clean; auto. cbn. intros c I. repeat (destruct I as [<-|I]; [discriminate|]). destruct I. }
  split.
  - intros S. apply scan_split_inv in S. destruct S as (a & b & c & r & Q & ->). rewrite P in Q. injection Q as <- <- <- <-. auto.
  - intros ->. pose proof (scan_split _ _ _ _ _ P) as S. rewrite K in S. exact S.
Qed.
Print Assumptions C67_scan_name.
(** so a folder of such files has one file per scan, *)
Theorem C67_standard_folder : forall instrument exp listing q, every (fun c => c <> "_"%char) instrument -> every (fun c => c <> "_"%char) exp ->
  (forall f, data_file listing q f -> exists n, (0 <= n)%Z /\ f = standard_name instrument exp n) -> one_file_per_scan listing q.
Proof.
  intros instrument exp listing q A B H f g key F G SF SG. destruct (H f F) as (n & N & ->). destruct (H g G) as (m & M & ->).
  apply C67_scan_name in SF; auto. apply C67_scan_name in SG; auto. rewrite SF in SG. apply C34_names_distinct in SG. subst. auto.
Qed.
Print Assumptions C67_standard_folder.
(** and asking for one scan finds its file only. *)
Lemma sapp_inv_tail : forall x a b : string, (a ++ x = b ++ x)%string -> a = b.
Proof.
  intros x. induction a as [|c a]; intros [|d b] H; cbn in H; auto.
  - exfalso. apply (f_equal String.length) in H. cbn in H. rewrite slength_app in H. lia.
  - exfalso. apply (f_equal String.length) in H. cbn in H. rewrite slength_app in H. lia.
  - injection H as -> H. f_equal. auto.
Qed.
Lemma last_mark : forall c x y a b, every (fun d => d <> c) x -> every (fun d => d <> c) y -> (a ++ String c x = b ++ String c y)%string -> x = y.
Proof.
  intros c x y. induction a as [|d a]; intros [|e b] X Y H; cbn in H; injection H; intros; subst; auto.
  - exfalso. apply every_app in X. destruct X as [_ X]. apply every_cons in X. tauto.
  - exfalso. apply every_app in Y. destruct Y as [_ Y]. apply every_cons in Y. tauto.
  - eapply IHa; eauto.
Qed.
Lemma name_tail : forall n, (0 <= n)%Z -> every (fun d => d <> "s"%char) ("can" ++ pad4 n)%string.
Proof.
  intros n N. apply every_app. split. { repeat (apply every_cons; split; [discriminate|]). apply every_nil. }
  apply pad_clean; auto. cbn. intros c I. repeat (destruct I as [<-|I]; [discriminate|]). destruct I.
Qed.
Lemma sapp_assoc : forall a b c : string, ((a ++ b) ++ c = a ++ b ++ c)%string.
Proof. induction a; intros; cbn; congruence. Qed.
Theorem C67_one_scan : forall instrument exp listing n m, (0 <= n)%Z -> (0 <= m)%Z ->
  data_file listing (Some n) (standard_name instrument exp m) -> m = n.
Proof.
  intros instrument exp listing n m N M (_ & stem & E). unfold standard_name, name_end in E.
  replace (instrument ++ "_" ++ exp ++ "_" ++ scan_name m ++ ".dat")%string with (((instrument ++ "_" ++ exp ++ "_") ++ scan_name m) ++ ".dat")%string in E by (rewrite !sapp_assoc; reflexivity).
  rewrite <- (sapp_assoc stem) in E. apply sapp_inv_tail in E. unfold scan_name in E. apply (last_mark "s"%char ("can" ++ pad4 m)%string ("can" ++ pad4 n)%string) in E; auto using name_tail.
  apply C34_names_distinct. unfold scan_name. change (String "s" ("can" ++ pad4 m) = String "s" ("can" ++ pad4 n)). congruence.
Qed.
Print Assumptions C67_one_scan.
Theorem C67_one_scan_found : forall instrument exp listing n, In (standard_name instrument exp n) listing -> data_file listing (Some n) (standard_name instrument exp n).
Proof. intros instrument exp listing n I. split; auto. exists (instrument ++ "_" ++ exp ++ "_")%string. unfold standard_name, name_end. rewrite !sapp_assoc. reflexivity. Qed.
Print Assumptions C67_one_scan_found.

(** What is not there is not found; a file is not a folder. *)
Theorem C67_not_a_folder : forall float_of int_of repr date_of genfromtxt xml_matrix fs folder listing n i s,
  let r := from_spice float_of int_of repr date_of genfromtxt xml_matrix fs folder listing n i s in
  (is_dir fs folder = false -> lines_of fs folder = None -> r = Err FileNotFoundError) /\
  (forall l, is_dir fs folder = false -> lines_of fs folder = Some l -> r = Err NotADirectoryError) /\
  (is_dir fs folder = true -> is_dir fs (folder ++ ["Datafiles"]) = false -> r = Err FileNotFoundError).
Proof.
  intros float_of int_of repr date_of genfromtxt xml_matrix fs folder listing n i s r. unfold r, from_spice, is_file. split; [|split]; intros; repeat match goal with H : _ = _ |- _ => rewrite H end; reflexivity.
Qed.
Print Assumptions C67_not_a_folder.

(** ** Example: a folder of two scans and another file *)
Definition ex_scan (n detector : string) : list string :=
  [("# scan = " ++ n)%string; "# proposal = 1234"; "# users = A,B"; "# sense = -+-"; "# collimation = 48-40-40-120"; "# date = 5/19/2024"; "# time = 5:58:09 PM";
   "# samplename = crystal"; "# latticeconstants = 5.5,5.5,5.5,90,90,90"; "# def_x = e"; "# def_y = detector"; "# preset_type = normal"; "# preset_channel = time"; "# preset_value = 30";
   "# ubconf = ub1.ini"; "# col_headers ="; "# Pt. e detector"; ("1 0 " ++ detector)%string].
Definition ex_folder : files := Files (fun p =>
  let name := show_path p in
  if String.eqb name "/exp1/Datafiles/HB1_exp0001_scan0002.dat" then Some (ex_scan "2" "10")
  else if String.eqb name "/exp1/Datafiles/HB1_exp0001_scan0010.dat" then Some (ex_scan "10" "12")
  else if String.eqb name "/exp1/UBConf/ub1.ini" then Some ["[UBMode]"; "Mode=1"] else None)
  (fun p => String.eqb (show_path p) "/exp1" || String.eqb (show_path p) "/exp1/Datafiles").
Definition ex_text (lines : list string) : result (list (list num)) := if existsb (String.eqb "1 0 10") lines then Ok [[Some 1; Some 0; Some 10]]%R else Ok [[Some 1; Some 0; Some 12]]%R.
Definition ex_listing : list string := ["HB1_exp0001_scan0010.dat"; "notes.txt"; "HB1_exp0001_scan0002.dat"].
Definition ex_from n := from_spice ex_float (fun t => if String.eqb t "1" then Some 1%Z else None) ex_repr ex_date ex_text (fun _ => None) ex_folder ["exp1"] ex_listing n None None.
Example C67_example : exists e2 e10, ex_from None = Ok [("scan0002", e2); ("scan0010", e10)] /\ ex_from (Some 10%Z) = Ok [("scan0010", e10)] /\ field_value e2 ["instrument"; "detector"; "data"] = Some (LArr [trunc 10]) /\ field_value e10 ["instrument"; "detector"; "data"] = Some (LArr [trunc 12]) /\ (exists a, sget "attrs" e10 = Some (Dict a) /\ sget "dataset_name" a = Some (Leaf (LStr "IPTS1234_HB1_exp0001"))).
Proof.
  eexists. eexists. split; [cbv -[trunc IZR Q2R]; reflexivity|].
  split; [cbv -[trunc IZR Q2R]; reflexivity|]. split; [cbv -[trunc IZR Q2R]; reflexivity|]. split; [cbv -[trunc IZR Q2R]; reflexivity|].
  eexists. split; cbv -[trunc IZR Q2R]; reflexivity.
Qed.
