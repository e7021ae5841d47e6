(** Properties C42, C63, C64: the recorded logs of a SPICE scan, count files, UB configuration files. *)
From Coq Require Import Reals List ZArith String Ascii Bool Lia Lra Decimal DecimalString.
From Verif Require Import Base PyStr M_ScanData M_Project M_Spice S_Str L_Str P_Spice P_Tavi.
Import ListNotations.
Open Scope string_scope.
Open Scope list_scope.

(** * C42 *)
(** The file name at the end of a Windows or Unix path. *)
Definition bare (s : string) : Prop := every (fun c => c <> backslash /\ c <> "/"%char) s.
Definition file_part (name ub : string) : Prop :=
  bare ub /\ (name = ub \/ (exists pre, name = (pre ++ String backslash ub)%string)
              \/ (exists pre, name = (pre ++ String "/" ub)%string /\ every (fun c => c <> backslash) pre)).

Lemma split_on_app2 : forall c x s, split_on c (x ++ String c s) = split_on c x ++ split_on c s.
Proof.
  induction x; cbn [append split_on]; intros.
  - now rewrite Ascii.eqb_refl.
  - destruct (Ascii.eqb a c); [now rewrite IHx|]. rewrite IHx. destruct (split_on c x) eqn:E; [now destruct (split_on_ne c x)|]. reflexivity.
Qed.
Lemma last_app : forall A (l l' : list A) d, l' <> [] -> last (l ++ l') d = last l' d.
Proof. induction l; cbn; intros; auto. destruct (l ++ l') eqn:E; [destruct l, l'; cbn in E; congruence|]. rewrite <- E. auto. Qed.
Lemma last_split : forall c x s d, every (fun d => d <> c) s -> last (split_on c (x ++ String c s)) d = s.
Proof. intros. rewrite split_on_app2, last_app by apply split_on_ne. now rewrite split_on_one. Qed.
Lemma every_impl : forall (P Q : ascii -> Prop) s, (forall c, P c -> Q c) -> every P s -> every Q s.
Proof. intros P Q s H Hs a c b E. eapply H, Hs; eauto. Qed.
Lemma bare_slash : forall s, bare s -> every (fun c => c <> "/"%char) s /\ every (fun c => c <> backslash) s.
Proof. intros s H; split; eapply every_impl; try exact H; cbn; tauto. Qed.

Lemma ub_file_of_part : forall name ub, file_part name ub -> ub_file_of name = ub.
Proof.
  intros name ub (Hb & H). destruct (bare_slash _ Hb) as [Hs Hk]. unfold ub_file_of.
  destruct H as [->|[[pre ->]|[pre [-> Hp]]]].
  - apply contains1 in Hs, Hk. now rewrite Hs, Hk.
  - rewrite last_split by auto. replace (contains _ _) with true; auto. symmetry. apply contains_spec. exists pre, ub. reflexivity.
  - assert (E : contains (String backslash "") (pre ++ String "/" ub) = false).
    { apply contains1. apply every_app. split; auto. apply every_cons. split; auto. discriminate. }
    rewrite E, last_split by auto. replace (contains _ _) with true; auto. symmetry. apply contains_spec. exists pre, ub. reflexivity.
Qed.
Lemma join_path_bare : forall folder ub, bare ub -> join_path folder ub = folder ++ [ub].
Proof.
  intros folder ub H. destruct (bare_slash _ H) as [Hs _]. unfold join_path. rewrite split_on_one by auto.
  destruct ub as [|c r]; cbn [starts_with]; auto. destruct (Ascii.eqb "/" c) eqn:E; auto. apply Ascii.eqb_eq in E; subst.
  apply every_cons in Hs. tauto.
Qed.
Lemma grandparent_app : forall parents a b, grandparent (parents ++ [a; b]) = parents.
Proof.
  intros. unfold grandparent. replace (parents ++ [a; b]) with ((parents ++ [a]) ++ [b]) by (now rewrite <- app_assoc).
  now rewrite !removelast_last.
Qed.

Section C42.
  Context (float_of : string -> option R) (int_of : string -> option Z) (genfromtxt : list string -> result (list (list num)))
          (xml_matrix : string -> option (option string)).
  Notation create := (create_spicelogs float_of int_of genfromtxt xml_matrix).
  Notation read := (read_spice_datafile float_of genfromtxt).
  Notation read_ub := (read_spice_ubconf float_of int_of xml_matrix).

  (** What is recorded about the UB configuration: the file next to the data folder's parent, in UBConf. *)
  Theorem C42_ub_recorded : forall fs parents folder file f name ub u,
    read fs (parents ++ [folder; file]) = Ok f -> mget "ubconf" (sf_metadata f) = Some (MStr name) -> file_part name ub ->
    read_ub fs (parents ++ ["UBConf"; ub]) = Ok u ->
    exists logs, create fs (parents ++ [folder; file]) = Ok logs /\
      sl_ub logs = Some ((show_path (parents ++ ["UBConf"; ub])), u).
  Proof.
    intros fs parents folder file f name ub u Hr Hm Hp Hu. unfold create_spicelogs. rewrite Hr. cbn [bind]. rewrite Hm, (ub_file_of_part _ _ Hp).
    rewrite grandparent_app, join_path_bare by apply Hp. rewrite <- app_assoc. cbn [List.app].
    assert (Hf : is_file fs (parents ++ ["UBConf"; ub]) = true).
    { unfold is_file. unfold read_spice_ubconf in Hu. destruct (lines_of fs (parents ++ ["UBConf"; ub])); auto. destruct (is_dir _ _); discriminate. }
    change ([] ++ [ub]) with [ub] in *. rewrite Hf, Hu. cbn [bind]. eexists; split; reflexivity.
  Qed.

  (** Finding: a file found only in UBConf/temp is looked for in UBConf all the same, so the scan cannot be converted. *)
  Theorem C42_temp_refuted : forall fs parents folder file f name ub,
    read fs (parents ++ [folder; file]) = Ok f -> mget "ubconf" (sf_metadata f) = Some (MStr name) -> file_part name ub ->
    lines_of fs (parents ++ ["UBConf"; "temp"; ub]) <> None ->
    lines_of fs (parents ++ ["UBConf"; ub]) = None -> is_dir fs (parents ++ ["UBConf"; ub]) = false ->
    create fs (parents ++ [folder; file]) = Err FileNotFoundError.
  Proof.
    intros fs parents folder file f name ub Hr Hm Hp Ht Hn Hd. unfold create_spicelogs. rewrite Hr. cbn [bind]. rewrite Hm, (ub_file_of_part _ _ Hp).
    rewrite grandparent_app, !join_path_bare by apply Hp. rewrite <- !app_assoc. cbn [List.app]. unfold is_file. rewrite Hn.
    destruct (lines_of fs (parents ++ ["UBConf"; "temp"; ub])); [|congruence]. unfold read_spice_ubconf. rewrite Hn, Hd. reflexivity.
  Qed.

  (** Without the file in either folder the scan is recorded without a UB configuration. *)
  Theorem C42_ub_absent : forall fs parents folder file f name ub,
    read fs (parents ++ [folder; file]) = Ok f -> mget "ubconf" (sf_metadata f) = Some (MStr name) -> file_part name ub ->
    lines_of fs (parents ++ ["UBConf"; ub]) = None -> lines_of fs (parents ++ ["UBConf"; "temp"; ub]) = None ->
    exists logs, create fs (parents ++ [folder; file]) = Ok logs /\ sl_ub logs = None.
  Proof.
    intros fs parents folder file f name ub Hr Hm Hp Hn Ht. unfold create_spicelogs. rewrite Hr. cbn [bind]. rewrite Hm, (ub_file_of_part _ _ Hp).
    rewrite grandparent_app, !join_path_bare by apply Hp. rewrite <- !app_assoc. cbn [List.app]. unfold is_file. rewrite Hn, Ht.
    eexists; split; reflexivity.
  Qed.

  (** A scan whose header names no UB file is refused. *)
  Theorem C42_ubconf_needed : forall fs p f, read fs p = Ok f -> mget "ubconf" (sf_metadata f) = None -> create fs p = Err KeyError.
  Proof. intros fs p f Hr Hm. unfold create_spicelogs. rewrite Hr. cbn [bind]. now rewrite Hm. Qed.

  Lemma metadata_nodup : forall lines md un, metadata_to_dict float_of lines = Ok (md, un) -> NoDup (dkeys md).
  Proof.
    intros lines md un H. unfold metadata_to_dict in H.
    assert (Hf : forall lines acc, NoDup (dkeys (fst acc)) -> NoDup (dkeys (fst (fold_left meta_step lines acc)))).
    { clear. induction lines as [|l lines IH]; intros [md un] Hn; auto. cbn [fold_left]. apply IH. unfold meta_step.
      destruct (contains "completed" _ || contains "stopped" _).
      - destruct (words _) as [|? [|? [|]]]; cbn [fst] in *; auto. apply sset_nodup; auto.
      - destruct (contains "=" _); [|auto]. destruct (map strip_ws _); auto.
        destruct (mget s md) as [[]|]; cbn [fst]; apply sset_nodup; auto. }
    specialize (Hf lines ([], []) (NoDup_nil _)). destruct (fold_left meta_step lines ([], [])) as [md0 un0]. cbn [fst] in Hf. cbv zeta in H.
    destruct (match mget "preset_type" md0 with Some (MStr p) => String.eqb p "countfile" | _ => false end).
    - destruct (mget "countfile" md0) as [[c| |]|]; try discriminate.
      destruct (parse_countfile float_of c) as [[[vals chans] labs]|]; cbn in H; [|discriminate].
      apply Ok_inj in H. injection H; intros; subst. repeat apply sset_nodup; auto.
    - apply Ok_inj in H. injection H; intros; subst; auto.
  Qed.

  Lemma read_nodup : forall fs p f, read fs p = Ok f -> NoDup (dkeys (sf_metadata f)).
  Proof.
    intros fs p f H. unfold read_spice_datafile in H. destruct (lines_of fs p); [|destruct (is_dir fs p); discriminate].
    destruct (String.eqb (suffix (base p)) ".dat"); [|discriminate].
    destruct (C41_lines_classified _ _ _ _ H) as (m & n & e & s & _ & Hm & _). eapply metadata_nodup; eauto.
  Qed.

  Lemma dget_map : forall A B (g : A -> B) k (d : dict string A), dget String.eqb k (map (fun kv => (fst kv, g (snd kv))) d) = option_map g (dget String.eqb k d).
  Proof. induction d as [|[a b] d IH]; cbn; auto. destruct (String.eqb k a); auto. Qed.
  Lemma dkeys_map : forall A B (g : A -> B) (d : dict string A), dkeys (map (fun kv => (fst kv, g (snd kv))) d) = dkeys d.
  Proof. intros. unfold dkeys. rewrite map_map. reflexivity. Qed.

  Lemma create_attrs : forall fs p f logs, read fs p = Ok f -> create fs p = Ok logs ->
    sl_data logs = (match sf_data f with Some d => d | None => [] end) /\
    forall k, dget String.eqb k (sl_attrs logs) =
      if match sf_unrecognized f with Some _ => String.eqb k "Others" | None => false end then option_map AList (sf_unrecognized f)
      else if match sf_errors f with Some (_ :: _) => false | _ => String.eqb k "Error Messages" end
           then Some (match sf_errors f with Some l => AList l | None => ANone end)
      else match mget k (sf_metadata f) with
           | Some v => Some (AMeta v)
           | None => if String.eqb k "instrument" then Some (AMeta (MStr (hd "" (split_on "_" (base p))))) else None
           end.
  Proof.
    intros fs p f logs Hr Hc. pose proof (read_nodup _ _ _ Hr) as Hn. unfold create_spicelogs in Hc. rewrite Hr in Hc. cbn [bind] in Hc. cbv zeta in Hc.
    set (a3 := match sf_unrecognized f with Some _ => _ | None => _ end) in Hc.
    assert (Ha : sl_attrs logs = a3 /\ sl_data logs = match sf_data f with Some d => d | None => [] end).
    { destruct (mget "ubconf" (sf_metadata f)) as [[name| |]|]; try discriminate. destruct (is_file fs _).
      - destruct (read_ub fs _); cbn [bind] in Hc; [|discriminate]. apply Ok_inj in Hc; subst logs; auto.
      - destruct (is_file fs _); [destruct (read_ub fs _); cbn [bind] in Hc; [|discriminate]|]; apply Ok_inj in Hc; subst logs; auto. }
    destruct Ha as [Ha Hd]. split; auto. intro k. rewrite Ha. unfold a3. clear a3 Ha Hd Hc.
    assert (Hu : forall k, dget String.eqb k (dupdate String.eqb [("instrument", AMeta (MStr (hd "" (split_on "_"%char (base p)))))]
       (map (fun kv => (fst kv, AMeta (snd kv))) (sf_metadata f))) = match mget k (sf_metadata f) with
           | Some v => Some (AMeta v)
           | None => if String.eqb k "instrument" then Some (AMeta (MStr (hd "" (split_on "_" (base p))))) else None
           end).
    { intro k'. rewrite dupdate_get by (rewrite dkeys_map; exact Hn). rewrite dget_map. unfold mget. destruct (dget String.eqb k' (sf_metadata f)); reflexivity. }
    destruct (sf_unrecognized f) as [l|].
    - rewrite P_Spice.dget_dset. destruct (String.eqb k "Others"); auto.
      destruct (sf_errors f) as [[|]|]; rewrite ?P_Spice.dget_dset, Hu; destruct (String.eqb k "Error Messages"); reflexivity.
    - destruct (sf_errors f) as [[|]|]; rewrite ?P_Spice.dget_dset, Hu; destruct (String.eqb k "Error Messages"); reflexivity.
  Qed.

  (** Everything the header says is recorded, with the unrecognised lines, the instrument's name and the columns. *)
  Theorem C42_header_recorded : forall fs p f logs, read fs p = Ok f -> create fs p = Ok logs ->
    (forall k v, mget k (sf_metadata f) = Some v -> k <> "Error Messages" -> k <> "Others" -> dget String.eqb k (sl_attrs logs) = Some (AMeta v))
    /\ (forall l, sf_unrecognized f = Some l -> dget String.eqb "Others" (sl_attrs logs) = Some (AList l))
    /\ (forall i rest, base p = (i ++ "_" ++ rest)%string -> every (fun c => c <> "_"%char) i -> mget "instrument" (sf_metadata f) = None ->
          dget String.eqb "instrument" (sl_attrs logs) = Some (AMeta (MStr i)))
    /\ sl_data logs = (match sf_data f with Some d => d | None => [] end).
  Proof.
    intros fs p f logs Hr Hc. destruct (create_attrs _ _ _ _ Hr Hc) as [Hd Ha]. repeat split; auto.
    - intros k v Hk H1 H2. rewrite Ha, Hk. apply String.eqb_neq in H1, H2. rewrite H1, H2.
      destruct (sf_unrecognized f), (sf_errors f) as [[|]|]; reflexivity.
    - intros l Hl. now rewrite Ha, Hl.
    - intros i rest Hb Hi Hm. rewrite Ha, Hm, Hb. change (i ++ "_" ++ rest)%string with (i ++ String "_" rest)%string. rewrite split_on_app by auto.
      destruct (sf_unrecognized f), (sf_errors f) as [[|]|]; reflexivity.
  Qed.

  (** Finding: the messages of a scan are recorded exactly when there are none. *)
  Theorem C42_messages_refuted : forall fs p f logs, read fs p = Ok f -> create fs p = Ok logs ->
    mget "Error Messages" (sf_metadata f) = None ->
    match sf_errors f with
    | Some [] => dget String.eqb "Error Messages" (sl_attrs logs) = Some (AList [])
    | Some (_ :: _) => dget String.eqb "Error Messages" (sl_attrs logs) = None
    | None => dget String.eqb "Error Messages" (sl_attrs logs) = Some ANone
    end.
  Proof.
    intros fs p f logs Hr Hc Hm. destruct (create_attrs _ _ _ _ Hr Hc) as [Hd Ha].
    destruct (sf_errors f) as [[|]|] eqn:E; rewrite Ha, ?E, ?Hm; destruct (sf_unrecognized f); reflexivity.
  Qed.
End C42.
Print Assumptions C42_ub_recorded.
Print Assumptions C42_temp_refuted.
Print Assumptions C42_ub_absent.
Print Assumptions C42_ubconf_needed.
Print Assumptions C42_header_recorded.
Print Assumptions C42_messages_refuted.

(** A scan with a message and a UB file named by a Windows path. *)
Definition ex_fs : files := Files (fun p =>
  let name := show_path p in
  if String.eqb name "/exp1/Datafiles/HB1_exp1_scan1.dat"
  then Some ["# ubconf = C:\UB\ub1.ini"; "# col_headers ="; "# Pt. h"; "1 2"; "# stalled"; "# Sum of Counts = 7"]
  else if String.eqb name "/exp1/UBConf/ub1.ini" then Some ["[UBMode]"; "Mode=1"] else None) (fun _ => false).
Example C42_ex : exists logs, create_spicelogs (fun _ => None) (fun _ => Some 1%Z) (fun _ => Ok [[Some 1; Some 2]]%R) (fun _ => None) ex_fs
    ["exp1"; "Datafiles"; "HB1_exp1_scan1.dat"] = Ok logs /\ dget String.eqb "instrument" (sl_attrs logs) = Some (AMeta (MStr "HB1")) /\
  sl_ub logs = Some ("/exp1/UBConf/ub1.ini", [("UBMode", UInt 1)]) /\ dget String.eqb "Error Messages" (sl_attrs logs) = None.
Proof. eexists. split; [vm_compute; reflexivity|]. split; [vm_compute; reflexivity|]. split; vm_compute; reflexivity. Qed.

(** * C63: count files of polarised scans *)
(** The direction of polarisation and the state of the flipper a command names. *)
Definition direction (t d : string) : Prop :=
  (d = "Px" /\ occurs "parq" t) \/ (d = "Py" /\ ~ occurs "parq" t /\ occurs "perpqh" t)
  \/ (d = "Pz" /\ ~ occurs "parq" t /\ ~ occurs "perpqh" t /\ occurs "perpq" t).
Definition guide_off (t : string) : Prop := occurs "drive hguide off vguide off" t \/ occurs "floff" t \/ occurs "drive hguide 0 vguide 0" t.
Definition flipper (t f : string) : Prop := (f = "NSF" /\ guide_off t) \/ (f = "SF" /\ ~ guide_off t /\ (occurs "flon" t \/ occurs "drive" t)).
(** The setting in force after a list of commands: the last one named, none at the start. *)
Definition in_force (names : string -> string -> Prop) (ts : list string) (d : string) : Prop :=
  (exists l1 t l2, ts = l1 ++ t :: l2 /\ names t d /\ forall t' d', In t' l2 -> ~ names t' d')
  \/ (d = "" /\ forall t' d', In t' ts -> ~ names t' d').
Inductive how_many (P : string -> Prop) : list string -> nat -> Prop :=
| hm_nil : how_many P [] 0
| hm_yes : forall t l n, P t -> how_many P l n -> how_many P (t :: l) (S n)
| hm_no : forall t l n, ~ P t -> how_many P l n -> how_many P (t :: l) n.
Notation preset := (occurs "count preset").
(** The commands of a count file. *)
Definition commands (countfile : string) (ts : list string) : Prop := exists cs, pieces "," countfile cs /\ Forall2 trimmed cs ts.

Lemma how_many_snoc : forall P l n t, how_many P l n -> (P t -> how_many P (l ++ [t]) (S n)) /\ (~ P t -> how_many P (l ++ [t]) n).
Proof.
  induction 1; cbn; (split; intro; [|]); try (destruct IHhow_many; econstructor; eauto; fail).
  - repeat constructor; auto.
  - apply hm_no; auto. constructor.
Qed.
Lemma how_many_fun : forall P l n m, how_many P l n -> how_many P l m -> n = m.
Proof. intros P l n m H. revert m. induction H; intros m H'; inversion H'; subst; auto; try tauto. Qed.

Lemma direction_step : forall t old, direction t (polarisation t old) \/ (polarisation t old = old /\ forall d, ~ direction t d).
Proof.
  intros. unfold polarisation, direction. destruct (contains "parq" t) eqn:E1; [apply contains_spec in E1; left; left; auto|apply contains_false in E1].
  destruct (contains "perpqh" t) eqn:E2; [apply contains_spec in E2; left; right; left; repeat split; auto|apply contains_false in E2].
  destruct (contains "perpq" t) eqn:E3; [apply contains_spec in E3; left; right; right; repeat split; auto|apply contains_false in E3]. right. split; auto. intros d H; tauto.
Qed.
Lemma flipper_step : forall t old, flipper t (flipping t old) \/ (flipping t old = old /\ forall d, ~ flipper t d).
Proof.
  intros. unfold flipping, flipper, guide_off. cbn [existsb].
  destruct (contains "drive hguide off vguide off" t) eqn:E1; [apply contains_spec in E1; left; left; split; [reflexivity | tauto]|apply contains_false in E1].
  destruct (contains "floff" t) eqn:E2; [apply contains_spec in E2; left; left; split; [reflexivity | tauto]|apply contains_false in E2].
  destruct (contains "drive hguide 0 vguide 0" t) eqn:E3; [apply contains_spec in E3; left; left; split; [reflexivity | tauto]|apply contains_false in E3].
  assert (Hd : contains "drive hguide on vguide on" t = true -> contains "drive" t = true).
  { rewrite !contains_spec. intros (a & b & ->). exists a, (" hguide on vguide on" ++ b)%string. reflexivity. }
  destruct (contains "drive hguide on vguide on" t) eqn:E4.
  - specialize (Hd eq_refl). apply contains_spec in Hd. left; right; split; [reflexivity | tauto].
  - destruct (contains "flon" t) eqn:E5; [apply contains_spec in E5; left; right; split; [reflexivity | tauto]|].
    destruct (contains "drive" t) eqn:E6; [apply contains_spec in E6; left; right; split; [reflexivity | tauto]|].
    apply contains_false in E5, E6. right; split; [reflexivity | intros d H; tauto].
Qed.
Lemma in_force_snoc : forall names ts t old new, in_force names ts old ->
  (names t new \/ (new = old /\ forall d, ~ names t d)) -> in_force names (ts ++ [t]) new.
Proof.
  intros names ts t old new Hf [Hn|[-> Hn]].
  - left. exists ts, t, []. repeat split; auto.
  - destruct Hf as [(l1 & x & l2 & -> & Hx & Hl)|[-> Hl]].
    + left. exists l1, x, (l2 ++ [t]). rewrite <- app_assoc. repeat split; auto. intros t' d' Hin. apply in_app_iff in Hin as [Hin|[<-|[]]]; auto.
    + right. split; auto. intros t' d' Hin. apply in_app_iff in Hin as [Hin|[<-|[]]]; auto.
Qed.
Lemma last_two_spec : forall l a b, last_two l = Ok (a, b) <-> exists l', l = l' ++ [a; b].
Proof.
  induction l as [|x l IH]; intros a b; cbn.
  - split; [discriminate | intros [[|] H]; discriminate].
  - destruct l as [|y [|z l]].
    + split; [discriminate | intros [[|? [|]] H]; discriminate].
    + split; [intro H; injection H; intros; subst; exists []; auto | intros [[|? [|? [|]]] H]; try discriminate; injection H; intros; subst; auto].
    + rewrite IH. split; intros [l' H].
      * exists (x :: l'). cbn. congruence.
      * destruct l' as [|? l']; [discriminate|]. injection H; intros. eauto.
Qed.

Section C63.
  Context (float_of : string -> option R).

  (** The [i]-th count of the commands [done], its channel, value and label. *)
  Definition count_at (done : list string) (i : nat) (x : R) (chan lab : string) : Prop :=
    exists l1 t l2 ws ch v p s, done = l1 ++ t :: l2 /\ preset t /\ how_many preset l1 i /\ words_of t (ws ++ [ch; v]) /\
      float_of v = Some x /\ chan = (ch ++ "_" ++ str_of (Z.of_nat i + 1))%string /\
      in_force direction (l1 ++ [t]) p /\ in_force flipper (l1 ++ [t]) s /\ lab = (p ++ " " ++ s)%string.

  Definition count_inv (done : list string) (st : cstate) : Prop :=
    exists n, how_many preset done n /\ cs_n st = (Z.of_nat n + 1)%Z /\ in_force direction done (cs_p st) /\ in_force flipper done (cs_sf st) /\
      List.length (cs_vals st) = n /\ List.length (cs_chan st) = n /\ List.length (cs_lab st) = n /\
      forall i x c l, nth_error (cs_vals st) i = Some x -> nth_error (cs_chan st) i = Some c -> nth_error (cs_lab st) i = Some l -> count_at done i x c l.

  Lemma count_at_more : forall done t i x c l, count_at done i x c l -> count_at (done ++ [t]) i x c l.
  Proof.
    intros done t i x c l (l1 & y & l2 & ws & ch & v & p & s & -> & H). exists l1, y, (l2 ++ [t]), ws, ch, v, p, s. split; auto. now rewrite <- app_assoc.
  Qed.
  Lemma nth_snoc : forall A (l : list A) a i x, nth_error (l ++ [a]) i = Some x -> nth_error l i = Some x \/ (i = List.length l /\ x = a).
  Proof.
    intros A l a i x H. destruct (Nat.lt_ge_cases i (List.length l)).
    - rewrite nth_error_app1 in H by auto. auto.
    - right. rewrite nth_error_app2 in H by auto. destruct (i - List.length l)%nat eqn:E; [|destruct n; discriminate]. injection H; intros; subst. split; auto; lia.
  Qed.

  Lemma count_step_inv : forall done st piece st', count_inv done st -> count_step float_of st piece = Ok st' -> count_inv (done ++ [strip_ws piece]) st'.
  Proof.
    intros done st piece st' (n & H1 & H2 & H3 & H4 & H5 & H6 & H7 & H8) H. unfold count_step in H. set (t := strip_ws piece) in *.
    pose proof (in_force_snoc _ _ _ _ _ H3 (direction_step t (cs_p st))) as F1. pose proof (in_force_snoc _ _ _ _ _ H4 (flipper_step t (cs_sf st))) as F2.
    destruct (how_many_snoc _ _ _ t H1) as [Hy Hn]. destruct (contains "count preset" t) eqn:Ec.
    - apply contains_spec in Ec. destruct (last_two (words t)) as [[ch v]|] eqn:El; cbn [bind] in H; [|discriminate].
      apply last_two_spec in El as [ws Ew]. destruct (float_of v) as [x0|] eqn:Ev; [|discriminate]. apply Ok_inj in H. subst st'. exists (S n). cbn [cs_n cs_p cs_sf cs_vals cs_chan cs_lab].
      rewrite !app_length. cbn [List.length]. repeat split; auto; try lia.
      intros i x c l Hv Hc Hl. apply nth_snoc in Hv as [Hv|[Ei ->]].
      + assert (i < n)%nat by (rewrite <- H5; apply nth_error_Some; congruence).
        apply nth_snoc in Hc as [Hc|[? _]]; [|lia]. apply nth_snoc in Hl as [Hl|[? _]]; [|lia]. apply count_at_more. auto.
      + rewrite H5 in Ei. subst i. apply nth_snoc in Hc as [Hc|[_ ->]]; [exfalso; assert (n < n)%nat by (rewrite <- H6 at 2; apply nth_error_Some; congruence); lia|].
        apply nth_snoc in Hl as [Hl|[_ ->]]; [exfalso; assert (n < n)%nat by (rewrite <- H7 at 2; apply nth_error_Some; congruence); lia|].
        exists done, t, [], ws, ch, v, (polarisation t (cs_p st)), (flipping t (cs_sf st)). rewrite H2. repeat split; auto. apply words_of_iff. auto.
    - apply contains_false in Ec. apply Ok_inj in H. subst st'. exists n. cbn [cs_n cs_p cs_sf cs_vals cs_chan cs_lab]. repeat split; auto.
      intros. apply count_at_more; auto.
  Qed.
  Lemma count_loop_inv : forall l done st st', count_inv done st -> count_loop float_of st l = Ok st' -> count_inv (done ++ map strip_ws l) st'.
  Proof.
    induction l as [|x l IH]; cbn; intros done st st' Hi H.
    - apply Ok_inj in H; subst. now rewrite app_nil_r.
    - destruct (count_step float_of st x) as [st1|] eqn:E; cbn in H; [|discriminate].
      replace (done ++ strip_ws x :: map strip_ws l) with ((done ++ [strip_ws x]) ++ map strip_ws l) by (now rewrite <- app_assoc).
      eapply IH; eauto. eapply count_step_inv; eauto.
  Qed.

  (** One value, channel and label for every count command, in order, the label telling the settings then in force. *)
  Theorem C63_counts : forall countfile ts vals chans labs, commands countfile ts -> parse_countfile float_of countfile = Ok (vals, chans, labs) ->
    exists n, how_many preset ts n /\ List.length vals = n /\ List.length chans = n /\ List.length labs = n /\
      forall i x c l, nth_error vals i = Some x -> nth_error chans i = Some c -> nth_error labs i = Some l -> count_at ts i x c l.
  Proof.
    intros countfile ts vals chans labs (cs & Hp & Hf) H. apply pieces_iff in Hp. apply Forall2_trimmed in Hf. subst.
    unfold parse_countfile in H. destruct (count_loop float_of (CState "" "" 1 [] [] []) (split_on comma countfile)) as [st|] eqn:E; cbn [bind] in H; [|discriminate].
    apply Ok_inj in H. injection H; intros; subst. 
    assert (H0 : count_inv [] (CState "" "" 1 [] [] [])).
    { exists 0%nat. cbn. split; [constructor|]. split; [reflexivity|]. split; [right; split; auto|]. split; [right; split; auto|].
      do 3 (split; [reflexivity|]). intros [|] ? ? ? H0; discriminate. }
    destruct (count_loop_inv _ [] _ _ H0 E) as (n & H1 & _ & _ & _ & H5 & H6 & H7 & H8).
    exists n. auto.
  Qed.

  Lemma no_underscore : forall z, (0 <= z)%Z -> every (fun c => c <> "_"%char) (str_of z).
  Proof.
    intros z Hz. destruct (str_of_nonneg z Hz) as (u & -> & _).
    assert (H : forall u, every (fun c => c <> "_"%char) (NilEmpty.string_of_uint u)).
    { clear. induction u; cbn; [apply every_nil | | | | | | | | | |]; apply every_cons; split; auto; discriminate. }
    destruct u; try apply (H (_ _)). unfold NilZero.string_of_uint. apply every_cons; split; [discriminate | apply every_nil].
  Qed.

  (** The channels all have different names. *)
  Theorem C63_channels_distinct : forall countfile vals chans labs, parse_countfile float_of countfile = Ok (vals, chans, labs) -> NoDup chans.
  Proof.
    intros countfile vals chans labs H.
    assert (Hc : commands countfile (map strip_ws (split_on comma countfile))).
    { exists (split_on comma countfile). split; [apply split_on_pieces | now apply Forall2_trimmed]. }
    destruct (C63_counts _ _ _ _ _ Hc H) as (n & _ & L1 & L2 & L3 & Hat).
    apply NoDup_nth_error. intros i j Hi Hij.
    assert (Hget : forall i, (i < n)%nat -> exists ch, nth_error chans i = Some (ch ++ "_" ++ str_of (Z.of_nat i + 1))%string).
    { intros k Hk. destruct (nth_error vals k) as [x|] eqn:Ex; [|apply nth_error_None in Ex; lia].
      destruct (nth_error chans k) as [c|] eqn:Ec; [|apply nth_error_None in Ec; lia].
      destruct (nth_error labs k) as [l|] eqn:El; [|apply nth_error_None in El; lia].
      destruct (Hat k x c l Ex Ec El) as (l1 & t & l2 & ws & ch & v & p & s & _ & _ & _ & _ & _ & -> & _). eauto. }
    assert (j < n)%nat. { rewrite <- L2. apply nth_error_Some. rewrite <- Hij. apply nth_error_Some. auto. }
    destruct (Hget i) as [ch Ei]; [lia|]. destruct (Hget j) as [ch' Ej]; auto. rewrite Ei, Ej in Hij. injection Hij; intro E.
    assert (str_of (Z.of_nat i + 1) = str_of (Z.of_nat j + 1)).
    { rewrite <- (last_split "_" ch (str_of (Z.of_nat i + 1)) "") by (apply no_underscore; lia).
      rewrite <- (last_split "_" ch' (str_of (Z.of_nat j + 1)) "") by (apply no_underscore; lia). f_equal. f_equal. exact E. }
    apply str_of_inj in H1; lia.
  Qed.

  (** A count file is accepted exactly if every count command ends with a channel and a number; otherwise the answer is ValueError. *)
  Definition proper_count (t : string) : Prop := exists ws ch v x, words_of t (ws ++ [ch; v]) /\ float_of v = Some x.
  Lemma last_two_err : forall l e, last_two l = Err e -> e = ValueError.
  Proof. induction l as [|a [|b [|c l]] IH]; intros e H; cbn in H; try congruence. apply IH. exact H. Qed.
  Lemma count_step_accepts : forall st piece, let t := strip_ws piece in
    ((preset t -> proper_count t) /\ (exists st', count_step float_of st piece = Ok st')) \/ ((preset t /\ ~ proper_count t) /\ count_step float_of st piece = Err ValueError).
  Proof.
    intros st piece t. unfold count_step. fold t. destruct (contains "count preset" t) eqn:C; [apply contains_spec in C|apply contains_false in C; left; split; [tauto|eexists; reflexivity]].
    destruct (last_two (words t)) as [[ch v]|e] eqn:L; cbn [bind].
    - pose proof L as L'. apply last_two_spec in L'. destruct L' as [ws W]. destruct (float_of v) as [x|] eqn:V.
      + left. split; [intros _; exists ws, ch, v, x; split; auto; apply words_of_iff; auto|eexists; reflexivity].
      + right. split; auto. split; auto. intros (ws' & ch' & v' & x & W' & V'). apply words_of_iff in W'.
        assert (L2 : last_two (words t) = Ok (ch', v')) by (apply last_two_spec; exists ws'; auto). rewrite L in L2. injection L2 as <- <-. congruence.
    - right. split; [|f_equal; eapply last_two_err; eauto]. split; auto. intros (ws' & ch' & v' & x & W' & V'). apply words_of_iff in W'.
      assert (L2 : last_two (words t) = Ok (ch', v')) by (apply last_two_spec; exists ws'; auto). congruence.
  Qed.
  Theorem C63_accepted : forall countfile ts, commands countfile ts ->
    ((exists r, parse_countfile float_of countfile = Ok r) <-> forall t, In t ts -> preset t -> proper_count t) /\
    (forall e, parse_countfile float_of countfile = Err e -> e = ValueError).
  Proof.
    intros countfile ts (cs & Hp & Hf). apply pieces_iff in Hp. apply Forall2_trimmed in Hf. subst.
    assert (G : forall l st, ((forall t, In t (map strip_ws l) -> preset t -> proper_count t) /\ exists st', count_loop float_of st l = Ok st') \/
                             (~ (forall t, In t (map strip_ws l) -> preset t -> proper_count t) /\ count_loop float_of st l = Err ValueError)).
    { induction l as [|x l IH]; intros st; cbn [map count_loop]; [left; split; [intros t []|eauto]|].
      destruct (count_step_accepts st x) as [[A [st' E]]|[[B N] E]]; rewrite E; cbn [bind].
      - destruct (IH st') as [[A' [s2 E']]|[N' E']]; [left; split; [intros t [<-|I]; auto|eauto]|right; split; auto]. intros H. apply N'. intros t I. apply H. right. auto.
      - right. split; auto. intros H. apply N. apply H; auto. left. auto. }
    unfold parse_countfile. change comma with ","%char. destruct (G (split_on "," countfile) (CState "" "" 1 [] [] [])) as [[A [st E]]|[N E]]; rewrite E; cbn [bind]; (split; [split|]).
    - auto. - eauto. - discriminate. - intros [r H]. discriminate. - intros H. contradiction. - intros e H. congruence.
  Qed.
End C63.
Print Assumptions C63_counts.
Print Assumptions C63_accepted.
Print Assumptions C63_channels_distinct.
Example C63_ex : parse_countfile (fun s => if String.eqb s "5" then Some 5%R else Some 7%R)
  "parq, drive hguide off vguide off, count preset mcu 5, flon, count preset mcu 7, perpqh, count preset mcu 7"
  = Ok ([5; 7; 7]%R, ["mcu_1"; "mcu_2"; "mcu_3"], ["Px NSF"; "Px SF"; "Py SF"]).
Proof. reflexivity. Qed.
