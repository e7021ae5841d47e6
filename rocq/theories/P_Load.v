(** Properties C53 and C65: loading a folder of data files. *)
From Coq Require Import Reals List ZArith String Ascii Bool Lia Lra.
From Verif Require Import Base PyStr M_ScanData M_Project M_Spice M_Load S_Str L_Str P_Spice.
Import ListNotations.
Open Scope string_scope.
Open Scope list_scope.

(** * C53: choice of the facility *)
(** Whatever the scores, the facility chosen is one of the supported ones, none has a greater score, and of several best ones
    it is the first. *)
Lemma max_by_spec : forall f l best, exists l1 l2, best :: l = l1 ++ max_by f best l :: l2 /\
  (forall x, In x l1 -> (f x < f (max_by f best l))%Z) /\ (forall x, In x l2 -> (f x <= f (max_by f best l))%Z).
Proof.
  induction l as [|x l IH]; intros best; cbn [max_by].
  - exists [], []. split; [reflexivity|]. split; intros ? [].
  - destruct (Z.ltb_spec (f best) (f x)).
    + destruct (IH x) as (l1 & l2 & E & A & B). exists (best :: l1), l2. split; [cbn; congruence|]. split; auto.
      intros y [<-|I]; auto. destruct l1 as [|z l1]; injection E; intros; subst; [congruence|].
      eapply Z.lt_trans; [|apply A; left; reflexivity]. auto.
    + destruct (IH best) as (l1 & l2 & E & A & B). destruct l1 as [|z l1].
      * injection E; intros E2 E1. exists [], (x :: l2). split; [cbn; congruence|]. split; [intros ? []|].
        intros y [<-|I]; auto. rewrite <- E1. auto.
      * injection E; intros E2 E1. subst z. exists (best :: x :: l1), l2. split; [cbn; congruence|]. split; auto.
        assert (f best < f (max_by f best l))%Z by (apply A; left; auto). intros y [<-|[<-|I]]; auto; [lia|]. apply A. right; auto.
Qed.
Theorem C53_best_first : forall score, exists before after,
  ["ORNL"; "ANSTO"; "ILL"; "PSI"; "NIST"; "HZB"; "FRMII"] = before ++ rank_facility score :: after /\
  (forall x, In x before -> (score x < score (rank_facility score))%Z) /\ (forall x, In x after -> (score x <= score (rank_facility score))%Z).
Proof. intro f. exact (max_by_spec f (tl supported) (hd "" supported)). Qed.
Print Assumptions C53_best_first.

Section C53.
  Variable float_of : string -> option R.
  Variable int_of : string -> option Z.
  Variable genfromtxt : list string -> result (list (list num)).
  Variable xml_last : list string -> option (option string).
  Notation load := (load float_of int_of genfromtxt xml_last).
  Notation load_file := (load_file float_of int_of genfromtxt xml_last).
  Notation load_ub := (load_ub float_of int_of xml_last).

  (** [folder] has a UBConf folder beside it, and the directories are the same once it has been looked for *)
  Definition beside fs folder := exists l, listing fs (Some (folder ++ [".."])) = Some l /\ in_list "UBConf" l = true.
  Definition same_dir fs (folder : path) (d d' : option path) : Prop :=
    d = d' \/ beside fs folder /\ (d = None /\ d' = Some (folder ++ [".."; "UBConf"]) \/ d' = None /\ d = Some (folder ++ [".."; "UBConf"])).
  Lemma load_ub_found : forall fs folder name u l, listing fs (Some (folder ++ [".."])) = Some l -> in_list "UBConf" l = true -> name <> "" ->
    load_ub fs folder name (None, u) = load_ub fs folder name (Some (folder ++ [".."; "UBConf"]), u).
  Proof.
    intros fs folder name u l L B N. apply String.eqb_neq in N. unfold M_Load.load_ub. rewrite N, L. cbn [bind]. rewrite B. reflexivity.
  Qed.
  Lemma load_ub_same : forall fs folder name u d d', same_dir fs folder d d' ->
    match load_ub fs folder name (d, u), load_ub fs folder name (d', u) with
    | Ok (e, v), Ok (e', v') => same_dir fs folder e e' /\ v = v'
    | Err x, Err x' => x = x'
    | _, _ => False
    end.
  Proof.
    intros fs folder name u d d' H.
    assert (G : forall a, match a with Ok (e, v) => match a with Ok (e', v') => same_dir fs folder e e' /\ v = v' | Err _ => False end
                     | Err x => match a : result (option path * klass uval) with Ok _ => False | Err x' => x = x' end end).
    { intros [[]|]; auto. split; auto. now left. }
    destruct (String.string_dec name "") as [->|N]; [cbn; auto|].
    destruct H as [->|((l & L & B) & [(E1 & E2)|(E1 & E2)])]; [|subst d d'..].
    - apply G. - rewrite (load_ub_found _ _ _ _ _ L B N). apply G. - rewrite (load_ub_found _ _ _ _ _ L B N). apply G.
  Qed.
  Lemma load_meta_same : forall fs folder l d d' u m, same_dir fs folder d d' ->
    match load_meta float_of int_of xml_last fs folder l (d, u) m, load_meta float_of int_of xml_last fs folder l (d', u) m with
    | Ok (e, v, w), Ok (e', v', w') => same_dir fs folder e e' /\ v = v' /\ w = w'
    | Err x, Err x' => x = x'
    | _, _ => False
    end.
  Proof.
    induction l as [|[key value] l IH]; intros d d' u m H; cbn [M_Load.load_meta]; auto.
    destruct key as [|c r]; auto. destruct (add_attr _ value m) as [m'|]; cbn [bind]; auto.
    destruct (String.eqb _ "ubconf"); cbn [bind]; [|apply IH; auto].
    pose proof (load_ub_same fs folder value u d d' H) as G.
    destruct (load_ub fs folder value (d, u)) as [[e v]|], (load_ub fs folder value (d', u)) as [[e' v']|]; cbn [bind]; try contradiction; auto.
    destruct G as (G & ->). apply IH; auto.
  Qed.
  Lemma load_file_same : forall fs folder f d d', same_dir fs folder d d' ->
    match load_file fs folder d f, load_file fs folder d' f with
    | Ok (e, s), Ok (e', s') => same_dir fs folder e e' /\ s = s'
    | Err x, Err x' => x = x'
    | _, _ => False
    end.
  Proof.
    intros fs folder f d d' H. unfold M_Load.load_file. destruct (read_file fs _) as [c|]; cbn [bind]; auto.
    destruct (read_raw genfromtxt c) as [rf|]; cbn [bind]; auto. destruct (load_columns _ _ _ _) as [cs|]; cbn [bind]; auto.
    pose proof (load_meta_same fs folder (rf_meta rf) d d' [] [] H) as G.
    match goal with |- match bind ?a _ with _ => _ end => change (load_meta float_of int_of xml_last fs folder (rf_meta rf) (d, []) []) with a in G; destruct a as [[[e v] w]|] end;
    match goal with |- context [bind ?a _] => change (load_meta float_of int_of xml_last fs folder (rf_meta rf) (d', []) []) with a in G; destruct a as [[[e' v'] w']|] end;
    cbn [bind]; try contradiction; auto.
    destruct G as (G & -> & ->). auto.
  Qed.
  (** what a file leaves behind is the same directory as before *)
  Lemma load_ub_dir : forall fs folder name d u e v, load_ub fs folder name (d, u) = Ok (e, v) -> same_dir fs folder d e.
  Proof.
    intros fs folder name d u e v H. unfold M_Load.load_ub in H. destruct (String.eqb name ""); [injection H as <- _; now left|].
    assert (G : forall dir, (match listing fs dir with
      | None => Err FileNotFoundError
      | Some l =>
          if in_list name l then
            match dir with
            | None => Err TypeError
            | Some d => do c <- read_file fs (d ++ [name]); do ub <- read_ub float_of int_of xml_last c; do u' <- add_all ub u; Ok (dir, u')
            end
          else
            match dir with
            | None => Err TypeError
            | Some d =>
                match listing fs (Some (d ++ ["tmp"])) with
                | None => Err FileNotFoundError
                | Some l' =>
                    if in_list name l' then
                      do c <- read_file fs (d ++ [name]); do ub <- read_ub float_of int_of xml_last c; do u' <- add_all ub u; Ok (dir, u')
                    else Ok (dir, u)
                end
            end
      end) = Ok (e, v) -> e = dir).
    { intros dir K. repeat match goal with K : match ?x with _ => _ end = Ok _ |- _ => destruct x; try discriminate
        | K : (do _ <- ?x; _) = Ok _ |- _ => destruct x; cbn [bind] in K; try discriminate end; congruence. }
    destruct d as [d|]; cbn [bind] in H; [apply (G (Some d)) in H; subst; now left|].
    destruct (listing fs (Some (folder ++ [".."]))) as [l|] eqn:L; cbn [bind] in H; [|discriminate]. apply (G (if in_list "UBConf" l then Some (folder ++ [".."; "UBConf"]) else None)) in H. subst e.
    destruct (in_list "UBConf" l) eqn:B; [right|now left]. split; [exists l; auto|left; auto].
  Qed.
  Lemma same_trans : forall fs folder a b c, same_dir fs folder a b -> same_dir fs folder b c -> same_dir fs folder a c.
  Proof.
    intros fs folder a b c [->|(B & [(-> & ->)|(-> & ->)])] [<-|(B' & [(E & ->)|(-> & E)])]; try discriminate; try (now left); try (right; split; auto; fail); auto.
  Qed.
  Lemma load_meta_dir : forall fs folder l d u m e v w, load_meta float_of int_of xml_last fs folder l (d, u) m = Ok (e, v, w) -> same_dir fs folder d e.
  Proof.
    induction l as [|[key value] l IH]; intros d u m e v w H; cbn [M_Load.load_meta] in H; [injection H as <- _ _; now left|].
    destruct key as [|c r]; [discriminate|]. destruct (add_attr _ value m) as [m'|]; cbn [bind] in H; [|discriminate].
    destruct (String.eqb _ "ubconf"); cbn [bind] in H; eauto.
    destruct (load_ub fs folder value (d, u)) as [[e' v']|] eqn:G; cbn [bind] in H; [|discriminate].
    apply load_ub_dir in G. eapply same_trans; eauto.
  Qed.
  Lemma load_file_dir : forall fs folder f d e s, load_file fs folder d f = Ok (e, s) -> same_dir fs folder d e.
  Proof.
    intros fs folder f d e s H. unfold M_Load.load_file in H. destruct (read_file fs _) as [c|]; cbn [bind] in H; [|discriminate].
    destruct (read_raw genfromtxt c) as [rf|]; cbn [bind] in H; [|discriminate]. destruct (load_columns _ _ _ _) as [cs|]; cbn [bind] in H; [|discriminate].
    destruct (load_meta float_of int_of xml_last fs folder (rf_meta rf) (d, []) []) as [[[e' v'] w']|] eqn:G; cbn [bind fst snd] in H; [|discriminate].
    injection H as <- _. eapply load_meta_dir; eauto.
  Qed.

  Lemma one_file : forall fs folder ub f, load fs folder [f] ub None = (do (_, s) <- load_file fs folder ub f; Ok (Some [(f, s)])).
  Proof.
    intros. unfold M_Load.load, load_ornl. change (String.eqb (rank_facility score) "ORNL") with true. cbn [bind load_list].
    destruct (load_file fs folder ub f) as [[]|]; reflexivity.
  Qed.
  Lemma dset_new : forall A k (v : A) d, ~ In k (dkeys d) -> dset String.eqb k v d = d ++ [(k, v)].
  Proof.
    induction d as [|[k' v'] d IH]; intros N; cbn; auto. destruct (String.eqb_spec k k') as [->|]; [destruct N; left; auto|].
    f_equal. apply IH. intro. apply N. right; auto.
  Qed.
  Lemma load_list_each : forall fs folder ub0 l ub acc d, same_dir fs folder ub0 ub -> NoDup (dkeys acc ++ l) ->
    load_list float_of int_of genfromtxt xml_last fs folder ub l acc = Ok d <->
    exists ds, d = acc ++ ds /\ Forall2 (fun f e => fst e = f /\ exists ub', load_file fs folder ub0 f = Ok (ub', snd e)) l ds.
  Proof.
    induction l as [|f l IH]; intros ub acc d S N; cbn [M_Load.load_list].
    - split; [intros H; apply Ok_inj in H; exists []; subst; rewrite app_nil_r; auto|]. intros (ds & -> & F). inversion F. now rewrite app_nil_r.
    - pose proof (load_file_same fs folder f ub0 ub S) as G. destruct (load_file fs folder ub0 f) as [[e s]|] eqn:E0, (load_file fs folder ub f) as [[e' s']|] eqn:E1; try contradiction; cbn [bind].
      + destruct G as (G & <-). pose proof (load_file_dir _ _ _ _ _ _ E1) as D1. rewrite IH.
        * rewrite dset_new. 2: { apply NoDup_remove_2 in N. rewrite in_app_iff in N. tauto. }
          split.
          { intros (ds & -> & F). exists ((f, s) :: ds). split; [rewrite <- app_assoc; reflexivity|]. constructor; auto. split; auto. eauto. }
          { intros (ds & -> & F). inversion F as [|? y ? ds' (A & ub' & B) F']; subst. exists ds'. split; auto.
            destruct y as [k v]. cbn in *. rewrite <- app_assoc. cbn. congruence. }
        * eapply same_trans; eauto.
        * rewrite dset_new. 2: { apply NoDup_remove_2 in N. rewrite in_app_iff in N. tauto. }
          unfold dkeys in *. rewrite map_app. cbn. rewrite <- app_assoc. exact N.
      + split; [discriminate|]. intros (ds & _ & F). inversion F as [|? y ? ds' (A & ub' & B) F']; subst. congruence.
  Qed.

  (** Loading files gives one scan for each, under its name and in order, the same as loading that file alone; it succeeds
      exactly when each file can be loaded alone. *)
  Theorem C53_each_file : forall fs folder files ub d, files <> [] -> NoDup files ->
    load fs folder files ub None = Ok (Some d) <-> Forall2 (fun f e => fst e = f /\ load fs folder [f] ub None = Ok (Some [e])) files d.
  Proof.
    intros fs folder files ub d Hne N. unfold M_Load.load at 1, load_ornl. change (String.eqb (rank_facility score) "ORNL") with true. cbn iota.
    assert (E : (do l <- (match files with [] => match listing fs (Some folder) with Some l => Ok l | None => Err FileNotFoundError end | _ => Ok files end);
      load_list float_of int_of genfromtxt xml_last fs folder ub l []) = load_list float_of int_of genfromtxt xml_last fs folder ub files []).
    { destruct files; [congruence|reflexivity]. }
    rewrite E. pose proof (load_list_each fs folder ub files ub [] d (or_introl eq_refl) N) as L.
    assert (F : forall l ds, Forall2 (fun f e => fst e = f /\ load fs folder [f] ub None = Ok (Some [e])) l ds <->
       Forall2 (fun f e => fst e = f /\ exists ub', load_file fs folder ub f = Ok (ub', snd e)) l ds).
    { intros l ds. split; induction 1 as [|f [k v] l' ds' (A & B)]; constructor; auto; cbn [fst snd] in *; subst k; split; auto.
      - rewrite one_file in B. destruct (load_file fs folder ub f) as [[ub' s]|]; cbn [bind] in B; [|discriminate]. apply Ok_inj in B. injection B as ->. eauto.
      - destruct B as (ub' & B). now rewrite one_file, B. }
    rewrite F. destruct (load_list float_of int_of genfromtxt xml_last fs folder ub files []) as [d'|] eqn:Q; cbn [bind].
    - split.
      + intros H. apply Ok_inj in H. injection H as ->. destruct (proj1 L eq_refl) as (ds & -> & H). exact H.
      + intros H. f_equal. f_equal. assert (Ok d' = Ok d) by (apply L; exists d; auto). congruence.
    - split; [discriminate|]. intros H. assert (Err e = Ok d) by (apply L; exists d; auto). discriminate.
  Qed.
  (** Without a list of files, all files of the folder are loaded. *)
  Theorem C53_whole_folder : forall fs folder ub files, listing fs (Some folder) = Some files -> files <> [] ->
    load fs folder [] ub None = load fs folder files ub None.
  Proof.
    intros fs folder ub files H N. unfold M_Load.load, load_ornl. rewrite H. destruct files; [congruence|reflexivity].
  Qed.
  (** Naming ORNL, or giving an empty name, is the same as naming no facility. *)
  Theorem C53_named : forall fs folder files ub,
    load fs folder files ub (Some "ORNL") = load fs folder files ub None /\ load fs folder files ub (Some "") = load fs folder files ub None.
  Proof. intros. split; reflexivity. Qed.
  (** Finding: for every other facility, supported or not, load returns None without an error. *)
  Theorem C53_other_facility_refuted : forall fs folder files ub f, f <> "ORNL" -> f <> "" -> load fs folder files ub (Some f) = Ok None.
  Proof.
    intros fs folder files ub f H N. apply String.eqb_neq in H, N. unfold M_Load.load. now rewrite N, H.
  Qed.
End C53.
Print Assumptions C53_each_file.
Print Assumptions C53_whole_folder.
Print Assumptions C53_named.
Print Assumptions C53_other_facility_refuted.
