(** Properties C37 and C66, continued: looking into the logs of an entry. *)
From Coq Require Import Reals List ZArith String Ascii Bool Lia.
From Verif Require Import Base PyStr S_Str L_Str M_ScanData M_Spice M_Project M_Tavi P_Tavi M_Nexus P_Nexus L_NexusFile M_Builder L_Builder P_Builder P_Builder2 P_Builder3 P_Builder4 P_Builder5 M_Logs.
Import ListNotations.
Open Scope string_scope.
Open Scope list_scope.

(** * Specification *)
(** The logs of an entry: those of the instrument's own software when there are any, else SPICE's. *)
Definition logs_in (e : list (string * val)) (l : list (string * val)) : Prop :=
  follow ["DASlogs"] (Dict e) = Some (Dict l) \/ (follow ["DASlogs"] (Dict e) = None /\ follow ["SPICElogs"] (Dict e) = Some (Dict l)).

(** * Proofs *)
Lemma daslogs_in : forall e l, logs_in e l -> daslogs e = Ok (Dict l).
Proof.
  intros e l H. unfold logs_in in H. cbn [follow items] in H. unfold daslogs.
  destruct (sget "DASlogs" e), (sget "SPICElogs" e); cbn in H; destruct H as [H|[H H']]; try discriminate; congruence.
Qed.
(** A log is found by its name, and so is a piece of metadata; what is not there gives the default. *)
Theorem C37_logs : forall e l key default, logs_in e l ->
  (forall v, follow [key; "dataset"] (Dict l) = Some v -> data_from_daslogs e key default = Ok (Some v)) /\
  (follow [key] (Dict l) = None -> data_from_daslogs e key default = Ok default) /\
  (forall v, follow ["attrs"; key] (Dict l) = Some v -> metadata_from_daslogs e key default = Ok (Some v)) /\
  (follow ["attrs"] (Dict l) <> None -> follow ["attrs"; key] (Dict l) = None -> metadata_from_daslogs e key default = Ok default).
Proof.
  intros e l key default H. unfold data_from_daslogs, metadata_from_daslogs, get_metadata_from_daslogs. rewrite (daslogs_in _ _ H). cbn [bind items follow].
  repeat split.
  - intros v. destruct (sget key l) as [[x|d]|]; cbn [items]; try discriminate. destruct (sget "dataset" d); try discriminate. congruence.
  - destruct (sget key l); [discriminate|auto].
  - intros v. destruct (sget "attrs" l); try discriminate. cbn [bind]. destruct (sget key (items v0)); try discriminate. congruence.
  - destruct (sget "attrs" l); [|congruence]. cbn [bind]. intros _. destruct (sget key (items v)); [discriminate|auto].
Qed.
Print Assumptions C37_logs.
(** Without logs both raise UnboundLocalError; logs without attributes have no metadata (KeyError), whatever the default. *)
Theorem C37_no_logs_refuted : forall e key default,
  (follow ["DASlogs"] (Dict e) = None -> follow ["SPICElogs"] (Dict e) = None ->
     data_from_daslogs e key default = Err UnboundLocalError /\ metadata_from_daslogs e key default = Err UnboundLocalError) /\
  (forall l, logs_in e l -> follow ["attrs"] (Dict l) = None -> metadata_from_daslogs e key default = Err KeyError) /\
  (forall l d, logs_in e l -> follow [key] (Dict l) = Some (Dict d) -> follow ["dataset"] (Dict d) = None -> data_from_daslogs e key default = Err KeyError).
Proof.
  intros e key default. unfold data_from_daslogs, metadata_from_daslogs, get_metadata_from_daslogs. repeat split.
  - cbn [follow items] in *. unfold daslogs. destruct (sget "DASlogs" e); [discriminate|]. destruct (sget "SPICElogs" e); [discriminate|auto].
  - cbn [follow items] in *. unfold daslogs. destruct (sget "DASlogs" e); [discriminate|]. destruct (sget "SPICElogs" e); [discriminate|auto].
  - intros l H N. rewrite (daslogs_in _ _ H). cbn [bind items follow] in *. destruct (sget "attrs" l); [discriminate|auto].
  - intros l d H K N. rewrite (daslogs_in _ _ H). cbn [bind items follow] in *. destruct (sget key l) as [v|]; [|discriminate]. injection K as ->. cbn [items] in N. destruct (sget "dataset" d); [discriminate|auto].
Qed.
Print Assumptions C37_no_logs_refuted.

Section Built.
  Context (float_of : string -> option R) (int_of : string -> option Z) (repr : pv -> string) (date_of : string -> option string).
  Notation build := (spice_scan_to_nxdict float_of int_of repr date_of).
  Lemma built_logs : forall L i s e, build L i s = Ok e -> exists l, logs_in e l /\ follow ["SPICElogs"] (Dict e) = Some (Dict l).
  Proof.
    intros L i s e B. pose proof (built float_of int_of repr date_of L i s e B) as B0. unfold spice_scan_to_nxdict in B.
    destruct B0 as (instrument & source & mono & ana & det & coll & slits & flipper & goni & monitor & sample & user & spice &
      (ES & EM & EA & ED & EC & ESL & EF & EG & EMN & ESA & EU & ESP) & (GS & GM & GA & GD & GC & GSL & GF & GG) & (GI & GMN & GSA & GU & GSP & GDA)).
    rewrite EU, ES, EM, EA, ED, EC, ESL, EF, EG, EMN, ESA, ESP in B. cbn [bind] in B.
    apply bind_ok in B. destruct B as (name & EN & B). cbv zeta in B. apply bind_ok in B. destruct B as (def_ & EDF & B). apply bind_ok in B. destruct B as (title & ET & B).
    apply bind_ok in B. destruct B as (st & EST & B). apply bind_ok in B. destruct B as (et & EET & B). apply Ok_inj in B.
    exists spice. unfold logs_in. cbn [follow items]. rewrite GSP. split; auto. right. split; auto.
    rewrite <- B, nxentry_get; [reflexivity|apply nodupb_ok; vm_compute; reflexivity|discriminate].
  Qed.
  (** Every column and every header of a SPICE file is found in the logs of its entry. *)
  Theorem C66_log_lookup : forall L i s e default, build L i s = Ok e -> NoDup (map fst (lg_data L)) -> NoDup (map fst (lg_meta L)) -> ~ In "attrs" (map fst (lg_data L)) ->
    (forall c l, sget c (lg_data L) = Some l -> data_from_daslogs e c default = Ok (Some (Leaf (LArr l)))) /\
    (forall k a x, sget k (lg_meta L) = Some a -> log_value a x -> metadata_from_daslogs e k default = Ok (Some (Leaf x))).
  Proof.
    intros L i s e default B ND NM NA. destruct (built_logs _ _ _ _ B) as (l & IN & SP). split.
    - intros c col E. destruct (C37_logs e l c default IN) as (H & _). apply H.
      assert (NC : c <> "attrs"). { intros ->. apply NA. clear - E. induction (lg_data L) as [|[a b] d]; [discriminate|]. cbn [dget map fst In] in *. destruct (String.eqb_spec "attrs" a); [left; congruence|right; apply IHd; exact E]. }
      pose proof (C66_logs float_of int_of repr date_of L i s e B ND c col NC E) as G. unfold leaf_at in G. cbn [follow] in G, SP |- *.
      destruct (sget "SPICElogs" (items (Dict e))); [|discriminate]. injection SP as ->.
      destruct (sget c (items (Dict l))) as [v|]; [|discriminate]. destruct (sget "dataset" (items v)) as [[x|]|]; try discriminate. congruence.
    - intros k a x E V. destruct (C37_logs e l k default IN) as (_ & _ & H & _). apply H.
      pose proof (C66_log_headers float_of int_of repr date_of L i s e B NM NA k a x E V) as G. unfold leaf_at in G. cbn [follow] in G, SP |- *.
      destruct (sget "SPICElogs" (items (Dict e))); [|discriminate]. injection SP as ->.
      destruct (sget "attrs" (items (Dict l))) as [v|]; [|discriminate]. destruct (sget k (items v)) as [[y|]|]; try discriminate. congruence.
  Qed.
End Built.
Print Assumptions C66_log_lookup.

Example C37_logs_example : logs_in [("SPICElogs", Dict [("attrs", Dict [("title", Leaf (LStr "t"))]); ("s1", Dict [("dataset", Leaf (LArr [1; 2]%R))])])]
    [("attrs", Dict [("title", Leaf (LStr "t"))]); ("s1", Dict [("dataset", Leaf (LArr [1; 2]%R))])] /\
  data_from_daslogs [("SPICElogs", Dict [("attrs", Dict [("title", Leaf (LStr "t"))]); ("s1", Dict [("dataset", Leaf (LArr [1; 2]%R))])])] "s1" None = Ok (Some (Leaf (LArr [1; 2]%R))).
Proof. split; [right; split; reflexivity|reflexivity]. Qed.
