(** Property C35 over histories of loads. *)
From Coq Require Import List String Bool.
From Verif Require Import Base M_Project M_Tavi P_Tavi.
Import ListNotations.
Open Scope string_scope.
Open Scope list_scope.

(** A load that raises leaves the project as it was. *)
Definition loads {E} (dataset_name : E -> result string) (d : @data E) (ls : list (@scans E)) : @data E :=
  fold_left (fun d l => match load_scans dataset_name d l with Ok d' => d' | Err _ => d end) ls d.
Definition names {E} (dataset_name : E -> result string) (exp : string) (l : @scans E) : Prop := exists n x, In (n, x) l /\ dataset_name x = Ok exp.
(** A load goes through if every scan says which experiment it belongs to. *)
Definition goes_through {E} (dataset_name : E -> result string) (l : @scans E) : Prop := forall n x, In (n, x) l -> exists e, dataset_name x = Ok e.

Lemma loaded : forall {E} (dn : E -> result string) d l, NoDup (dkeys l) -> goes_through dn l -> exists d', load_scans dn d l = Ok d'.
Proof. intros E dn d l N G. destruct (C34_grouped dn l N G) as (new & L & _). unfold load_scans. rewrite L. cbn [bind]. eauto. Qed.

Lemma loads_app : forall {E} (dn : E -> result string) d a l b,
  loads dn d (a ++ l :: b) = loads dn (match load_scans dn (loads dn d a) l with Ok d' => d' | Err _ => loads dn d a end) b.
Proof. intros. unfold loads. rewrite fold_left_app. reflexivity. Qed.

(** After any history of loads a project holds of each experiment the scans of the last load that names it, and of no earlier one. *)
Theorem C35_history_as_coded : forall {E} (dataset_name : E -> result string) earlier l later d exp n,
  NoDup (dkeys l) -> goes_through dataset_name l -> names dataset_name exp l ->
  (forall l', In l' later -> NoDup (dkeys l') /\ (names dataset_name exp l' -> ~ goes_through dataset_name l')) ->
  forall y, stored (loads dataset_name d (earlier ++ l :: later)) exp n = Some y <-> In (n, y) l /\ dataset_name y = Ok exp.
Proof.
  intros E dn earlier l later d exp n N G (m & x & I & D) LT y. rewrite loads_app.
  destruct (loaded dn (loads dn d earlier) l N G) as [d1 L]. rewrite L. pose proof (C35_replaced_as_coded dn _ l d1 exp m x n N I D L y) as R. rewrite <- R.
  clear R L I D G N. revert d1 LT. induction later as [|l' later IH]; intros d1 LT; [cbn; tauto|]. change (loads dn d1 (l' :: later)) with (loads dn (match load_scans dn d1 l' with Ok d' => d' | Err _ => d1 end) later).
  destruct (load_scans dn d1 l') as [d2|e] eqn:L2; [|apply IH; intros; apply LT; right; auto]. rewrite IH by (intros; apply LT; right; auto).
  destruct (LT l' (or_introl eq_refl)) as [N' K]. assert (S : sget exp d2 = sget exp d1).
  { apply (C35_other_experiments_kept dn d1 l' d2 exp N' L2). intros k z J Q. apply K; [exists k, z; auto|]. intros k' z' J'. destruct (dn z') as [e|e] eqn:Z; eauto.
    destruct (C34_nameless_raises dn d1 l' e k' z' J' Z) as (e' & X). congruence. }
  unfold stored. rewrite S. tauto.
Qed.
Print Assumptions C35_history_as_coded.

(** A load keeps everything there was exactly if it brings again all the scans there were of the experiments it names. *)
Theorem C35_exactly_partial : forall {E} (dataset_name : E -> result string) d l d', NoDup (dkeys l) -> load_scans dataset_name d l = Ok d' ->
  ((forall exp n x, stored d exp n = Some x -> stored d' exp n = Some x) <->
   (forall exp n x, stored d exp n = Some x -> names dataset_name exp l -> In (n, x) l /\ dataset_name x = Ok exp)).
Proof.
  intros E dn d l d' N L. split.
  - intros K exp n x S (m & z & I & D). apply (C35_replaced_as_coded dn d l d' exp m z n N I D L). auto.
  - intros K exp n x S.
    assert (X : names dn exp l \/ forall m z, In (m, z) l -> dn z <> Ok exp).
    { assert (G : forall ll : @scans E, names dn exp ll \/ forall m z, In (m, z) ll -> dn z <> Ok exp).
      { induction ll as [|[m z] ll [(m' & z' & I & D)|IH]]; [right; intros m z []|left; exists m', z'; split; [right|]; auto|].
        destruct (dn z) as [e|e] eqn:Z; [destruct (String.eqb_spec e exp) as [->|NE]; [left; exists m, z; split; [left|]; auto|]|]; right; intros m' z' [[= <- <-]|J]; try (apply IH in J; exact J); congruence. }
      apply G. }
    destruct X as [(m & z & I & D)|X].
    + apply (C35_replaced_as_coded dn d l d' exp m z n N I D L). apply K; auto. exists m, z. auto.
    + unfold stored in *. rewrite (C35_other_experiments_kept dn d l d' exp N L X). auto.
Qed.
Print Assumptions C35_exactly_partial.

(** Three loads: two of the first experiment and one of another between them. *)
Example C35_ex_history : let dn (e : string) : result string := Ok e in let l1 := [("scan0001", "e1"); ("scan0002", "e1")] in let l2 := [("scan0001", "e2")] in let l3 := [("scan0002", "e1")] in
  NoDup (dkeys l2) /\ goes_through dn l2 /\ names dn "e2" l2 /\ ~ names dn "e2" l3 /\
  stored (loads dn [] [l1; l2; l3]) "e2" "scan0001" = Some "e2" /\ stored (loads dn [] [l1; l2; l3]) "e1" "scan0001" = None.
Proof.
  intros dn l1 l2 l3. split; [repeat constructor; auto|]. split; [intros n x _; exists x; reflexivity|]. split; [exists "scan0001", "e2"; split; [left|]; reflexivity|].
  split; [intros (n & x & [[= <- <-]|[]] & D); discriminate|]. split; reflexivity.
Qed.
