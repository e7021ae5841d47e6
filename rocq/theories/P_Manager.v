(** Property C88: combining scans into bins with CombineManager. *)
From Coq Require Import Reals List String Bool Permutation Lra Lia.
From Verif Require Import Base M_Manager.
Import ListNotations.
Open Scope R_scope.
Open Scope list_scope.

(** * Specification *)
Definition has (xa ya : string) (s : dict string (list R)) : Prop :=
  exists x y, dget String.eqb xa s = Some x /\ dget String.eqb ya s = Some y /\ List.length x = List.length y.
(** numpy's argsort gives every place once *)
Definition orders (argsort : list R -> list nat) : Prop := forall l, Permutation (argsort l) (seq 0 (List.length l)).

Section Proofs.
  Variable argsort : list R -> list nat.
  Variable binned : list R -> list R -> option (R * R) -> result (list R * list R * list nat).

  Lemma gather_ok : forall targets xa ya, (forall s, In s targets -> has xa ya s) ->
    exists x y, gather targets xa ya = Ok (x, y) /\ List.length x = List.length y.
  Proof.
    induction targets as [|s rest IH]; intros xa ya H; [exists [], []; auto|].
    destruct (H s (or_introl eq_refl)) as (x & y & X & Y & L). destruct (IH xa ya) as (x' & y' & G & L'); [intros; apply H; right; auto|].
    exists (x ++ x'), (y ++ y'). cbn [gather]. rewrite X. cbn [bind]. rewrite Y. cbn [bind]. rewrite G. cbn [bind fst snd]. split; auto. rewrite !app_length. lia.
  Qed.

  Lemma take_ok : forall l ind, (forall i, In i ind -> (i < List.length l)%nat) -> exists r, take l ind = Ok r.
  Proof.
    intros l. induction ind as [|i ind IH]; intros H; [exists []; auto|]. unfold take. cbn [mapM].
    destruct (nth_error l i) as [v|] eqn:N. 2:{ apply nth_error_None in N. specialize (H i (or_introl eq_refl)). lia. }
    cbn [bind]. destruct IH as (r & R0); [intros; apply H; right; auto|]. unfold take in R0. rewrite R0. cbn [bind]. eauto.
  Qed.

  (** Finding: whatever the scans, the axes, the step and the range are, combine_1d gives no result: *)
  Theorem C88_never_refuted : forall targets xa ya step rng, exists e, combine_1d argsort binned targets xa ya step rng = Err e.
  Proof.
    intros targets xa ya step rng. unfold combine_1d, combine_body. destruct (gather targets xa ya) as [xy|]; cbn [bind]; [|eauto]. cbv zeta.
    destruct (take _ _) as [ny|]; cbn [bind]; [|eauto]. destruct (take _ _) as [nx|]; cbn [bind]; [|eauto].
    destruct (match rng with Some (a, b) => _ | None => _ end); cbn [bind]; [|eauto].
    destruct (binned nx ny rng) as [[[s e] n]|]; cbn; eauto.
  Qed.

  (** TypeError when everything is in order, *)
  Theorem C88_in_order_refuted : forall targets xa ya step rng, orders argsort -> (forall x y r, exists s, binned x y r = Ok s) ->
    (forall s, In s targets -> has xa ya s) -> step <> 0 -> combine_1d argsort binned targets xa ya step rng = Err TypeError.
  Proof.
    intros targets xa ya step rng O B H S. unfold combine_1d, combine_body. destruct (gather_ok targets xa ya H) as (x & y & G & L). rewrite G. cbn [bind fst snd]. cbv zeta.
    assert (I : forall i, In i (argsort x) -> (i < List.length x)%nat). { intros i Hi. apply (Permutation_in _ (O x)) in Hi. apply in_seq in Hi. lia. }
    destruct (take_ok y (argsort x)) as (ny & ->); [intros i Hi; rewrite <- L; auto|]. cbn [bind].
    destruct (take_ok x (argsort x) I) as (nx & ->). cbn [bind].
    assert (Z : match rng with Some (a, b) => if Req_EM_T step 0 then Err ZeroDivisionError else Ok tt | None => Ok tt end = Ok tt).
    { destruct rng as [[a b]|]; auto. destruct (Req_EM_T step 0); [contradiction|auto]. }
    rewrite Z. cbn [bind]. destruct (B nx ny rng) as ([[s e] n] & ->). reflexivity.
  Qed.

  (** and AttributeError when the first scan that lacks a column is reached. *)
  Theorem C88_missing : forall before s after xa ya step rng, (forall s', In s' before -> has xa ya s') ->
    dget String.eqb xa s = None \/ dget String.eqb ya s = None ->
    combine_1d argsort binned (before ++ s :: after) xa ya step rng = Err AttributeError.
  Proof.
    intros before s after xa ya step rng H M. unfold combine_1d, combine_body.
    assert (G : gather (before ++ s :: after) xa ya = Err AttributeError).
    { induction before as [|b before IH].
      - cbn [app gather]. destruct M as [M|M]; rewrite M; cbn [bind]; auto. destruct (dget String.eqb xa s); reflexivity.
      - destruct (H b (or_introl eq_refl)) as (x & y & X & Y & _). cbn [app gather]. rewrite X. cbn [bind]. rewrite Y. cbn [bind].
        rewrite IH; [reflexivity|]. intros; apply H; right; auto. }
    rewrite G. reflexivity.
  Qed.
End Proofs.
Print Assumptions C88_never_refuted.
Print Assumptions C88_in_order_refuted.
Print Assumptions C88_missing.

Open Scope string_scope.
Example C88_ex : orders (fun l => seq 0 (List.length l)) /\ has "qh" "detector" [("qh", [1; 2]); ("detector", [10; 20])] /\
  dget String.eqb "qh" [("q", [1]); ("detector", [10])] = None.
Proof. split; [intros l; auto|]. split; [|reflexivity]. do 2 eexists. split; [reflexivity|]. split; reflexivity. Qed.
