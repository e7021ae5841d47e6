(** Property C58, continued: the window is updated through a queue. Whatever the order in which the window's thread handles the
    user's actions and the updates waiting for it, no update is lost, doubled or reordered: once the queue is empty the window is
    the one of M_Project's [run], about which P_Project's theorems speak. *)
From Coq Require Import List String Ascii Bool Arith ZArith Lia Permutation.
From Verif Require Import Base PyStr PySort L_Sort M_Project P_Project M_Gui.
Import ListNotations.
Open Scope string_scope.
Open Scope list_scope.

(** The user's actions in a schedule, in order; the number of deliveries. *)
Definition actions (s : list turn) : list user := flat_map (fun t => match t with User u => [u] | Deliver => [] end) s.
Definition deliveries (s : list turn) : nat := List.length (filter (fun t => match t with Deliver => true | _ => false end) s).
Definition views_of (a : app) : views := Views (tree a) (meta_view a) (next_view a).

(** the window once the queue is delivered *)
Definition flushed (g : gui) : views := fold_left show (g_queue g) (g_views g).
Lemma flush_deliver : forall g, flushed (deliver g) = flushed g.
Proof. intros g. unfold flushed, deliver. destruct (g_queue g) eqn:E; cbn; [rewrite E|]; reflexivity. Qed.

Definition agrees (g : gui) (a : app) : Prop := g_proj g = proj a /\ g_rnd g = rnd_next a /\ flushed g = views_of a.
Lemma agrees_user : forall g a u, agrees g a -> agrees (gui_step g (User u)) (step a u).
Proof.
  intros g a u (P & R & V). unfold agrees. destruct u as [es o|f]; cbn [gui_step step].
  - unfold gui_load, app_load. rewrite <- P. destruct (load (g_proj g) es o) as [p pub].
    unfold flushed in *. cbn [g_proj g_rnd g_queue g_views]. rewrite fold_left_app, V. cbn [fold_left show]. destruct (node_title pub); cbn; auto.
  - unfold gui_click, click. rewrite <- P, <- R. destruct (next_file (g_rnd g) f) as [n|]; cbn [fst g_proj g_rnd g_queue g_views proj rnd_next file_list]; [|auto].
    destruct (index_of f _) as [i|]; cbn [fst g_proj g_rnd g_queue g_views proj rnd_next]; [|auto].
    unfold flushed in *. cbn [g_queue g_views]. rewrite !fold_left_app, V. cbn. auto.
Qed.
Lemma agrees_run : forall s, agrees (gui_run s) (run (actions s)).
Proof.
  intros s. induction s as [|t s IH] using rev_ind. { repeat split. }
  unfold gui_run, actions in *. rewrite fold_left_app, flat_map_app. cbn [fold_left flat_map]. rewrite app_nil_r. destruct t as [u|].
  - unfold run in *. rewrite fold_left_app. apply agrees_user. auto.
  - rewrite app_nil_r. destruct IH as (P & R & V). unfold agrees. cbn [gui_step]. rewrite flush_deliver.
    unfold deliver. destruct (g_queue _); cbn [g_proj g_rnd]; auto.
Qed.

(** In every schedule the models are those of the user's actions alone, and once the queue is empty so is the window. *)
Theorem C58_queue : forall s, g_proj (gui_run s) = proj (run (actions s)) /\
  (g_queue (gui_run s) = [] -> g_views (gui_run s) = views_of (run (actions s))).
Proof.
  intros s. destruct (agrees_run s) as (P & _ & V). split; auto. intros Q. unfold flushed in V. rewrite Q in V. auto.
Qed.
Print Assumptions C58_queue.

Lemma deliver_many : forall n g, fold_left gui_step (repeat Deliver n) g =
  Gui (g_proj g) (g_rnd g) (skipn n (g_queue g)) (fold_left show (firstn n (g_queue g)) (g_views g)).
Proof.
  induction n; intros g. { destruct g; reflexivity. }
  cbn [repeat fold_left gui_step]. rewrite IHn. unfold deliver. destruct g as [p r [|u q] v]; cbn; [rewrite firstn_nil, skipn_nil|]; reflexivity.
Qed.
(** The queue empties: as many deliveries as there are updates waiting, and the window is up to date. *)
Theorem C58_settles : forall s n, List.length (g_queue (gui_run s)) <= n ->
  g_views (gui_run (s ++ repeat Deliver n)) = views_of (run (actions s)).
Proof.
  intros s n L. unfold gui_run. rewrite fold_left_app, deliver_many. cbn [g_views]. rewrite firstn_all2 by exact L. exact (proj2 (proj2 (agrees_run s))).
Qed.
Print Assumptions C58_settles.

(** Each action waits for at most two deliveries, so the queue is never longer than twice the user's actions. *)
Theorem C58_queue_bound : forall s, List.length (g_queue (gui_run s)) <= 2 * List.length (actions s).
Proof.
  intros s. induction s as [|t s IH] using rev_ind; [cbn; lia|]. unfold gui_run, actions in *. rewrite fold_left_app, flat_map_app. cbn [fold_left flat_map]. rewrite app_length.
  set (g := fold_left gui_step s new_gui) in *. destruct t as [[es o|f]|]; cbn [gui_step List.app List.length].
  - unfold gui_load. destruct (load (g_proj g) es o). cbn [g_queue]. rewrite app_length. cbn. lia.
  - unfold gui_click. destruct (next_file _ f); cbn [fst g_queue]; [|lia]. destruct (index_of _ _); cbn [fst g_queue]; [|lia]. rewrite !app_length. cbn. lia.
  - unfold deliver. destruct (g_queue g) eqn:E; cbn [g_queue]; [rewrite E|]; cbn [List.length] in *; lia.
Qed.
Print Assumptions C58_queue_bound.

(** Every file the tree lists, or will list once the queue is delivered, is a loaded file: in no schedule can the user click a file
    that the project does not know. *)
Definition known (g : gui) : Prop :=
  (forall f, listed (g_views g) f -> In f (file_list (g_proj g))) /\ (forall l f, In (UTree l) (g_queue g) -> In f l -> In f (file_list (g_proj g))).
Lemma known_run : forall s, known (gui_run s).
Proof.
  intros s. induction s as [|t s IH] using rev_ind. { split; [intros f (nd & [] & _)|intros l f []]. }
  unfold gui_run. rewrite fold_left_app. fold (gui_run s). cbn [fold_left]. destruct IH as (A & B). set (g := gui_run s) in *. destruct t as [[es o|f]|]; cbn [gui_step].
  - unfold gui_load. destruct (load_spec (g_proj g) es o) as (L1 & _ & L3 & _). destruct (load (g_proj g) es o) as [p pub]. cbn [fst snd] in *. subst pub. unfold known. cbn [g_views g_proj g_queue]. rewrite L1. split.
    + intros x X. apply in_app_iff. auto.
    + intros l x I X. apply in_app_iff in I. apply in_app_iff. destruct I as [I|[[= <-]|[]]]; [left; eauto|right]. eapply Permutation_in; [symmetry; apply sort_perm|exact X].
  - unfold gui_click. destruct (next_file _ f); [|split; cbn; auto]. destruct (index_of _ _); [|split; cbn; auto]. split; cbn [fst g_views g_proj g_queue file_list]; auto.
    intros l x I. rewrite !in_app_iff in I. destruct I as [[I|[K|[]]]|[K|[]]]; try discriminate. eauto.
  - unfold deliver. destruct (g_queue g) as [|u q] eqn:E. { split; auto. rewrite E. auto. }
    split; cbn [g_views g_proj g_queue]; [|intros l x I; apply B; right; auto].
    intros x (nd & N & X). destruct u as [l|f i|n]; cbn [show] in N; try (apply A; exists nd; auto; fail).
    destruct (node_title l) as [t|]; [|apply A; exists nd; auto]. cbn [v_tree] in N. apply in_app_iff in N. destruct N as [N|[<-|[]]]; [apply A; exists nd; auto|].
    eapply B; [left; reflexivity|exact X].
Qed.
Theorem C58_listed : forall s f, listed (g_views (gui_run s)) f -> In f (file_list (g_proj (gui_run s))).
Proof. intros s. exact (proj1 (known_run s)). Qed.
Print Assumptions C58_listed.

(** So clicking a listed file with a readable scan number never raises, and as soon as the updates that were waiting and two more are
    delivered, whatever folders are loaded meanwhile, the window shows that file with its position and the name of its successor. *)
Theorem C58_shown : forall s f n later,
  listed (g_views (gui_run s)) f -> next_file (g_rnd (gui_run s)) f = Ok n -> (forall g, ~ In (Click g) (actions later)) ->
  List.length (g_queue (gui_run s)) + 2 <= deliveries later ->
  snd (gui_click (gui_run s) f) = Ok tt /\
  exists i, v_meta (g_views (gui_run (s ++ User (Click f) :: later))) = Some (f, i) /\ nth_error (file_list (g_proj (gui_run s))) i = Some f /\
    v_next (g_views (gui_run (s ++ User (Click f) :: later))) = Some n.
Proof.
  intros s f n later L N NC D. pose proof (C58_listed s f L) as I. destruct (index_of_ok f _ I) as (i & X).
  unfold gui_run in *. rewrite fold_left_app. cbn [fold_left gui_step]. set (g := fold_left gui_step s new_gui) in *.
  unfold gui_click. rewrite N. cbn [file_list]. rewrite X. cbn [fst snd]. split; auto. exists i.
  assert (G : forall later h k, (forall c, ~ In (Click c) (actions later)) ->
     (exists q r, g_queue h = q ++ [UNext n; UMeta f i] ++ r /\ (forall u, In u r -> exists l, u = UTree l) /\ List.length q + 2 <= k + deliveries later /\ k = 0) \/
     (exists r, g_queue h = UMeta f i :: r /\ (forall u, In u r -> exists l, u = UTree l) /\ 1 <= deliveries later /\ v_next (g_views h) = Some n) \/
     ((forall u, In u (g_queue h) -> exists l, u = UTree l) /\ v_next (g_views h) = Some n /\ v_meta (g_views h) = Some (f, i)) ->
     let h' := fold_left gui_step later h in v_meta (g_views h') = Some (f, i) /\ v_next (g_views h') = Some n).
  { clear. induction later as [|t later IH]; intros h k NC H h'.
    - subst h'. cbn [fold_left]. destruct H as [(q & r & _ & _ & H & ->)|[(r & _ & _ & H & _)|(_ & A & B)]]; [cbn in H; lia|cbn in H; lia|auto].
    - subst h'. cbn [fold_left]. assert (NC' : forall c, ~ In (Click c) (actions later)) by (intros c K; apply (NC c); unfold actions; cbn [flat_map]; apply in_app_iff; auto).
      destruct t as [[es o|c]|].
      + apply (IH _ k NC'). change (deliveries (User (Load es o) :: later)) with (deliveries later) in H. cbn [gui_step]. unfold gui_load. destruct (load (g_proj h) es o) as [p pub]. cbn [g_queue g_views].
        destruct H as [(q & r & -> & R & H & K)|[(r & -> & R & H & K)|(R & A & B)]].
        * left. exists q, (r ++ [UTree pub]). rewrite <- !app_assoc. split; auto. split; auto. intros u U. apply in_app_iff in U. destruct U as [U|[<-|[]]]; eauto.
        * right. left. exists (r ++ [UTree pub]). split; auto. split; auto. intros u U. apply in_app_iff in U. destruct U as [U|[<-|[]]]; eauto.
        * right. right. split; auto. intros u U. apply in_app_iff in U. destruct U as [U|[<-|[]]]; eauto.
      + exfalso. apply (NC c). left. reflexivity.
      + change (deliveries (Deliver :: later)) with (S (deliveries later)) in H. apply (IH _ k NC'). cbn [gui_step]. unfold deliver.
        destruct H as [(q & r & E & R & H & K)|[(r & E & R & H & K)|(R & A & B)]].
        * rewrite E. destruct q as [|u q]; cbn [List.app g_queue g_views].
          -- right. left. exists r. cbn [List.length] in H. split; auto. split; auto. split; [lia|]. reflexivity.
          -- left. exists q, r. split; auto. split; auto. cbn [List.length] in H. split; [lia|auto].
        * rewrite E. right. right. cbn [g_queue g_views show v_next v_meta]. auto.
        * right. right. destruct (g_queue h) as [|u q] eqn:E; cbn [g_queue g_views]. { rewrite E. auto. }
          split; [intros; apply R; right; auto|]. destruct (R u (or_introl eq_refl)) as (l & ->). cbn [show]. destruct (node_title l); cbn; auto. }
  destruct (G later (Gui (Project (file_list (g_proj g)) (temp_file_list (g_proj g)) (loaded_files (g_proj g)) (total_files (g_proj g)) (Some f))
       (if String.eqb f "" then g_rnd g else Some n) ((g_queue g ++ [UNext n]) ++ [UMeta f i]) (g_views g)) 0 NC) as (A & B).
  { left. exists (g_queue g), []. cbn [g_queue]. rewrite <- app_assoc, app_nil_r. split; auto. split; [intros u []|]. split; [lia|auto]. }
  split; auto. split; auto. apply index_of_spec in X. apply X.
Qed.
Print Assumptions C58_shown.

(** The two texts of one click are two events: in between, the window names the successor of one file beside another file. *)
Theorem C58_half_updated_refuted : exists s f g, f <> g /\
  actions s = [Load [f; g] [f; g]; Click f; Click g] /\
  v_meta (g_views (gui_run s)) = Some (f, 0) /\ next_file None g = Ok "exp1_scan6.dat" /\ next_file None f = Ok "exp1_scan2.dat" /\ v_next (g_views (gui_run s)) = Some "exp1_scan6.dat".
Proof.
  exists [User (Load ["exp1_scan1.dat"; "exp1_scan5.dat"] ["exp1_scan1.dat"; "exp1_scan5.dat"]); Deliver; User (Click "exp1_scan1.dat"); Deliver; User (Click "exp1_scan5.dat"); Deliver; Deliver],
    "exp1_scan1.dat", "exp1_scan5.dat". split; [discriminate|]. split; [reflexivity|]. vm_compute. auto.
Qed.
Print Assumptions C58_half_updated_refuted.

(** A folder without a title is loaded but never listed: in no schedule can its files be clicked. *)
Theorem C58_untitled_refuted : exists s, In "experiment.dat" (file_list (g_proj (gui_run s))) /\ g_queue (gui_run s) = [] /\ ~ listed (g_views (gui_run s)) "experiment.dat".
Proof. exists [User (Load ["experiment.dat"] ["experiment.dat"]); Deliver]. split; [left; reflexivity|]. split; [reflexivity|]. intros (nd & [] & _). Qed.
Print Assumptions C58_untitled_refuted.

Example C58_queue_example : exists s f, let g := gui_run s in
  g_queue g <> [] /\ listed (g_views g) f /\ next_file (g_rnd g) f = Ok "exp1_scan6.dat" /\
  v_meta (g_views (gui_run (s ++ User (Click f) :: [Deliver; User (Load ["a.dat"] ["a.dat"]); Deliver; Deliver]))) = Some (f, 1).
Proof.
  exists [User (Load ["exp1_scan1.dat"; "exp1_scan5.dat"] ["exp1_scan1.dat"; "exp1_scan5.dat"]); Deliver; User (Load ["b.dat"] ["b.dat"])], "exp1_scan5.dat".
  split; [discriminate|]. split. { exists ("scan1.dat", ["exp1_scan1.dat"; "exp1_scan5.dat"]). split; [left; reflexivity|right; left; reflexivity]. } split; reflexivity.
Qed.
