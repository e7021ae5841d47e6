(** Properties C33 (loading a folder) and C58 (what the window shows). *)
From Coq Require Import List String Ascii Bool Arith ZArith Lia DecimalString Permutation Sorting.Sorted.
From Verif Require Import Base PyStr PySort L_Sort M_Project.
Import ListNotations.
Open Scope string_scope.
Open Scope list_scope.

Lemma batches_spec : forall order batch p p1 b, batches order batch p = (p1, b) ->
  file_list p1 ++ b = file_list p ++ batch ++ order /\ temp_file_list p1 ++ b = temp_file_list p ++ batch ++ order /\
  loaded_files p1 + List.length b = loaded_files p + List.length batch + List.length order /\ total_files p1 = total_files p /\ selected_scan p1 = selected_scan p.
Proof.
  induction order as [|f order]; intros batch p p1 b H; cbn [batches] in H.
  - injection H as <- <-. rewrite !app_nil_r. cbn. rewrite Nat.add_0_r. auto.
  - destruct (Nat.leb 10 _); apply IHorder in H; cbn [file_list temp_file_list loaded_files total_files selected_scan] in H; destruct H as (A & B & C & D & E);
      rewrite A, B, D, E; rewrite !app_length in C; cbn [List.length] in *; rewrite <- ?app_assoc; cbn [List.app]; split; auto; split; auto; split; auto; lia.
Qed.

Lemma load_spec : forall p entries order, let p' := fst (load p entries order) in
  file_list p' = file_list p ++ order /\ temp_file_list p' = sort order /\ snd (load p entries order) = sort order /\
  loaded_files p' = loaded_files p + List.length order /\ total_files p' = List.length entries /\ selected_scan p' = selected_scan p.
Proof.
  intros p entries order. unfold load. destruct (batches order [] _) as [p1 b] eqn:B. apply batches_spec in B.
  cbn [file_list temp_file_list loaded_files total_files selected_scan List.app List.length] in B. destruct B as (B1 & B2 & B3 & B4 & B5). cbn [fst snd].
  assert (N : b = [] -> p1 = Project (file_list p1 ++ b) (temp_file_list p1 ++ b) (loaded_files p1 + List.length b) (total_files p1) (selected_scan p1)).
  { intros ->. rewrite !app_nil_r. cbn. rewrite Nat.add_0_r. destruct p1; auto. }
  set (q := match b with [] => p1 | _ :: _ => _ end).
  assert (Q : q = Project (file_list p1 ++ b) (temp_file_list p1 ++ b) (loaded_files p1 + List.length b) (total_files p1) (selected_scan p1)) by (unfold q; destruct b; auto).
  rewrite Q. cbn [file_list temp_file_list loaded_files total_files selected_scan]. rewrite B1, B2, B3, B4, B5. cbn [List.app]. repeat (split; [auto; lia|]). auto.
Qed.

(** ** C33 *)
(** Whatever the order of completion, loading adds each file of the folder exactly once and publishes their sorted list. *)
Theorem C33_each_file_once : forall p entries order, Permutation order entries ->
  (forall f, count_occ string_dec (file_list (fst (load p entries order))) f = count_occ string_dec (file_list p) f + count_occ string_dec entries f) /\
  StronglySorted sle (snd (load p entries order)) /\ Permutation (snd (load p entries order)) entries.
Proof.
  intros p entries order P. destruct (load_spec p entries order) as (A & _ & C & _). rewrite A, C. split; [|split].
  - intros f. rewrite count_occ_app. f_equal. apply (Permutation_count_occ string_dec); auto.
  - apply sort_sorted. - rewrite <- P. symmetry. apply sort_perm.
Qed.
Print Assumptions C33_each_file_once.

(** The published list does not depend on the order of completion. *)
Theorem C33_schedule_independent : forall p entries o1 o2, Permutation o1 entries -> Permutation o2 entries ->
  snd (load p entries o1) = snd (load p entries o2) /\ Permutation (file_list (fst (load p entries o1))) (file_list (fst (load p entries o2))).
Proof.
  intros p entries o1 o2 P1 P2. destruct (load_spec p entries o1) as (A & _ & C & _), (load_spec p entries o2) as (A' & _ & C' & _). rewrite A, C, A', C'. split.
  - apply sort_ext. rewrite P1. symmetry; auto. - apply Permutation_app_head. rewrite P1. symmetry; auto.
Qed.
Print Assumptions C33_schedule_independent.

(** After any history of loads the counter of loaded files is the length of the file list, which holds all files of all folders;
    earlier files keep their positions. *)
Theorem C33_history : forall h, (forall es o, In (es, o) h -> Permutation o es) ->
  let p := fold_left (fun p x => fst (load p (fst x) (snd x))) h new_project in
  Permutation (file_list p) (List.concat (map fst h)) /\ loaded_files p = List.length (file_list p) /\
  forall es o, Permutation o es -> exists more, file_list (fst (load p es o)) = file_list p ++ more.
Proof.
  intros h H p. split; [|split].
  - subst p. assert (G : forall p0, Permutation (file_list (fold_left (fun p x => fst (load p (fst x) (snd x))) h p0)) (file_list p0 ++ List.concat (map fst h))).
    { induction h as [|[es o] h IH]; intros p0; cbn [fold_left map List.concat fst snd]. { rewrite app_nil_r. auto. }
      rewrite IH by (intros; apply H; right; auto). destruct (load_spec p0 es o) as (A & _). rewrite A, <- app_assoc. apply Permutation_app_head, Permutation_app_tail. apply H. left; auto. }
    apply (G new_project).
  - subst p. assert (G : forall p0, loaded_files p0 = List.length (file_list p0) -> let p := fold_left (fun p x => fst (load p (fst x) (snd x))) h p0 in loaded_files p = List.length (file_list p)).
    { clear H. induction h as [|[es o] h IH]; intros p0 E; cbn [fold_left fst snd]; auto. apply IH. destruct (load_spec p0 es o) as (A & _ & _ & B & _). rewrite A, B, app_length. lia. }
    apply (G new_project). reflexivity.
  - intros es o P. destruct (load_spec p es o) as (A & _). eauto.
Qed.
Print Assumptions C33_history.

Lemma index_of_ok : forall f l, In f l -> exists i, index_of f l = Ok i.
Proof.
  induction l as [|g l]; intros H; [destruct H|]. cbn. destruct (String.eqb f g) eqn:E; eauto. destruct H as [->|H]; [rewrite String.eqb_refl in E; discriminate|].
  destruct (IHl H) as (i & ->). cbn. eauto.
Qed.
Lemma index_of_spec : forall f l i, index_of f l = Ok i -> nth_error l i = Some f /\ forall j, j < i -> nth_error l j <> Some f.
Proof.
  induction l as [|g l]; intros i H; cbn in H; [discriminate|]. destruct (String.eqb f g) eqn:E.
  - apply Ok_inj in H. subst. apply String.eqb_eq in E. subst. split; auto. intros j J. lia.
  - destruct (index_of f l) as [k|] eqn:K; cbn in H; [|discriminate]. apply Ok_inj in H. subst. destruct (IHl k eq_refl) as (A & B). split; auto.
    intros [|j] J; cbn. { intros [= ->]. rewrite String.eqb_refl in E. discriminate. } apply B. lia.
Qed.
Lemma index_of_err : forall f l e, index_of f l = Err e -> ~ In f l /\ e = ValueError.
Proof.
  induction l as [|g l]; intros e H; cbn in H; [injection H; auto|]. destruct (String.eqb f g) eqn:E; [discriminate|].
  destruct (index_of f l) as [k|e'] eqn:K; cbn in H; [discriminate|]. injection H as <-. destruct (IHl e' eq_refl) as (A & B). split; auto.
  intros [->|I]; auto. rewrite String.eqb_refl in E. discriminate.
Qed.

(** ** C58 *)
(** In every state reached by the user's loads and clicks, clicking a loaded file whose scan number can be read shows
    that file with the position it has in the list of files, and the name of the next file. *)
Theorem C58_click : forall h f n, In f (file_list (proj (run h))) -> next_file (rnd_next (run h)) f = Ok n ->
  exists i, snd (click (run h) f) = Ok tt /\ meta_view (run (h ++ [Click f])) = Some (f, i) /\ next_view (run (h ++ [Click f])) = Some n /\
    nth_error (file_list (proj (run (h ++ [Click f])))) i = Some f /\ (forall j, j < i -> nth_error (file_list (proj (run h))) j <> Some f).
Proof.
  intros h f n I N. assert (E : run (h ++ [Click f]) = fst (click (run h) f)) by (unfold run; rewrite fold_left_app; auto). rewrite E.
  destruct (index_of_ok f _ I) as (i & X). exists i. unfold click. rewrite N. cbn [proj file_list]. rewrite X. cbn [fst snd meta_view next_view proj file_list].
  apply index_of_spec in X. destruct X. auto.
Qed.
Print Assumptions C58_click.

Definition no_char (c : ascii) (s : string) : Prop := ~ In c (list_ascii_of_string s).
Lemma split_no : forall c s, no_char c s -> split_on c s = [s].
Proof.
  unfold no_char. induction s as [|a s]; intros H; cbn; auto. cbn in H. destruct (Ascii.eqb a c) eqn:E.
  - apply Ascii.eqb_eq in E. exfalso. apply H. auto. - rewrite IHs; auto.
Qed.
Lemma split_app : forall c s t, no_char c s -> split_on c (s ++ String c t) = s :: split_on c t.
Proof.
  unfold no_char. induction s as [|a s]; intros t H; cbn. { rewrite Ascii.eqb_refl. auto. }
  cbn in H. destruct (Ascii.eqb a c) eqn:E. { apply Ascii.eqb_eq in E. exfalso. apply H. auto. } rewrite IHs; auto.
Qed.
Lemma split_join : forall c l, l <> [] -> Forall (no_char c) l -> split_on c (join (String c "") l) = l.
Proof.
  induction l as [|a l]; intros N F; [congruence|]. inversion F; subst. destruct l as [|b l]. { apply split_no; auto. }
  change (join (String c "") (a :: b :: l)) with (a ++ String c (join (String c "") (b :: l)))%string. rewrite split_app; auto. rewrite IHl; auto. discriminate.
Qed.

Definition digit (c : ascii) : Prop := In c (list_ascii_of_string "0123456789").
Lemma string_of_uint_digits : forall u, Forall digit (list_ascii_of_string (NilEmpty.string_of_uint u)).
Proof. induction u; cbn; constructor; auto; unfold digit; cbn; auto 20. Qed.
Lemma digit_not : forall c cs, digit c -> (forall d, In d (list_ascii_of_string cs) -> ~ digit d) -> in_set cs c = false.
Proof.
  intros c cs D H. unfold in_set. destruct (existsb _ _) eqn:E; auto. apply existsb_exists in E. destruct E as (d & I & Q). apply Ascii.eqb_eq in Q. subst. exfalso. eapply H; eauto.
Qed.
Lemma rstrip_keep : forall cs s, (forall a t, s = (a ++ t)%string -> True) -> Forall (fun c => in_set cs c = false) (list_ascii_of_string s) -> rstrip_set cs s = s.
Proof. intros cs s _. induction s as [|a s]; intros F; cbn; auto. cbn in F. inversion F; subst. rewrite IHs; auto. destruct s; auto. rewrite H1. auto. Qed.
Lemma rstrip_app : forall cs s t, Forall (fun c => in_set cs c = false) (list_ascii_of_string s) -> rstrip_set cs t = "" -> rstrip_set cs (s ++ t) = s.
Proof. intros cs s t. induction s as [|a s]; intros F E; cbn; auto. cbn in F. inversion F; subst. rewrite IHs; auto. destruct s; auto. rewrite H1. auto. Qed.
Lemma rstrip_end : forall cs s c, in_set cs c = false -> rstrip_set cs (s ++ String c "") = (s ++ String c "")%string.
Proof. intros cs s c H. induction s as [|a s]; cbn. { rewrite H. auto. } rewrite IHs. destruct (s ++ String c "")%string eqn:E; auto. destruct s; discriminate. Qed.

(** the piece "scan<digits>.dat" *)
Definition scan_piece (u : Decimal.uint) : string := ("scan" ++ NilEmpty.string_of_uint u ++ ".dat")%string.

Lemma app_assoc_s : forall a b c : string, ((a ++ b) ++ c = a ++ (b ++ c))%string.
Proof. induction a; intros; cbn; f_equal; auto. Qed.

Lemma next_piece_scan : forall u, u <> Decimal.Nil -> next_piece (scan_piece u) = Ok ("scan" ++ str_of (Z.of_uint u + 1) ++ ".dat")%string.
Proof.
  intros u NU. unfold next_piece, scan_piece. pose proof (string_of_uint_digits u) as D. remember (NilEmpty.string_of_uint u) as s eqn:S.
  assert (SN : s <> ""). { intros ->. destruct u; cbn in S; congruence. }
  cbn [append prefixb Ascii.eqb Bool.eqb andb].
  assert (E1 : strip_set "scan" ("scan" ++ s ++ ".dat") = (s ++ ".dat")%string).
  { unfold strip_set. assert (lstrip_set "scan" ("scan" ++ s ++ ".dat") = s ++ ".dat")%string as ->.
    { change (lstrip_set "scan" ("scan" ++ s ++ ".dat")) with (lstrip_set "scan" (s ++ ".dat")). destruct s as [|c s]; [congruence|]. cbn [append lstrip_set].
      cbn in D. inversion D; subst. rewrite digit_not; auto. intros d I. unfold digit. cbn in I. intros K. cbn in K. intuition congruence. }
    assert (s ++ ".dat" = (s ++ ".da") ++ String "t" "")%string as -> by (rewrite app_assoc_s; auto). apply rstrip_end. reflexivity. }
  assert (E2 : strip_set ".dat" (s ++ ".dat") = s).
  { unfold strip_set. assert (NS : Forall (fun c => in_set ".dat" c = false) (list_ascii_of_string s)).
    { eapply Forall_impl; [|exact D]. intros c C. apply digit_not; auto. intros d I. unfold digit. cbn in I. intros K. cbn in K. intuition congruence. }
    assert (lstrip_set ".dat" (s ++ ".dat") = s ++ ".dat")%string as ->. { destruct s as [|c s]; [congruence|]. cbn [append lstrip_set]. cbn [list_ascii_of_string] in NS. inversion NS; subst. rewrite H1. auto. }
    apply rstrip_app; auto. }
  change ("scan" ++ s ++ ".dat")%string with (String "s" (String "c" (String "a" (String "n" (s ++ ".dat"))))) in E1. rewrite E1, E2.
  assert (E3 : int_of s = Ok (Z.of_uint u)).
  { unfold int_of, strip_set.
    assert (NS : Forall (fun c => in_set " " c = false) (list_ascii_of_string s)).
    { eapply Forall_impl; [|exact D]. intros c C. apply digit_not; auto. intros d I. unfold digit. cbn in I. intros K. cbn in K. intuition congruence. }
    assert (lstrip_set " " s = s) as ->. { destruct s as [|c s]; [congruence|]. cbn [lstrip_set]. cbn [list_ascii_of_string] in NS. inversion NS; subst. rewrite H1. auto. }
    rewrite rstrip_keep; auto.
    assert (NZ : NilZero.uint_of_string s = Some u). { rewrite <- (NilEmpty.usu u), <- S. destruct s; [congruence|auto]. }
    rewrite NZ. clear - D. destruct s as [|c s]; auto. cbn in D. inversion D; subst. unfold digit in H1. cbn in H1.
    destruct H1 as [<-|[<-|[<-|[<-|[<-|[<-|[<-|[<-|[<-|[<-|[]]]]]]]]]]]; reflexivity. }
  rewrite E3. reflexivity.
Qed.

(** The next file of "<before>_scan<n>_<after>" carries the number n+1, everything else unchanged. *)
Theorem C58_next_number : forall before u after prev, u <> Decimal.Nil ->
  Forall (fun p => no_char "_" p /\ prefixb "scan" p = false) (before ++ after) ->
  next_file prev (join "_" (before ++ scan_piece u :: after)) = Ok (join "_" (before ++ ("scan" ++ str_of (Z.of_uint u + 1) ++ ".dat")%string :: after)).
Proof.
  intros before u after prev NU F. apply Forall_app in F. destruct F as (FB & FA).
  assert (NS : no_char "_" (scan_piece u)).
  { unfold scan_piece, no_char. pose proof (string_of_uint_digits u) as D. rewrite Forall_forall in D. cbn. intros K.
    destruct K as [K|[K|[K|[K|K]]]]; try discriminate. assert (L : forall a b, list_ascii_of_string (a ++ b) = list_ascii_of_string a ++ list_ascii_of_string b) by (induction a; intros; cbn; f_equal; auto).
    rewrite L, in_app_iff in K. destruct K as [K|K]; [apply D in K; unfold digit in K|]; cbn in K; intuition discriminate. }
  assert (SP : split_on "_" (join "_" (before ++ scan_piece u :: after)) = before ++ scan_piece u :: after).
  { apply split_join; [destruct before; discriminate|]. apply Forall_app. split; [|constructor; auto]; eapply Forall_impl; try eassumption; cbn; intuition. }
  assert (M : mapM next_piece (before ++ scan_piece u :: after) = Ok (before ++ ("scan" ++ str_of (Z.of_uint u + 1) ++ ".dat")%string :: after)).
  { assert (ID : forall l, Forall (fun p => no_char "_" p /\ prefixb "scan" p = false) l -> mapM next_piece l = Ok l).
    { induction l as [|p l]; intros Q; cbn; auto. inversion Q; subst. unfold next_piece at 1. rewrite (proj2 H1). cbn [bind]. rewrite IHl; auto. }
    clear SP. induction before as [|p before]; cbn [List.app mapM].
    - rewrite next_piece_scan by auto. cbn [bind]. rewrite ID by auto. auto.
    - inversion FB; subst. unfold next_piece at 1. rewrite (proj2 H1). cbn [bind]. rewrite IHbefore; auto. }
  unfold next_file. destruct (join "_" (before ++ scan_piece u :: after)) eqn:J.
  - exfalso. destruct before as [|b [|b' before]]; cbn in J, SP; try discriminate; destruct after; cbn in *; discriminate.
  - rewrite SP, M. reflexivity.
Qed.
Print Assumptions C58_next_number.

(** Real file names are padded with zeros; the padding is lost, so the name shown is not that of the next file. *)
Theorem C58_leading_zeros_refuted :
  next_file None "HB3_exp0440_scan0012.dat" = Ok "HB3_exp0440_scan13.dat" /\ "HB3_exp0440_scan13.dat" <> "HB3_exp0440_scan0013.dat".
Proof. split; [reflexivity|discriminate]. Qed.
Print Assumptions C58_leading_zeros_refuted.

(** A loaded file with a piece "scan..." that is not a number cannot be selected: the metadata of the previous file stays. *)
Theorem C58_stale_metadata_refuted : exists h f g, In f (file_list (proj (run h))) /\ f <> g /\
  snd (click (run h) f) = Err ValueError /\ option_map fst (meta_view (run (h ++ [Click f]))) = Some g /\ selected_scan (proj (run (h ++ [Click f]))) = Some f.
Proof.
  exists [Load ["exp1_scan1.dat"; "scanner.txt"] ["scanner.txt"; "exp1_scan1.dat"]; Click "exp1_scan1.dat"], "scanner.txt", "exp1_scan1.dat".
  split; [vm_compute; auto|]. split; [discriminate|]. split; [reflexivity|]. split; reflexivity.
Qed.
Print Assumptions C58_stale_metadata_refuted.

Definition titled (es : list string) : Prop := exists t, node_title (sort es) = Ok t.
(** After any history, each node of the tree is the sorted list of a loaded folder; if every folder could be given a title the
    tree shows exactly the loaded files. *)
Theorem C58_tree : forall h, (forall es o, In (Load es o) h -> Permutation o es /\ titled es) ->
  Permutation (List.concat (map snd (tree (run h)))) (file_list (proj (run h))) /\ Forall (fun nd => StronglySorted sle (snd nd)) (tree (run h)) /\
  Permutation (file_list (proj (run h))) (List.concat (map (fun u => match u with Load es _ => es | Click _ => [] end) h)).
Proof.
  intros h. induction h as [|u h IH] using rev_ind; intros H. { repeat split; constructor. }
  assert (E : run (h ++ [u]) = step (run h) u) by (unfold run; rewrite fold_left_app; auto). rewrite E. clear E.
  destruct IH as (A & B & C). { intros es o I. apply H. apply in_app_iff; auto. }
  rewrite map_app, concat_app. destruct u as [es o|f]; cbn [step map List.concat].
  - destruct (H es o) as (P & t & T). { apply in_app_iff. right. left. auto. }
    unfold app_load. destruct (load_spec (proj (run h)) es o) as (L1 & _ & L3 & _). destruct (load (proj (run h)) es o) as [p pub]. cbn [fst snd] in *. subst pub.
    assert (SO : sort o = sort es) by (apply sort_ext; auto). rewrite SO, T. cbn [fst tree proj]. rewrite map_app, concat_app. cbn [map snd List.concat]. rewrite !app_nil_r, L1.
    split; [|split].
    + apply Permutation_app; auto. rewrite P. symmetry. apply sort_perm.
    + apply Forall_app. split; auto. constructor; auto. apply sort_sorted.
    + apply Permutation_app; auto.
  - rewrite !app_nil_r. unfold click. destruct (next_file _ f); cbn [fst tree proj file_list]; [|auto]. destruct (index_of f _); cbn [fst tree proj file_list]; auto.
Qed.
Print Assumptions C58_tree.

(** Loading an empty folder, or one whose first file contains "exp" but no underscore, raises IndexError and shows nothing. *)
Theorem C58_empty_folder_refuted : forall a, snd (app_load a [] []) = Err IndexError /\ tree (fst (app_load a [] [])) = tree a
  /\ snd (app_load a ["experiment.dat"] ["experiment.dat"]) = Err IndexError.
Proof. intros a. repeat split. Qed.
Print Assumptions C58_empty_folder_refuted.

Example C58_example : let h := [Load ["HB3_exp1_scan12.dat"; "HB3_exp1_scan11.dat"] ["HB3_exp1_scan11.dat"; "HB3_exp1_scan12.dat"]; Click "HB3_exp1_scan11.dat"] in
  (forall es o, In (Load es o) h -> Permutation o es /\ titled es) /\ meta_view (run h) = Some ("HB3_exp1_scan11.dat", 0) /\ next_view (run h) = Some "HB3_exp1_scan12.dat"
  /\ tree (run h) = [("exp1", ["HB3_exp1_scan11.dat"; "HB3_exp1_scan12.dat"])].
Proof.
  intros h. split; [|repeat split]. intros es o [[= <- <-]|[K|[]]]; [|discriminate]. split; [constructor|]. exists "exp1". reflexivity.
Qed.

(** Two folders whose workers finish in other orders than the files are listed in. *)
Example C33_ex : let h := [(["b"; "a"; "c"], ["c"; "b"; "a"]); (["d"; "a"], ["a"; "d"])] in
  (forall es o, In (es, o) h -> Permutation o es) /\
  file_list (fold_left (fun p x => fst (load p (fst x) (snd x))) h new_project) = ["c"; "b"; "a"; "a"; "d"] /\
  snd (load new_project ["b"; "a"; "c"] ["c"; "b"; "a"]) = ["a"; "b"; "c"].
Proof.
  intros h. split; [|split; reflexivity]. intros es o [[= <- <-]|[[= <- <-]|[]]].
  - apply (Permutation_trans (l' := ["b"; "c"; "a"])); [apply perm_swap|apply perm_skip, perm_swap].
  - apply perm_swap.
Qed.
