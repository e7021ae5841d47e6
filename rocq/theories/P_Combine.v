(** Property C57 in two dimensions: combining scans onto a grid, one scan per row, default axes. *)
From Coq Require Import Reals Lra Psatz List ZArith Lia Bool Permutation String Arith.
From Verif Require Import Base M_ScanData M_Scan M_Labels M_Hkle S_ScanData L_ScanData L_ScanData2 P_ScanData P_ScanData2 P_Scan.
Import ListNotations.
Open Scope R_scope.

(** Columns [ax], [ay], [az] and [ch] of the scan hold the points. *)
Definition scan_holds2 (s : scan) (ax ay az ch : string) (pts : list point2) : Prop :=
  column s ax = Ok (col2 qx pts) /\ column s ay = Ok (col2 qy pts) /\ column s az = Ok (col2 qz pts) /\ column s ch = Ok (col2 qw pts) /\ s_preset s <> Unknown.

Lemma concat_col2 : forall (pts : scan -> list point2) f scans, List.concat (map (fun s => col2 f (pts s)) scans) = col2 f (List.concat (map pts scans)).
Proof. intros. unfold col2. rewrite concat_map, map_map. auto. Qed.
Lemma fill_col2 : forall f g pts, fill (List.length (col2 f pts)) (col2 g pts) = Ok (col2 g pts).
Proof. intros. unfold fill, col2. rewrite !map_length, Nat.eqb_refl. auto. Qed.

Lemma extremes_perm2 : forall f l m, Permutation l m -> amin (col2 f l) = amin (col2 f m) /\ amax (col2 f l) = amax (col2 f m).
Proof.
  intros f l m P. pose proof (Permutation_map f P) as PX. unfold amin, amax, col2. rewrite <- !(map_map f Some). split.
  - pose proof (reduce_perm Rmin Rmin_comm Rmin_assoc _ _ PX) as Q. destruct (map f l), (map f m); try contradiction; cbn [map]; congruence.
  - pose proof (reduce_perm Rmax Rmax_comm Rmax_assoc _ _ PX) as Q. destruct (map f l), (map f m); try contradiction; cbn [map]; congruence.
Qed.

Section Combine2.
  Context (ax ay az ch : string) (pts : scan -> list point2) (scans : list scan).
  Hypothesis H : forall s, In s scans -> scan_holds2 s ax ay az ch (pts s).
  Let all := List.concat (map pts scans).
  Let d := new_data2d (col2 qx all) (col2 qy all) (col2 qz all) None.

  Lemma gather2_eq : gather scans ch = Ok (col2 qw all).
  Proof. unfold gather. rewrite (mapM_map _ _ _ (fun s => col2 qw (pts s))) by (intros s I; apply (H s I)). cbn [bind]. rewrite concat_col2. auto. Qed.
  Lemma combine_2d_eq : forall norm_to grid, combine_2d scans (ax, ay, az) norm_to grid =
    match grid with
    | None =>
        match scans with
        | [] => Err UnboundLocalError
        | s0 :: _ =>
            let s := last scans s0 in
            if String.eqb (s_def_x s) ax || String.eqb (s_def_x s) ay then
              let n := List.length scans in let m := (List.length all / n)%nat in
              do d' <- (match norm_to with
                        | Some (v, ch) => do c <- gather scans ch; renorm2d d (Some c) v
                        | None => do _ <- default_renorm scans; Ok d
                        end);
              do gx <- reshape n m (ex2 d'); do gy <- reshape n m (ey2 d'); do gz <- reshape n m (ez2 d'); do ge <- reshape n m (eerr2 d');
              Ok (Grid2D gx gy gz ge None)
            else Err ValueError
        end
    | Some (px, py) =>
        do qx_ <- format_rebin_params px; do qy_ <- format_rebin_params py;
        match norm_to with
        | None => do _ <- default_renorm scans; do p1 <- to_params (col2 qx all) qx_; do p2 <- to_params (col2 qy all) qy_; rebin2 Grid2 d p1 p2 None
        | Some (v, ch) => do c <- gather scans ch; do p1 <- to_params (col2 qx all) qx_; do p2 <- to_params (col2 qy all) qy_; rebin2 (GridRenorm2 v) d p1 p2 (Some c)
        end
    end.
  Proof.
    intros norm_to grid. unfold combine_2d.
    rewrite (mapM_map _ _ _ (fun s => col2 qx (pts s))) by (intros s I; apply (H s I)). cbn [bind].
    rewrite (mapM_map _ _ _ (fun s => (col2 qx (pts s), col2 qy (pts s), col2 qz (pts s)))).
    2:{ intros s I. destruct (H s I) as (A & B & C & _ & N). rewrite A, B, C. cbn [bind]. repeat (rewrite fill_col2; cbn [bind]). unfold scan_info. destruct (s_preset s); [auto|auto|congruence]. }
    cbn [bind]. rewrite !map_map. cbn [fst snd]. rewrite !concat_col2. fold all. fold d.
    assert (L : List.length (col2 qx all) = List.length all) by apply map_length. rewrite L. reflexivity.
  Qed.
End Combine2.

(** On a grid the result is that of one long scan with all the points. *)
Theorem C57_2d_one_long_scan : forall ax ay az ch pts scans m,
  (forall s, In s scans -> scan_holds2 s ax ay az ch (pts s)) -> scan_holds2 m ax ay az ch (List.concat (map pts scans)) ->
  (forall v grid, combine_2d scans (ax, ay, az) (Some (v, ch)) (Some grid) = combine_2d [m] (ax, ay, az) (Some (v, ch)) (Some grid)) /\
  (forall v grid, scans <> [] -> (forall s, In s (m :: scans) -> s_preset s = Normal ch v) ->
     combine_2d scans (ax, ay, az) None (Some grid) = combine_2d [m] (ax, ay, az) None (Some grid)).
Proof.
  intros ax ay az ch pts scans m H M. set (all := List.concat (map pts scans)) in *.
  assert (HM : forall s, In s [m] -> scan_holds2 s ax ay az ch ((fun _ => all) s)) by (intros s [<-|[]]; auto).
  split.
  - intros v (p, q). rewrite (combine_2d_eq ax ay az ch pts scans H), (combine_2d_eq ax ay az ch _ _ HM). cbn [map List.concat]. rewrite app_nil_r. fold all.
    rewrite (gather2_eq ax ay az ch pts scans H), (gather2_eq ax ay az ch _ _ HM). cbn [map List.concat]. rewrite app_nil_r. reflexivity.
  - intros v (p, q) NE PN. rewrite (combine_2d_eq ax ay az ch pts scans H), (combine_2d_eq ax ay az ch _ _ HM). cbn [map List.concat]. rewrite app_nil_r. fold all.
    rewrite (default_eq ch scans v NE) by (intros s I; apply PN; right; auto). rewrite (default_eq ch [m] v) by (try discriminate; intros s [<-|[]]; apply PN; left; auto). reflexivity.
Qed.
Print Assumptions C57_2d_one_long_scan.

(** On a grid the order of the scans does not matter. *)
Theorem C57_2d_order_independent : forall ax ay az ch pts scans scans' grid,
  (forall s, In s scans -> scan_holds2 s ax ay az ch (pts s)) -> Permutation scans scans' ->
  (forall v, arrays2 (combine_2d scans (ax, ay, az) (Some (v, ch)) (Some grid)) = arrays2 (combine_2d scans' (ax, ay, az) (Some (v, ch)) (Some grid))) /\
  (forall v, scans <> [] -> (forall s, In s scans -> s_preset s = Normal ch v) ->
     arrays2 (combine_2d scans (ax, ay, az) None (Some grid)) = arrays2 (combine_2d scans' (ax, ay, az) None (Some grid))).
Proof.
  intros ax ay az ch pts scans scans' (p, q) H P.
  assert (H' : forall s, In s scans' -> scan_holds2 s ax ay az ch (pts s)) by (intros s I; apply H; eapply Permutation_in; [apply Permutation_sym; exact P|auto]).
  set (all := List.concat (map pts scans)). set (all' := List.concat (map pts scans')).
  assert (PA : Permutation all all') by (unfold all, all'; rewrite <- !flat_map_concat_map; apply Permutation_flat_map; exact P).
  assert (TP : forall f r, to_params (col2 f all) r = to_params (col2 f all') r).
  { intros f ((a, b), c). unfold to_params. assert (A : amin (col2 f all) = amin (col2 f all') /\ amax (col2 f all) = amax (col2 f all')) by (apply extremes_perm2; auto). destruct A as [-> ->]. reflexivity. }
  split.
  - intros v. rewrite (combine_2d_eq ax ay az ch pts scans H), (combine_2d_eq ax ay az ch pts scans' H'). fold all all'.
    rewrite (gather2_eq ax ay az ch pts scans H), (gather2_eq ax ay az ch pts scans' H'). fold all all'.
    destruct (format_rebin_params p) as [q1|]; cbn [bind]; auto. destruct (format_rebin_params q) as [q2|]; cbn [bind]; auto. rewrite (TP qx), (TP qy).
    destruct (to_params (col2 qx all') q1) as [p1|]; cbn [bind]; auto. destruct (to_params (col2 qy all') q2) as [p2|]; cbn [bind]; auto.
    apply (C29_order_independent _ _ _ _ _ all all'); auto; unfold holds2; cbn; auto; left; auto.
  - intros v NE PN. rewrite (combine_2d_eq ax ay az ch pts scans H), (combine_2d_eq ax ay az ch pts scans' H'). fold all all'.
    rewrite (default_eq ch scans v NE PN), (default_eq ch scans' v).
    2:{ intros ->. apply Permutation_sym, Permutation_nil in P. auto. } 2:{ intros s I. apply PN. eapply Permutation_in; [apply Permutation_sym; exact P|auto]. }
    destruct (format_rebin_params p) as [q1|]; cbn [bind]; auto. destruct (format_rebin_params q) as [q2|]; cbn [bind]; auto. rewrite (TP qx), (TP qy).
    destruct (to_params (col2 qx all') q1) as [p1|]; cbn [bind]; auto. destruct (to_params (col2 qy all') q2) as [p2|]; cbn [bind]; auto.
    apply (C29_order_independent _ _ _ _ _ all all'); auto; unfold holds2; cbn; auto.
Qed.
Print Assumptions C57_2d_order_independent.

Lemma rows_concat : forall A (g : A -> list num) m l, (forall a, In a l -> List.length (g a) = m) -> rows (List.length l) m (List.concat (map g l)) = map g l.
Proof.
  intros A g m l. induction l as [|a l IH]; intros E; cbn [List.length map List.concat rows]; auto.
  assert (La := E a (or_introl eq_refl)). rewrite <- La, firstn_app, skipn_app, Nat.sub_diag, firstn_all, skipn_all. cbn [firstn skipn List.app]. rewrite app_nil_r. f_equal. rewrite La. apply IH. intros b B. apply E. right; auto.
Qed.
Lemma length_concat : forall A B (g : A -> list B) m l, (forall a, In a l -> List.length (g a) = m) -> List.length (List.concat (map g l)) = (List.length l * m)%nat.
Proof. intros A B g m l. induction l as [|a l IH]; intros E; cbn [List.length map List.concat]; auto. rewrite app_length, (E a (or_introl eq_refl)), IH by (intros b I; apply E; right; auto). reflexivity. Qed.
Lemma reshape_concat : forall A (g : A -> list num) m l, (forall a, In a l -> List.length (g a) = m) -> reshape (List.length l) m (List.concat (map g l)) = Ok (map g l).
Proof. intros A g m l E. unfold reshape. rewrite (length_concat _ _ g m l E), Nat.eqb_refl, (rows_concat A g m l E). reflexivity. Qed.

Lemma last_any : forall A (l : list A) a d e, last (a :: l) d = last (a :: l) e.
Proof. intros A l. induction l as [|b l IH]; intros a d e; auto. change (last (b :: l) d = last (b :: l) e). apply IH. Qed.

(** [a] per [w], times [v]; not a number when [w] is zero *)
Definition per (v : R) (a w : R) : num := if Req_EM_T w 0 then None else Some (a / w * v).

(** Without a grid, scans with equally many points are the rows of the result, in their order. *)
Theorem C57_2d_rows : forall ax ay az ch pts scans s0 m,
  (forall s, In s scans -> scan_holds2 s ax ay az ch (pts s) /\ List.length (pts s) = m) -> scans <> [] ->
  s_def_x (last scans s0) = ax \/ s_def_x (last scans s0) = ay -> (forall s p, In s scans -> In p (pts s) -> 0 <= qz p) ->
  let rowwise (g : grid2d) (z e : point2 -> num) :=
    gx g = map (fun s => col2 qx (pts s)) scans /\ gy g = map (fun s => col2 qy (pts s)) scans /\
    gz g = map (fun s => map z (pts s)) scans /\ gerr g = map (fun s => map e (pts s)) scans in
  (forall v, exists g, combine_2d scans (ax, ay, az) (Some (v, ch)) None = Ok g /\ rowwise g (fun p => per v (qz p) (qw p)) (fun p => per v (sqrt (qz p)) (qw p))) /\
  (forall v, (forall s, In s scans -> s_preset s = Normal ch v) ->
     exists g, combine_2d scans (ax, ay, az) None None = Ok g /\ rowwise g (fun p => Some (qz p)) (fun p => Some (sqrt (qz p)))).
Proof.
  intros ax ay az ch pts scans s0 m HL NE DX NN rowwise.
  assert (H : forall s, In s scans -> scan_holds2 s ax ay az ch (pts s)) by (intros s I; apply (HL s I)).
  assert (L : forall s, In s scans -> List.length (pts s) = m) by (intros s I; apply (HL s I)).
  set (all := List.concat (map pts scans)).
  assert (LA : List.length all = (List.length scans * m)%nat) by (apply length_concat; auto).
  assert (LM : (List.length all / List.length scans)%nat = m).
  { rewrite LA, Nat.mul_comm. apply Nat.div_mul. destruct scans; [congruence|discriminate]. }
  assert (RS : forall f : point2 -> num, reshape (List.length scans) m (map f all) = Ok (map (fun s => map f (pts s)) scans)).
  { intros f. unfold all. rewrite concat_map, map_map. apply (reshape_concat scan (fun s => map f (pts s))). intros s I. rewrite map_length. auto. }
  assert (LAST : forall s1 rest, scans = s1 :: rest -> String.eqb (s_def_x (last scans s1)) ax || String.eqb (s_def_x (last scans s1)) ay = true).
  { intros s1 rest E. assert (EL : last scans s1 = last scans s0).
    { rewrite E. apply last_any. }
    rewrite EL. destruct DX as [<-|<-]; rewrite String.eqb_refl, ?orb_true_r; auto. }
  assert (ER : map nsqrt (col2 qz all) = map (fun p => Some (sqrt (qz p))) all).
  { unfold col2. rewrite map_map. apply map_ext_in. intros p Ip. unfold all in Ip. rewrite <- flat_map_concat_map in Ip. apply in_flat_map in Ip. destruct Ip as (s & Is & Ip).
    unfold nsqrt. destruct (Rlt_dec (qz p) 0); auto. specialize (NN s p Is Ip). lra. }
  assert (BC : forall f : point2 -> R, bcast ndiv (map (fun p => Some (f p)) all) (col2 qw all) = Ok (map (fun p => ndiv (Some (f p)) (Some (qw p))) all)).
  { intros f. unfold bcast, col2. rewrite !map_length, Nat.eqb_refl. f_equal. clear. generalize all. intros l. induction l as [|p l IH]; auto. cbn [map zipw]. f_equal. exact IH. }
  assert (GR : forall norm_to, combine_2d scans (ax, ay, az) norm_to None =
    do d' <- (match norm_to with
              | Some (v, ch) => do c <- gather scans ch; renorm2d (new_data2d (col2 qx all) (col2 qy all) (col2 qz all) None) (Some c) v
              | None => do _ <- default_renorm scans; Ok (new_data2d (col2 qx all) (col2 qy all) (col2 qz all) None)
              end);
    do gx <- reshape (List.length scans) m (ex2 d'); do gy <- reshape (List.length scans) m (ey2 d'); do gz <- reshape (List.length scans) m (ez2 d'); do ge <- reshape (List.length scans) m (eerr2 d');
    Ok (Grid2D gx gy gz ge None)).
  { intros norm_to. rewrite (combine_2d_eq ax ay az ch pts scans H). fold all. cbv zeta. rewrite LM. destruct scans as [|s1 rest]; [congruence|]. rewrite (LAST s1 rest eq_refl). reflexivity. }
  split.
  - intros v. rewrite GR, (gather2_eq ax ay az ch pts scans H). fold all. cbn [bind]. unfold renorm2d. cbn [pick_norm bind ez2 eerr2 new_data2d]. rewrite ER.
    unfold col2 at 1. rewrite BC. cbn [bind]. rewrite BC. cbn [bind]. unfold new_data2d. cbn [ex2 ey2 ez2 eerr2]. rewrite !map_map. unfold col2. rewrite !RS. cbn [bind].
    eexists. split; [reflexivity|]. unfold rowwise. cbn [gx gy gz gerr]. split; [reflexivity|split; [reflexivity|split]]; apply map_ext; intros s; apply map_ext; intros p; unfold per; cbn; destruct (Req_EM_T (qw p) 0); auto.
  - intros v PN. rewrite GR, (default_eq ch scans v) by auto. unfold new_data2d. cbn [bind ex2 ey2 ez2 eerr2]. rewrite ER. unfold col2. rewrite !RS. cbn [bind].
    eexists. split; [reflexivity|]. unfold rowwise. cbn [gx gy gz gerr]. auto.
Qed.
Print Assumptions C57_2d_rows.

(** Scans with different numbers of points should be refused or kept apart. One point and three points give two rows of two
    points each, the second point of the first row being one of the second scan. *)
Theorem C57_2d_rows_refuted :
  let mk e x := Scan "s1" "detector" (Normal "time" 1) [("s1", map Some x); ("en", map (fun _ => Some e) x); ("detector", map Some x); ("time", map (fun _ => Some 1) x)]%string in
  exists g, combine_2d [mk 5 [1]; mk 6 [2; 3; 4]] ("s1", "en", "detector")%string None None = Ok g /\
    gz g = [[Some 1; Some 2]; [Some 3; Some 4]] /\ gy g = [[Some 5; Some 6]; [Some 6; Some 6]].
Proof.
  intros mk. set (pts := fun s : scan => match dget String.eqb "detector"%string (s_data s) with Some [_] => [Point2 1 5 1 1] | _ => [Point2 2 6 2 1; Point2 3 6 3 1; Point2 4 6 4 1] end).
  assert (H : forall s, In s [mk 5 [1]; mk 6 [2; 3; 4]] -> scan_holds2 s "s1" "en" "detector" "time" (pts s)).
  { intros s [<-|[<-|[]]]; (split; [reflexivity|split; [reflexivity|split; [reflexivity|split; [reflexivity|discriminate]]]]). }
  rewrite (combine_2d_eq _ _ _ _ pts _ H). cbn [last mk s_def_x]. change (String.eqb "s1" "s1" || String.eqb "s1" "en") with true. cbv iota.
  rewrite (default_eq "time" _ 1) by (try discriminate; intros s [<-|[<-|[]]]; reflexivity). eexists. split; [reflexivity|]. split; reflexivity.
Qed.
Print Assumptions C57_2d_rows_refuted.

(** Without a normalisation, scans counted in different ways are refused. *)
Theorem C57_2d_different_presets : forall ax ay az ch pts scans s1 s2 c1 v1 c2 v2 grid,
  (forall s, In s scans -> scan_holds2 s ax ay az ch (pts s)) -> (forall s, In s scans -> exists c v, s_preset s = Normal c v) ->
  In s1 scans -> In s2 scans -> s_preset s1 = Normal c1 v1 -> s_preset s2 = Normal c2 v2 -> (c1 <> c2 \/ v1 <> v2) ->
  combine_2d scans (ax, ay, az) None grid = Err ValueError.
Proof.
  intros ax ay az ch pts scans s1 s2 c1 v1 c2 v2 grid H PN I1 I2 P1 P2 D. rewrite (combine_2d_eq ax ay az ch pts scans H), (presets_differ scans s1 s2 c1 v1 c2 v2 PN I1 I2 P1 P2 D).
  destruct grid as [(p, q)|].
  - destruct (format_rebin_params p) eqn:F; cbn [bind]; [|f_equal; eapply C28_rejects_with_ValueError; eauto]. destruct (format_rebin_params q) eqn:G; cbn [bind]; [auto|f_equal; eapply C28_rejects_with_ValueError; eauto].
  - destruct scans as [|s l]; [destruct I1|]. cbv zeta. destruct (String.eqb (s_def_x (last (s :: l) s)) ax || String.eqb (s_def_x (last (s :: l) s)) ay); reflexivity.
Qed.
Print Assumptions C57_2d_different_presets.

(** Without a grid the scanned variable must be one of the two axes. *)
Theorem C57_2d_needs_grid : forall ax ay az ch pts scans s0 norm_to,
  (forall s, In s scans -> scan_holds2 s ax ay az ch (pts s)) -> scans <> [] ->
  s_def_x (last scans s0) <> ax -> s_def_x (last scans s0) <> ay -> combine_2d scans (ax, ay, az) norm_to None = Err ValueError.
Proof.
  intros ax ay az ch pts scans s0 norm_to H NE D1 D2. rewrite (combine_2d_eq ax ay az ch pts scans H). destruct scans as [|s1 rest]; [congruence|].
  assert (EL : last (s1 :: rest) s1 = last (s1 :: rest) s0) by apply last_any.
  cbv zeta. rewrite EL. apply String.eqb_neq in D1, D2. rewrite D1, D2. reflexivity.
Qed.
Print Assumptions C57_2d_needs_grid.

(** How many axes are given decides what is combined; without axes the default ones are used if all scans agree on them. *)
Theorem C57_axes : forall scans norm_to grid tol grid2,
  (forall x y, combine_data scans (Some [x; y]) norm_to grid tol grid2 = rmap One_d (combine_1d scans (x, y) norm_to grid tol)) /\
  (forall x y z, combine_data scans (Some [x; y; z]) norm_to grid tol grid2 = rmap Two_d (combine_2d scans (x, y, z) norm_to grid2)) /\
  (forall l, List.length l <> 2%nat -> List.length l <> 3%nat -> combine_data scans (Some l) norm_to grid tol grid2 = Err ValueError) /\
  ((forall s, In s scans -> s_preset s <> Unknown) ->
   (forall x y, scans <> [] -> (forall s, In s scans -> s_def_x s = x /\ s_def_y s = y) ->
      combine_data scans None norm_to grid tol grid2 = combine_data scans (Some [x; y]) norm_to grid tol grid2) /\
   (forall s s', In s scans -> In s' scans -> s_def_x s <> s_def_x s' \/ s_def_y s <> s_def_y s' -> combine_data scans None norm_to grid tol grid2 = Err ValueError) /\
   (scans = [] -> combine_data scans None norm_to grid tol grid2 = Err ValueError)).
Proof.
  intros scans norm_to grid tol grid2. split; [reflexivity|]. split; [reflexivity|]. split.
  { intros [|a [|b [|c [|e l]]]] N2 N3; cbn in *; auto; congruence. }
  intros PN. assert (MI : mapM scan_info scans = Ok (map s_preset scans)).
  { apply mapM_map. intros s I. unfold scan_info. specialize (PN s I). destruct (s_preset s); [auto|auto|congruence]. }
  unfold combine_data, default_axes. rewrite MI. cbn [bind]. split; [|split; [|intros ->; reflexivity]].
  - intros x y NE D. destruct scans as [|s rest]; [congruence|]. destruct (D s (or_introl eq_refl)) as [-> ->].
    assert (F : forallb (fun s' => String.eqb (s_def_x s') x && String.eqb (s_def_y s') y) rest = true).
    { apply forallb_forall. intros s' I. destruct (D s' (or_intror I)) as [-> ->]. rewrite !String.eqb_refl. auto. }
    rewrite F. reflexivity.
  - intros s s' I I' D. destruct scans as [|s1 rest]; [contradiction|].
    destruct (forallb (fun s' => String.eqb (s_def_x s') (s_def_x s1) && String.eqb (s_def_y s') (s_def_y s1)) rest) eqn:F; [|reflexivity].
    assert (A : forall t, In t (s1 :: rest) -> s_def_x t = s_def_x s1 /\ s_def_y t = s_def_y s1).
    { intros t [<-|It]; auto. rewrite forallb_forall in F. specialize (F t It). apply andb_true_iff in F. rewrite !String.eqb_eq in F. auto. }
    destruct (A s I) as [X1 Y1]. destruct (A s' I') as [X2 Y2]. destruct D; congruence.
Qed.
Print Assumptions C57_axes.

(** Two scans with two points each, at two energies *)
Example C57_2d_example : let pts1 := [Point2 0 5 4 2; Point2 1 5 5 1] in let pts2 := [Point2 0 6 9 3; Point2 1 6 2 3] in
  let mk ps := Scan "s1" "detector" (Normal "monitor" 2) [("s1", col2 qx ps); ("en", col2 qy ps); ("detector", col2 qz ps); ("monitor", col2 qw ps)]%string in
  let pts s := match dget String.eqb "detector"%string (s_data s) with Some (Some z :: _) => if Req_EM_T z 4 then pts1 else pts2 | _ => [] end in
  let scans := [mk pts1; mk pts2] in
  (forall s, In s scans -> scan_holds2 s "s1" "en" "detector" "monitor" (pts s) /\ List.length (pts s) = 2%nat) /\
  s_def_x (last scans (mk [])) = "s1"%string /\ (forall s p, In s scans -> In p (pts s) -> 0 <= qz p) /\ (forall s, In s scans -> s_preset s = Normal "monitor" 2).
Proof.
  intros pts1 pts2 mk pts scans.
  assert (P1 : pts (mk pts1) = pts1) by (unfold pts; cbn; destruct (Req_EM_T 4 4); [auto|congruence]).
  assert (P2 : pts (mk pts2) = pts2) by (unfold pts; cbn; destruct (Req_EM_T 9 4); [lra|auto]).
  split; [|split; [reflexivity|split]].
  - intros s [<-|[<-|[]]]; rewrite ?P1, ?P2; (split; [|reflexivity]); (split; [reflexivity|split; [reflexivity|split; [reflexivity|split; [reflexivity|discriminate]]]]).
  - intros s p [<-|[<-|[]]]; rewrite ?P1, ?P2; intros [<-|[<-|[]]]; cbn; lra.
  - intros s [<-|[<-|[]]]; reflexivity.
Qed.
(** A scan whose columns differ in length (unless one holds a single value) is refused. *)
Lemma mapM_value_error : forall {A B} (f : A -> result B) l x, (forall a, In a l -> (exists b, f a = Ok b) \/ f a = Err ValueError) -> In x l -> f x = Err ValueError -> mapM f l = Err ValueError.
Proof.
  intros A B f. induction l as [|a l]; intros x H I E; [destruct I|]. cbn [mapM]. destruct (H a (or_introl eq_refl)) as [(b & F)|F]; rewrite F; cbn [bind]; auto.
  destruct I as [->|I]; [congruence|]. rewrite (IHl x); auto. intros; apply H; right; auto.
Qed.
Theorem C57_2d_lengths : forall ax ay az scans norm_to grid s a x y,
  (forall s, In s scans -> s_preset s <> Unknown /\ forall k, In k [ax; ay; az] -> exists l, column s k = Ok l) ->
  In s scans -> In a [ay; az] -> column s ax = Ok x -> column s a = Ok y -> List.length y <> List.length x -> List.length y <> 1%nat ->
  combine_2d scans (ax, ay, az) norm_to grid = Err ValueError.
Proof.
  intros ax ay az scans norm_to grid s a x y H I IA CX CY N1 N2. unfold combine_2d.
  assert (M1 : exists l, mapM (fun s => column s ax) scans = Ok l).
  { clear - H. induction scans as [|s l IH]; cbn [mapM]; [eauto|]. destruct (H s (or_introl eq_refl)) as [_ C]. destruct (C ax) as (v & ->); [cbn; auto|]. cbn [bind].
    destruct IH as (w & ->); [intros; apply H; right; auto|]. cbn [bind]. eauto. }
  destruct M1 as (l & ->). cbn [bind].
  assert (F : forall n v, (exists w, fill n v = Ok w) \/ fill n v = Err ValueError). { intros n v. unfold fill. destruct (Nat.eqb _ _); [eauto|]. destruct v as [|? [|]]; eauto. }
  assert (FE : forall n v, List.length v <> n -> List.length v <> 1%nat -> fill n v = Err ValueError). { intros n v Q1 Q2. unfold fill. apply Nat.eqb_neq in Q1. rewrite Q1. destruct v as [|? [|]]; auto. cbn in Q2. lia. }
  erewrite (mapM_value_error _ scans s); [reflexivity| |exact I|].
  - intros s' I'. destruct (H s' I') as [U C]. destruct (C ax) as (u & ->); [cbn; auto|]. destruct (C ay) as (v & ->); [cbn; auto|]. destruct (C az) as (w & ->); [cbn; auto|]. cbn [bind].
    destruct (F (List.length u) v) as [(v' & ->)| ->]; cbn [bind]; auto. destruct (F (List.length u) w) as [(w' & ->)| ->]; cbn [bind]; auto. left. unfold scan_info. destruct (s_preset s'); try congruence; cbn [bind]; eauto.
  - destruct (H s I) as [U C]. rewrite CX. cbn [bind]. destruct (C ay) as (v & E1); [cbn; auto|]. destruct (C az) as (w & E2); [cbn; auto|]. rewrite E1. cbn [bind]. destruct IA as [<-|[<-|[]]].
    + assert (v = y) by congruence. subst v. rewrite (FE _ _ N1 N2). reflexivity.
    + destruct (F (List.length x) v) as [(v' & ->)| ->]; cbn [bind]; auto. rewrite E2. cbn [bind]. assert (w = y) by congruence. subst w. rewrite (FE _ _ N1 N2). reflexivity.
Qed.
Example C57_2d_lengths_example :
  combine_2d [Scan "s1" "detector" (Normal "time" 1) [("s1", [Some 1; Some 2; Some 3]); ("en", [Some 5]); ("detector", [Some 1; Some 2])]%string] ("s1", "en", "detector")%string None None = Err ValueError.
Proof.
  eapply (C57_2d_lengths "s1" "en" "detector" _ None None _ "detector"); [|left; reflexivity|right; left; reflexivity|reflexivity|reflexivity|discriminate|discriminate].
  intros s [<-|[]]. split; [discriminate|]. intros k K. cbn in K. destruct K as [<-|[<-|[<-|[]]]]; eexists; reflexivity.
Qed.
Print Assumptions C57_2d_lengths.
