(** C75: a plot shows everything put on it, once and in order. *)
From Coq Require Import Reals List ZArith String Bool Lia Permutation Sorting.Sorted.
From Verif Require Import Base PySort M_Utilities M_Mat M_ScanData M_Project M_Tavi M_Ellipsoid M_Ellipse M_Plotter P_Tavi L_Sort S_Plotter.
Import ListNotations.
Open Scope string_scope.
Open Scope list_scope.

Section Run.
  Context (V : Type) (capsize3 : V) (text : string -> V).
  Context (curves : nat -> curve) (meshes : nat -> mesh) (ellipses : nat -> ellipse) (arrange : list string -> list string) (eig : fmat -> (R * R) * ((R * R) * (R * R))).
  Notation fmt := (fmt V). Notation op := (op V). Notation plot1 := (plot1 V). Notation cmd := (cmd V).
  Notation plot_1d := (plot_1d V capsize3 curves arrange). Notation plot_2d := (plot_2d V curves meshes ellipses eig).

  (** All plots, and the keywords kept with each object. A step that raises changes nothing. *)
  Record world := World { plots1 : nat -> plot1; plots2 : nat -> plot2; kept : formats V }.
  Definition start : world := World (fun _ => new_plot1 V) (fun _ => new_plot2) (fun _ => []).
  Definition put {A} (p : nat) (a : A) (f : nat -> A) : nat -> A := fun q => if Nat.eqb q p then a else f q.
  Definition try1 (w : world) (p : nat) (r : result plot1) : world := match r with Ok a => World (put p a (plots1 w)) (plots2 w) (kept w) | Err _ => w end.
  Definition titled1 (p : plot1) (t : option string) : plot1 := Plot1 V (p1_scans V p) (p1_fits V p) (p1_bars V p) t (p1_xlabel V p) (p1_ylabel V p) (p1_xlim V p) (p1_ylim V p).
  Definition titled2 (p : plot2) (t : option string) : plot2 := Plot2 (p2_contours p) (p2_curves p) (p2_resos p) t (p2_xlabel p) (p2_ylabel p) (p2_xlim p) (p2_ylim p).
  Definition with_axes1 (p : plot1) (a : axes) : plot1 := Plot1 V (p1_scans V p) (p1_fits V p) (p1_bars V p) (p1_title V p) (ax_xlabel a) (ax_ylabel a) (ax_xlim a) (ax_ylim a).
  Definition with_axes2 (p : plot2) (a : axes) : plot2 := Plot2 (p2_contours p) (p2_curves p) (p2_resos p) (p2_title p) (ax_xlabel a) (ax_ylabel a) (ax_xlim a) (ax_ylim a).
  Definition step (w : world) (o : op) : world :=
    match o with
    | AddScan _ p i kw => let (a, s) := add_scan V i kw (plots1 w p) (kept w) in World (put p a (plots1 w)) (plots2 w) s
    | AddFit _ p f x d kw => try1 w p (add_fit V f x d kw (plots1 w p))
    | AddComponents _ p f x kw => try1 w p (add_fit_components V text f x kw (plots1 w p))
    | AddBar _ p pos b kw => try1 w p (add_reso_bar V pos b kw (plots1 w p))
    | Show1 _ p => World (put p (snd (plot_1d (plots1 w p) (kept w))) (plots1 w)) (plots2 w) (kept w)
    | SetTitle1 _ p t => World (put p (titled1 (plots1 w p) t) (plots1 w)) (plots2 w) (kept w)
    | AddContour _ p i kw => let (a, s) := add_contour V i kw (plots2 w p) (kept w) in World (plots1 w) (put p a (plots2 w)) s
    | AddCurve _ p i kw => let (a, s) := add_curve V i kw (plots2 w p) (kept w) in World (plots1 w) (put p a (plots2 w)) s
    | AddReso _ p i kw => let (a, s) := add_reso V i kw (plots2 w p) (kept w) in World (plots1 w) (put p a (plots2 w)) s
    | Show2 _ p => World (plots1 w) (put p (snd (fst (plot_2d (plots2 w p) (kept w)))) (plots2 w)) (kept w)
    | SetTitle2 _ p t => World (plots1 w) (put p (titled2 (plots2 w p) t) (plots2 w)) (kept w)
    | SetAxes1 _ p a => World (put p (with_axes1 (plots1 w p) a) (plots1 w)) (plots2 w) (kept w)
    | SetAxes2 _ p a => World (plots1 w) (put p (with_axes2 (plots2 w p) a) (plots2 w)) (kept w)
    end.
  Definition run (h : list op) : world := fold_left step h start.
  (** what drawing a plot hands to the axes after a history *)
  Definition drawing1 (h : list op) (p : nat) : list cmd := fst (plot_1d (plots1 (run h) p) (kept (run h))).
  Definition drawing2 (h : list op) (p : nat) : list cmd := fst (fst (plot_2d (plots2 (run h) p) (kept (run h)))).

  Lemma run_snoc : forall h o, run (h ++ [o]) = step (run h) o.
  Proof using. intros. unfold run. rewrite fold_left_app. auto. Qed.
  Lemma put_eq : forall {A} p (a : A) f, put p a f p = a.
  Proof using. intros. unfold put. rewrite Nat.eqb_refl. auto. Qed.
  Lemma put_at : forall {A} p q (a : A) f, put p a f q = if Nat.eqb p q then a else f q.
  Proof using. intros. unfold put. rewrite Nat.eqb_sym. auto. Qed.

  (** ** Keywords *)
  Lemma latest_snoc : forall h o i k, latest V (h ++ [o]) i k = match gives V o i k with Some v => Some v | None => latest V h i k end.
  Proof using. intros. unfold latest. rewrite fold_left_app. auto. Qed.
  Lemma give_get : forall (kw f : fmt) k, NoDup (map fst kw) -> sget k (give V kw f) = match sget k kw with Some v => Some v | None => sget k f end.
  Proof using. intros. unfold give. apply dupdate_get. auto. Qed.
  Lemma kept_latest : forall h i k, Forall (distinct V) h -> sget k (kept (run h) i) = latest V h i k.
  Proof using.
    induction h as [|o h IH] using rev_ind; intros i k D; [reflexivity|]. apply Forall_app in D. destruct D as [D DO]. inversion DO as [|? ? D1 _]; subst. specialize (IH i k D). rewrite run_snoc, latest_snoc.
    assert (G : forall j kw, NoDup (map fst kw) -> sget k (give_to V j kw (kept (run h)) i) = match (if Nat.eqb j i then sget k kw else None) with Some v => Some v | None => latest V h i k end).
    { intros j kw N. unfold give_to. rewrite (Nat.eqb_sym i j). destruct (Nat.eqb j i); [rewrite give_get by auto; rewrite IH; auto|auto]. }
    destruct o; cbn [step gives add_scan add_contour add_curve add_reso distinct] in *; try exact IH; try (apply G; auto; fail).
    - unfold try1. destruct (add_fit _ _ _ _ _ _); exact IH.
    - unfold try1. destruct (add_fit_components _ _ _ _ _ _); exact IH.
    - unfold try1. destruct (add_reso_bar _ _ _ _ _); exact IH.
    - destruct o as [j|]; cbn [kept]; [apply G; auto|exact IH].
  Qed.

  (** ** What is on the plots *)
  Lemma snoc_map : forall {A} (f : op -> list A) h o, flat_map f (h ++ [o]) = flat_map f h ++ f o.
  Proof using. intros. rewrite flat_map_app. cbn. rewrite app_nil_r. auto. Qed.
  Ltac cases1 p q := rewrite ?put_at; destruct (Nat.eqb_spec p q); subst; cbn; rewrite ?app_nil_r; auto.
  Lemma add_fit_scans : forall f x d kw P P', add_fit V f x d kw P = Ok P' -> p1_scans V P' = p1_scans V P /\ p1_bars V P' = p1_bars V P /\ p1_title V P' = p1_title V P.
  Proof using. intros f x d kw P P' H. unfold add_fit in H. destruct (match fi_result f with None => _ | Some _ => _ end); [|discriminate]. cbn [bind] in H. apply Ok_inj in H. subst. auto. Qed.
  Lemma add_components_scans : forall f x kw P P', add_fit_components V text f x kw P = Ok P' -> p1_scans V P' = p1_scans V P /\ p1_bars V P' = p1_bars V P /\ p1_title V P' = p1_title V P.
  Proof using.
    intros f x kw P P' H. unfold add_fit_components in H. destruct (fi_result f); [|apply Ok_inj in H; subst; auto]. destruct (forallb _ _); [|discriminate]. destruct (mapM _ _); [|discriminate]. cbn [bind] in H. apply Ok_inj in H. subst. auto.
  Qed.
  Lemma add_bar_spec : forall pos b kw P, match add_reso_bar V pos b kw P with
    | Ok P' => placeable pos = true /\ p1_scans V P' = p1_scans V P /\ p1_fits V P' = p1_fits V P /\ p1_title V P' = p1_title V P /\ exists q, p1_bars V P' = p1_bars V P ++ [ResoBar V q b (give V kw [])] /\ (match pos with inl r => Ok r | inr r => bar_pos r end) = Ok q
    | Err _ => placeable pos = false end.
  Proof using.
    intros pos b kw P. unfold add_reso_bar, placeable. destruct pos as [q|r]; cbn [bind]; [repeat (split; [reflexivity|]); exists q; split; reflexivity|]. unfold bar_pos. destruct (sget "s1_center" (mr_params r)) as [x|]; cbn [bind]; auto.
    destruct (sget "s1_" (mr_components r x)); cbn [bind]; auto. repeat (split; [reflexivity|]). eexists. split; reflexivity.
  Qed.
  Lemma run_scans : forall h p, p1_scans V (plots1 (run h) p) = scans_of V p h.
  Proof using.
    induction h as [|o h IH] using rev_ind; intros p; [reflexivity|]. rewrite run_snoc. unfold scans_of. rewrite snoc_map. fold (scans_of V p h).
    destruct o as [q i kw|q f x d kw|q f x kw|q pos b kw|q|q t|q i kw|q i kw|q i kw|q|q t|q a|q a]; cbn [step add_scan add_contour add_curve plots1]; rewrite ?app_nil_r; auto.
    - rewrite put_at. destruct (Nat.eqb_spec q p); subst; cbn; [rewrite IH; auto|rewrite app_nil_r; auto].
    - unfold try1. destruct (add_fit _ _ _ _ _ _) eqn:E; auto. cbn [plots1]. rewrite put_at. destruct (Nat.eqb_spec q p); subst; auto. apply add_fit_scans in E. destruct E as (-> & _). auto.
    - unfold try1. destruct (add_fit_components _ _ _ _ _ _) eqn:E; auto. cbn [plots1]. rewrite put_at. destruct (Nat.eqb_spec q p); subst; auto. apply add_components_scans in E. destruct E as (-> & _). auto.
    - unfold try1. pose proof (add_bar_spec pos b kw (plots1 (run h) q)) as S. destruct (add_reso_bar _ _ _ _ _); auto. cbn [plots1]. rewrite put_at. destruct (Nat.eqb_spec q p); subst; auto. destruct S as (_ & -> & _). auto.
    - rewrite put_at. destruct (Nat.eqb_spec q p); subst; cbn; auto.
    - rewrite put_at. destruct (Nat.eqb_spec q p); subst; cbn; auto.
    - destruct (add_reso _ _ _ _ _). cbn [plots1]. auto.
    - rewrite put_at. destruct (Nat.eqb_spec q p); subst; cbn; auto.
  Qed.
  Definition fit_matches (f : fit_curve V) (s : shown V) : Prop := fc_x V f = sh_x V s /\ fc_y V f = sh_y V s /\ sh_err V s = None /\ forall k, sget k (fc_fmt V f) = sh_fmt V s k.
  Lemma fit_spec : forall f x d kw P, NoDup (map fst kw) -> match add_fit V f x d kw P with
    | Ok P' => exists l, p1_fits V P' = p1_fits V P ++ l /\ Forall2 fit_matches l (fit_shown V f x d kw)
    | Err _ => fit_shown V f x d kw = [] end.
  Proof using.
    intros f x d kw P N. assert (G : forall k, sget k (give V kw []) = sget k kw). { intros k. rewrite give_get by auto. cbn. destruct (sget k kw); auto. }
    unfold add_fit, fit_shown. destruct (fi_result f); [destruct d; [destruct (fi_intrinsic f)|]|]; cbn [bind]; auto; eexists; (split; [reflexivity|]); constructor; [|constructor| |constructor| |constructor]; (split; [reflexivity|split; [reflexivity|split; [reflexivity|exact G]]]).
  Qed.
  Lemma pick_spec : forall i kw f, NoDup (map fst kw) -> (forall k vs, In (k, vs) kw -> (i < List.length vs)%nat) ->
    exists f', pick V i kw f = Ok f' /\ forall k, sget k f' = match sget k kw with Some vs => nth_error vs i | None => sget k f end.
  Proof using.
    induction kw as [|[k0 vs] kw IH]; intros f N L; cbn [pick]. { exists f. auto. } cbn in N. inversion N; subst. pose proof (L k0 vs (or_introl eq_refl)) as L0. destruct (nth_error vs i) as [v|] eqn:E; [|apply nth_error_None in E; lia].
    destruct (IH (sset k0 v f)) as (f' & P & G); auto. { intros; eapply L; right; eauto. } exists f'. split; auto. intros k. rewrite G. cbn [dget]. destruct (String.eqb k k0) eqn:Q.
    - apply String.eqb_eq in Q. subst. assert (sget k0 kw = None) as ->. { destruct (sget k0 kw) eqn:S; auto. exfalso. apply H1. apply in_map_iff. exists (k0, l). split; auto. apply sget_in. auto. } rewrite sget_sset, String.eqb_refl. auto.
    - destruct (sget k kw); auto. rewrite sget_sset. rewrite Q. auto.
  Qed.
  Lemma components_spec : forall f x kw P, NoDup (map fst kw) -> match add_fit_components V text f x kw P with
    | Ok P' => exists l, p1_fits V P' = p1_fits V P ++ l /\ Forall2 fit_matches l (components_shown V text f x kw)
    | Err _ => components_shown V text f x kw = [] end.
  Proof using.
    intros f x kw P N. unfold add_fit_components, components_shown. destruct (fi_result f). 2:{ exists []. rewrite app_nil_r. auto. }
    set (xs := match x with None => fi_x f | Some x0 => x0 end). set (comps := fi_components f xs). destruct (forallb (fun kv => Nat.eqb (List.length (snd kv)) (List.length comps)) kw) eqn:Q; auto.
    rewrite forallb_forall in Q. assert (LEN : forall k vs, In (k, vs) kw -> List.length vs = List.length comps). { intros k vs I. apply Q in I. apply Nat.eqb_eq in I. auto. }
    assert (G : forall l, (forall ic, In ic l -> (fst ic < List.length comps)%nat) -> exists fs, mapM (fun ic => component V text xs kw (fst ic) (snd ic)) l = Ok fs /\ Forall2 fit_matches fs (map (fun ic => Shown V xs (snd (snd ic)) None (fun k => match sget k kw with
                 | Some vs => nth_error vs (fst ic)
                 | None => if String.eqb k "label" then Some (text (substring 0 (String.length (fst (snd ic)) - 1) (fst (snd ic)))) else None end)) l)).
    { intros l0; induction l0 as [|ic l0 IH]; intros B. { exists []. split; auto. constructor. } destruct IH as (fs & M & F). { intros; apply B; right; auto. }
      destruct (pick_spec (fst ic) kw (sset "label" (text (substring 0 (String.length (fst (snd ic)) - 1) (fst (snd ic)))) [])) as (f' & PK & GK); auto. { intros k vs I. rewrite (LEN k vs I). apply B. left. auto. }
      exists (FitCurve V xs (snd (snd ic)) f' :: fs). cbn [mapM]. unfold component at 1. rewrite PK. cbn [bind]. rewrite M. cbn [bind]. split; auto. cbn [map]. constructor; auto. split; [reflexivity|]. split; [reflexivity|]. split; [reflexivity|]. cbn [fc_fmt sh_fmt]. intros k. rewrite GK. destruct (sget k kw); auto. }
    destruct (G (combine (seq 0 (List.length comps)) comps)) as (fs & M & F). { intros [i c] I. apply in_combine_l in I. apply in_seq in I. cbn. lia. }
    rewrite M. cbn [bind]. exists fs. split; auto.
  Qed.
  Lemma run_fits : forall h p, Forall (distinct V) h -> Forall2 fit_matches (p1_fits V (plots1 (run h) p)) (fits_of V text p h).
  Proof using.
    induction h as [|o h IH] using rev_ind; intros p D; [constructor|]. apply Forall_app in D. destruct D as [D DO]. inversion DO as [|? ? D1 _]; subst. specialize (IH p D). rewrite run_snoc. unfold fits_of. rewrite snoc_map. fold (fits_of V text p h).
    destruct o as [q i kw|q f x d kw|q f x kw|q pos b kw|q|q t|q i kw|q i kw|q i kw|q|q t|q a|q a]; cbn [step add_scan add_contour add_curve plots1 distinct] in *; rewrite ?app_nil_r; auto.
    - rewrite put_at. destruct (Nat.eqb_spec q p); subst; cbn; auto.
    - unfold try1. pose proof (fit_spec f x d kw (plots1 (run h) q) D1) as S. destruct (add_fit _ _ _ _ _ _); cbn [plots1]; rewrite ?put_at; destruct (Nat.eqb_spec q p); subst; rewrite ?app_nil_r; auto; [|rewrite S, app_nil_r; auto]. destruct S as (l & -> & F). apply Forall2_app; auto.
    - unfold try1. pose proof (components_spec f x kw (plots1 (run h) q) D1) as S. destruct (add_fit_components _ _ _ _ _ _); cbn [plots1]; rewrite ?put_at; destruct (Nat.eqb_spec q p); subst; rewrite ?app_nil_r; auto; [|rewrite S, app_nil_r; auto]. destruct S as (l & -> & F). apply Forall2_app; auto.
    - unfold try1. pose proof (add_bar_spec pos b kw (plots1 (run h) q)) as S. destruct (add_reso_bar _ _ _ _ _); auto. cbn [plots1]. rewrite put_at. destruct (Nat.eqb_spec q p); subst; auto. destruct S as (_ & _ & -> & _). auto.
    - rewrite put_at. destruct (Nat.eqb_spec q p); subst; cbn; auto.
    - rewrite put_at. destruct (Nat.eqb_spec q p); subst; cbn; auto.
    - destruct (add_reso _ _ _ _ _). cbn [plots1]. auto.
    - rewrite put_at. destruct (Nat.eqb_spec q p); subst; cbn; auto.
  Qed.
  (** Bars: kept as given, up to the default for "capsize" *)
  Definition capsize_of (kw : fmt) (k : string) : option V := match sget k kw with Some v => Some v | None => if String.eqb k "capsize" then Some capsize3 else None end.
  Definition bar_matches (b : reso_bar V) (s : ((num * num) + model_result) * R * fmt) : Prop :=
    let '(pos, w, kw) := s in (match pos with inl r => Ok r | inr r => bar_pos r end) = Ok (rb_pos V b) /\ rb_fwhm V b = w /\ forall k, sget k (rb_fmt V (capped V capsize3 b)) = capsize_of kw k.
  Lemma capped_twice : forall b, capped V capsize3 (capped V capsize3 b) = capped V capsize3 b.
  Proof using. intros b. unfold capped at 2 3. destruct (sget "capsize" (rb_fmt V b)) eqn:E. { unfold capped. rewrite E. auto. } unfold capped. cbn [rb_fmt]. rewrite sget_sset, String.eqb_refl. auto. Qed.
  Lemma capped_same : forall b, rb_pos V (capped V capsize3 b) = rb_pos V b /\ rb_fwhm V (capped V capsize3 b) = rb_fwhm V b.
  Proof using. intros b. unfold capped. destruct (sget "capsize" (rb_fmt V b)); auto. Qed.
  Lemma run_bars : forall h p, Forall (distinct V) h -> Forall2 bar_matches (p1_bars V (plots1 (run h) p)) (bars_of V p h).
  Proof using.
    induction h as [|o h IH] using rev_ind; intros p D; [constructor|]. apply Forall_app in D. destruct D as [D DO]. inversion DO as [|? ? D1 _]; subst. specialize (IH p D). rewrite run_snoc. unfold bars_of. rewrite snoc_map. fold (bars_of V p h).
    destruct o as [q i kw|q f x d kw|q f x kw|q pos b kw|q|q t|q i kw|q i kw|q i kw|q|q t|q a|q a]; cbn [step add_scan add_contour add_curve plots1 distinct] in *; rewrite ?app_nil_r; auto.
    - rewrite put_at. destruct (Nat.eqb_spec q p); subst; cbn; auto.
    - unfold try1. destruct (add_fit _ _ _ _ _ _) eqn:E; auto. cbn [plots1]. rewrite put_at. destruct (Nat.eqb_spec q p); subst; auto. apply add_fit_scans in E. destruct E as (_ & -> & _). auto.
    - unfold try1. destruct (add_fit_components _ _ _ _ _ _) eqn:E; auto. cbn [plots1]. rewrite put_at. destruct (Nat.eqb_spec q p); subst; auto. apply add_components_scans in E. destruct E as (_ & -> & _). auto.
    - unfold try1. pose proof (add_bar_spec pos b kw (plots1 (run h) q)) as S. destruct (add_reso_bar _ _ _ _ _); cbn [plots1]; rewrite ?put_at; destruct (Nat.eqb_spec q p); subst; cbn [andb]; rewrite ?app_nil_r; auto; [|rewrite S, app_nil_r; auto].
      destruct S as (-> & _ & _ & _ & w & -> & E). apply Forall2_app; auto. constructor; [|constructor]. split; [exact E|]. split; [reflexivity|]. intros k. unfold capped, capsize_of. cbn [rb_fmt].
      assert (G : forall k, sget k (give V kw []) = sget k kw). { intros k'. rewrite give_get by apply D1. cbn. destruct (sget k' kw); auto. }
      destruct (sget "capsize" (give V kw [])) eqn:C; cbn [rb_fmt].
      + rewrite G. destruct (sget k kw) eqn:K; auto. destruct (String.eqb k "capsize") eqn:Q; auto. apply String.eqb_eq in Q. subst. rewrite G in C. congruence.
      + rewrite sget_sset. destruct (String.eqb k "capsize") eqn:Q. { apply String.eqb_eq in Q. subst. rewrite G in C. rewrite C. auto. } rewrite G. destruct (sget k kw); auto.
    - rewrite put_at. destruct (Nat.eqb_spec q p); subst; auto. cbn [plot_1d snd p1_bars M_Plotter.plot_1d]. revert IH. generalize (bars_of V p h). induction (p1_bars V (plots1 (run h) p)) as [|b l IHl]; intros m F; inversion F as [|? ? ? ? B F']; subst; cbn [map]; constructor; auto.
      destruct y as [[pos w] kw]. destruct B as (B1 & B2 & B3). destruct (capped_same b) as [C1 C2]. unfold bar_matches. rewrite C1, C2, capped_twice. auto.
    - rewrite put_at. destruct (Nat.eqb_spec q p); subst; cbn; auto.
    - destruct (add_reso _ _ _ _ _). cbn [plots1]. auto.
    - rewrite put_at. destruct (Nat.eqb_spec q p); subst; cbn; auto.
  Qed.
  Lemma run_meshes : forall h p, p2_contours (plots2 (run h) p) = contours_of V p h /\ p2_curves (plots2 (run h) p) = curves_of V p h /\ p2_resos (plots2 (run h) p) = resos_of V p h.
  Proof using.
    induction h as [|o h IH] using rev_ind; intros p; [auto|]. specialize (IH p). rewrite run_snoc. unfold contours_of, curves_of, resos_of. rewrite !snoc_map. fold (contours_of V p h). fold (curves_of V p h). fold (resos_of V p h).
    destruct o as [q i kw|q f x d kw|q f x kw|q pos b kw|q|q t|q i kw|q i kw|q i kw|q|q t|q a|q a]; cbn [step add_scan add_contour add_curve plots2]; rewrite ?app_nil_r; auto.
    - unfold try1. destruct (add_fit _ _ _ _ _ _); auto.
    - unfold try1. destruct (add_fit_components _ _ _ _ _ _); auto.
    - unfold try1. destruct (add_reso_bar _ _ _ _ _); auto.
    - rewrite put_at. destruct (Nat.eqb_spec q p); subst; cbn; rewrite ?app_nil_r; auto. destruct IH as (-> & -> & ->). auto.
    - rewrite put_at. destruct (Nat.eqb_spec q p); subst; cbn; rewrite ?app_nil_r; auto. destruct IH as (-> & -> & ->). auto.
    - destruct i as [i|]; cbn [add_reso plots2]; rewrite put_at; destruct (Nat.eqb_spec q p); subst; cbn; rewrite ?app_nil_r; auto. destruct IH as (-> & -> & ->). auto.
    - rewrite put_at. destruct (Nat.eqb_spec q p); subst; cbn; auto.
    - rewrite put_at. destruct (Nat.eqb_spec q p); subst; cbn; auto.
    - rewrite put_at. destruct (Nat.eqb_spec q p); subst; cbn; auto.
  Qed.
  Lemma last_title_app : forall t l a, last_title t (l ++ [a]) = a.
  Proof using. intros. unfold last_title. rewrite fold_left_app. auto. Qed.
  (** the title that is drawn: that of the last scan or mesh, else the one the user gave *)
  Lemma run_title1 : forall h p, scans_of V p h = [] -> p1_title V (plots1 (run h) p) = own_title1 V p h.
  Proof using.
    induction h as [|o h IH] using rev_ind; intros p E; [reflexivity|]. unfold scans_of in E. rewrite snoc_map in E. apply app_eq_nil in E. destruct E as [E EO]. fold (scans_of V p h) in E. specialize (IH p E). rewrite run_snoc. unfold own_title1. rewrite fold_left_app. fold (own_title1 V p h).
    destruct o as [q i kw|q f x d kw|q f x kw|q pos b kw|q|q t|q i kw|q i kw|q i kw|q|q t|q a|q a]; cbn [step add_scan add_contour add_curve plots1 fold_left]; auto.
    - rewrite put_at. destruct (Nat.eqb_spec q p); [discriminate|]. auto.
    - unfold try1. destruct (add_fit _ _ _ _ _ _) eqn:Q; auto. cbn [plots1]. rewrite put_at. destruct (Nat.eqb_spec q p); subst; auto. apply add_fit_scans in Q. destruct Q as (_ & _ & ->). auto.
    - unfold try1. destruct (add_fit_components _ _ _ _ _ _) eqn:Q; auto. cbn [plots1]. rewrite put_at. destruct (Nat.eqb_spec q p); subst; auto. apply add_components_scans in Q. destruct Q as (_ & _ & ->). auto.
    - unfold try1. pose proof (add_bar_spec pos b kw (plots1 (run h) q)) as S. destruct (add_reso_bar _ _ _ _ _); auto. cbn [plots1]. rewrite put_at. destruct (Nat.eqb_spec q p); subst; auto. destruct S as (_ & _ & _ & -> & _). auto.
    - rewrite put_at. destruct (Nat.eqb_spec q p); subst; auto. cbn [snd p1_title M_Plotter.plot_1d]. rewrite run_scans, E. exact IH.
    - rewrite put_at. destruct (Nat.eqb_spec q p); subst; auto.
    - destruct (add_reso _ _ _ _ _). cbn [plots1]. auto.
    - rewrite put_at. destruct (Nat.eqb_spec q p); subst; auto.
  Qed.
  Lemma run_title2 : forall h p, contours_of V p h = [] -> p2_title (plots2 (run h) p) = own_title2 V p h.
  Proof using.
    induction h as [|o h IH] using rev_ind; intros p E; [reflexivity|]. unfold contours_of in E. rewrite snoc_map in E. apply app_eq_nil in E. destruct E as [E EO]. fold (contours_of V p h) in E. specialize (IH p E). rewrite run_snoc. unfold own_title2. rewrite fold_left_app. fold (own_title2 V p h).
    destruct o as [q i kw|q f x d kw|q f x kw|q pos b kw|q|q t|q i kw|q i kw|q i kw|q|q t|q a|q a]; cbn [step add_scan add_contour add_curve plots2 fold_left]; auto.
    - unfold try1. destruct (add_fit _ _ _ _ _ _); auto.
    - unfold try1. destruct (add_fit_components _ _ _ _ _ _); auto.
    - unfold try1. destruct (add_reso_bar _ _ _ _ _); auto.
    - rewrite put_at. destruct (Nat.eqb_spec q p); [discriminate|]. auto.
    - rewrite put_at. destruct (Nat.eqb_spec q p); subst; auto.
    - destruct i as [i|]; cbn [add_reso plots2]; rewrite put_at; destruct (Nat.eqb_spec q p); subst; auto.
    - rewrite put_at. destruct (Nat.eqb_spec q p); subst; auto. cbn [fst snd p2_title M_Plotter.plot_2d]. destruct (run_meshes h p) as (-> & _). rewrite E. exact IH.
    - rewrite put_at. destruct (Nat.eqb_spec q p); subst; auto.
    - rewrite put_at. destruct (Nat.eqb_spec q p); subst; auto.
  Qed.
  Definition axes1 (p : plot1) : axes := Axes (p1_xlabel V p) (p1_ylabel V p) (p1_xlim V p) (p1_ylim V p).
  Definition axes2 (p : plot2) : axes := Axes (p2_xlabel p) (p2_ylabel p) (p2_xlim p) (p2_ylim p).
  Lemma run_axes : forall h p, axes1 (plots1 (run h) p) = own_axes1 V p h /\ axes2 (plots2 (run h) p) = own_axes2 V p h.
  Proof using.
    induction h as [|o h IH] using rev_ind; intros p; [cbn; auto 10|]. specialize (IH p). rewrite run_snoc. unfold own_axes1, own_axes2. rewrite !fold_left_app. fold (own_axes1 V p h). fold (own_axes2 V p h).
    destruct o as [q i kw|q f x d kw|q f x kw|q pos b kw|q|q t|q i kw|q i kw|q i kw|q|q t|q a|q a]; cbn [step add_scan add_contour add_curve plots1 plots2 fold_left]; auto;
      try (rewrite put_at; destruct (Nat.eqb_spec q p); subst; auto; fail).
    - unfold try1. destruct (add_fit _ _ _ _ _ _) eqn:E; auto. cbn [plots1 plots2]. rewrite put_at. destruct (Nat.eqb_spec q p); subst; auto. unfold add_fit in E. destruct (match fi_result f with None => _ | Some _ => _ end); [|discriminate]. cbn [bind] in E. apply Ok_inj in E. subst. auto.
    - unfold try1. destruct (add_fit_components _ _ _ _ _ _) eqn:E; auto. cbn [plots1 plots2]. rewrite put_at. destruct (Nat.eqb_spec q p); subst; auto. unfold add_fit_components in E. destruct (fi_result f); [|apply Ok_inj in E; subst; auto]. destruct (forallb _ _); [|discriminate]. destruct (mapM _ _); [|discriminate]. cbn [bind] in E. apply Ok_inj in E. subst. auto.
    - unfold try1. destruct (add_reso_bar _ _ _ _ _) eqn:E; auto. cbn [plots1 plots2]. rewrite put_at. destruct (Nat.eqb_spec q p); subst; auto. unfold add_reso_bar in E. destruct (match pos with inl _ => _ | inr _ => _ end); [|discriminate]. cbn [bind] in E. apply Ok_inj in E. subst. auto.
    - destruct i as [i|]; cbn [add_reso plots1 plots2]; rewrite put_at; destruct (Nat.eqb_spec q p); subst; auto.
    - destruct IH. rewrite put_at. destruct (Nat.eqb_spec q p); subst; auto. split; auto. destruct a; auto.
    - destruct IH. rewrite put_at. destruct (Nat.eqb_spec q p); subst; auto. split; auto. destruct a; auto.
  Qed.

  (** ** Theorems *)
  Lemma ddel_filter : forall {A} k (d : dict string A), NoDup (map fst d) -> ddel String.eqb k d = filter (fun c => negb (String.eqb (fst c) k)) d.
  Proof using.
    intros A k. induction d as [|[k0 v] d IH]; intros N; auto. cbn in N. inversion N as [|? ? N1 N2]; subst. cbn [ddel filter fst]. rewrite String.eqb_sym. destruct (String.eqb_spec k0 k) as [->|Hn]; cbn [negb].
    - clear IH N N2. induction d as [|[k1 v1] d IH]; auto. cbn in N1. cbn [filter fst]. destruct (String.eqb_spec k1 k) as [->|]; [exfalso; auto|]. cbn [negb]. rewrite <- IH; auto.
    - rewrite IH; auto.
  Qed.
  Lemma bars_distinct : forall h p, Forall (distinct V) h -> Forall (fun b => match fst (fst b) with inl _ => True | inr r => forall x, NoDup (map fst (mr_components r x)) end) (bars_of V p h).
  Proof using.
    intros h p D. unfold bars_of. apply Forall_flat_map. eapply Forall_impl; [|exact D]. intros o O. destruct o; auto. destruct (Nat.eqb p0 p && placeable pos)%bool; auto. constructor; auto. exact (proj2 O).
  Qed.
  Lemma lims : forall f o, (forall a b, decoration V (f a b)) -> Forall (decoration V) (lim1 V f o).
  Proof using. intros f [[a b]|] F; cbn; auto. Qed.

  (** Whatever is done to whatever plots: a plot draws the curves put on it, in order and each as often as it was put there, with their data, error bars
      and the keywords given last; then the fits and components, then the resolution bars, and nothing else but titles, labels, limits, grid and legend. *)
  Theorem C75_draws1 : forall h p, Forall (distinct V) h -> exists ds fs bs rest,
    drawing1 h p = ds ++ fs ++ bs ++ rest /\
    Forall2 (fun c i => draws V c (as_given V h (curves i) i)) ds (scans_of V p h) /\
    Forall2 (draws V) fs (fits_of V text p h) /\
    Forall2 (draws_bar V capsize3) bs (bars_of V p h) /\
    Forall (decoration V) rest.
  Proof using.
    intros h p D. unfold drawing1. cbn [plot_1d fst]. do 4 eexists. split; [reflexivity|]. split; [|split; [|split]].
    - rewrite run_scans. induction (scans_of V p h); cbn [map]; constructor; auto. unfold draws, as_given. cbn [sh_err sh_x sh_y sh_fmt]. destruct (cu_err (curves a)); repeat split; auto; intros; apply kept_latest; auto.
    - pose proof (run_fits h p D) as F. induction F as [|a s l l' M]; cbn [map]; constructor; auto. destruct M as (E1 & E2 & E3 & E4). unfold draws. rewrite E3. auto.
    - pose proof (run_bars h p D) as F. pose proof (bars_distinct h p D) as N. rewrite map_map. revert N. induction F as [|a [[pos w] kw] l l' M]; cbn [map]; intros N; constructor; inversion N; subst; auto.
      destruct M as (E1 & E2 & E3). destruct (capped_same a) as [Q1 Q2]. unfold draws_bar. do 3 eexists. rewrite Q1, Q2, E2. split; [reflexivity|]. split; [|split].
      + rewrite <- surjective_pairing. destruct pos as [r|r]; cbn [bar_place fst] in *. { apply Ok_inj in E1. auto. } unfold bar_pos in E1. destruct (sget "s1_center" (mr_params r)) as [x|]; [|discriminate]. destruct (sget "s1_" (mr_components r x)) as [y|] eqn:EY; [|discriminate]. apply Ok_inj in E1.
        exists x, y. rewrite EY. repeat (split; [reflexivity|]). rewrite <- E1. rewrite ddel_filter; auto.
      + rewrite E3. unfold capsize_of. rewrite String.eqb_refl. destruct (sget "capsize" kw); auto.
      + intros k K. rewrite E3. unfold capsize_of. destruct (sget k kw); auto. destruct (String.eqb_spec k "capsize"); [contradiction|auto].
    - repeat (apply Forall_app; split); try (apply lims; cbn; auto).
      + destruct (last_title _ _); repeat constructor.
      + destruct (p1_xlabel _ _); repeat constructor.
      + destruct (p1_ylabel _ _); repeat constructor.
      + repeat constructor.
      + destruct (existsb _ _); repeat constructor.
  Qed.

  Lemma drawn_128 : forall E, exists pts, drawn eig E 128 = Ok pts.
  Proof using. intros E. unfold drawn, get_points, linspace. destruct (Z.ltb_spec 128 0); [lia|]. cbn [bind]. eauto. Qed.
  (** A 2D plot draws the meshes put on it, then the curves, then the outlines of the ellipses, each kind in order; curves are drawn with error bars and without their keywords. *)
  Theorem C75_draws2 : forall h p, Forall (distinct V) h -> exists cs us os rest,
    drawing2 h p = cs ++ us ++ os ++ rest /\
    Forall2 (fun c i => exists f, c = Colours V (me_x (meshes i)) (me_y (meshes i)) (me_z (meshes i)) f /\ forall k, sget k f = latest V h i k) cs (contours_of V p h) /\
    Forall2 (fun c i => c = ErrorBars V (cu_x (curves i)) (cu_y (curves i)) (cu_err (curves i)) []) us (curves_of V p h) /\
    Forall2 (fun c i => exists pts f, drawn eig (ellipses i) 128 = Ok pts /\ c = Outline V pts f /\ forall k, sget k f = latest V h i k) os (resos_of V p h) /\
    Forall (decoration V) rest.
  Proof using.
    intros h p D. unfold drawing2. cbn [plot_2d fst]. do 4 eexists. split; [reflexivity|]. destruct (run_meshes h p) as (-> & -> & ->). split; [|split; [|split]].
    - induction (contours_of V p h); cbn [map]; constructor; auto. eexists. split; [reflexivity|]. intros; apply kept_latest; auto.
    - induction (curves_of V p h); cbn [map]; constructor; auto.
    - induction (resos_of V p h) as [|i l IH]; cbn [map]; constructor; auto. destruct (drawn_128 (ellipses i)) as [pts E]. exists pts. eexists. split; [exact E|]. split; [unfold outline; rewrite E; reflexivity|]. intros; apply kept_latest; auto.
    - repeat (apply Forall_app; split); try (apply lims; cbn; auto).
      + destruct (last_title _ _); repeat constructor.
      + destruct (p2_xlabel _); repeat constructor.
      + destruct (p2_ylabel _); repeat constructor.
      + repeat constructor.
      + destruct (existsb _ _); repeat constructor.
  Qed.
  (** the mesh that is returned for a colour bar is the one put on last *)
  Theorem C75_returned : forall h p, snd (plot_2d (plots2 (run h) p) (kept (run h))) = hd_error (rev (contours_of V p h)).
  Proof using.
    intros. cbn [plot_2d snd]. destruct (run_meshes h p) as (-> & _ & _). induction (contours_of V p h) as [|a l IH] using rev_ind; auto. rewrite map_app, rev_app_distr. cbn. apply last_last.
  Qed.

  (** ** Decorations *)
  Lemma last_of : forall {A} (f : A -> option string) t l, last_title t (map f l) = match rev l with a :: _ => f a | [] => t end.
  Proof using. intros A f t l. induction l as [|a l _] using rev_ind; auto. rewrite map_app, rev_app_distr. cbn [map rev List.app]. apply last_title_app. Qed.
  Lemma in_lim : forall c f o, In c (lim1 V f o) <-> exists a b, o = Some (a, b) /\ c = f a b.
  Proof using. intros c f [[a b]|]; cbn; split; [intros [<-|[]]; eauto|intros (a' & b' & E & ->); injection E as -> ->; auto|intros []|intros (a' & b' & E & _); discriminate]. Qed.
  Lemma in_opt : forall (c : cmd) (g : string -> cmd) o, In c (match o with Some t => [g t] | None => [] end) <-> exists t, o = Some t /\ c = g t.
  Proof using. intros c g [t|]; cbn; split; [intros [<-|[]]; eauto|intros (a & E & ->); injection E as ->; auto|intros []|intros (a & E & _); discriminate]. Qed.
  Lemma in_none : forall (c x : cmd) (o : option string), In c (match o with None => [x] | Some _ => [] end) <-> o = None /\ c = x.
  Proof using. intros c x [t|]; cbn; split; [intros []|intros [E _]; discriminate|intros [<-|[]]; auto|intros [_ ->]; auto]. Qed.
  Lemma in_if : forall (c x : cmd) (b : bool), In c (if b then [x] else []) <-> b = true /\ c = x.
  Proof using. intros c x [|]; cbn; split; [intros [<-|[]]; auto|intros [_ ->]; auto|intros []|intros [E _]; discriminate]. Qed.
  (** everything a plot draws *)
  Lemma pieces1 : forall h p c, In c (drawing1 h p) <->
    (exists i, c = (match cu_err (curves i) with None => Line V (cu_x (curves i)) (cu_y (curves i)) (kept (run h) i) | Some e => ErrorBars V (cu_x (curves i)) (cu_y (curves i)) (Some e) (kept (run h) i) end) /\ In i (scans_of V p h)) \/
    (exists f, c = Line V (fc_x V f) (fc_y V f) (fc_fmt V f) /\ In f (p1_fits V (plots1 (run h) p))) \/
    (exists x y e f, c = Bar V x y e f /\ In c (map (fun b => Bar V (fst (rb_pos V b)) (snd (rb_pos V b)) (rb_fwhm V b / 2)%R (rb_fmt V b)) (map (capped V capsize3) (p1_bars V (plots1 (run h) p))))) \/
    (exists a b, ax_xlim (own_axes1 V p h) = Some (a, b) /\ c = XLim V a b) \/ (exists a b, ax_ylim (own_axes1 V p h) = Some (a, b) /\ c = YLim V a b) \/
    (exists t, match rev (scans_of V p h) with i :: _ => cu_title (curves i) | [] => own_title1 V p h end = Some t /\ c = Title V t) \/
    (ax_xlabel (own_axes1 V p h) = None /\ c = XLabel V (String.concat "," (arrange (map (fun i => cu_xlabel (curves i)) (scans_of V p h))))) \/
    (ax_ylabel (own_axes1 V p h) = None /\ c = YLabel V (String.concat "," (arrange (map (fun i => cu_ylabel (curves i)) (scans_of V p h))))) \/
    c = Grid V \/ (existsb (has_label V) (map (kept (run h)) (scans_of V p h) ++ map (fc_fmt V) (p1_fits V (plots1 (run h) p))) = true /\ c = Legend V 0).
  Proof using.
    intros h p c. unfold drawing1. cbn [plot_1d fst]. rewrite last_of, run_scans.
    assert (E : match rev (scans_of V p h) with [] => p1_title V (plots1 (run h) p) | i :: _ => cu_title (curves i) end = match rev (scans_of V p h) with i :: _ => cu_title (curves i) | [] => own_title1 V p h end).
    { destruct (rev (scans_of V p h)) eqn:R; auto. apply run_title1. apply (f_equal (@rev nat)) in R. rewrite rev_involutive in R. auto. }
    rewrite E. clear E. destruct (run_axes h p) as [<- _]. cbn [axes1 ax_xlim ax_ylim ax_xlabel ax_ylabel]. rewrite !in_app_iff, !in_lim, !in_none, in_opt, in_if.
    assert (G : In c [Grid V] <-> c = Grid V) by (cbn; intuition congruence). rewrite G. clear G.
    assert (B : forall l, In c (map (fun b => Bar V (fst (rb_pos V b)) (snd (rb_pos V b)) (rb_fwhm V b / 2)%R (rb_fmt V b)) l) <-> exists x y e f, c = Bar V x y e f /\ In c (map (fun b => Bar V (fst (rb_pos V b)) (snd (rb_pos V b)) (rb_fwhm V b / 2)%R (rb_fmt V b)) l)).
    { intros l. split; [|intros (x & y & e & f & _ & I); auto]. intros I. pose proof I as I'. apply in_map_iff in I'. destruct I' as (b & <- & _). do 4 eexists. split; [reflexivity|auto]. }
    rewrite B. clear B.
    assert (M1 : forall {A} (g : A -> cmd) l, In c (map g l) <-> exists a, c = g a /\ In a l). { intros A g l. rewrite in_map_iff. split; intros (a & H & I); exists a; auto. }
    rewrite (M1 nat), (M1 (fit_curve V)). reflexivity.
  Qed.
  Lemma pieces2 : forall h p c, In c (drawing2 h p) <->
    (exists i, c = Colours V (me_x (meshes i)) (me_y (meshes i)) (me_z (meshes i)) (kept (run h) i) /\ In i (contours_of V p h)) \/
    (exists i, c = ErrorBars V (cu_x (curves i)) (cu_y (curves i)) (cu_err (curves i)) [] /\ In i (curves_of V p h)) \/
    (exists i, c = Outline V (outline ellipses eig i) (kept (run h) i) /\ In i (resos_of V p h)) \/
    (exists a b, ax_xlim (own_axes2 V p h) = Some (a, b) /\ c = XLim V a b) \/ (exists a b, ax_ylim (own_axes2 V p h) = Some (a, b) /\ c = YLim V a b) \/
    (exists t, match rev (contours_of V p h) with i :: _ => me_title (meshes i) | [] => own_title2 V p h end = Some t /\ c = Title V t) \/
    (ax_xlabel (own_axes2 V p h) = None /\ c = XLabel V (label_set (match resos_of V p h with [] => map (fun i => me_xlabel (meshes i)) (contours_of V p h) | l => map (fun i => Some (fst (ee_labels (ellipses i)))) l end))) \/
    (ax_ylabel (own_axes2 V p h) = None /\ c = YLabel V (label_set (match resos_of V p h with [] => map (fun i => me_ylabel (meshes i)) (contours_of V p h) | l => map (fun i => Some (snd (ee_labels (ellipses i)))) l end))) \/
    c = Grid V \/ (existsb (has_label V) (map (kept (run h)) (contours_of V p h ++ resos_of V p h ++ curves_of V p h)) = true /\ c = Legend V 1).
  Proof using.
    intros h p c. unfold drawing2. cbn [plot_2d fst]. rewrite last_of. destruct (run_meshes h p) as (-> & -> & ->).
    assert (E : match rev (contours_of V p h) with [] => p2_title (plots2 (run h) p) | i :: _ => me_title (meshes i) end = match rev (contours_of V p h) with i :: _ => me_title (meshes i) | [] => own_title2 V p h end).
    { destruct (rev (contours_of V p h)) eqn:R; auto. apply run_title2. apply (f_equal (@rev nat)) in R. rewrite rev_involutive in R. auto. }
    rewrite E. clear E. destruct (run_axes h p) as [_ <-]. cbn [axes2 ax_xlim ax_ylim ax_xlabel ax_ylabel]. rewrite !in_app_iff, !in_lim, !in_none, in_opt, in_if.
    assert (G : In c [Grid V] <-> c = Grid V) by (cbn; intuition congruence). rewrite G. clear G.
    assert (M1 : forall {A} (g : A -> cmd) l, In c (map g l) <-> exists a, c = g a /\ In a l). { intros A g l. rewrite in_map_iff. split; intros (a & H & I); exists a; auto. }
    rewrite !(M1 nat). reflexivity.
  Qed.
  Ltac which H := destruct H as [(? & H & _)|[(? & H & _)|[(? & H)|[(? & ? & H)|[(? & ? & H)|[(? & H)|[H|[H|[H|H]]]]]]]]]; [try (destruct (cu_err _)); try discriminate H|..]; try discriminate H;
    try (destruct H as (? & ? & ? & H & _); discriminate H); try (destruct H as [H _]; discriminate H); try (destruct H as [_ H]; discriminate H).
  (** The title is that of the curve (mesh) put on last; the one the user gave if there is none. *)
  Theorem C75_title1 : forall h p t, In (Title V t) (drawing1 h p) <-> match rev (scans_of V p h) with i :: _ => cu_title (curves i) | [] => own_title1 V p h end = Some t.
  Proof using.
    intros h p t. rewrite pieces1. split; intros H.
    - which H. destruct H as [H E]. injection E as ->. auto.
    - do 5 right. left. eauto.
  Qed.
  Theorem C75_title2 : forall h p t, In (Title V t) (drawing2 h p) <-> match rev (contours_of V p h) with i :: _ => me_title (meshes i) | [] => own_title2 V p h end = Some t.
  Proof using.
    intros h p t. rewrite pieces2. split; intros H.
    - which H. destruct H as [H E]. injection E as ->. auto.
    - do 5 right. left. eauto.
  Qed.
  (** The axes are limited as the user last asked, and only then. *)
  Theorem C75_limits : forall h p a b,
    (In (XLim V a b) (drawing1 h p) <-> ax_xlim (own_axes1 V p h) = Some (a, b)) /\ (In (YLim V a b) (drawing1 h p) <-> ax_ylim (own_axes1 V p h) = Some (a, b)) /\
    (In (XLim V a b) (drawing2 h p) <-> ax_xlim (own_axes2 V p h) = Some (a, b)) /\ (In (YLim V a b) (drawing2 h p) <-> ax_ylim (own_axes2 V p h) = Some (a, b)).
  Proof using.
    intros h p a b. rewrite !pieces1, !pieces2. repeat split; intros H; try (which H; destruct H as [H E]; injection E as -> ->; auto; fail).
    - do 3 right. left. eauto. - do 4 right. left. eauto. - do 3 right. left. eauto. - do 4 right. left. eauto.
  Qed.
  (** A plot whose axes the user did not name names them after the curves on it: every different name, once. If the user named them, no name is drawn. *)
  Theorem C75_labels1 : (forall l, NoDup (arrange l) /\ forall s, In s (arrange l) <-> In s l) -> forall h p,
    (forall t, In (XLabel V t) (drawing1 h p) -> joins "," (map (fun i => cu_xlabel (curves i)) (scans_of V p h)) t) /\
    (forall t, In (YLabel V t) (drawing1 h p) -> joins "," (map (fun i => cu_ylabel (curves i)) (scans_of V p h)) t) /\
    ((exists t, In (XLabel V t) (drawing1 h p)) <-> ax_xlabel (own_axes1 V p h) = None) /\
    ((exists t, In (YLabel V t) (drawing1 h p)) <-> ax_ylabel (own_axes1 V p h) = None).
  Proof using.
    intros A h p. split; [|split; [|split]].
    - intros t H. rewrite pieces1 in H. which H. destruct H as [_ E]. injection E as ->. eexists. split; [reflexivity|]. apply A.
    - intros t H. rewrite pieces1 in H. which H. destruct H as [_ E]. injection E as ->. eexists. split; [reflexivity|]. apply A.
    - split; [intros (t & H); rewrite pieces1 in H; which H; tauto|]. intros H. eexists. rewrite pieces1. do 6 right. left. auto.
    - split; [intros (t & H); rewrite pieces1 in H; which H; tauto|]. intros H. eexists. rewrite pieces1. do 7 right. left. auto.
  Qed.
  Lemma label_set_spec : forall l, exists ls, label_set l = String.concat ", " ls /\ StronglySorted sle ls /\ NoDup ls /\ forall s, In s ls <-> In s (present l).
  Proof using.
    intros l. eexists. split; [reflexivity|]. split; [apply sort_sorted|]. split; [apply sort_nodup, NoDup_nodup|]. intros s. rewrite sort_in, nodup_In. reflexivity.
  Qed.
  (** On a 2D plot the names come from the ellipses, from the meshes if there are none, sorted. *)
  Theorem C75_labels2 : forall h p,
    (forall t, In (XLabel V t) (drawing2 h p) -> exists ls, t = String.concat ", " ls /\ StronglySorted sle ls /\ NoDup ls /\ forall s, In s ls <->
      (exists i, In i (resos_of V p h) /\ fst (ee_labels (ellipses i)) = s) \/ resos_of V p h = [] /\ exists i, In i (contours_of V p h) /\ me_xlabel (meshes i) = Some s) /\
    (forall t, In (YLabel V t) (drawing2 h p) -> exists ls, t = String.concat ", " ls /\ StronglySorted sle ls /\ NoDup ls /\ forall s, In s ls <->
      (exists i, In i (resos_of V p h) /\ snd (ee_labels (ellipses i)) = s) \/ resos_of V p h = [] /\ exists i, In i (contours_of V p h) /\ me_ylabel (meshes i) = Some s) /\
    ((exists t, In (XLabel V t) (drawing2 h p)) <-> ax_xlabel (own_axes2 V p h) = None) /\
    ((exists t, In (YLabel V t) (drawing2 h p)) <-> ax_ylabel (own_axes2 V p h) = None).
  Proof using.
    intros h p.
    assert (P : forall (f : nat -> string) (g : nat -> option string) s, In s (present (match resos_of V p h with [] => map g (contours_of V p h) | l => map (fun i => Some (f i)) l end)) <->
        (exists i, In i (resos_of V p h) /\ f i = s) \/ resos_of V p h = [] /\ exists i, In i (contours_of V p h) /\ g i = Some s).
    { intros f g s. assert (Q : forall l : list (option string), In s (present l) <-> In (Some s) l).
      { intros l. unfold present. rewrite in_flat_map. split; [intros ([a|] & I & J); cbn in J; [destruct J as [->|[]]; auto|destruct J]|intros I; exists (Some s); cbn; auto]. }
      rewrite Q. destruct (resos_of V p h) as [|a l].
      - rewrite in_map_iff. split; [intros (i & E & I); right; split; auto; exists i; auto|]. intros [(i & [] & _)|(_ & i & I & E)]. exists i. auto.
      - rewrite in_map_iff. split; [intros (i & E & I); left; exists i; split; [exact I|congruence]|]. intros [(i & I & E)|(E & _)]; [|discriminate]. exists i. split; [congruence|exact I]. }
    split; [|split; [|split]].
    - intros t H. rewrite pieces2 in H. which H. destruct H as [_ E]. injection E as ->. match goal with |- context [label_set ?l] => destruct (label_set_spec l) as (ls & E1 & E2 & E3 & E4) end. exists ls. split; [exact E1|]. split; [exact E2|]. split; [exact E3|]. intros s. rewrite E4. apply P.
    - intros t H. rewrite pieces2 in H. which H. destruct H as [_ E]. injection E as ->. match goal with |- context [label_set ?l] => destruct (label_set_spec l) as (ls & E1 & E2 & E3 & E4) end. exists ls. split; [exact E1|]. split; [exact E2|]. split; [exact E3|]. intros s. rewrite E4. apply P.
    - split; [intros (t & H); rewrite pieces2 in H; which H; tauto|]. intros H. eexists. rewrite pieces2. do 6 right. left. auto.
    - split; [intros (t & H); rewrite pieces2 in H; which H; tauto|]. intros H. eexists. rewrite pieces2. do 7 right. left. auto.
  Qed.
  (** A legend is drawn exactly if one of the curves drawn has a label. *)
  Theorem C75_legend : forall h p, (exists n, In (Legend V n) (drawing1 h p)) <-> exists c f v, In c (drawing1 h p) /\ curve_fmt V c = Some f /\ sget "label" f = Some v.
  Proof using.
    intros h p. assert (L : forall f, has_label V f = true <-> exists v, sget "label" f = Some v). { intros f. unfold has_label. destruct (sget "label" f); split; eauto; try discriminate. intros (v & E). discriminate. }
    assert (X : existsb (has_label V) (map (kept (run h)) (scans_of V p h) ++ map (fc_fmt V) (p1_fits V (plots1 (run h) p))) = true <-> exists c f v, In c (drawing1 h p) /\ curve_fmt V c = Some f /\ sget "label" f = Some v).
    { rewrite existsb_exists. split.
      - intros (f & I & H). apply L in H. destruct H as [v H]. apply in_app_iff in I. destruct I as [I|I]; apply in_map_iff in I; destruct I as (i & <- & I).
        + eexists. exists (kept (run h) i), v. split; [apply pieces1; left; exists i; split; [reflexivity|auto]|]. split; auto. destruct (cu_err (curves i)); auto.
        + eexists. exists (fc_fmt V i), v. split; [apply pieces1; right; left; exists i; split; [reflexivity|auto]|]. split; auto.
      - intros (c & f & v & I & F & H). rewrite pieces1 in I. destruct I as [(i & -> & I)|[(i & -> & I)|[(? & ? & ? & ? & -> & _)|[(? & ? & _ & ->)|[(? & ? & _ & ->)|[(? & _ & ->)|[(_ & ->)|[(_ & ->)|[->|(_ & ->)]]]]]]]]]; try discriminate F.
        + exists f. rewrite in_app_iff, L. split; [|eauto]. left. destruct (cu_err (curves i)); injection F as <-; apply in_map; auto.
        + exists f. rewrite in_app_iff, L. split; [|eauto]. right. injection F as <-. apply in_map. auto. }
    rewrite <- X. split; [intros (n & H); rewrite pieces1 in H; which H; tauto|]. intros H. exists 0%nat. apply pieces1. do 9 right. auto.
  Qed.

  (** ** Drawing changes nothing that is seen later *)
  Definition like1 (P Q : plot1) : Prop := p1_scans V P = p1_scans V Q /\ p1_fits V P = p1_fits V Q /\ map (capped V capsize3) (p1_bars V P) = map (capped V capsize3) (p1_bars V Q) /\ axes1 P = axes1 Q /\ (p1_scans V P = [] -> p1_title V P = p1_title V Q).
  Definition like2 (P Q : plot2) : Prop := p2_contours P = p2_contours Q /\ p2_curves P = p2_curves Q /\ p2_resos P = p2_resos Q /\ axes2 P = axes2 Q /\ (p2_contours P = [] -> p2_title P = p2_title Q).
  Definition alike (w v : world) : Prop := (forall p, like1 (plots1 w p) (plots1 v p)) /\ (forall p, like2 (plots2 w p) (plots2 v p)) /\ kept w = kept v.
  Lemma put_like1 : forall p P Q f g, like1 P Q -> (forall q, like1 (f q) (g q)) -> forall q, like1 (put p P f q) (put p Q g q).
  Proof using. intros p P Q f g H F q. rewrite !put_at. destruct (Nat.eqb p q); auto. Qed.
  Lemma put_like2 : forall p P Q f g, like2 P Q -> (forall q, like2 (f q) (g q)) -> forall q, like2 (put p P f q) (put p Q g q).
  Proof using. intros p P Q f g H F q. rewrite !put_at. destruct (Nat.eqb p q); auto. Qed.
  Lemma axes1_eq : forall P Q, axes1 P = axes1 Q -> p1_xlabel V P = p1_xlabel V Q /\ p1_ylabel V P = p1_ylabel V Q /\ p1_xlim V P = p1_xlim V Q /\ p1_ylim V P = p1_ylim V Q.
  Proof using. intros P Q E. unfold axes1 in E. injection E as -> -> -> ->. auto. Qed.
  Lemma axes2_eq : forall P Q, axes2 P = axes2 Q -> p2_xlabel P = p2_xlabel Q /\ p2_ylabel P = p2_ylabel Q /\ p2_xlim P = p2_xlim Q /\ p2_ylim P = p2_ylim Q.
  Proof using. intros P Q E. unfold axes2 in E. injection E as -> -> -> ->. auto. Qed.
  Lemma title_like : forall t u l, (l = [] -> t = u) -> last_title t l = last_title u l.
  Proof using. intros t u l H. induction l as [|a l _] using rev_ind; [apply H; auto|]. rewrite !last_title_app. auto. Qed.
  Lemma like1_plot : forall P Q s, like1 P Q -> fst (plot_1d P s) = fst (plot_1d Q s).
  Proof using.
    intros P Q s (E1 & E2 & E3 & E4 & E5). apply axes1_eq in E4. destruct E4 as (A1 & A2 & A3 & A4). cbn [plot_1d fst]. rewrite A1, A2, A3, A4, E1, E2, E3.
    rewrite (title_like (p1_title V P) (p1_title V Q)); auto. intros N. apply map_eq_nil in N. apply E5. congruence.
  Qed.
  Lemma like1_after : forall P s, like1 (snd (plot_1d P s)) P.
  Proof using.
    intros P s. cbn [plot_1d snd]. unfold like1. cbn [p1_scans p1_fits p1_bars p1_title axes1 p1_xlabel p1_ylabel p1_xlim p1_ylim]. split; [|split; [|split; [|split]]]; auto.
    - rewrite map_map. apply map_ext. apply capped_twice. - intros ->. reflexivity.
  Qed.
  Lemma like2_plot : forall P Q s, like2 P Q -> fst (fst (plot_2d P s)) = fst (fst (plot_2d Q s)).
  Proof using.
    intros P Q s (E1 & E2 & E3 & E4 & E5). apply axes2_eq in E4. destruct E4 as (A1 & A2 & A3 & A4). cbn [plot_2d fst snd]. rewrite A1, A2, A3, A4, E1, E2, E3.
    rewrite (title_like (p2_title P) (p2_title Q)); auto. intros N. apply map_eq_nil in N. apply E5. congruence.
  Qed.
  Lemma like2_after : forall P s, like2 (snd (fst (plot_2d P s))) P.
  Proof using. intros P s. cbn [plot_2d fst snd]. unfold like2. cbn [p2_contours p2_curves p2_resos p2_title axes2 p2_xlabel p2_ylabel p2_xlim p2_ylim]. split; [|split; [|split; [|split]]]; auto. intros ->. reflexivity. Qed.
  Lemma like1_sym : forall P Q, like1 P Q -> like1 Q P.
  Proof using. intros P Q (E1 & E2 & E3 & E4 & E5). split; [|split; [|split; [|split]]]; auto. intros N. symmetry. apply E5. congruence. Qed.
  Lemma like2_sym : forall P Q, like2 P Q -> like2 Q P.
  Proof using. intros P Q (E1 & E2 & E3 & E4 & E5). split; [|split; [|split; [|split]]]; auto. intros N. symmetry. apply E5. congruence. Qed.
  Lemma like1_trans : forall P Q R, like1 P Q -> like1 Q R -> like1 P R.
  Proof using. intros P Q R (E1 & E2 & E3 & E4 & E5) (F1 & F2 & F3 & F4 & F5). split; [|split; [|split; [|split]]]; try congruence. intros N. rewrite E5, F5; congruence. Qed.
  Lemma like2_trans : forall P Q R, like2 P Q -> like2 Q R -> like2 P R.
  Proof using. intros P Q R (E1 & E2 & E3 & E4 & E5) (F1 & F2 & F3 & F4 & F5). split; [|split; [|split; [|split]]]; try congruence. intros N. rewrite E5, F5; congruence. Qed.
  Lemma alike_step : forall w v o, alike w v -> alike (step w o) (step v o).
  Proof using.
    intros w v o (A & B & K).
    assert (T : forall p r r', (match r, r' with Ok P, Ok Q => like1 P Q | Err _, Err _ => True | _, _ => False end) -> alike (try1 w p r) (try1 v p r')).
    { intros p [P|e] [Q|e'] H; try contradiction; (split; [|split]); cbn [try1 plots1 plots2 kept]; auto. apply put_like1; auto. }
    assert (SN : forall {A} (l : list A) a, l ++ [a] <> []) by (intros X l a N; apply app_eq_nil in N; destruct N; discriminate).
    destruct o as [q i kw|q f x d kw|q f x kw|q pos b kw|q|q t|q i kw|q i kw|q i kw|q|q t|q a|q a]; cbn [step add_scan add_contour add_curve].
    - pose proof (A q) as (E1 & E2 & E3 & E4 & E5). pose proof (axes1_eq _ _ E4) as (A1 & A2 & A3 & A4). split; [|split]; cbn [plots1 plots2 kept]; auto; [|congruence]. apply put_like1; auto. unfold like1. cbn [p1_scans p1_fits p1_bars p1_title axes1 p1_xlabel p1_ylabel p1_xlim p1_ylim].
      split; [|split; [|split; [|split]]]; try congruence. all: try exact E4. all: try (intros N; destruct (SN _ _ _ N)).
    - apply T. pose proof (A q) as (E1 & E2 & E3 & E4 & E5). unfold add_fit. destruct (match fi_result f with None => _ | Some _ => _ end); cbn [bind]; auto. unfold like1, with_fits. cbn [p1_scans p1_fits p1_bars p1_title]. split; [|split; [|split; [|split]]]; try congruence; auto. all: try exact E4.
    - apply T. pose proof (A q) as (E1 & E2 & E3 & E4 & E5). unfold add_fit_components. destruct (fi_result f); [|exact (A q)]. destruct (forallb _ _); auto. destruct (mapM _ _); cbn [bind]; auto. unfold like1, with_fits. cbn [p1_scans p1_fits p1_bars p1_title]. split; [|split; [|split; [|split]]]; try congruence; auto. all: try exact E4.
    - apply T. pose proof (A q) as (E1 & E2 & E3 & E4 & E5). unfold add_reso_bar. destruct (match pos with inl _ => _ | inr _ => _ end); cbn [bind]; auto. unfold like1. cbn [p1_scans p1_fits p1_bars p1_title]. rewrite !map_app, E3. split; [|split; [|split; [|split]]]; try congruence; auto. all: try exact E4.
    - split; [|split]; cbn [plots1 plots2 kept]; auto. apply put_like1; auto. eapply like1_trans; [apply like1_after|]. eapply like1_trans; [apply A|]. apply like1_sym, like1_after.
    - pose proof (A q) as (E1 & E2 & E3 & E4 & E5). split; [|split]; cbn [plots1 plots2 kept]; auto. apply put_like1; auto. split; [|split; [|split; [|split]]]; auto.
    - pose proof (B q) as (E1 & E2 & E3 & E4 & E5). pose proof (axes2_eq _ _ E4) as (A1 & A2 & A3 & A4). split; [|split]; cbn [plots1 plots2 kept]; auto; [|congruence]. apply put_like2; auto. unfold like2. cbn [p2_contours p2_curves p2_resos p2_title]. split; [|split; [|split; [|split]]]; try congruence; try exact E4. all: try exact E4. all: try (intros N; destruct (SN _ _ _ N)).
    - pose proof (B q) as (E1 & E2 & E3 & E4 & E5). split; [|split]; cbn [plots1 plots2 kept]; auto; [|congruence]. apply put_like2; auto. unfold like2. cbn [p2_contours p2_curves p2_resos p2_title]. split; [|split; [|split; [|split]]]; try congruence; try exact E4; auto.
    - pose proof (B q) as (E1 & E2 & E3 & E4 & E5). destruct i as [i|]; cbn [add_reso]; split; cbn [plots1 plots2 kept]; auto; split; auto; try congruence; apply put_like2; auto. unfold like2. cbn [p2_contours p2_curves p2_resos p2_title]. split; [|split; [|split; [|split]]]; try congruence; try exact E4; auto.
    - split; [|split]; cbn [plots1 plots2 kept]; auto. apply put_like2; auto. eapply like2_trans; [apply like2_after|]. eapply like2_trans; [apply B|]. apply like2_sym, like2_after.
    - pose proof (B q) as (E1 & E2 & E3 & E4 & E5). split; [|split]; cbn [plots1 plots2 kept]; auto. apply put_like2; auto. split; [|split; [|split; [|split]]]; auto.
    - pose proof (A q) as (E1 & E2 & E3 & E4 & E5). split; [|split]; cbn [plots1 plots2 kept]; auto. apply put_like1; auto. split; [|split; [|split; [|split]]]; auto.
    - pose proof (B q) as (E1 & E2 & E3 & E4 & E5). split; [|split]; cbn [plots1 plots2 kept]; auto. apply put_like2; auto. split; [|split; [|split; [|split]]]; auto.
  Qed.
  Lemma alike_show : forall w o, (match o with Show1 _ _ | Show2 _ _ => True | _ => False end) -> alike (step w o) w.
  Proof using.
    assert (R1 : forall P, like1 P P) by (intros; repeat split; auto). assert (R2 : forall P, like2 P P) by (intros; repeat split; auto).
    intros w o O. destruct o; try contradiction; cbn [step]; (split; [|split]); cbn [plots1 plots2 kept]; auto; intros q; rewrite put_at; destruct (Nat.eqb_spec p q); subst; auto.
    - apply like1_after. - apply like2_after.
  Qed.
  (** Drawing any plot, at any time, changes nothing in what any plot draws later. *)
  Theorem C75_showing : forall h o h' p, (match o with Show1 _ _ | Show2 _ _ => True | _ => False end) -> drawing1 (h ++ o :: h') p = drawing1 (h ++ h') p /\ drawing2 (h ++ o :: h') p = drawing2 (h ++ h') p.
  Proof using.
    intros h o h' p O. assert (A : alike (run (h ++ o :: h')) (run (h ++ h'))).
    { unfold run. rewrite !fold_left_app. cbn [fold_left]. fold (run h). assert (G : forall l w v, alike w v -> alike (fold_left step l w) (fold_left step l v)) by (intros l; induction l as [|o' l IH]; intros w v H; auto; cbn [fold_left]; apply IH, alike_step; auto). apply G, alike_show, O. }
    destruct A as (A1 & A2 & A3). split; unfold drawing1, drawing2; rewrite A3; [apply like1_plot|apply like2_plot]; auto.
  Qed.

  (** ** What does not hold *)
  (** A title the user gave is not drawn once there is a curve: its own title takes its place, even None. *)
  Theorem C75_title_refuted : ~ (forall h p t, own_title1 V p h = Some t -> In (Title V t) (drawing1 h p)).
  Proof using.
    intros H. assert (E : exists t, cu_title (curves 0) <> Some t). { destruct (cu_title (curves 0)) as [u|]; [|exists ""; discriminate]. destruct (string_dec u "a"); [subst; exists "b"; discriminate|exists "a"; congruence]. }
    destruct E as [t E]. specialize (H [AddScan V 0 0 []; SetTitle1 V 0 (Some t)] 0%nat t eq_refl). apply C75_title1 in H. contradiction.
  Qed.
  (** A name the user gave to an axis is never drawn. *)
  Theorem C75_label_refuted : forall h p l, (ax_xlabel (own_axes1 V p h) = Some l -> ~ In (XLabel V l) (drawing1 h p)) /\ (ax_xlabel (own_axes2 V p h) = Some l -> ~ In (XLabel V l) (drawing2 h p)).
  Proof using. intros h p l. split; intros E H; [rewrite pieces1 in H|rewrite pieces2 in H]; which H; destruct H; congruence. Qed.
  (** The keywords given for a curve on one plot are not those it is drawn with there, if it is put on another plot as well. *)
  Theorem C75_keywords_refuted : forall v w : V, v <> w ->
    ~ (forall h p i kw, In (AddScan V p i kw) h -> NoDup (scans_of V p h) -> (forall c f, In c (drawing1 h p) -> curve_fmt V c = Some f -> forall k u, sget k kw = Some u -> sget k f = Some u)).
  Proof using.
    intros v w N H. set (h := [AddScan V 0 0 [("color", v)]; AddScan V 1 0 [("color", w)]]).
    assert (I : In (match cu_err (curves 0) with None => Line V (cu_x (curves 0)) (cu_y (curves 0)) (kept (run h) 0%nat) | Some e => ErrorBars V (cu_x (curves 0)) (cu_y (curves 0)) (Some e) (kept (run h) 0%nat) end) (drawing1 h 0)).
    { apply pieces1. left. exists 0%nat. split; [reflexivity|]. left. reflexivity. }
    specialize (H h 0%nat 0%nat [("color", v)] (or_introl eq_refl)). assert (ND : NoDup (scans_of V 0 h)) by (cbn; constructor; [intros []|constructor]).
    specialize (H ND _ (kept (run h) 0%nat) I). assert (F : curve_fmt V (match cu_err (curves 0) with None => Line V (cu_x (curves 0)) (cu_y (curves 0)) (kept (run h) 0%nat) | Some e => ErrorBars V (cu_x (curves 0)) (cu_y (curves 0)) (Some e) (kept (run h) 0%nat) end) = Some (kept (run h) 0%nat)) by (destruct (cu_err (curves 0)); auto).
    specialize (H F "color" v eq_refl). cbn in H. congruence.
  Qed.
  (** Curves on a 2D plot are never drawn with the keywords given for them. *)
  Theorem C75_curve_refuted : forall v : V, ~ (forall h p i kw, In (AddCurve V p i kw) h -> exists c f, In c (drawing2 h p) /\ curve_fmt V c = Some f /\ forall k u, sget k kw = Some u -> sget k f = Some u).
  Proof using.
    intros v H. destruct (H [AddCurve V 0 0 [("color", v)]] 0%nat 0%nat [("color", v)] (or_introl eq_refl)) as (c & f & I & F & K). specialize (K "color" v eq_refl).
    rewrite pieces2 in I. destruct I as [(i & -> & I)|[(i & -> & I)|[(i & -> & I)|[(? & ? & _ & ->)|[(? & ? & _ & ->)|[(? & _ & ->)|[(_ & ->)|[(_ & ->)|[->|(_ & ->)]]]]]]]]]; try discriminate F. injection F as <-. discriminate K.
  Qed.
End Run.
Print Assumptions C75_draws1.
Print Assumptions C75_draws2.
Print Assumptions C75_returned.
Print Assumptions C75_title1.
Print Assumptions C75_title2.
Print Assumptions C75_limits.
Print Assumptions C75_labels1.
Print Assumptions C75_labels2.
Print Assumptions C75_legend.
Print Assumptions C75_showing.
Print Assumptions C75_title_refuted.
Print Assumptions C75_label_refuted.
Print Assumptions C75_keywords_refuted.
Print Assumptions C75_curve_refuted.

(** A case that meets the hypotheses: a scan put on twice, a fit, a bar placed by the fit, and the plot drawn in between. *)
Definition ex_fit : fitted := Fitted [Some 0%R; Some 1%R] (fun x => x) (Some (fun x => x)) None (fun x => [("s1_", x); ("b1_", x)]).
Definition ex_result : model_result := ModelResult [("s1_center", Some 0%R)] (fun _ => [("b1_", Some 1%R); ("s1_", Some 4%R)]).
Definition ex_history : list (op string) :=
  [AddScan string 0 0 [("fmt", "o"); ("label", "first")]; AddFit string 0 ex_fit None false [("label", "fit")]; Show1 string 0; AddComponents string 0 ex_fit None [("color", ["C0"; "C1"])];
   AddBar string 0 (inr ex_result) 1%R [("color", "C3")]; AddScan string 0 0 [("color", "C2")]].
Example C75_example : Forall (distinct string) ex_history /\ scans_of string 0 ex_history = [0; 0]%nat /\ List.length (fits_of string (fun s => s) 0 ex_history) = 3%nat /\ List.length (bars_of string 0 ex_history) = 1%nat /\
  latest string ex_history 0 "fmt" = Some "o" /\ latest string ex_history 0 "color" = Some "C2".
Proof.
  split; [|cbn; auto 10]. repeat constructor; cbn; try (intros [?|[]]; discriminate); try tauto; intros; repeat constructor; cbn; try (intros [?|[]]; discriminate); tauto.
Qed.
