(** Property C65, continued: what is read from a UB configuration file. *)
From Coq Require Import Reals List ZArith String Ascii Bool Lia Lra.
From Verif Require Import Base PyStr M_ScanData M_Project M_Spice M_Load S_Str L_Str P_Spice P_UBConf P_Load P_Load2.
Import ListNotations.
Open Scope string_scope.
Open Scope list_scope.

(** * Specification *)
Definition line_feed : string := String (ascii_of_nat 10) "".
Definition empty_quotes : string := String quote (String quote "").
(** Blank lines and lines whose text begins with a bracket say nothing. *)
Definition quiet (line : string) : Prop := trimmed line "" \/ exists r, trimmed line ("[" ++ r)%string.
(** The line reads [key=val], with one equals sign; spaces beside it belong to the key and the value. *)
Definition assigns (line key val : string) : Prop :=
  trimmed line (key ++ "=" ++ val)%string /\ every (fun c => c <> "="%char) key /\ every (fun c => c <> "="%char) val /\
  forall r, (key ++ "=" ++ val)%string <> ("[" ++ r)%string.
Section Spec.
  Context (float_of : string -> option R) (int_of : string -> option Z) (xml_last : list string -> option (option string)).
  (** What a line sets, given the line before it. *)
  Inductive sets (prev line : string) : option (string * uval) -> Prop :=
  | sets_quiet : quiet line -> sets prev line None
  | sets_ubmode : forall v z, assigns line "Mode" v -> trimmed prev "[UBMode]" -> int_of v = Some z -> sets prev line (Some ("UBMode", UInt z))
  | sets_anglemode : forall v z, assigns line "Mode" v -> trimmed prev "[AngleMode]" -> int_of v = Some z -> sets prev line (Some ("AngleMode", UInt z))
  | sets_mode : forall v, assigns line "Mode" v -> ~ trimmed prev "[UBMode]" -> ~ trimmed prev "[AngleMode]" -> sets prev line None
  | sets_empty : forall k, k <> "Mode" -> assigns line k empty_quotes -> sets prev line None
  | sets_value : forall k v x, k <> "Mode" -> assigns line k v -> stands_for float_of v x -> (forall s, x <> UStr s) -> sets prev line (Some (k, x)).
  (** The value of [k] in the file: in an ini file the last one set; in an XML file the nine numbers of the last matrix. *)
  Inductive file_value (content : list string) : string -> uval -> Prop :=
  | fv_ini : forall l1 prev line l2 k x, hd_error content = Some ("[UBMode]" ++ line_feed)%string -> content = l1 ++ prev :: line :: l2 ->
      sets prev line (Some (k, x)) -> (forall m1 p y m2 x', line :: l2 = m1 ++ p :: y :: m2 -> ~ sets p y (Some (k, x'))) -> file_value content k x
  | fv_xml : forall m ws first rest xs, hd_error content <> Some ("[UBMode]" ++ line_feed)%string -> xml_last content = Some (Some m) ->
      pieces " " m ws -> ws = first ++ rest -> List.length first = 9%nat -> Forall2 (fun s x => float_of s = Some x) first xs ->
      file_value content "UBMatrix" (UVec xs).
End Spec.

(** * Proofs *)
Section LoadUB.
  Context (float_of : string -> option R) (int_of : string -> option Z) (xml_last : list string -> option (option string)).
  Notation sets := (sets float_of int_of).
  Notation ub_line := (ub_line float_of int_of).
  Notation ub_loop := (ub_loop float_of int_of).
  Definition apply_set (e : option (string * uval)) (u : ubdict) : ubdict := match e with Some (k, x) => dset String.eqb k x u | None => u end.

  Lemma starts_with_iff : forall c s, starts_with c s = true <-> exists r, s = String c r.
  Proof.
    intros c [|a s]; cbn; [split; [discriminate|intros [r H]; discriminate]|]. rewrite Ascii.eqb_eq. split; [intros ->; eauto|intros [r H]; congruence].
  Qed.
  Lemma assigns_fun : forall line k v k' v', assigns line k v -> assigns line k' v' -> k = k' /\ v = v'.
  Proof.
    intros line k v k' v' (T & K & _) (T' & K' & _). apply trimmed_iff in T, T'. rewrite <- T' in T. cbn [append] in T.
    apply (first_sep_unique "="%char); auto.
  Qed.
  Lemma quiet_assigns : forall line k v, quiet line -> ~ assigns line k v.
  Proof.
    intros line k v [T|[r T]] (T' & _ & _ & H); apply trimmed_iff in T, T'; rewrite <- T' in T.
    - destruct k; discriminate.
    - now apply (H r).
  Qed.
  Lemma rstrip_quotes : forall c t b, every (fun d => d = c) b -> rstrip c (t ++ b) = rstrip c t.
  Proof.
    induction t as [|a t IH]; intros b Hb; cbn [append rstrip].
    - induction b as [|a b IHb]; auto. cbn [rstrip]. apply every_cons in Hb as [-> Hb]. rewrite (IHb Hb). cbn [rstrip]. now rewrite Ascii.eqb_refl.
    - now rewrite IH.
  Qed.
  Lemma rstrip_id : forall c t, (forall r, t <> (r ++ String c "")%string) -> rstrip c t = t.
  Proof.
    induction t as [|a t IH]; intros H; auto. cbn [rstrip]. destruct t as [|b t].
    - cbn [rstrip]. destruct (Ascii.eqb_spec c a) as [->|]; auto. now destruct (H "").
    - rewrite IH; auto. intros r E. apply (H (String a r)). cbn [append]. now rewrite E.
  Qed.
  Lemma strip_body : forall c q1 body q2, every (fun d => d = c) q1 -> every (fun d => d = c) q2 -> (forall r, body <> String c r) ->
    (forall r, body <> (r ++ String c "")%string) -> body <> "" -> strip c (q1 ++ body ++ q2) = body.
  Proof.
    intros c q1 body q2 H1 H2 Ha Hb Hn. unfold strip. rewrite lstrip_unique; auto.
    - rewrite rstrip_quotes; auto. now apply rstrip_id.
    - destruct body as [|a body]; [congruence|]. cbn [append]. intros r E. injection E as -> _. now apply (Ha body).
  Qed.
  Lemma floats_complete : forall l xs, Forall2 (fun s x => float_of s = Some x) l xs -> floats float_of l = Ok xs.
  Proof. induction 1 as [|s x l xs H F IH]; auto. cbn. now rewrite H, IH. Qed.
  Lemma floats_err : forall l e, floats float_of l = Err e -> e = ValueError.
  Proof. induction l as [|s l IH]; intros e H; cbn in H; [discriminate|]. destruct (float_of s); [|congruence]. destruct (floats float_of l); cbn in H; [discriminate|]. injection H as <-. eauto. Qed.

  Lemma line_assigns : forall line k v, assigns line k v -> forall prev u, ub_line prev line u =
    if String.eqb k "Mode" then
       let m := strip_ws prev in
       if String.eqb m "[UBMode]" then
         match int_of v with Some z => Ok (dset String.eqb "UBMode" (UInt z) u) | None => Err ValueError end
       else if String.eqb m "[AngleMode]" then
         match int_of v with Some z => Ok (dset String.eqb "AngleMode" (UInt z) u) | None => Err ValueError end
       else Ok u
     else if contains "," v then
       do xs <- floats float_of (split_on "," (strip quote v)); Ok (dset String.eqb k (UVec xs) u)
     else if String.eqb v empty_quotes then Ok u
     else match float_of v with Some x => Ok (dset String.eqb k (UNum x) u) | None => Err ValueError end.
  Proof.
    intros line k v (T & K & V & N) prev u. apply trimmed_iff in T. unfold M_Load.ub_line. rewrite <- T. cbv zeta.
    destruct (String.eqb_spec (k ++ "=" ++ v) "") as [E|_]; [destruct k; discriminate|].
    destruct (starts_with "[" (k ++ "=" ++ v)) eqn:E; [apply starts_with_iff in E as [r E]; now destruct (N r)|].
    change (k ++ "=" ++ v)%string with (k ++ String "=" v)%string. rewrite split_on_app, split_on_one; auto.
  Qed.
  Lemma line_quiet : forall line prev u, quiet line -> ub_line prev line u = Ok u.
  Proof.
    intros line prev u [T|[r T]]; apply trimmed_iff in T; unfold M_Load.ub_line; rewrite <- T; cbn; auto.
  Qed.
  (** Every line is quiet, or assigns, or is refused. *)
  Lemma line_cases : forall line, quiet line \/ (exists k v, assigns line k v) \/ forall prev u, ub_line prev line u = Err ValueError.
  Proof.
    intro line. pose proof (trimmed_strip line) as T. unfold M_Load.ub_line. set (t := strip_ws line) in *. cbv zeta. clearbody t.
    destruct (String.eqb_spec t "") as [->|N]; [left; left; auto|].
    destruct (starts_with "[" t) eqn:E; [apply starts_with_iff in E as [r ->]; left; right; exists r; auto|]. right.
    pose proof (split_on_concat "="%char t) as C. pose proof (split_on_clean "="%char t) as D.
    destruct (split_on "="%char t) as [|k [|v [|w l]]]; auto. left. exists k, v. inversion D as [|? ? D1 D2]; subst. inversion D2 as [|? ? D3 _]; subst.
    cbn [String.concat] in *. repeat split; auto. intros r Er. rewrite Er in E. discriminate.
  Qed.
  Lemma line_sets : forall prev line e u, sets prev line e -> ub_line prev line u = Ok (apply_set e u).
  Proof.
    intros prev line e u H. destruct H as [Q|v z A P Z|v z A P Z|v A P P'|k Hk A|k v x Hk A S NS].
    - now rewrite line_quiet.
    - rewrite (line_assigns _ _ _ A). apply trimmed_iff in P. cbn. rewrite <- P. cbn. now rewrite Z.
    - rewrite (line_assigns _ _ _ A). apply trimmed_iff in P. cbn. rewrite <- P. cbn. now rewrite Z.
    - rewrite (line_assigns _ _ _ A). cbn. rewrite trimmed_iff in P, P'.
      destruct (String.eqb_spec (strip_ws prev) "[UBMode]"); [congruence|]. destruct (String.eqb_spec (strip_ws prev) "[AngleMode]"); [congruence|]. auto.
    - rewrite (line_assigns _ _ _ A). apply String.eqb_neq in Hk. rewrite Hk. reflexivity.
    - rewrite (line_assigns _ _ _ A). apply String.eqb_neq in Hk. rewrite Hk. destruct S as [q1 q2 body l xs H1 H2 Ha Hb Hc Hp F|s x Hc He F|s Hc He F].
      + apply contains_spec in Hc as Hc'. rewrite Hc', strip_body; auto.
        * apply pieces_iff in Hp. rewrite <- Hp, (floats_complete _ _ F). reflexivity.
        * intros ->. apply contains_spec in Hc. assert (X : contains "," (q1 ++ "" ++ q2) = false).
          { apply contains1. rewrite every_app. split; [|cbn [append]]; intros a c b E; [apply H1 in E|apply H2 in E]; rewrite E; discriminate. }
          congruence.
      + apply contains_false in Hc. rewrite Hc. fold empty_quotes in He. apply String.eqb_neq in He. now rewrite He, F.
      + exfalso. now apply (NS s).
  Qed.
  Lemma line_inv : forall prev line u, (exists e, sets prev line e) \/ ub_line prev line u = Err ValueError.
  Proof.
    intros prev line u. destruct (line_cases line) as [Q|[(k & v & A)|H]]; [left; exists None; now constructor| |right; auto].
    rewrite (line_assigns _ _ _ A). destruct (String.eqb_spec k "Mode") as [->|Hk]; cbv zeta.
    - destruct (String.eqb_spec (strip_ws prev) "[UBMode]") as [E|E].
      { destruct (int_of v) as [z|] eqn:Z; auto. left. eexists. eapply sets_ubmode; eauto. apply trimmed_iff; auto. }
      destruct (String.eqb_spec (strip_ws prev) "[AngleMode]") as [E'|E'].
      { destruct (int_of v) as [z|] eqn:Z; auto. left. eexists. eapply sets_anglemode; eauto. apply trimmed_iff; auto. }
      left. exists None. eapply sets_mode; eauto; rewrite trimmed_iff; congruence.
    - destruct (contains "," v) eqn:C.
      { destruct (floats float_of _) as [xs|e] eqn:F; [|right; cbn [bind]; f_equal; eapply floats_err; eauto]. left. exists (Some (k, UVec xs)).
        destruct (strip_spec quote v) as (a & b & E & Ha & Hb & H1 & H2). eapply sets_value; eauto; [|discriminate].
        apply contains_spec in C. rewrite E. eapply sv_vector; eauto; [rewrite <- E; auto|now apply pieces_iff|now apply floats_spec]. }
      destruct (String.eqb_spec v empty_quotes) as [->|Hv]; [left; exists None; eapply sets_empty; eauto|].
      destruct (float_of v) as [x|] eqn:F; auto. left. exists (Some (k, UNum x)). eapply sets_value; eauto; [|discriminate].
      apply contains_false in C. now apply sv_number.
  Qed.
  Lemma sets_fun : forall prev line e e', sets prev line e -> sets prev line e' -> e = e'.
  Proof.
    intros prev line e e' H H'. apply (line_sets _ _ _ []) in H, H'. rewrite H in H'. apply Ok_inj in H'.
    destruct e as [[k x]|], e' as [[k' x']|]; cbn in H'; congruence.
  Qed.

  Lemma loop_get : forall l prev u u' k, ub_loop prev l u = Ok u' ->
    (exists l1 p y l2 x, prev :: l = l1 ++ p :: y :: l2 /\ sets p y (Some (k, x)) /\ dget String.eqb k u' = Some x /\
       (forall m1 p' y' m2 x', y :: l2 = m1 ++ p' :: y' :: m2 -> ~ sets p' y' (Some (k, x')))) \/
    (dget String.eqb k u' = dget String.eqb k u /\ forall m1 p' y' m2 x', prev :: l = m1 ++ p' :: y' :: m2 -> ~ sets p' y' (Some (k, x'))).
  Proof.
    induction l as [|line l IH]; intros prev u u' k H; cbn [M_Load.ub_loop] in H.
    - apply Ok_inj in H. subst. right. split; auto. intros m1 p' y' m2 x' E. exfalso. apply (f_equal (@List.length _)) in E. rewrite app_length in E. cbn in E. lia.
    - destruct (line_inv prev line u) as [[e S]|S]; [|rewrite S in H; discriminate].
      rewrite (line_sets _ _ _ _ S) in H. cbn [bind] in H. destruct (IH _ _ _ k H) as [(l1 & p & y & l2 & x & E & Hs & G & L)|[G L]].
      + left. exists (prev :: l1), p, y, l2, x. rewrite E. auto.
      + destruct e as [[k' x]|].
        * destruct (String.eqb_spec k k') as [<-|Hn].
          -- left. exists [], prev, line, l, x. repeat split; auto. rewrite G. cbn. rewrite dget_dset, String.eqb_refl. auto.
          -- right. split; [rewrite G; cbn; rewrite dget_dset; apply String.eqb_neq in Hn; now rewrite Hn|].
             intros [|q m1] p' y' m2 x' E; cbn in E; [|injection E as <- E; eauto]. injection E as <- <- <-. intro S'. generalize (sets_fun _ _ _ _ S S'). congruence.
        * right. split; [exact G|].
          intros [|q m1] p' y' m2 x' E; cbn in E; [|injection E as <- E; eauto]. injection E as <- <- <-. intro S'. generalize (sets_fun _ _ _ _ S S'). congruence.
  Qed.
  Lemma loop_ok : forall l prev u, (forall m1 p y m2, prev :: l = m1 ++ p :: y :: m2 -> exists e, sets p y e) -> exists u', ub_loop prev l u = Ok u'.
  Proof.
    induction l as [|line l IH]; intros prev u H; cbn [M_Load.ub_loop]; [eauto|].
    destruct (H [] prev line l eq_refl) as [e S]. rewrite (line_sets _ _ _ _ S). cbn [bind]. apply IH. intros m1 p y m2 E. apply (H (prev :: m1) p y m2). cbn. congruence.
  Qed.
  Lemma loop_refused : forall l prev u m1 p y m2, prev :: l = m1 ++ p :: y :: m2 -> (forall e, ~ sets p y e) -> ub_loop prev l u = Err ValueError.
  Proof.
    induction l as [|line l IH]; intros prev u m1 p y m2 E N; cbn [M_Load.ub_loop].
    - exfalso. apply (f_equal (@List.length _)) in E. rewrite app_length in E. cbn in E. lia.
    - destruct (line_inv prev line u) as [[e S]|S]; [|rewrite S; reflexivity]. rewrite (line_sets _ _ _ _ S). cbn [bind].
      destruct m1 as [|q m1]; cbn in E; [injection E as <- <- _; now destruct (N e)|]. injection E as _ E. eauto.
  Qed.
  Lemma header_quiet : quiet ("[UBMode]" ++ newline).
  Proof. right. exists "UBMode]". apply trimmed_iff. reflexivity. Qed.
  Lemma read_ini : forall rest, read_ub float_of int_of xml_last (("[UBMode]" ++ line_feed)%string :: rest) = ub_loop ("[UBMode]" ++ line_feed) rest [].
  Proof.
    intros rest. unfold read_ub. change ("[UBMode]" ++ newline)%string with ("[UBMode]" ++ line_feed)%string. rewrite String.eqb_refl.
    cbn [M_Load.ub_loop]. rewrite line_quiet; [reflexivity|exact header_quiet].
  Qed.
  Lemma read_xml : forall c, hd_error c <> Some ("[UBMode]" ++ line_feed)%string -> c <> [] -> read_ub float_of int_of xml_last c =
    match xml_last c with
    | None => Err ValueError
    | Some None => Err UnboundLocalError
    | Some (Some m) =>
        if Nat.ltb (List.length (split_on " "%char m)) 9 then do _ <- floats float_of (split_on " "%char m); Err IndexError
        else do xs <- floats float_of (firstn 9 (split_on " "%char m)); Ok [("UBMatrix", UVec xs)]
    end.
  Proof.
    intros [|f c] H N; [congruence|]. cbn [hd_error] in H. unfold read_ub. destruct (String.eqb_spec f ("[UBMode]" ++ newline)) as [->|]; [|reflexivity].
    exfalso. apply H. reflexivity.
  Qed.
  (** The UB configuration read is exactly what the file says. *)
  Theorem C65_ub_content : forall c u k x, read_ub float_of int_of xml_last c = Ok u -> (dget String.eqb k u = Some x <-> file_value float_of int_of xml_last c k x).
  Proof.
    intros c u k x H. destruct c as [|f c]; [discriminate|]. destruct (string_dec f ("[UBMode]" ++ line_feed)) as [->|Hf].
    - rewrite read_ini in H. destruct (loop_get _ _ _ _ k H) as [(l1 & p & y & l2 & x0 & E & Hs & G & L)|[G L]].
      + rewrite G. split.
        * intros X. injection X as <-. rewrite E. econstructor; eauto. rewrite <- E. reflexivity.
        * intros F. inversion F as [m1 p' y' m2 ? ? _ E' S' L'|? ? ? ? ? HX]; subst; [|exfalso; apply HX; reflexivity]. rewrite E in E'.
          assert (Hl : forall (A B : list string) a1 b1 A2 a2 b2 B2 (x1 x2 : uval), A ++ a1 :: b1 :: B = A2 ++ a2 :: b2 :: B2 ->
             sets a1 b1 (Some (k, x1)) -> sets a2 b2 (Some (k, x2)) ->
             (forall m1 p' y' m2 x', b1 :: B = m1 ++ p' :: y' :: m2 -> ~ sets p' y' (Some (k, x'))) ->
             (forall m1 p' y' m2 x', b2 :: B2 = m1 ++ p' :: y' :: m2 -> ~ sets p' y' (Some (k, x'))) -> x1 = x2).
          { clear. induction A as [|q A IH]; intros B a1 b1 [|q2 A2] a2 b2 B2 x1 x2 E S1 S2 L1 L2; cbn in E.
            - injection E as -> -> ->. generalize (sets_fun _ _ _ _ S1 S2). congruence.
            - injection E as _ E. exfalso. exact (L1 A2 a2 b2 B2 x2 E S2).
            - injection E as _ E. exfalso. symmetry in E. exact (L2 A a1 b1 B x1 E S1).
            - injection E as _ E. eauto. }
          f_equal. eapply Hl; eauto.
      + cbn in G. rewrite G. split; [discriminate|]. intros F. exfalso. inversion F as [m1 p' y' m2 ? ? _ E' S' L'|? ? ? ? ? HX]; subst; [eapply L; eauto|apply HX; reflexivity].
    - assert (Hh : hd_error (f :: c) <> Some ("[UBMode]" ++ line_feed)%string) by (intros X; apply Hf; injection X as X; exact X).
      rewrite read_xml in H; auto; [|discriminate]. set (content := f :: c) in *. clearbody content.
      destruct (xml_last content) as [[m|]|] eqn:X; try discriminate.
      destruct (Nat.ltb_spec (List.length (split_on " "%char m)) 9) as [Hlt|Hge].
      { destruct (floats _ _); discriminate. }
      destruct (floats float_of (firstn 9 (split_on " "%char m))) as [xs|] eqn:F; [|discriminate]. cbn [bind] in H. apply Ok_inj in H. subst u. cbn [dget]. split.
      + destruct (String.eqb_spec k "UBMatrix") as [->|]; [|discriminate]. intros E. injection E as <-.
        eapply (fv_xml _ _ _ _ m (split_on " "%char m) (firstn 9 (split_on " "%char m)) (skipn 9 (split_on " "%char m))); auto.
        * apply split_on_pieces.
        * now rewrite firstn_skipn.
        * rewrite firstn_length. lia.
        * now apply floats_spec.
      + intros V. inversion V as [? ? ? ? ? ? HX|m' ws fst_ rest xs' _ X' Hp Hw Hn F']; subst; [congruence|]. rewrite String.eqb_refl.
        apply pieces_iff in Hp. rewrite X in X'. injection X' as <-. rewrite <- Hp in F. rewrite <- Hn, firstn_app, firstn_all, Nat.sub_diag in F. cbn [firstn] in F. rewrite app_nil_r in F.
        rewrite (floats_complete _ _ F') in F. congruence.
  Qed.
  (** An ini file is read exactly when every line says something this format knows; otherwise ValueError. *)
  Theorem C65_ub_refused : forall rest, let c := ("[UBMode]" ++ line_feed)%string :: rest in
    ((exists u, read_ub float_of int_of xml_last c = Ok u) <-> forall l1 prev line l2, c = l1 ++ prev :: line :: l2 -> exists e, sets prev line e) /\
    (forall e, read_ub float_of int_of xml_last c = Err e -> e = ValueError).
  Proof.
    intros rest c. unfold c. rewrite read_ini. clear c. generalize ("[UBMode]" ++ line_feed)%string. intros p0.
    assert (K : forall l p u e, ub_loop p l u = Err e -> e = ValueError).
    { induction l as [|line l IH]; intros p u e H; cbn [M_Load.ub_loop] in H; [discriminate|]. destruct (line_inv p line u) as [[s S]|S].
      - rewrite (line_sets _ _ _ _ S) in H. cbn [bind] in H. eauto.
      - rewrite S in H. cbn [bind] in H. congruence. }
    split; [split|eauto].
    - intros [u H] l1 prev line l2 E. destruct (line_inv prev line []) as [S|S]; auto. exfalso.
      rewrite (loop_refused _ _ _ _ _ _ _ E) in H; [discriminate|]. intros s Hs. rewrite (line_sets _ _ _ _ Hs) in S. discriminate.
    - intros H. apply loop_ok. auto.
  Qed.
  (** Any other file is read as XML: the last matrix, its first nine numbers. *)
  Theorem C65_ub_xml : forall c, hd_error c <> Some ("[UBMode]" ++ line_feed)%string ->
    (c = [] -> read_ub float_of int_of xml_last c = Err IndexError) /\
    (c <> [] -> xml_last c = Some None -> read_ub float_of int_of xml_last c = Err UnboundLocalError) /\
    (c <> [] -> forall m ws, xml_last c = Some (Some m) -> pieces " " m ws ->
       ((exists u, read_ub float_of int_of xml_last c = Ok u) <-> exists first rest xs, ws = first ++ rest /\ List.length first = 9%nat /\ Forall2 (fun s x => float_of s = Some x) first xs) /\
       (forall xs, (List.length ws < 9)%nat -> Forall2 (fun s x => float_of s = Some x) ws xs -> read_ub float_of int_of xml_last c = Err IndexError)).
  Proof.
    intros c H. split; [intros ->; reflexivity|]. split; intros N; rewrite read_xml; auto.
    - intros ->. reflexivity.
    - intros m ws X P. apply pieces_iff in P. rewrite X, <- P. split.
      + split.
        * intros [u U]. destruct (Nat.ltb_spec (List.length ws) 9); [destruct (floats _ _); discriminate|].
          destruct (floats float_of (firstn 9 ws)) as [xs|] eqn:F; [|discriminate]. exists (firstn 9 ws), (skipn 9 ws), xs. rewrite firstn_skipn, firstn_length. repeat split; [lia|now apply floats_spec].
        * intros (a & b & xs & -> & Ha & F). destruct (Nat.ltb_spec (List.length (a ++ b)) 9) as [L|_]; [rewrite app_length in L; lia|].
          rewrite <- Ha, firstn_app, firstn_all, Nat.sub_diag. cbn [firstn]. rewrite app_nil_r, (floats_complete _ _ F). cbn [bind]. eauto.
      + intros xs L F. apply Nat.ltb_lt in L. rewrite L, (floats_complete _ _ F). reflexivity.
  Qed.
End LoadUB.
Print Assumptions C65_ub_content.
Print Assumptions C65_ub_refused.
Print Assumptions C65_ub_xml.
(** The configuration attached to a loaded scan is exactly what the file named in its header says. *)
Theorem C65_ub_attached : forall float_of int_of genfromtxt xml_last fs folder f ub s content meta names errs summary l1 line l2 name d files c,
  load float_of int_of genfromtxt xml_last fs folder [f] ub None = Ok (Some [(f, s)]) ->
  content_of fs (folder ++ [f]) = Some content -> file_layout content meta names errs summary ->
  meta ++ summary = l1 ++ line :: l2 -> entry line "ubconf" name -> (forall line' v', In line' l2 -> ~ entry line' "ubconf" v') ->
  (forall line' k' v', In line' (meta ++ summary) -> entry line' k' v' -> key_attribute k' "ubconf" -> k' = "ubconf") ->
  name <> "" -> ub_folder fs folder ub d -> listing fs (Some d) = Some files -> In name files -> content_of fs (d ++ [name]) = Some c ->
  forall k x, dget String.eqb k (rs_ub s) = Some x <-> file_value float_of int_of xml_last c k x.
Proof.
  intros. destruct (C65_ub float_of int_of genfromtxt xml_last fs folder f ub s content meta names errs summary l1 line l2 name d files c) as (u & U & G); auto.
  rewrite G. now apply C65_ub_content.
Qed.
Print Assumptions C65_ub_attached.

(** * Example: two modes, a vector, an empty value, a key with a space before the equals sign; and a file that is refused. *)
Definition ex_float (s : string) : option R :=
  if String.eqb s "1" then Some 1%R else if String.eqb s "2" then Some 2%R else if String.eqb s " 2" then Some 2%R else None.
Definition ex_int (s : string) : option Z := if String.eqb s "1" then Some 1%Z else if String.eqb s "2" then Some 2%Z else None.
Definition quoted (s : string) : string := String quote (s ++ String quote "").
Definition ex_file : list string := map (fun s => s ++ line_feed)%string
  ["[UBMode]"; "Mode=1"; "[AngleMode]"; "Mode=2"; "[Data]"; ("V=" ++ quoted "1,2")%string; ("W=" ++ quoted "")%string; "E =1"; "E =2"; "Mode=7"; ""].
Example C65_ub_example :
  read_ub ex_float ex_int (fun _ => None) ex_file = Ok [("UBMode", UInt 1); ("AngleMode", UInt 2); ("V", UVec [1; 2]%R); ("E ", UNum 2%R)] /\
  read_ub ex_float ex_int (fun _ => None) (ex_file ++ ["E=F=1"]) = Err ValueError /\
  read_ub ex_float ex_int (fun _ => Some (Some "1 2 1 2 1 2 1 2 1 x")) ["<xml/>"] = Ok [("UBMatrix", UVec [1; 2; 1; 2; 1; 2; 1; 2; 1]%R)] /\
  read_ub ex_float ex_int (fun _ => Some (Some "1 2")) ["<xml/>"] = Err IndexError.
Proof. repeat split; reflexivity. Qed.
