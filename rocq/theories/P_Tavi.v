(** Properties C34 (grouping and retrieval), C35 (loading more data), C36 (groups of scans). *)
From Coq Require Import List String Ascii Bool ZArith Lia DecimalString DecimalZ.
From Verif Require Import Base PyStr PySort L_Sort M_Project M_Tavi.
Import ListNotations.
Open Scope string_scope.
Open Scope list_scope.

Lemma sget_sset : forall {A} k k' (v : A) d, sget k (sset k' v d) = if String.eqb k k' then Some v else sget k d.
Proof.
  intros A k k' v. induction d as [|[a b] d]; cbn. { destruct (String.eqb k k'); auto. }
  destruct (String.eqb k' a) eqn:Q; cbn.
  - apply String.eqb_eq in Q; subst. destruct (String.eqb k a); auto.
  - rewrite IHd. destruct (String.eqb k a) eqn:F; auto. apply String.eqb_eq in F; subst. rewrite String.eqb_sym, Q. auto.
Qed.
Lemma sget_in : forall {A} k (d : dict string A) v, sget k d = Some v -> In (k, v) d.
Proof. induction d as [|[a b] d]; cbn; intros v H; [discriminate|]. destruct (String.eqb k a) eqn:Q; auto. apply String.eqb_eq in Q. left. congruence. Qed.
Lemma in_sget : forall {A} k (d : dict string A) v, NoDup (dkeys d) -> In (k, v) d -> sget k d = Some v.
Proof.
  unfold dkeys. induction d as [|[a b] d]; cbn; intros v N H; [destruct H|]. inversion N; subst. destruct H as [[= -> ->]|H]; [rewrite String.eqb_refl; auto|].
  destruct (String.eqb k a) eqn:Q; auto. apply String.eqb_eq in Q. subst. exfalso. apply H2. apply (in_map fst) in H. auto.
Qed.
Lemma sget_none : forall {A} k (d : dict string A), sget k d = None <-> ~ In k (dkeys d).
Proof.
  unfold dkeys. induction d as [|[a b] d]; cbn. { tauto. } destruct (String.eqb k a) eqn:Q.
  - apply String.eqb_eq in Q. subst. split; [discriminate|]. intros H. exfalso. auto.
  - rewrite IHd. apply String.eqb_neq in Q. split; intros H; [intros [K|K]; [congruence|auto]|auto].
Qed.
Lemma dupdate_get : forall {A} k (e d : dict string A), NoDup (dkeys e) -> sget k (dupdate String.eqb d e) = match sget k e with Some v => Some v | None => sget k d end.
Proof.
  intros A k. unfold dupdate. induction e as [|[a b] e]; intros d N; cbn [fold_left dget fst snd]; auto. cbn in N. inversion N; subst. rewrite IHe; auto. rewrite sget_sset.
  destruct (String.eqb k a) eqn:Q; auto. apply String.eqb_eq in Q. subst. apply sget_none in H1. rewrite H1. auto.
Qed.
Lemma sset_keys : forall {A} k (v : A) d, dkeys (sset k v d) = if dmem String.eqb k d then dkeys d else dkeys d ++ [k].
Proof.
  unfold dkeys, dmem. induction d as [|[a b] d]; cbn; auto. destruct (String.eqb k a) eqn:Q; cbn; auto. rewrite IHd. destruct (sget k d); auto.
Qed.
Lemma sset_nodup : forall {A} k (v : A) d, NoDup (dkeys d) -> NoDup (dkeys (sset k v d)).
Proof.
  intros A k v d N. rewrite sset_keys. unfold dmem. destruct (sget k d) eqn:G; auto. apply sget_none in G. clear - N G.
  induction (dkeys d) as [|a l]; cbn. { constructor; auto. } inversion N; subst. constructor. { rewrite in_app_iff. cbn. intros [K|[K|[]]]; auto. apply G. left; auto. } apply IHl; auto. intros K. apply G. right; auto.
Qed.

Section Any_entry.
  Context {E : Type} (dataset_name : E -> result string).
  Notation load_data := (load_data dataset_name).
  Notation load_loop := (load_loop dataset_name).

  (** scan [s] of experiment [exp] *)
  Definition stored (d : @data E) (exp s : string) : option E := match sget exp d with Some l => sget s l | None => None end.

  Lemma load_one_spec : forall d s d' e k, load_one dataset_name d s = Ok d' ->
    stored d' e k = if match dataset_name (snd s) with Ok x => String.eqb e x | Err _ => false end && String.eqb k (fst s) then Some (snd s) else stored d e k.
  Proof.
    intros d [n x] d' e k H. unfold load_one in H. cbn [fst snd] in *. destruct (dataset_name x) as [exp|] eqn:D; cbn [bind] in H; [|discriminate].
    unfold stored. destruct (sget exp d) as [[|y l]|] eqn:G; apply Ok_inj in H; subst d'; rewrite sget_sset; destruct (String.eqb e exp) eqn:Q; cbn [andb]; auto.
    - apply String.eqb_eq in Q; subst. rewrite G. cbn. destruct (String.eqb k n); auto.
    - apply String.eqb_eq in Q; subst. rewrite sget_sset, G. auto.
    - apply String.eqb_eq in Q; subst. rewrite G. cbn. destruct (String.eqb k n); auto.
  Qed.
  Lemma load_loop_spec : forall l d d' e k, NoDup (dkeys l) -> load_loop d l = Ok d' ->
    stored d' e k = match sget k l with Some x => match dataset_name x with Ok y => if String.eqb e y then Some x else stored d e k | Err _ => stored d e k end | None => stored d e k end.
  Proof.
    induction l as [|[n x] l]; intros d d' e k N H; cbn [M_Tavi.load_loop] in H. { apply Ok_inj in H. subst. auto. }
    destruct (load_one dataset_name d (n, x)) as [d1|] eqn:L; cbn [bind] in H; [|discriminate]. cbn in N. inversion N; subst.
    rewrite (IHl d1 d' e k H3 H). pose proof (load_one_spec d (n, x) d1 e k L) as S. cbn [fst snd] in S. cbn [dget].
    destruct (String.eqb k n) eqn:Q.
    - apply String.eqb_eq in Q. subst k. apply sget_none in H2. rewrite H2. rewrite S, andb_true_r. destruct (dataset_name x); auto.
    - rewrite andb_false_r in S. rewrite S. auto.
  Qed.
  Lemma load_loop_ok : forall l d, (forall n x, In (n, x) l -> exists e, dataset_name x = Ok e) -> exists d', load_loop d l = Ok d'.
  Proof.
    induction l as [|[n x] l]; intros d H; cbn [M_Tavi.load_loop]; eauto. destruct (H n x (or_introl eq_refl)) as (e & D).
    unfold load_one. cbn [fst snd]. rewrite D. cbn [bind]. destruct (sget e d) as [[|]|]; cbn [bind]; apply IHl; intros; eapply H; right; eauto.
  Qed.
  Lemma load_loop_keys : forall l d d', NoDup (dkeys d) -> load_loop d l = Ok d' -> NoDup (dkeys d').
  Proof.
    induction l as [|s l]; intros d d' N H; cbn [M_Tavi.load_loop] in H. { apply Ok_inj in H. subst. auto. }
    destruct (load_one dataset_name d s) as [d1|] eqn:L; cbn [bind] in H; [|discriminate]. apply (IHl d1); auto. unfold load_one in L.
    destruct (dataset_name (snd s)); cbn [bind] in L; [|discriminate]. destruct (sget a d) as [[|]|]; apply Ok_inj in L; subst; apply sset_nodup; auto.
  Qed.
End Any_entry.

(** ** C34 *)
(** Loading groups the scans: under each experiment stand exactly the scans whose data set has that name, none is lost, none invented. *)
Theorem C34_grouped : forall {E} (dataset_name : E -> result string) l, NoDup (dkeys l) -> (forall n x, In (n, x) l -> exists e, dataset_name x = Ok e) ->
  exists d, load_data dataset_name l = Ok d /\ forall exp n x, stored d exp n = Some x <-> In (n, x) l /\ dataset_name x = Ok exp.
Proof.
  intros E dn l N H. destruct (load_loop_ok dn l [] H) as (d & L). exists d. split; auto. intros exp n x. rewrite (load_loop_spec dn l [] d exp n N L).
  unfold stored at 1 2 3. cbn [dget]. destruct (sget n l) as [y|] eqn:G.
  - destruct (H n y (sget_in _ _ _ G)) as (e & D). rewrite D. destruct (String.eqb exp e) eqn:Q.
    + apply String.eqb_eq in Q. subst e. split; [intros [= <-]; split; auto; apply sget_in; auto|]. intros (I & _). apply in_sget in I; auto. congruence.
    + split; [discriminate|]. intros (I & D'). apply in_sget in I; auto. apply String.eqb_neq in Q. congruence.
  - split; [discriminate|]. intros (I & _). apply in_sget in I; auto. congruence.
Qed.
Print Assumptions C34_grouped.

(** A scan without data set name makes the whole load fail and leaves nothing loaded. *)
Theorem C34_nameless_raises : forall {E} (dataset_name : E -> result string) d l e n x, In (n, x) l -> dataset_name x = Err e -> exists e', load_scans dataset_name d l = Err e'.
Proof.
  intros E dn d l e n x I D. unfold load_scans, load_data. assert (G : forall acc, exists e', load_loop dn acc l = Err e').
  { induction l as [|[m y] l]; intros acc; [destruct I|]. cbn [load_loop]. destruct I as [[= -> ->]|I].
    - unfold load_one. cbn [fst snd]. rewrite D. cbn. eauto.
    - destruct (load_one dn acc (m, y)); cbn [bind]; eauto. }
  destruct (G []) as (e' & ->). cbn. eauto.
Qed.
Print Assumptions C34_nameless_raises.

(** get_scan: an explicit experiment, or the first one; the scan stored as scanNNNN; anything else raises. *)
Theorem C34_get_scan : forall {E} (d : @data E) r,
  match r with
  | Pair exp n => match stored d exp (scan_name n) with Some x => get_scan d r = Ok (scan_name n, x) | None => get_scan d r = Err KeyError end
  | Num n => match d with
             | [] => get_scan d r = Err StopIteration
             | (exp, _) :: _ => get_scan d r = get_scan d (Pair exp n)
             end
  | Other => get_scan d r = Err ValueError
  end.
Proof.
  intros E d [n|exp n|]; auto.
  - destruct d as [|[e l] d]; auto.
  - unfold get_scan, fetch, stored. destruct (sget exp d); auto. destruct (sget (scan_name n) s); auto.
Qed.
Print Assumptions C34_get_scan.

(** Different scan numbers never share a name, so get_scan never confuses scans. *)
Lemma append_inj_l : forall a b c : string, (a ++ b = a ++ c)%string -> b = c.
Proof. induction a; cbn; intros; auto. injection H; auto. Qed.
Lemma str_of_nonneg : forall z, (0 <= z)%Z -> exists u, str_of z = NilZero.string_of_uint u /\ Z.of_uint u = z.
Proof.
  intros z H. unfold str_of. destruct (Z.to_int z) as [u|u] eqn:T.
  - exists u. split; auto. change (Z.of_uint u) with (Z.of_int (Decimal.Pos u)). rewrite <- T. apply DecimalZ.of_to.
  - exfalso. destruct z; cbn in T; try discriminate. lia.
Qed.
Lemma uint_zeros : forall n u, NilEmpty.uint_of_string (zeros n ++ NilEmpty.string_of_uint u) = Some (Nat.iter n Decimal.D0 u).
Proof. induction n; intros u; cbn. { apply NilEmpty.usu. } rewrite IHn. auto. Qed.
Lemma of_uint_zeros : forall n u, Z.of_uint (Nat.iter n Decimal.D0 u) = Z.of_uint u.
Proof. induction n; intros u; auto. rewrite <- (IHn u). reflexivity. Qed.
Lemma uint_nz : forall u, exists v, NilZero.string_of_uint u = NilEmpty.string_of_uint v /\ Z.of_uint v = Z.of_uint u.
Proof. intros u. destruct u; [exists (Decimal.D0 Decimal.Nil); auto|..]; eexists; split; reflexivity. Qed.
(** reading a padded non-negative number back *)
Lemma pad_read : forall k z, (0 <= z)%Z -> option_map Z.of_uint (NilEmpty.uint_of_string (zeros k ++ str_of z)) = Some z.
Proof.
  intros k z H. destruct (str_of_nonneg z H) as (u & S & O). destruct (uint_nz u) as (v & S' & O'). rewrite S, S', uint_zeros. cbn. f_equal. rewrite of_uint_zeros. congruence.
Qed.
Lemma starts_digit : forall k z, (0 <= z)%Z -> forall s, (zeros k ++ str_of z)%string <> String "-" s.
Proof.
  intros k z H s E. pose proof (pad_read k z H) as P. rewrite E in P. cbn in P. destruct (NilEmpty.uint_of_string s); discriminate.
Qed.
Theorem C34_names_distinct : forall n m, scan_name n = scan_name m -> n = m.
Proof.
  intros n m H. apply append_inj_l in H. unfold pad4 in H. destruct (n <? 0)%Z eqn:N, (m <? 0)%Z eqn:M.
  - apply Z.ltb_lt in N, M. pose proof (pad_read (3 - String.length (str_of (- n))) (- n)%Z ltac:(lia)) as P. pose proof (pad_read (3 - String.length (str_of (- m))) (- m)%Z ltac:(lia)) as Q.
    set (a := (zeros (3 - String.length (str_of (- n))) ++ str_of (- n))%string) in *. set (b := (zeros (3 - String.length (str_of (- m))) ++ str_of (- m))%string) in *.
    assert (a = b) as AB by congruence. rewrite AB, Q in P. injection P. lia.
  - exfalso. symmetry in H. apply starts_digit in H; auto. apply Z.ltb_ge in M. auto.
  - exfalso. apply starts_digit in H; auto. apply Z.ltb_ge in N. auto.
  - apply Z.ltb_ge in N, M. pose proof (pad_read (4 - String.length (str_of n)) n N) as P. rewrite H, pad_read in P by auto. congruence.
Qed.
Print Assumptions C34_names_distinct.

(** Loading a folder of NeXus files: every file whose name starts with "scan" is read, others are not; scans of different names all arrive. *)
Lemma nexus_folder : forall {E} (folder : dict string (result (@scans E))) files, NoDup (dkeys folder) ->
  (forall f l, In (f, l) folder -> prefixb "scan" f = true -> exists s, l = Ok s /\ NoDup (dkeys s)) ->
  files = sort (filter (prefixb "scan") (dkeys folder)) ->
  exists l, read_files folder files [] = Ok l /\
    (forall n, sget n l <> None <-> exists f s, In (f, Ok s) folder /\ prefixb "scan" f = true /\ In n (dkeys s)) /\
    (forall n x, (forall f s y, In (f, Ok s) folder -> prefixb "scan" f = true -> sget n s = Some y -> y = x) -> sget n l <> None -> sget n l = Some x).
Proof.
  intros E folder files N H FE.
  assert (FF : forall f, In f files -> exists s, sget f folder = Some (Ok s) /\ NoDup (dkeys s) /\ prefixb "scan" f = true).
  { intros f I. subst files. rewrite sort_in, filter_In in I. destruct I as (I & P). unfold dkeys in I. apply in_map_iff in I. destruct I as ([f' l] & Q & I). cbn in Q. subst f'.
    destruct (H f l I P) as (s & -> & NS). exists s. split; auto. apply in_sget; auto. }
  assert (FA : forall f s, In (f, Ok s) folder -> prefixb "scan" f = true -> In f files).
  { intros f s I P. subst files. rewrite sort_in, filter_In. split; auto. unfold dkeys. apply (in_map fst) in I. auto. }
  assert (G : forall fs acc, (forall f, In f fs -> In f files) -> exists l, read_files folder fs acc = Ok l /\
    (forall n, sget n l <> None <-> sget n acc <> None \/ exists f s, In f fs /\ In (f, Ok s) folder /\ In n (dkeys s)) /\
    (forall n x, (forall f s y, In (f, Ok s) folder -> prefixb "scan" f = true -> sget n s = Some y -> y = x) -> (sget n acc = None \/ sget n acc = Some x) -> sget n l <> None -> sget n l = Some x)).
  { induction fs as [|f fs]; intros acc IN; cbn [read_files].
    - exists acc. split; auto. split; [intros n; split; auto; intros [|(f & s & [] & _)]; auto|]. intros n x _ [K|K] NN; auto. congruence.
    - destruct (FF f (IN f (or_introl eq_refl))) as (s & S & NS & P). rewrite S. cbn [bind].
      destruct (IHfs (dupdate String.eqb acc s)) as (l & R & A & B). { intros; apply IN; right; auto. }
      exists l. split; auto. split.
      + intros n. rewrite A, dupdate_get by auto. split.
        * intros [K|(f' & s' & I & J & K)]. { destruct (sget n s) as [y|] eqn:SN; [right; exists f, s; split; [left; auto|]|auto]. split; [apply sget_in; auto|]. destruct (in_dec string_dec n (dkeys s)); auto. apply sget_none in n0. congruence. }
          right. exists f', s'. split; [right; auto|auto].
        * intros [K|(f' & s' & [<-|I] & J & K)].
          { left. destruct (sget n s); [discriminate|auto]. }
          { left. apply (in_sget _ _ _ N) in J. assert (s' = s) as -> by congruence. destruct (sget n s) eqn:Q; [discriminate|]. apply sget_none in Q. contradiction. }
          { right. exists f', s'. auto. }
      + intros n x U K NN. apply B; auto. rewrite dupdate_get by auto. destruct (sget n s) as [y|] eqn:SN; auto. right. f_equal. eapply U; eauto. apply sget_in. eauto. }
  destruct (G files []) as (l & R & A & B); auto. exists l. split; auto. split.
  - intros n. rewrite A. cbn [dget]. split.
    + intros [K|(f & s & I & J & K)]; [congruence|]. destruct (FF f I) as (s' & _ & _ & P). exists f, s. auto.
    + intros (f & s & I & P & K). right. exists f, s. split; [eapply FA; eauto|auto].
  - intros n x U NN. apply B; auto.
Qed.
Lemma dupdate_nodup : forall {A} (b a : dict string A), NoDup (dkeys a) -> NoDup (dkeys (dupdate String.eqb a b)).
Proof. induction b as [|[k v] b IH]; intros a N; cbn; auto. apply IH. apply sset_nodup; auto. Qed.
Lemma read_files_nodup : forall {E} (folder : dict string (result (@scans E))) fs acc l, NoDup (dkeys acc) -> read_files folder fs acc = Ok l -> NoDup (dkeys l).
Proof.
  induction fs as [|f fs IH]; intros acc l N H; cbn [read_files] in H. { apply Ok_inj in H. subst. auto. }
  destruct (sget f folder) as [[s|]|]; cbn [bind] in H; try discriminate. apply (IH _ _ (dupdate_nodup s acc N) H).
Qed.
(** Loading a folder of NeXus files: under each experiment stand exactly the scans of the files whose name starts with "scan";
    nothing else in the folder is read. *)
Theorem C34_nexus_folder : forall {E} (dataset_name : E -> result string) (folder : dict string (result (@scans E))), NoDup (dkeys folder) ->
  (forall f l, In (f, l) folder -> prefixb "scan" f = true -> exists s, l = Ok s /\ NoDup (dkeys s) /\ forall n x, In (n, x) s -> exists e, dataset_name x = Ok e) ->
  (forall f1 s1 f2 s2 n, In (f1, Ok s1) folder -> In (f2, Ok s2) folder -> prefixb "scan" f1 = true -> prefixb "scan" f2 = true ->
     In n (dkeys s1) -> In n (dkeys s2) -> f1 = f2) ->
  exists d, load_nexus dataset_name [] folder = Ok d /\
    forall exp n x, stored d exp n = Some x <-> exists f s, In (f, Ok s) folder /\ prefixb "scan" f = true /\ In (n, x) s /\ dataset_name x = Ok exp.
Proof.
  intros E dn folder N H U.
  destruct (nexus_folder folder _ N (fun f l I P => match H f l I P with ex_intro _ s (conj A (conj B _)) => ex_intro _ s (conj A B) end) eq_refl) as (l & R & A & B).
  assert (NL : NoDup (dkeys l)) by (eapply read_files_nodup; [|exact R]; constructor).
  assert (M : forall n x, In (n, x) l <-> exists f s, In (f, Ok s) folder /\ prefixb "scan" f = true /\ In (n, x) s).
  { assert (W : forall f s n x, In (f, Ok s) folder -> prefixb "scan" f = true -> In (n, x) s -> sget n l = Some x).
    { intros f s n x I P J. apply B.
      - intros f' s' y I' P' G. assert (Ks : In n (dkeys s)) by (unfold dkeys; apply (in_map fst) in J; auto).
        assert (Ks' : In n (dkeys s')) by (apply sget_in in G; unfold dkeys; apply (in_map fst) in G; auto).
        pose proof (U _ _ _ _ _ I' I P' P Ks' Ks) as ->. apply (in_sget _ _ _ N) in I, I'. assert (s' = s) as -> by congruence.
        destruct (H f (Ok s) (sget_in _ _ _ I) P) as (s0 & Q & NS & _). injection Q as <-. apply in_sget in J; auto. congruence.
      - apply A. exists f, s. split; auto. split; auto. unfold dkeys. apply (in_map fst) in J. auto. }
    intros n x. split.
    - intros I. apply (in_sget _ _ _ NL) in I. destruct (proj1 (A n)) as (f & s & J & P & K). { congruence. }
      unfold dkeys in K. apply in_map_iff in K. destruct K as ([n' y] & Q & K). cbn in Q. subst n'.
      pose proof (W f s n y J P K) as Z. exists f, s. split; auto. split; auto. congruence.
    - intros (f & s & I & P & J). apply sget_in. eauto. }
  destruct (C34_grouped dn l NL) as (d & L & G). { intros n x I. apply M in I. destruct I as (f & s & I & P & J). destruct (H f (Ok s) I P) as (s0 & Q & _ & D). injection Q as <-. eauto. }
  exists d. split.
  - unfold load_nexus. rewrite R. cbn [bind]. unfold load_scans. rewrite L. cbn [bind]. f_equal.
    assert (X : forall (q p : @data E), NoDup (dkeys p ++ dkeys q) -> dupdate String.eqb p q = (p ++ q)%list).
    { induction q as [|[k v] q IH]; intros p ND; cbn; [now rewrite app_nil_r|].
      change (dkeys ((k, v) :: q)) with (k :: dkeys q) in ND.
      assert (K : ~ In k (dkeys p)). { apply NoDup_remove_2 in ND. rewrite in_app_iff in ND. tauto. }
      assert (Y : forall p', ~ In k (dkeys p') -> sset k v p' = (p' ++ [(k, v)])%list).
      { induction p' as [|[k' v'] p' IHp]; intros K'; cbn; auto. destruct (String.eqb k k') eqn:Q. { apply String.eqb_eq in Q. subst. exfalso. apply K'. left. auto. }
        f_equal. apply IHp. intros C. apply K'. right. auto. }
      rewrite (Y p K). etransitivity; [apply IH|rewrite <- app_assoc; reflexivity].
      unfold dkeys. rewrite map_app. cbn. rewrite <- app_assoc. exact ND. }
    apply (X d []). cbn. apply (load_loop_keys dn l [] d); [constructor | exact L].
  - intros exp n x. rewrite G, M. split; [intros ((f & s & I & P & J) & D) | intros (f & s & I & P & J & D)]; [exists f, s; auto | split; [exists f, s; auto|auto]].
Qed.
Print Assumptions C34_nexus_folder.

(** ** C35 *)
(** Loading keeps every experiment that the new data does not contain ... *)
Theorem C35_other_experiments_kept : forall {E} (dataset_name : E -> result string) d l d' exp, NoDup (dkeys l) ->
  load_scans dataset_name d l = Ok d' -> (forall n x, In (n, x) l -> dataset_name x <> Ok exp) -> sget exp d' = sget exp d.
Proof.
  intros E dn d l d' exp N H NE. unfold load_scans in H. destruct (load_data dn l) as [new|] eqn:L; cbn [bind] in H; [|discriminate]. apply Ok_inj in H. subst d'.
  rewrite dupdate_get by (eapply load_loop_keys; [|exact L]; constructor).
  assert (G : forall ll acc a, load_loop dn acc ll = Ok a -> sget exp acc = None -> (forall n x, In (n, x) ll -> dn x <> Ok exp) -> sget exp a = None).
  { induction ll as [|[n x] ll]; intros acc a R S Q; cbn [load_loop] in R. { apply Ok_inj in R. subst. auto. }
    destruct (load_one dn acc (n, x)) as [a1|] eqn:L1; cbn [bind] in R; [|discriminate]. eapply IHll; eauto; [|intros; eapply Q; right; eauto].
    unfold load_one in L1. cbn [fst snd] in L1. destruct (dn x) as [e|] eqn:D; cbn [bind] in L1; [|discriminate].
    assert (e <> exp) by (intros ->; eapply Q; [left; reflexivity|auto]). assert (X : String.eqb exp e = false) by (apply String.eqb_neq; auto).
    destruct (sget e acc) as [[|]|]; apply Ok_inj in L1; subst; rewrite sget_sset, X; auto. }
  unfold load_data in L. rewrite (G l [] new L eq_refl NE). auto.
Qed.
Print Assumptions C35_other_experiments_kept.

(** ... but of an experiment that it does contain only the newly loaded scans remain, *)
Theorem C35_replaced_as_coded : forall {E} (dataset_name : E -> result string) d l d' exp n x n', NoDup (dkeys l) -> In (n, x) l -> dataset_name x = Ok exp ->
  load_scans dataset_name d l = Ok d' -> (forall y, stored d' exp n' = Some y <-> In (n', y) l /\ dataset_name y = Ok exp).
Proof.
  intros E dn d l d' exp n x n' N I D H y. unfold load_scans in H. destruct (load_data dn l) as [new|] eqn:L; cbn [bind] in H; [|discriminate]. apply Ok_inj in H. subst d'.
  assert (NK : NoDup (dkeys new)) by (eapply load_loop_keys; [|exact L]; constructor).
  assert (A : forall m z, In (m, z) l -> exists e, dn z = Ok e).
  { intros m z J. destruct (dn z) as [e|e] eqn:Q; eauto. destruct (C34_nameless_raises dn [] l e m z J Q) as (e' & K). unfold load_scans in K. rewrite L in K. discriminate. }
  destruct (C34_grouped dn l N A) as (new' & L' & S). assert (new' = new) by congruence. subst new'. rewrite <- S.
  unfold stored. rewrite dupdate_get by auto. destruct (sget exp new) eqn:G; [tauto|].
  exfalso. assert (K : stored new exp n = Some x) by (apply S; auto). unfold stored in K. rewrite G in K. discriminate.
Qed.
Print Assumptions C35_replaced_as_coded.
(** so that loading a second folder of an experiment loses the scans loaded before. *)
Theorem C35_refuted : exists d l d', load_scans (fun e : string => Ok e) d l = Ok d' /\ stored d "exp1" "scan0001" <> None /\ stored d' "exp1" "scan0001" = None.
Proof.
  exists [("exp1", [("scan0001", "exp1")])], [("scan0002", "exp1")], [("exp1", [("scan0002", "exp1")])]. split; [reflexivity|]. split; [discriminate|reflexivity].
Qed.
Print Assumptions C35_refuted.

(** ** C36 *)
(** A group has one member per request, in order, each what get_scan gives; if a request cannot be met the call raises. *)
Theorem C36_members : forall {E} (d : @data E) rs g, d <> [] -> (group_scans d rs = Ok g <-> mapM (get_scan d) rs = Ok g).
Proof.
  intros E d rs g NE. unfold group_scans, group_names. destruct d as [|[e0 l0] d]; [congruence|]. cbn [first_exp bind]. set (dd := (e0, l0) :: d).
  revert g. induction rs as [|r rs IH]; intros g; [cbn; tauto|]. cbn [mapM].
  assert (K : forall (A B C D : Type) (f : A -> result B) (k : B -> C -> D) (a : result A) (b : result (list (string * string))), True) by auto. clear K.
  destruct r as [n|exp n|]; cbn [bind].
  - unfold get_scan at 1. cbn [first_exp dd bind]. fold dd.
    destruct (mapM _ rs) as [names|e] eqn:M; cbn [bind] in *.
    + cbn [mapM fst snd]. destruct (fetch dd e0 (scan_name n)) as [x|e]; cbn [bind]; [|split; discriminate].
      destruct (mapM (fun x0 => fetch dd (fst x0) (snd x0)) names) as [ys|e] eqn:Y; cbn [bind].
      * rewrite (proj1 (IH ys) eq_refl). tauto.
      * destruct (mapM (get_scan dd) rs) as [zs|] eqn:Z; cbn [bind]; [|split; discriminate]. discriminate (proj2 (IH zs) eq_refl).
    + destruct (fetch dd e0 (scan_name n)); cbn [bind]; [|split; discriminate]. destruct (mapM (get_scan dd) rs) as [zs|] eqn:Z; cbn [bind]; [|split; discriminate]. discriminate (proj2 (IH zs) eq_refl).
  - unfold get_scan at 1.
    destruct (mapM _ rs) as [names|e] eqn:M; cbn [bind] in *.
    + cbn [mapM fst snd]. destruct (fetch dd exp (scan_name n)) as [x|e]; cbn [bind]; [|split; discriminate].
      destruct (mapM (fun x0 => fetch dd (fst x0) (snd x0)) names) as [ys|e] eqn:Y; cbn [bind].
      * rewrite (proj1 (IH ys) eq_refl). tauto.
      * destruct (mapM (get_scan dd) rs) as [zs|] eqn:Z; cbn [bind]; [|split; discriminate]. discriminate (proj2 (IH zs) eq_refl).
    + destruct (fetch dd exp (scan_name n)); cbn [bind]; [|split; discriminate]. destruct (mapM (get_scan dd) rs) as [zs|] eqn:Z; cbn [bind]; [|split; discriminate]. discriminate (proj2 (IH zs) eq_refl).
  - cbn. split; discriminate.
Qed.
Print Assumptions C36_members.

Lemma mapM_forall2 : forall {A B} (f : A -> result B) l ys, mapM f l = Ok ys <-> Forall2 (fun x y => f x = Ok y) l ys.
Proof.
  induction l as [|x l]; intros ys; cbn [mapM].
  - split; [intros H; apply Ok_inj in H; subst; constructor|]. intros H; inversion H; auto.
  - split.
    + destruct (f x) as [y|] eqn:F; cbn [bind]; [|discriminate]. destruct (mapM f l) as [zs|]; cbn [bind]; [|discriminate]. intros H. apply Ok_inj in H. subst. constructor; auto. apply IHl; auto.
    + intros H. inversion H; subst. rewrite H2. cbn [bind]. rewrite (proj2 (IHl l') H4). auto.
Qed.
Theorem C36_one_per_request : forall {E} (d : @data E) rs g, d <> [] -> group_scans d rs = Ok g -> Forall2 (fun r s => get_scan d r = Ok s) rs g /\ List.length g = List.length rs.
Proof. intros E d rs g NE H. apply C36_members in H; auto. apply mapM_forall2 in H. split; auto. induction H; cbn; auto. Qed.
Print Assumptions C36_one_per_request.
Theorem C36_missing_raises : forall {E} (d : @data E) rs r e, In r rs -> get_scan d r = Err e -> exists e', group_scans d rs = Err e'.
Proof.
  intros E d rs r e I G. destruct (group_scans d rs) as [g|e'] eqn:H; eauto. exfalso.
  destruct d as [|x d]. { cbn in H. discriminate. } apply C36_members in H; [|discriminate]. apply mapM_forall2 in H. clear - I G H. induction H; [destruct I|]. destruct I as [->|I]; auto. congruence.
Qed.
Print Assumptions C36_missing_raises.

Lemma str_of_inj : forall n m, (0 <= n)%Z -> (0 <= m)%Z -> str_of n = str_of m -> n = m.
Proof. intros n m N M H. pose proof (pad_read 0 n N) as P. cbn [zeros append] in P. rewrite H in P. pose proof (pad_read 0 m M) as Q. cbn [zeros append] in Q. congruence. Qed.
(** Default names are never used twice, whatever explicit names are given in between. *)
Theorem C36_default_names_distinct : forall names i j, nth_error names i = Some "" -> nth_error names j = Some "" -> i <> j ->
  nth_error (make_groups 1 names) i <> nth_error (make_groups 1 names) j.
Proof.
  assert (G : forall names c i, nth_error names i = Some "" -> nth_error (make_groups c names) i = Some ("CombinedScans" ++ str_of (c + Z.of_nat i))%string).
  { induction names as [|n names]; intros c [|i] H; try discriminate; cbn [make_groups group_name nth_error] in *.
    - injection H as ->. cbn. rewrite Z.add_0_r. auto. - rewrite (IHnames (c + 1)%Z i H). do 3 f_equal. lia. }
  intros names i j I J NE. rewrite (G _ _ _ I), (G _ _ _ J). intros H.
  assert (H' : ("CombinedScans" ++ str_of (1 + Z.of_nat i) = "CombinedScans" ++ str_of (1 + Z.of_nat j))%string) by congruence.
  apply append_inj_l in H'. apply str_of_inj in H'; lia.
Qed.
Print Assumptions C36_default_names_distinct.

(** The hypotheses are met by a non-trivial case. *)
Definition ex_l : list (string * string) := [("scan0001", "e1"); ("scan0002", "e2"); ("scan0003", "e1")].
Example C34_example : NoDup (dkeys ex_l) /\ exists d, load_data (fun e : string => Ok e) ex_l = Ok d /\ get_scan d (Pair "e1" 3) = Ok ("scan0003", "e1") /\
  group_scans d [Num 3; Pair "e2" 2; Num 1] = Ok [("scan0003", "e1"); ("scan0002", "e2"); ("scan0001", "e1")] /\ get_scan d (Num 2) = Err KeyError
  /\ make_groups 1 [""; "mine"; ""] = ["CombinedScans1"; "mine"; "CombinedScans3"].
Proof. split; [repeat constructor; cbn; intuition discriminate|]. eexists. repeat split. Qed.
(** Two scan files and a file that is not read. *)
Definition ex_folder : list (string * result (list (string * string))) :=
  [("scan2.h5", Ok [("scan0002", "e2")]); ("notes.txt", Err OSError); ("scan1.h5", Ok [("scan0001", "e1"); ("scan0003", "e1")])].
Example C34_nexus_example : NoDup (dkeys ex_folder) /\
  (forall f l, In (f, l) ex_folder -> prefixb "scan" f = true -> exists s, l = Ok s /\ NoDup (dkeys s) /\ forall n x, In (n, x) s -> exists e, Ok x = Ok e) /\
  (forall f1 s1 f2 s2 n, In (f1, Ok s1) ex_folder -> In (f2, Ok s2) ex_folder -> prefixb "scan" f1 = true -> prefixb "scan" f2 = true ->
     In n (dkeys s1) -> In n (dkeys s2) -> f1 = f2) /\
  load_nexus (fun e : string => Ok e) [] ex_folder = Ok [("e1", [("scan0001", "e1"); ("scan0003", "e1")]); ("e2", [("scan0002", "e2")])].
Proof.
  split; [repeat constructor; cbn; intuition discriminate|]. split; [|split; [|reflexivity]].
  - intros f l [[= <- <-]|[[= <- <-]|[[= <- <-]|[]]]] P; try discriminate; eexists; repeat split; eauto; repeat constructor; cbn; intuition discriminate.
  - intros f1 s1 f2 s2 n [[= <- <-]|[H|[[= <- <-]|[]]]] [[= <- <-]|[H'|[[= <- <-]|[]]]] _ _ K K'; try discriminate; auto; cbn in K, K'; exfalso; intuition congruence.
Qed.

(** Reloading scan 1 of the first experiment: the second experiment is kept, scan 3 of the first is lost. *)
Example C35_ex : exists d d', load_data (fun e : string => Ok e) ex_l = Ok d /\ load_scans (fun e : string => Ok e) d [("scan0001", "e1")] = Ok d' /\
  (forall n x, In (n, x) [("scan0001", "e1")] -> (Ok x : result string) <> Ok "e2") /\ sget "e2" d' = Some [("scan0002", "e2")] /\ stored d' "e1" "scan0003" = None.
Proof. do 2 eexists. repeat (split; [reflexivity|]). split; [intros n x [[= <- <-]|[]]; discriminate|]. split; reflexivity. Qed.
Example C36_ex : exists d g, load_data (fun e : string => Ok e) ex_l = Ok d /\ d <> [] /\
  group_scans d [Pair "e2" 2; Num 3; Num 1] = Ok g /\ g = [("scan0002", "e2"); ("scan0003", "e1"); ("scan0001", "e1")] /\
  (exists e, get_scan d (Num 7) = Err e) /\ make_groups 1 [""; "mine"; ""] = ["CombinedScans1"; "mine"; "CombinedScans3"].
Proof. do 2 eexists. split; [reflexivity|]. split; [discriminate|]. split; [reflexivity|]. split; [reflexivity|]. split; [eexists; reflexivity|reflexivity]. Qed.
