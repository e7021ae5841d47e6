(** Property C83: a sample made from a file or from a scan is the one described there. *)
From Coq Require Import Reals List ZArith String Ascii Bool Lia Lra.
From Verif Require Import Base PyStr S_Str L_Str LinAlg L_LinAlg M_Utilities M_Lattice M_UB M_Sample M_Nexus M_Spice M_ScanData M_Builder L_Builder P_Builder P_Builder2 P_Builder3 P_Builder4 P_Builder5 P_Builder6
  M_Project M_Tavi P_Tavi P_Nexus L_NexusFile L_NexusLinks L_ScanFields P_Folder P_ScanFields L_Utilities M_ScanInfo L_ScanInfo P_ScanInfo P_ScanInfo2 P_Energy M_SampleFile.
Import ListNotations.
Open Scope string_scope.
Open Scope list_scope.

(** * Specification *)
(** A member that is not in the file, or is null there. *)
Definition absent (d : json) (k : string) : Prop := d k = None \/ d k = Some JNull.
(** A matrix written as nine numbers row by row, or as three rows. *)
Definition writes_matrix (d : json) (k : string) (m : mat) : Prop :=
  let '(M a b c e f g h i j) := m in d k = Some (JNums [a; b; c; e; f; g; h; i; j]) \/ d k = Some (JRows [[a; b; c]; [e; f; g]; [h; i; j]]).
Definition writes_vector (d : json) (k : string) (v : vec) : Prop := d k = Some (JNums [vx v; vy v; vz v]).
(** The lattice of a file, and the lattices that make sense. *)
Definition writes_lattice (d : json) (p : lattice) : Prop :=
  d "a" = Some (JNum (la p)) /\ d "b" = Some (JNum (lb p)) /\ d "c" = Some (JNum (lc p)) /\
  d "alpha" = Some (JNum (lalpha p)) /\ d "beta" = Some (JNum (lbeta p)) /\ d "gamma" = Some (JNum (lgamma p)).
Definition sensible (p : lattice) : Prop :=
  (0 < la p /\ 0 < lb p /\ 0 < lc p /\ 0 <= lalpha p <= 180 /\ 0 <= lbeta p <= 180 /\ 0 <= lgamma p <= 180)%R.
(** The convention in which a file is written. *)
Definition written_in (d : json) (conv : string) : Prop := absent d "convention" /\ conv = "Spice" \/ d "convention" = Some (JText conv).

(** Nine numbers, in one list or in rows of one length. *)
Definition nine_numbers (j : jval) : Prop :=
  (exists l, j = JNums l /\ List.length l = 9%nat) \/ (exists r, j = JRows r /\ List.length (List.concat r) = 9%nat /\ forall a b, In a r -> In b r -> List.length a = List.length b).
Definition in_range (k : string) (x : R) : Prop := (if existsb (String.eqb k) ["a"; "b"; "c"] then 0 < x else 0 <= x <= 180)%R.

(** * Helpers *)
Lemma absent_get : forall d k, absent d k <-> jget d k = JNull.
Proof. intros d k. unfold absent, jget. destruct (d k) as [[]|]; split; auto; try (intros [?|?]; congruence); try discriminate. Qed.
Lemma length_ok_inv : forall j x, length_ok j = Ok x <-> j = JNum x /\ (0 < x)%R.
Proof. intros j x. unfold length_ok. destruct j; try (split; [discriminate|intros [? _]; discriminate]). destruct (Rle_dec x0 0); split; intros H; try discriminate. { destruct H as [H ?]. injection H as ->. lra. } { apply Ok_inj in H. subst. split; [auto|lra]. } destruct H as [H _]. congruence. Qed.
Lemma angle_ok_inv : forall j x, angle_ok j = Ok x <-> j = JNum x /\ (0 <= x <= 180)%R.
Proof.
  intros j x. unfold angle_ok. destruct j; try (split; [discriminate|intros [? _]; discriminate]). destruct (Rlt_dec x0 0). { split; [discriminate|]. intros [H ?]. injection H as ->. lra. }
  destruct (Rlt_dec 180 x0). { split; [discriminate|]. intros [H ?]. injection H as ->. lra. } split; intros H. { apply Ok_inj in H. subst. split; [auto|lra]. } destruct H as [H _]. congruence.
Qed.
Lemma item_inv : forall d k j, jitem d k = Ok j <-> d k = Some j.
Proof. intros d k j. unfold jitem. destruct (d k); split; intros H; try discriminate; [apply Ok_inj in H; congruence|congruence]. Qed.
Lemma matrix_inv : forall d k m, writes_matrix d k m -> matrix_of (jget d k) = Ok m /\ jget d k <> JNull.
Proof. intros d k [a b c e f g h i j] [H|H]; unfold jget; rewrite H; (split; [reflexivity|discriminate]). Qed.

Lemma Some_inj : forall {A} (a b : A), Some a = Some b -> a = b.
Proof. congruence. Qed.
(** from_json, opened *)
Definition shaped (d : json) (s : sample_object) : sample_object :=
  let s := if existsb is_null [jget d "shape"; jget d "width"; jget d "height"; jget d "depth"] then s else set_shape (Some (jget d "shape")) (Some (jget d "width")) (Some (jget d "height")) (Some (jget d "depth")) s in
  if existsb is_null [jget d "mosaic_h"; jget d "mosaic_v"] then s else set_mosaic (Some (jget d "mosaic_h")) (Some (jget d "mosaic_v")) s.
Definition file_ub (d : json) : result ubconf :=
  do m <- (match jget d "ub_matrix" with JNull => Ok None | j => do m <- matrix_of j; Ok (Some m) end);
  do conv <- convention_of (jget d "convention");
  do u <- new_ubconf conv (match m with Some m => [KW_ub_mat m] | None => [] end);
  do u <- give_vector set_plane_normal (jget d "plane_normal") u;
  give_vector set_in_plane_ref (jget d "in_plane_ref") u.
Lemma from_json_inv : forall d s, from_json d = Ok s <-> exists p u, writes_lattice d p /\ sensible p /\ file_ub d = Ok u /\ s = with_ub u (shaped d (object_of p)).
Proof.
  intros d s. split.
  - intros H. unfold from_json in H.
    do 6 (apply bind_ok in H; let x := fresh "j" in let E := fresh "J" in destruct H as (x & E & H); apply item_inv in E).
    do 3 (apply bind_ok in H; let x := fresh "x" in let E := fresh "X" in destruct H as (x & E & H); apply length_ok_inv in E; destruct E as [-> E]).
    do 3 (apply bind_ok in H; let x := fresh "x" in let E := fresh "X" in destruct H as (x & E & H); apply angle_ok_inv in E; destruct E as [-> E]).
    cbv zeta in H. apply bind_ok in H. destruct H as (m & EM & H). apply bind_ok in H. destruct H as (cv & EC & H). apply bind_ok in H. destruct H as (u & EU & H).
    apply bind_ok in H. destruct H as (u1 & EU1 & H). apply bind_ok in H. destruct H as (u2 & EU2 & H). apply Ok_inj in H. subst s.
    exists (Lattice x x0 x1 x2 x3 x4), u2. split; [unfold writes_lattice; cbn; auto 10|]. split; [unfold sensible; cbn; auto 10|]. split; [|reflexivity].
    unfold file_ub. rewrite EM. cbn [bind]. rewrite EC. cbn [bind]. rewrite EU. cbn [bind]. rewrite EU1. cbn [bind]. exact EU2.
  - intros (p & u & (A & B & C & D & E & F) & (PA & PB & PC & PD & PE & PF) & U & ->). unfold from_json, jitem. rewrite A, B, C, D, E, F. cbn [bind].
    rewrite (proj2 (length_ok_inv _ _) (conj eq_refl PA)), (proj2 (length_ok_inv _ _) (conj eq_refl PB)), (proj2 (length_ok_inv _ _) (conj eq_refl PC)).
    rewrite (proj2 (angle_ok_inv _ _) (conj eq_refl PD)), (proj2 (angle_ok_inv _ _) (conj eq_refl PE)), (proj2 (angle_ok_inv _ _) (conj eq_refl PF)). cbn [bind]. cbv zeta.
    unfold file_ub in U. apply bind_ok in U. destruct U as (m & -> & U). cbn [bind]. apply bind_ok in U. destruct U as (cv & -> & U). cbn [bind]. apply bind_ok in U. destruct U as (u0 & -> & U). cbn [bind].
    apply bind_ok in U. destruct U as (u1 & -> & U). cbn [bind]. rewrite U. cbn [bind]. destruct p. reflexivity.
Qed.

Lemma to_mantid_known : forall c t, to_mantid_mat c = Ok t -> (c = "Mantid" \/ c = "Spice") /\ exists f, from_mantid_mat c = Ok f /\ mm f t = mid.
Proof.
  intros c t H. unfold to_mantid_mat, from_mantid_mat in *. destruct (String.eqb_spec c "Mantid"). { apply Ok_inj in H. subst. split; auto. exists mid. split; auto. apply mm_id_l. }
  destruct (String.eqb_spec c "Spice"); [|discriminate]. apply Ok_inj in H. subst. split; auto. exists t_mantid_to_spice. split; auto. apply t_inverse.
Qed.
Lemma read_back : forall {A} (act : mat -> A -> A) c t v, (forall f, act f (act t v) = act (mm f t) v) -> act mid v = v -> to_mantid_mat c = Ok t -> from_mantid_opt act c (Some (act t v)) = Ok (Some v).
Proof. intros A act c t v AS ID H. destruct (to_mantid_known _ _ H) as (_ & f & F & I). unfold from_mantid_opt. rewrite F. cbn [bind]. rewrite AS, I, ID. reflexivity. Qed.
Lemma set_ub_inv : forall u m u', set_ub_mat u m = Ok u' -> (convention u = "Mantid" \/ convention u = "Spice") /\ convention u' = convention u /\ _plane_normal u' = _plane_normal u /\ _in_plane_ref u' = _in_plane_ref u /\ get_ub_mat u' = Ok (Some m).
Proof.
  intros u m u' H. unfold set_ub_mat in H. apply bind_ok in H. destruct H as (t & T & H). apply Ok_inj in H. subst u'. cbn. destruct (to_mantid_known _ _ T) as (K & _). repeat (split; auto).
  unfold get_ub_mat. cbn [_ub_mat convention]. apply read_back; auto; [intros; rewrite mm_assoc; auto|apply mm_id_l].
Qed.
Lemma set_normal_inv : forall u v u', set_plane_normal u v = Ok u' -> (convention u = "Mantid" \/ convention u = "Spice") /\ convention u' = convention u /\ _ub_mat u' = _ub_mat u /\ _in_plane_ref u' = _in_plane_ref u /\ get_plane_normal u' = Ok (Some v).
Proof.
  intros u v u' H. unfold set_plane_normal in H. apply bind_ok in H. destruct H as (t & T & H). apply Ok_inj in H. subst u'. cbn. destruct (to_mantid_known _ _ T) as (K & _). repeat (split; auto).
  unfold get_plane_normal. cbn [_plane_normal convention]. apply read_back; auto; [intros; rewrite mv_mm; auto|apply mv_id].
Qed.
Lemma set_ref_inv : forall u v u', set_in_plane_ref u v = Ok u' -> (convention u = "Mantid" \/ convention u = "Spice") /\ convention u' = convention u /\ _ub_mat u' = _ub_mat u /\ _plane_normal u' = _plane_normal u /\ get_in_plane_ref u' = Ok (Some v).
Proof.
  intros u v u' H. unfold set_in_plane_ref in H. apply bind_ok in H. destruct H as (t & T & H). apply Ok_inj in H. subst u'. cbn. destruct (to_mantid_known _ _ T) as (K & _). repeat (split; auto).
  unfold get_in_plane_ref. cbn [_in_plane_ref convention]. apply read_back; auto; [intros; rewrite mv_mm; auto|apply mv_id].
Qed.
(** the vectors that can be given: three numbers *)
Lemma give_inv : forall set j u u', give_vector set j u = Ok u' -> j = JNull /\ u' = u \/ exists a b c, j = JNums [a; b; c] /\ set u (V a b c) = Ok u'.
Proof.
  intros set j u u' H. unfold give_vector in H. destruct j as [|x|x|l|l|]; try (destruct (String.eqb (convention u) "Spice"); [discriminate|]; destruct (String.eqb (convention u) "Mantid"); discriminate).
  { apply Ok_inj in H. auto. }
  right. destruct l as [|a [|b [|c [|x l]]]]; try (destruct (String.eqb (convention u) "Spice"); [discriminate|]; destruct (String.eqb (convention u) "Mantid"); discriminate). exists a, b, c. auto.
Qed.
Lemma convention_inv : forall d o, convention_of (jget d "convention") = Ok o <-> (o = None /\ absent d "convention" \/ exists t, o = Some t /\ d "convention" = Some (JText t)).
Proof.
  intros d o. rewrite absent_get. unfold jget, convention_of. destruct (d "convention") as [[]|]; split; intros H; try discriminate;
    try (apply Ok_inj in H; subst; eauto; fail); destruct H as [[? ?]|(t & ? & E)]; try discriminate; subst; auto. congruence.
Qed.
Lemma file_ub_inv : forall d u, file_ub d = Ok u ->
  (exists conv, written_in d conv /\ convention u = conv) /\
  (absent d "ub_matrix" /\ _ub_mat u = None \/ exists m, matrix_of (jget d "ub_matrix") = Ok m /\ get_ub_mat u = Ok (Some m)) /\
  (absent d "plane_normal" /\ _plane_normal u = None \/ exists v, d "plane_normal" = Some (JNums [vx v; vy v; vz v]) /\ get_plane_normal u = Ok (Some v)) /\
  (absent d "in_plane_ref" /\ _in_plane_ref u = None \/ exists v, d "in_plane_ref" = Some (JNums [vx v; vy v; vz v]) /\ get_in_plane_ref u = Ok (Some v)).
Proof.
  intros d u H. unfold file_ub in H. apply bind_ok in H. destruct H as (m & EM & H). apply bind_ok in H. destruct H as (cv & EC & H). apply bind_ok in H. destruct H as (u0 & U0 & H). apply bind_ok in H. destruct H as (u1 & U1 & U2).
  set (conv := match cv with Some c => c | None => "Spice" end).
  assert (W : written_in d conv). { apply convention_inv in EC. unfold written_in, conv. destruct EC as [[-> A]|(t & -> & A)]; auto. }
  assert (A0 : convention u0 = conv /\ _plane_normal u0 = None /\ _in_plane_ref u0 = None /\ (absent d "ub_matrix" /\ _ub_mat u0 = None \/ exists m, matrix_of (jget d "ub_matrix") = Ok m /\ get_ub_mat u0 = Ok (Some m))).
  { unfold new_ubconf in U0. fold conv in U0. destruct m as [m|].
    - cbn [ub_setattrs ub_setattr] in U0. apply bind_ok in U0. destruct U0 as (u' & S & Q). apply Ok_inj in Q. subst u'. apply set_ub_inv in S. cbn in S. destruct S as (_ & -> & -> & -> & G). repeat (split; auto). right. exists m. split; auto.
      destruct (jget d "ub_matrix"); try discriminate; apply bind_ok in EM; destruct EM as (m' & -> & EM); apply Ok_inj in EM; congruence.
    - apply Ok_inj in U0. subst u0. cbn. repeat (split; auto). left. split; auto. apply absent_get. destruct (jget d "ub_matrix"); auto; apply bind_ok in EM; destruct EM as (m' & _ & EM); discriminate. }
  destruct A0 as (C0 & N0 & R0 & UB0).
  assert (A1 : convention u1 = conv /\ _ub_mat u1 = _ub_mat u0 /\ _in_plane_ref u1 = None /\ (absent d "plane_normal" /\ _plane_normal u1 = None \/ exists v, d "plane_normal" = Some (JNums [vx v; vy v; vz v]) /\ get_plane_normal u1 = Ok (Some v))).
  { apply give_inv in U1. destruct U1 as [[N ->]|(a & b & c & E & S)].
    - repeat (split; auto). left. split; auto. apply absent_get; auto.
    - apply set_normal_inv in S. destruct S as (_ & -> & -> & -> & G). repeat (split; auto). right. exists (V a b c). cbn. split; auto. unfold jget in E. destruct (d "plane_normal"); congruence. }
  destruct A1 as (C1 & B1 & R1 & N1).
  apply give_inv in U2. destruct U2 as [[N ->]|(a & b & c & E & S)].
  - split; [eauto|]. split; [|split]. { unfold get_ub_mat in *. rewrite B1, C1, <- C0. exact UB0. } { exact N1. } left. split; auto. apply absent_get; auto.
  - apply set_ref_inv in S. destruct S as (_ & C2 & B2 & N2 & G). split; [exists conv; split; auto; congruence|]. split; [|split].
    { unfold get_ub_mat in *. rewrite B2, B1, C2, C1, <- C0. exact UB0. }
    { unfold get_plane_normal in *. rewrite N2, C2. exact N1. }
    right. exists (V a b c). cbn. split; auto. unfold jget in E. destruct (d "in_plane_ref"); congruence.
Qed.

(** * The theorems: files *)
(** The lattice is the one in the file, and makes sense; the UB matrix, the plane normal and the reference vector, read back, are the ones in the file. *)
Theorem C83_file : forall d s, from_json d = Ok s ->
  writes_lattice d (so_lattice s) /\ sensible (so_lattice s) /\
  exists u, so_ub_conf s = Some u /\ written_in d (convention u) /\
    (forall m, writes_matrix d "ub_matrix" m -> get_ub_mat u = Ok (Some m)) /\
    (forall v, writes_vector d "plane_normal" v -> get_plane_normal u = Ok (Some v)) /\
    (forall v, writes_vector d "in_plane_ref" v -> get_in_plane_ref u = Ok (Some v)) /\
    (absent d "plane_normal" -> _plane_normal u = None) /\ (absent d "in_plane_ref" -> _in_plane_ref u = None).
Proof.
  intros d s H. apply from_json_inv in H. destruct H as (p & u & WL & SE & U & ->).
  assert (LP : so_lattice (with_ub u (shaped d (object_of p))) = p). { unfold shaped. cbv zeta. destruct (existsb is_null [_; _; _; _]); destruct (existsb is_null [_; _]); reflexivity. }
  rewrite LP. split; auto. split; auto. exists u. split; [reflexivity|]. apply file_ub_inv in U. destruct U as ((conv & W & ->) & UB & N & R). split; auto.
  split; [|split; [|split; [|split]]].
  - intros m WM. destruct (matrix_inv _ _ _ WM) as [E NN]. destruct UB as [[A _]|(m' & E' & G)]. { apply absent_get in A. contradiction. } congruence.
  - intros v WV. unfold writes_vector in WV. destruct N as [[A _]|(v' & E & G)]. { destruct A; congruence. } rewrite G. rewrite WV in E. injection E as E1 E2 E3. destruct v, v'. cbn in *. congruence.
  - intros v WV. unfold writes_vector in WV. destruct R as [[A _]|(v' & E & G)]. { destruct A; congruence. } rewrite G. rewrite WV in E. injection E as E1 E2 E3. destruct v, v'. cbn in *. congruence.
  - intros A. destruct N as [[_ N]|(v' & E & _)]; auto. destruct A; congruence.
  - intros A. destruct R as [[_ R]|(v' & E & _)]; auto. destruct A; congruence.
Qed.
(** Which files are accepted: six lattice parameters in range, a UB matrix of nine numbers if any, vectors of three numbers if any, and a convention which is known
    unless there is nothing to convert. *)
Theorem C83_accepted : forall d,
  (forall k, In k ["plane_normal"; "in_plane_ref"] -> absent d k \/ exists v, writes_vector d k v) -> (absent d "convention" \/ exists t, d "convention" = Some (JText t)) ->
  (absent d "ub_matrix" \/ exists l, d "ub_matrix" = Some (JNums l)) ->
  ((exists s, from_json d = Ok s) <->
   (exists p, writes_lattice d p /\ sensible p) /\ (absent d "ub_matrix" \/ exists m, writes_matrix d "ub_matrix" m) /\
   (written_in d "Spice" \/ written_in d "Mantid" \/ forall k, In k ["ub_matrix"; "plane_normal"; "in_plane_ref"] -> absent d k)).
Proof.
  intros d VS CV MS. split.
  - intros (s & H). apply from_json_inv in H. destruct H as (p & u & WL & SE & U & _). split; [eauto|]. split.
    + destruct (file_ub_inv _ _ U) as (_ & UB & _). destruct UB as [[A _]|(m & E & _)]; auto. right. exists m. destruct MS as [A|(l & L)]. { apply absent_get in A. rewrite A in E. discriminate. }
      unfold jget in E. rewrite L in E. cbn in E. do 10 (destruct l as [|? l]; try discriminate). apply Ok_inj in E. subst m. left. exact L.
    + unfold file_ub in U. apply bind_ok in U. destruct U as (m & EM & U). apply bind_ok in U. destruct U as (cv & EC & U). apply bind_ok in U. destruct U as (u0 & U0 & U). apply bind_ok in U. destruct U as (u1 & U1 & U2).
      apply convention_inv in EC. set (conv := match cv with Some c => c | None => "Spice" end).
      assert (W : written_in d conv). { unfold written_in, conv. destruct EC as [[-> A]|(t & -> & A)]; auto. }
      assert (KN : conv = "Mantid" \/ conv = "Spice" -> written_in d "Spice" \/ written_in d "Mantid" \/ (forall k, In k ["ub_matrix"; "plane_normal"; "in_plane_ref"] -> absent d k)). { intros [E|E]; rewrite E in W; auto. }
      unfold new_ubconf in U0. fold conv in U0. destruct m as [m|].
      { cbn [ub_setattrs ub_setattr] in U0. apply bind_ok in U0. destruct U0 as (u' & S & _). apply set_ub_inv in S. apply KN, S. }
      apply Ok_inj in U0. subst u0. apply give_inv in U1. destruct U1 as [[N1 ->]|(a & b & c & E & S)]; [|apply set_normal_inv in S; apply KN, S].
      apply give_inv in U2. destruct U2 as [[N2 ->]|(a & b & c & E & S)]; [|apply set_ref_inv in S; apply KN, S].
      right. right. intros k I. apply absent_get. cbn [In] in I. destruct I as [<-|[<-|[<-|[]]]]; auto. destruct (jget d "ub_matrix"); auto; apply bind_ok in EM; destruct EM as (m' & _ & EM); discriminate.
  - intros ((p & WL & SE) & UB & CS). assert (X : exists u, file_ub d = Ok u); [|destruct X as (u & U); eexists; apply from_json_inv; exists p, u; eauto].
    assert (EM : exists o, (match jget d "ub_matrix" with JNull => Ok None | j => do m <- matrix_of j; Ok (Some m) end) = Ok o /\ (absent d "ub_matrix" -> o = None)).
    { destruct UB as [A|(m & WM)]. { apply absent_get in A. rewrite A. eauto. } destruct (matrix_inv _ _ _ WM) as [E NN]. exists (Some m). split. { destruct (jget d "ub_matrix"); try contradiction; rewrite E; reflexivity. } intros A. apply absent_get in A. contradiction. }
    destruct EM as (o & EM & NO). unfold file_ub. rewrite EM. cbn [bind].
    assert (EC : exists cv, convention_of (jget d "convention") = Ok cv /\ written_in d (match cv with Some c => c | None => "Spice" end)).
    { destruct CV as [A|(t & T)]. { exists None. split; [apply convention_inv; auto|left; auto]. } exists (Some t). split; [apply convention_inv; eauto|right; auto]. }
    destruct EC as (cv & EC & W). rewrite EC. cbn [bind]. set (conv := match cv with Some c => c | None => "Spice" end) in *.
    assert (UNI : forall c, written_in d c -> conv = c). { intros c [[A ->]|E]; destruct W as [[B ->]|F]; auto; try congruence; try (destruct A; congruence); destruct B; congruence. }
    unfold new_ubconf. fold conv.
    assert (K : conv = "Mantid" \/ conv = "Spice" \/ (forall k, In k ["ub_matrix"; "plane_normal"; "in_plane_ref"] -> absent d k)). { destruct CS as [C|[C|C]]; auto. }
    destruct K as [K|[K|K]].
    3:{ rewrite NO by (apply K; cbn; auto). cbn [ub_setattrs bind]. pose proof (proj1 (absent_get _ _) (K "plane_normal" ltac:(cbn; auto))) as ->. pose proof (proj1 (absent_get _ _) (K "in_plane_ref" ltac:(cbn; auto))) as ->. cbn. eauto. }
    all: rewrite K; assert (G : forall k, In k ["plane_normal"; "in_plane_ref"] -> jget d k = JNull \/ exists a b c, jget d k = JNums [a; b; c])
      by (intros k I; destruct (VS k I) as [A|(v & E)]; [left; apply absent_get; auto|right; unfold jget; rewrite E; eauto]);
      destruct (G "plane_normal" ltac:(cbn; auto)) as [->|(a & b & c & ->)]; destruct (G "in_plane_ref" ltac:(cbn; auto)) as [->|(a' & b' & c' & ->)]; destruct o; cbn; eauto.
Qed.
(** A file without one of the six lattice parameters is refused. *)
Theorem C83_missing : forall d k, In k ["a"; "b"; "c"; "alpha"; "beta"; "gamma"] -> d k = None -> from_json d = Err KeyError.
Proof.
  intros d k I N. unfold from_json, jitem. cbn [In] in I.
  destruct I as [<-|[<-|[<-|[<-|[<-|[<-|[]]]]]]]; rewrite N; cbn [bind]; auto; repeat match goal with |- bind (match d ?x with Some _ => _ | None => _ end) _ = _ => destruct (d x); cbn [bind]; auto end.
Qed.
(** How the others are refused: a lattice out of range a matrix that has not nine numbers or (in the convention of SPICE) a vector that has not three by ValueError, a lattice parameter that is not a number by TypeError. *)
Theorem C83_refused : forall d, (forall k, In k ["a"; "b"; "c"; "alpha"; "beta"; "gamma"] -> d k <> None) ->
  (forall p, writes_lattice d p -> ~ sensible p -> from_json d = Err ValueError) /\
  ((exists k, In k ["a"; "b"; "c"; "alpha"; "beta"; "gamma"] /\ forall x, d k <> Some (JNum x)) ->
   (forall k x, In k ["a"; "b"; "c"; "alpha"; "beta"; "gamma"] -> d k = Some (JNum x) -> in_range k x) -> from_json d = Err TypeError) /\
  (forall p j, writes_lattice d p -> sensible p -> d "ub_matrix" = Some j -> j <> JNull -> ~ nine_numbers j -> from_json d = Err ValueError) /\
  (forall p, writes_lattice d p -> sensible p -> (absent d "ub_matrix" \/ exists m, writes_matrix d "ub_matrix" m) -> written_in d "Spice" ->
   (forall k, In k ["plane_normal"; "in_plane_ref"] -> absent d k \/ exists l, d k = Some (JNums l)) ->
   (exists k l, In k ["plane_normal"; "in_plane_ref"] /\ d k = Some (JNums l) /\ List.length l <> 3%nat) -> from_json d = Err ValueError).
Proof.
  intros d PR.
  assert (G : forall k, In k ["a"; "b"; "c"; "alpha"; "beta"; "gamma"] -> exists j, d k = Some j). { intros k I. apply PR in I. destruct (d k); [eauto|contradiction]. }
  assert (L : forall x, (0 < x)%R -> length_ok (JNum x) = Ok x). { intros x X. apply length_ok_inv. auto. }
  assert (A : forall x, (0 <= x <= 180)%R -> angle_ok (JNum x) = Ok x). { intros x X. apply angle_ok_inv. auto. }
  assert (NL : forall x, ~ (0 < x)%R -> length_ok (JNum x) = Err ValueError). { intros x X. unfold length_ok. destruct (Rle_dec x 0); auto; lra. }
  assert (NA : forall x, ~ (0 <= x <= 180)%R -> angle_ok (JNum x) = Err ValueError). { intros x X. unfold angle_ok. destruct (Rlt_dec x 0); auto. destruct (Rlt_dec 180 x); auto. lra. }
  split; [|split; [|split]].
  - intros p (E1 & E2 & E3 & E4 & E5 & E6) NS. unfold from_json, jitem. rewrite E1, E2, E3, E4, E5, E6. cbn [bind].
    destruct (Rlt_dec 0 (la p)); [|rewrite NL by auto; reflexivity]. rewrite L by auto. cbn [bind].
    destruct (Rlt_dec 0 (lb p)); [|rewrite NL by auto; reflexivity]. rewrite L by auto. cbn [bind].
    destruct (Rlt_dec 0 (lc p)); [|rewrite NL by auto; reflexivity]. rewrite L by auto. cbn [bind].
    assert (D : forall x, {(0 <= x <= 180)%R} + {~ (0 <= x <= 180)%R}). { intros x. destruct (Rle_dec 0 x); [|right; lra]. destruct (Rle_dec x 180); [left; lra|right; lra]. }
    destruct (D (lalpha p)); [|rewrite NA by auto; reflexivity]. rewrite A by auto. cbn [bind].
    destruct (D (lbeta p)); [|rewrite NA by auto; reflexivity]. rewrite A by auto. cbn [bind].
    destruct (D (lgamma p)); [|rewrite NA by auto; reflexivity]. exfalso. apply NS. unfold sensible. repeat split; lra.
  - intros (k & IK & NK) RG.
    assert (TL : forall k j, In k ["a"; "b"; "c"] -> d k = Some j -> (exists x, j = JNum x /\ length_ok j = Ok x) \/ ((forall x, j <> JNum x) /\ length_ok j = Err TypeError)).
    { intros k' j I E. destruct j; try (right; split; [congruence|reflexivity]). left. exists x. split; auto. apply L. pose proof (RG k' x) as R0. cbn [In] in I. unfold in_range in R0. destruct I as [<-|[<-|[<-|[]]]]; cbn in R0; apply R0; auto 10. }
    assert (TA : forall k j, In k ["alpha"; "beta"; "gamma"] -> d k = Some j -> (exists x, j = JNum x /\ angle_ok j = Ok x) \/ ((forall x, j <> JNum x) /\ angle_ok j = Err TypeError)).
    { intros k' j I E. destruct j; try (right; split; [congruence|reflexivity]). left. exists x. split; auto. apply A. pose proof (RG k' x) as R0. cbn [In] in I. unfold in_range in R0. destruct I as [<-|[<-|[<-|[]]]]; cbn in R0; apply R0; auto 10. }
    destruct (G "a") as (j1 & E1); [cbn; auto 10|]. destruct (G "b") as (j2 & E2); [cbn; auto 10|]. destruct (G "c") as (j3 & E3); [cbn; auto 10|].
    destruct (G "alpha") as (j4 & E4); [cbn; auto 10|]. destruct (G "beta") as (j5 & E5); [cbn; auto 10|]. destruct (G "gamma") as (j6 & E6); [cbn; auto 10|].
    unfold from_json, jitem. rewrite E1, E2, E3, E4, E5, E6. cbn [bind].
    destruct (TL "a" _ ltac:(cbn; auto) E1) as [(x1 & N1 & ->)|[_ ->]]; [cbn [bind]|reflexivity].
    destruct (TL "b" _ ltac:(cbn; auto) E2) as [(x2 & N2 & ->)|[_ ->]]; [cbn [bind]|reflexivity].
    destruct (TL "c" _ ltac:(cbn; auto) E3) as [(x3 & N3 & ->)|[_ ->]]; [cbn [bind]|reflexivity].
    destruct (TA "alpha" _ ltac:(cbn; auto) E4) as [(x4 & N4 & ->)|[_ ->]]; [cbn [bind]|reflexivity].
    destruct (TA "beta" _ ltac:(cbn; auto) E5) as [(x5 & N5 & ->)|[_ ->]]; [cbn [bind]|reflexivity].
    destruct (TA "gamma" _ ltac:(cbn; auto) E6) as [(x6 & N6 & ->)|[_ ->]]; [cbn [bind]|reflexivity].
    exfalso. cbn [In] in IK. subst. destruct IK as [<-|[<-|[<-|[<-|[<-|[<-|[]]]]]]]; eapply NK; eauto.
  - intros p j (E1 & E2 & E3 & E4 & E5 & E6) (S1 & S2 & S3 & S4 & S5 & S6) EJ NJ NN. unfold from_json, jitem. rewrite E1, E2, E3, E4, E5, E6. cbn [bind].
    rewrite !L, !A by auto. cbn [bind]. cbv zeta. assert (M : matrix_of j = Err ValueError).
    { assert (N9 : forall l : list R, List.length l <> 9%nat -> match l with [a; b; c; d; e; f; g; h; i] => Ok (M a b c d e f g h i) | _ => Err ValueError end = Err ValueError) by (intros l H; do 10 (destruct l as [|? l]; auto); contradiction).
      destruct j; try reflexivity; try contradiction; cbn [matrix_of].
      - apply N9. intros H. apply NN. left. eauto.
      - destruct l as [|r rs]; auto. destruct (forallb _ rs) eqn:F; auto. apply N9. intros H. apply NN. right. eexists. split; [reflexivity|]. split; auto. rewrite forallb_forall in F.
        assert (Q : forall a, In a (r :: rs) -> List.length a = List.length r). { intros a [->|I]; auto. apply Nat.eqb_eq. auto. } intros a b I J. rewrite (Q _ I), (Q _ J). reflexivity. }
    assert (GJ : jget d "ub_matrix" = j) by (unfold jget; rewrite EJ; reflexivity). rewrite GJ. destruct j; try contradiction; rewrite M; reflexivity.
  - intros p (E1 & E2 & E3 & E4 & E5 & E6) (S1 & S2 & S3 & S4 & S5 & S6) UB W VS (k & l & IK & EK & NL3). unfold from_json, jitem. rewrite E1, E2, E3, E4, E5, E6. cbn [bind].
    rewrite !L, !A by auto. cbn [bind]. cbv zeta.
    assert (EM : exists o, (match jget d "ub_matrix" with JNull => Ok None | j => do m <- matrix_of j; Ok (Some m) end) = Ok o).
    { destruct UB as [B|(m & WM)]. { apply absent_get in B. rewrite B. eauto. } destruct (matrix_inv _ _ _ WM) as [E NN]. exists (Some m). destruct (jget d "ub_matrix"); try contradiction; rewrite E; reflexivity. }
    destruct EM as (o & ->). cbn [bind].
    assert (EC : exists cv, convention_of (jget d "convention") = Ok cv /\ match cv with Some c => c | None => "Spice" end = "Spice").
    { destruct W as [[B _]|T]; [exists None|exists (Some "Spice")]; (split; [apply convention_inv; eauto|reflexivity]). }
    destruct EC as (cv & -> & CV). cbn [bind]. unfold new_ubconf. rewrite CV.
    set (u0 := UBConf "Spice" _ _ _ _ _ _).
    assert (U0 : exists u, ub_setattrs u0 (match o with Some m => [KW_ub_mat m] | None => [] end) = Ok u /\ convention u = "Spice") by (destruct o; eexists; split; reflexivity).
    destruct U0 as (u & -> & CU). cbn [bind].
    assert (G3 : forall set l', List.length l' <> 3%nat -> forall u', convention u' = "Spice" -> give_vector set (JNums l') u' = Err ValueError).
    { intros set l' N u' C. destruct l' as [|x1 [|x2 [|x3 [|x4 l']]]]; try contradiction; unfold give_vector; rewrite C; reflexivity. }
    assert (GET : forall k l, d k = Some (JNums l) -> jget d k = JNums l) by (intros k0 l0 E; unfold jget; rewrite E; reflexivity).
    assert (D3 : forall l0 : list R, (exists a b c, l0 = [a; b; c]) \/ List.length l0 <> 3%nat). { intros l0. destruct l0 as [|x1 [|x2 [|x3 [|x4 l0]]]]; try (right; discriminate). left. eauto. }
    assert (N1 : give_vector set_plane_normal (jget d "plane_normal") u = Err ValueError \/ exists u1, give_vector set_plane_normal (jget d "plane_normal") u = Ok u1 /\ convention u1 = "Spice" /\ k <> "plane_normal").
    { destruct (VS "plane_normal" (or_introl eq_refl)) as [B|(l1 & B)].
      { apply absent_get in B. right. exists u. rewrite B. split; auto. split; auto. intros ->. rewrite (GET _ _ EK) in B. discriminate. }
      destruct (D3 l1) as [(a & b & c & ->)|N]; [|left; rewrite (GET _ _ B); apply G3; auto]. right. rewrite (GET _ _ B). unfold give_vector, set_plane_normal. rewrite CU. eexists. split; [reflexivity|]. split; auto.
      intros ->. rewrite EK in B. injection B as ->. contradiction. }
    destruct N1 as [->|(u1 & -> & C1 & NK)]; [reflexivity|]. cbn [bind]. cbn [In] in IK. destruct IK as [<-|[<-|[]]]; [contradiction|]. rewrite (GET _ _ EK), G3 by auto. reflexivity.
Qed.
(** A file without a UB matrix gives a sample whose UB matrix cannot be read. *)
Theorem C83_no_ub : forall d s, from_json d = Ok s -> absent d "ub_matrix" -> exists u, so_ub_conf s = Some u /\ get_ub_mat u = Err AttributeError.
Proof.
  intros d s H A. apply from_json_inv in H. destruct H as (p & u & _ & _ & U & ->). exists u. split; auto. destruct (file_ub_inv _ _ U) as (_ & [[_ N]|(m & E & _)] & _). { unfold get_ub_mat. rewrite N. reflexivity. }
  apply absent_get in A. rewrite A in E. discriminate.
Qed.
(** The convention only says how the numbers are written: the same crystal written in both is placed the same way. *)
Theorem C83_convention : forall d d' s s' u u' m, from_json d = Ok s -> from_json d' = Ok s' -> so_ub_conf s = Some u -> so_ub_conf s' = Some u' ->
  written_in d "Spice" -> written_in d' "Mantid" -> writes_matrix d "ub_matrix" m -> writes_matrix d' "ub_matrix" (mm t_spice_to_mantid m) ->
  exists q, _ub_mat u = Some q /\ _ub_mat u' = Some q /\ forall h, mv q h = spice_to_mantid_vec (mv m h).
Proof.
  intros d d' s s' u u' m H H' E E' W W' WM WM'. apply C83_file in H, H'. destruct H as (_ & _ & u0 & E0 & W0 & G & _). destruct H' as (_ & _ & u1 & E1 & W1 & G' & _).
  rewrite E in E0. injection E0 as <-. rewrite E' in E1. injection E1 as <-. apply G in WM. apply G' in WM'.
  assert (UNI : forall d a b, written_in d a -> written_in d b -> a = b). { clear. intros d a b [[A ->]|A] [[B ->]|B]; auto; try congruence; try (destruct A; congruence); destruct B; congruence. }
  unfold get_ub_mat in *. rewrite (UNI _ _ _ W0 W) in WM. rewrite (UNI _ _ _ W1 W') in WM'. destruct (_ub_mat u) as [q|]; [|discriminate]. destruct (_ub_mat u') as [q'|]; [|discriminate]. unfold from_mantid_opt in *.
  change (from_mantid_mat "Spice") with (Ok t_mantid_to_spice) in WM. change (from_mantid_mat "Mantid") with (Ok mid) in WM'. cbn [bind] in WM, WM'. apply Ok_inj, Some_inj in WM. apply Ok_inj, Some_inj in WM'. subst m.
  rewrite mm_id_l, mm_assoc in WM'. destruct t_inverse as [TI _]. rewrite TI, mm_id_l in WM'. subst q'. exists q. split; auto. split; auto.
  intros h. rewrite mv_mm. generalize (mv q h). intros w. destruct (C04_vector_round_trip w) as [_ R]. destruct w. unfold mv, t_mantid_to_spice, spice_to_mantid_vec, dot, row0, row1, row2. cbn. f_equal; ring.
Qed.
(** The shape, when the file gives it with its three sizes, and the mosaic when it gives both, are the ones of the file; *)
Theorem C83_shape : forall d s, from_json d = Ok s ->
  (forall k, In k ["shape"; "width"; "height"; "depth"] -> ~ absent d k) ->
  d "shape" = Some (so_shape s) /\ d "width" = Some (so_width s) /\ d "height" = Some (so_height s) /\ d "depth" = Some (so_depth s).
Proof.
  intros d s H NA. apply from_json_inv in H. destruct H as (p & u & _ & _ & _ & ->). unfold shaped.
  assert (G : forall k, In k ["shape"; "width"; "height"; "depth"] -> is_null (jget d k) = false /\ d k = Some (jget d k)).
  { intros k I. specialize (NA k I). unfold absent in NA. unfold jget. destruct (d k) as [[]|]; split; auto; exfalso; apply NA; auto. }
  pose proof (G "shape" ltac:(cbn; auto)) as [N1 E1]. pose proof (G "width" ltac:(cbn; auto)) as [N2 E2]. pose proof (G "height" ltac:(cbn; auto)) as [N3 E3]. pose proof (G "depth" ltac:(cbn; auto)) as [N4 E4].
  cbv zeta. cbn [existsb]. rewrite N1, N2, N3, N4. cbn [orb]. destruct (is_null (jget d "mosaic_h") || _)%bool; cbn; auto.
Qed.
(** From a script: what set_shape and set_mosaic are given is what the sample has; what they are not given becomes that of a cuboid of
    unit sizes, or 30 minutes. Nothing else changes. *)
Definition given (o : option jval) (default j : jval) : Prop := (exists v, o = Some v /\ j = v) \/ (o = None /\ j = default).
Theorem C83_set : forall shape w h d mh mv s, let s1 := set_shape shape w h d s in let s2 := set_mosaic mh mv s in
  (given shape (JText "cuboid") (so_shape s1) /\ given w (JNum 1) (so_width s1) /\ given h (JNum 1) (so_height s1) /\ given d (JNum 1) (so_depth s1) /\
    so_mosaic_h s1 = so_mosaic_h s /\ so_mosaic_v s1 = so_mosaic_v s /\ so_type s1 = so_type s /\ so_lattice s1 = so_lattice s /\ so_ub_conf s1 = so_ub_conf s) /\
  (given mh (JNum 30) (so_mosaic_h s2) /\ given mv (JNum 30) (so_mosaic_v s2) /\
    so_shape s2 = so_shape s /\ so_width s2 = so_width s /\ so_height s2 = so_height s /\ so_depth s2 = so_depth s /\ so_type s2 = so_type s /\ so_lattice s2 = so_lattice s /\ so_ub_conf s2 = so_ub_conf s).
Proof.
  assert (G : forall o j, given o j (match o with Some v => v | None => j end)) by (intros [v|] j; [left; eauto|right; auto]).
  intros. cbn. repeat split; auto.
Qed.
Print Assumptions C83_set.
Theorem C83_mosaic : forall d s, from_json d = Ok s ->
  (forall k, In k ["mosaic_h"; "mosaic_v"] -> ~ absent d k) -> d "mosaic_h" = Some (so_mosaic_h s) /\ d "mosaic_v" = Some (so_mosaic_v s).
Proof.
  intros d s H NA. apply from_json_inv in H. destruct H as (p & u & _ & _ & _ & ->). unfold shaped.
  assert (G : forall k, In k ["mosaic_h"; "mosaic_v"] -> is_null (jget d k) = false /\ d k = Some (jget d k)).
  { intros k I. specialize (NA k I). unfold absent in NA. unfold jget. destruct (d k) as [[]|]; split; auto; exfalso; apply NA; auto. }
  pose proof (G "mosaic_h" ltac:(cbn; auto)) as [N1 E1]. pose proof (G "mosaic_v" ltac:(cbn; auto)) as [N2 E2].
  cbv zeta. cbn [existsb]. rewrite N1, N2. cbn [orb]. destruct (is_null (jget d "shape") || _)%bool; cbn; auto.
Qed.
(** when one of them is missing the others are forgotten without a word: *)
Theorem C83_incomplete_refuted : forall d s, from_json d = Ok s ->
  ((exists k, In k ["shape"; "width"; "height"; "depth"] /\ absent d k) ->
   so_shape s = JText "cuboid" /\ so_width s = JNum 1 /\ so_height s = JNum 1 /\ so_depth s = JNum 1) /\
  ((exists k, In k ["mosaic_h"; "mosaic_v"] /\ absent d k) -> so_mosaic_h s = JNum 30 /\ so_mosaic_v s = JNum 30).
Proof.
  intros d s H. apply from_json_inv in H. destruct H as (p & u & _ & _ & _ & ->). unfold shaped. cbv zeta. split; intros (k & I & A); apply absent_get in A.
  - assert (E : existsb is_null [jget d "shape"; jget d "width"; jget d "height"; jget d "depth"] = true). { apply existsb_exists. exists (jget d k). split; [|rewrite A; auto]. cbn [In] in *. destruct I as [<-|[<-|[<-|[<-|[]]]]]; auto. }
    rewrite E. destruct (existsb is_null [jget d "mosaic_h"; _]); cbn; auto.
  - assert (E : existsb is_null [jget d "mosaic_h"; jget d "mosaic_v"] = true). { apply existsb_exists. exists (jget d k). split; [|rewrite A; auto]. cbn [In] in *. destruct I as [<-|[<-|[]]]; auto. }
    rewrite E. destruct (existsb is_null [jget d "shape"; _; _; _]); cbn; auto.
Qed.
(** and the type of the sample is never read. *)
Theorem C83_type_refuted : forall d s, from_json d = Ok s -> so_type s = "crystal".
Proof. intros d s H. apply from_json_inv in H. destruct H as (p & u & _ & _ & _ & ->). unfold shaped. cbv zeta. destruct (existsb is_null [_; _; _; _]); destruct (existsb is_null [_; _]); reflexivity. Qed.
(** * Scans *)
(** A header of the data file with several numbers. *)
Definition header_numbers (float_of : string -> option R) (L : logs) (k : string) (xs : list R) : Prop :=
  exists t ps, header L k = Some t /\ occurs "," t /\ pieces ","%char t ps /\ Forall2 (fun a x => float_of a = Some x) ps xs.
(** The mosaic in the header of the data file. *)
Definition header_mosaic (float_of : string -> option R) (L : logs) (x : R) : Prop :=
  exists t, header L "samplemosaic" = Some t /\ t <> "" /\ ~ occurs "," t /\ float_of t = Some x.
(** The description of the sample is that of the data file alone. *)
Definition from_headers (i : option config) (s : option (dict string pv)) : Prop :=
  forall k, In k ["unit_cell"; "orientation_matrix"; "plane_normal"; "mosaic"] -> ~ configured i s ["sample"; k].

Lemma check_lattice_inv : forall l p, check_lattice l = Ok p <-> l = lattice_list p /\ sensible p.
Proof.
  intros l p. unfold check_lattice, lattice_list, sensible. split.
  - intros H. do 7 (destruct l as [|? l]; try discriminate). repeat (destruct (Rle_dec _ _); [discriminate|]). repeat (destruct (Rlt_dec _ _); [discriminate|]). apply Ok_inj in H. subst p. cbn. split; auto. repeat split; lra.
  - intros [-> S]. destruct p as [a b c x y z]. cbn in *. repeat (destruct (Rle_dec _ _); [exfalso; lra|]). repeat (destruct (Rlt_dec _ _); [exfalso; lra|]). reflexivity.
Qed.

Section C83.
  Variable float_of : string -> option R.
  Variable int_of : string -> option Z.
  Variable repr : pv -> string.
  Variable date_of : string -> option string.
  Notation build := (spice_scan_to_nxdict float_of int_of repr date_of).
  Notation built := (built float_of int_of repr date_of).
  Notation fill_static := (fill_static float_of int_of repr date_of).
  Notation scan_made := (scan_made float_of int_of repr date_of).
  Notation header_numbers := (header_numbers float_of).
  Notation header_mosaic := (header_mosaic float_of).
  Ltac open B := destruct (built _ _ _ _ B) as (instrument & source & mono & ana & det & coll & slits & flipper & goni & monitor & sample & user & spice &
      (ES & EM & EA & ED & EC & ESL & EF & EG & EMN & ESA & EU & ESP) & (GS & GM & GA & GD & GC & GSL & GF & GG) & (GI & GMN & GSA & GU & GSP & GDA)).

  (** The mosaic of the data file, and the units it is said to be in. *)
  Theorem C66_mosaic : forall L i s e, build L i s = Ok e -> ~ configured i s ["sample"; "mosaic"] ->
    (forall x, header_mosaic L x -> field_value e ["sample"; "mosaic"] = Some (LNum x) /\ leaf_at ["sample"; "mosaic"; "attrs"; "units"] (Dict e) = Some (LStr "degrees")) /\
    (sget "samplemosaic" (lg_meta L) = None -> field_value e ["sample"; "mosaic"] = None).
  Proof using.
    intros L i s e B NC. unfold field_value. open B. unfold nxsample in ESA. apply bind_ok in ESA. destruct ESA as (ubok & _ & ESA). rewrite !app_assoc in ESA.
    assert (NS : ~ In "mosaic" (map key_of (sample_params s))).
    { intros J. apply NC. clear - J. unfold sample_params in J. destruct s as [d|]; [|destruct J]. rewrite map_map in J. apply in_map_iff in J. destruct J as ([k0 v0] & Q & I). apply filter_In in I. destruct I as [I _]. cbn in Q.
      exists k0, v0. exists d. split; auto. split; auto. destruct (String.eqb k0 "ub_matrix") eqn:E; auto. right. split; [apply String.eqb_eq; auto|auto]. }
    destruct (fill_static _ _ _ _ "mosaic" (meta L "samplemosaic") [tfloat; units "degrees"] ESA) as (d & D & G); [apply nodupb_ok; vm_compute; reflexivity|member|exact NS|apply texts_get; discriminate|].
    cbn [List.app]. rewrite !leaf_cons, GSA. rewrite !leaf_cons, G. split.
    - intros x (t & H & NE & NO & FX). assert (M : meta L "samplemosaic" = PStr t). { unfold header in H. unfold meta. destruct (sget "samplemosaic" (lg_meta L)) as [[[y|y|y]|y|]|]; try discriminate. injection H as ->. reflexivity. }
      rewrite M in D. assert (DX : exists y, dataset_of float_of int_of repr date_of (PStr t) [tfloat; units "degrees"] = Ok y /\ d = [("dataset", Leaf y); ("attrs", Dict (map (fun a : string * string => (fst a, Leaf (LStr (snd a)))) [tfloat; units "degrees"]))]).
      { clear - D NE. destruct t as [|c0 t0]; [contradiction|]. unfold nxdataset in D. apply bind_ok in D. destruct D as (y & DY & D). apply Ok_inj in D. exists y. auto. }
      destruct DX as (y & DX & ->). unfold dataset_of in DX. change (sget "type" [tfloat; units "degrees"]) with (Some "NX_FLOAT") in DX. cbn in DX. apply contains_false in NO. rewrite NO in DX.
      destruct (isnumeric (no_dots t)); [|discriminate]. rewrite FX in DX. cbn in DX. apply Ok_inj in DX. subst y. split; reflexivity.
    - intros H. unfold meta in D. rewrite H in D. cbn in D. apply Ok_inj in D. subst d. reflexivity.
  Qed.
  Lemma numbers_at : forall L i s e k f xs, build L i s = Ok e -> In (k, f) [("latticeconstants", "unit_cell"); ("ubmatrix", "orientation_matrix"); ("plane_normal", "plane_normal")] ->
    ~ configured i s ["sample"; f] -> header_numbers L k xs -> field_value e ["sample"; f] = Some (LArr xs).
  Proof using.
    intros L i s e k f xs B I NC (t & ps & T & O & P & F). assert (J : In (k, ["sample"; f]) number_headers). { cbn [In] in I. destruct I as [I|[I|[I|[]]]]; injection I as <- <-; vm_compute; tauto. }
    destruct (C66_numbers _ _ _ _ _ _ _ _ B k _ J NC) as [A _]. destruct (A t T O) as (ps' & ys & P' & F' & ->). assert (ps' = ps) by (apply pieces_unique in P, P'; congruence). subst ps'. do 2 f_equal.
    clear - F F'. revert ys F'. induction F; intros ys F'; inversion F'; subst; auto. f_equal; [congruence|auto].
  Qed.
  Definition scan_ub (m : mat) (n : vec) : ubconf := UBConf "Spice" (Some (mm t_spice_to_mantid m)) (Some (mv t_spice_to_mantid n)) None None None None.
  Lemma from_scan_inv : forall c smp, from_scan c = Ok smp <-> exists inf p n, sample_ub_info c = Ok inf /\ cell_ok (sa_cell inf) = Ok p /\ normal_of (sa_normal inf) = Ok n /\
    smp = SampleObject "crystal" p (JText "cuboid") (JNum 1) (JNum 1) (JNum 1) (mosaic_of (sa_mosaic inf)) (mosaic_of (sa_mosaic inf)) (Some (scan_ub (sa_ub inf) n)).
  Proof using.
    intros c smp. unfold from_scan. split.
    - intros H. apply bind_ok in H. destruct H as (inf & I & H). apply bind_ok in H. destruct H as (p & P & H). cbv zeta in H. apply bind_ok in H. destruct H as (n & N & H). apply Ok_inj in H. subst smp. exists inf, p, n. auto.
    - intros (inf & p & n & -> & P & N & ->). cbn [bind]. rewrite P. cbn [bind]. cbv zeta. rewrite N. reflexivity.
  Qed.
  Lemma cell_inv : forall o p, cell_ok o = Ok p -> (o = Some (Leaf (LArr (lattice_list p))) \/ o = Some (Leaf (LList (lattice_list p)))) /\ sensible p.
  Proof using.
    intros o p H. unfold cell_ok in H. destruct o as [[[s|x|l|l|l]|l]|]; try discriminate; try (destruct (Nat.eqb _ 6); discriminate); apply check_lattice_inv in H; destruct H as [-> S]; auto.
  Qed.

  (** What a scan says about the sample is what the sample is: the lattice, the UB matrix and the plane normal of the data file, and its mosaic in both directions. *)
  Theorem C83_scan : forall L i s exp name e c smp, scan_made L i s exp name e c -> from_headers i s -> from_scan c = Ok smp ->
    sensible (so_lattice smp) /\ (forall xs, header_numbers L "latticeconstants" xs -> xs = lattice_list (so_lattice smp)) /\
    (forall x, header_mosaic L x -> so_mosaic_h smp = JNum x /\ so_mosaic_v smp = JNum x) /\
    exists u, so_ub_conf smp = Some u /\ convention u = "Spice" /\
      (forall m, header_numbers L "ubmatrix" (nine m) -> get_ub_mat u = Ok (Some m)) /\
      (forall v, header_numbers L "plane_normal" [vx v; vy v; vz v] -> get_plane_normal u = Ok (Some v)).
  Proof using.
    intros L i s exp name e c smp SM FH H. apply from_scan_inv in H. destruct H as (inf & p & n & I & P & N & ->). rewrite (sample_eq _ _ _ _ _ _ _ _ _ _ _ SM) in I. pose proof SM as (B & _).
    apply bind_ok in I. destruct I as (ub & UB & I). apply bind_ok in I. destruct I as (uv & _ & I). apply Ok_inj in I. subst inf. cbn [sa_cell sa_mosaic sa_ub sa_normal so_lattice so_mosaic_h so_mosaic_v so_ub_conf] in *.
    apply cell_inv in P. destruct P as [P S]. split; auto. split; [|split].
    - intros xs X. pose proof (numbers_at _ _ _ _ _ _ _ B (or_introl eq_refl) (FH "unit_cell" ltac:(cbn; auto)) X) as E. rewrite E in P. cbn [as_val] in P. destruct P as [P|P]; congruence.
    - intros x X. destruct (C66_mosaic _ _ _ _ B (FH "mosaic" ltac:(cbn; auto))) as [A _]. destruct (A x X) as [-> _]. cbn. auto.
    - exists (scan_ub ub n). split; auto. split; auto. split.
      + intros m X. pose proof (numbers_at _ _ _ _ _ _ _ B (or_intror (or_introl eq_refl)) (FH "orientation_matrix" ltac:(cbn; auto)) X) as E. rewrite E in UB. cbn [as_val] in UB.
        assert (ub = m). { destruct m. cbn in UB. apply Ok_inj in UB. auto. } subst ub. unfold get_ub_mat, scan_ub. cbn [_ub_mat convention]. apply (read_back mm); auto; [intros; rewrite mm_assoc; auto|apply mm_id_l].
      + intros v X. pose proof (numbers_at _ _ _ _ _ _ _ B (or_intror (or_intror (or_introl eq_refl))) (FH "plane_normal" ltac:(cbn; auto)) X) as E. rewrite E in N. cbn [as_val] in N.
        assert (n = v). { destruct v. cbn in N. apply Ok_inj in N. auto. } subst n. unfold get_plane_normal, scan_ub. cbn [_plane_normal convention]. apply (read_back mv); auto; [intros; rewrite mv_mm; auto|apply mv_id].
  Qed.
  (** The sample can be made when the data file has the three, *)
  Lemma scan_info_given : forall L i s exp name e c m, scan_made L i s exp name e c -> from_headers i s -> header_numbers L "ubmatrix" (nine m) -> det m <> 0%R ->
    exists inf, sample_ub_info c = Ok inf /\ sa_ub inf = m /\ sa_cell inf = as_val (field_value e ["sample"; "unit_cell"]) /\ sa_normal inf = as_val (field_value e ["sample"; "plane_normal"]) /\ sa_mosaic inf = as_val (field_value e ["sample"; "mosaic"]).
  Proof using.
    intros L i s exp name e c m SM FH (t & ps & T & O & P & F) D.
    destruct (C72_sample_given _ _ _ _ _ _ _ _ _ _ _ t ps m SM (FH "orientation_matrix" ltac:(cbn; auto)) T P F) as (_ & SG). destruct SG as (inf & I). { left. auto. }
    exists inf. split; auto. rewrite (sample_eq _ _ _ _ _ _ _ _ _ _ _ SM) in I. pose proof SM as (B & _). apply bind_ok in I. destruct I as (ub & UB & I). apply bind_ok in I. destruct I as (uv & _ & I). apply Ok_inj in I. subst inf. cbn. split; auto.
    pose proof (numbers_at _ _ _ _ _ _ (nine m) B (or_intror (or_introl eq_refl)) (FH "orientation_matrix" ltac:(cbn; auto)) (ex_intro _ t (ex_intro _ ps (conj T (conj O (conj P F)))))) as E. rewrite E in UB. destruct m. cbn in UB. apply Ok_inj in UB. auto.
  Qed.
  Theorem C83_scan_given : forall L i s exp name e c p m v, scan_made L i s exp name e c -> from_headers i s ->
    header_numbers L "latticeconstants" (lattice_list p) -> sensible p -> header_numbers L "ubmatrix" (nine m) -> det m <> 0%R -> header_numbers L "plane_normal" [vx v; vy v; vz v] ->
    exists smp, from_scan c = Ok smp.
  Proof using.
    intros L i s exp name e c p m v SM FH HL SE HU D HN. destruct (scan_info_given _ _ _ _ _ _ _ _ SM FH HU D) as (inf & I & U & C & N & _). pose proof SM as (B & _).
    rewrite (numbers_at _ _ _ _ _ _ _ B (or_introl eq_refl) (FH "unit_cell" ltac:(cbn; auto)) HL) in C. rewrite (numbers_at _ _ _ _ _ _ _ B (or_intror (or_intror (or_introl eq_refl))) (FH "plane_normal" ltac:(cbn; auto)) HN) in N.
    eexists. apply from_scan_inv. exists inf, p, v. split; auto. split. { rewrite C. unfold cell_ok, as_val. apply check_lattice_inv. auto. } split; [|reflexivity]. rewrite N. destruct v. reflexivity.
  Qed.
  (** without a plane normal it cannot, though a sample made by hand needs none; *)
  Theorem C83_scan_no_normal_refuted : forall L i s exp name e c p m, scan_made L i s exp name e c -> from_headers i s ->
    header_numbers L "latticeconstants" (lattice_list p) -> sensible p -> header_numbers L "ubmatrix" (nine m) -> det m <> 0%R -> sget "plane_normal" (lg_meta L) = None ->
    from_scan c = Err TypeError.
  Proof using.
    intros L i s exp name e c p m SM FH HL SE HU D HN. destruct (scan_info_given _ _ _ _ _ _ _ _ SM FH HU D) as (inf & I & U & C & N & _). pose proof SM as (B & _).
    rewrite (numbers_at _ _ _ _ _ _ _ B (or_introl eq_refl) (FH "unit_cell" ltac:(cbn; auto)) HL) in C.
    destruct (C66_numbers _ _ _ _ _ _ _ _ B "plane_normal" ["sample"; "plane_normal"] ltac:(vm_compute; tauto) (FH "plane_normal" ltac:(cbn; auto))) as [_ A]. rewrite (A HN) in N.
    unfold from_scan. rewrite I. cbn [bind]. assert (CO : cell_ok (sa_cell inf) = Ok p). { rewrite C. unfold cell_ok, as_val. apply check_lattice_inv. auto. } rewrite CO. cbn [bind]. cbv zeta. rewrite N. reflexivity.
  Qed.
  (** Without lattice constants in the headers, or with another number of them than six, no sample is made; *)
  Theorem C83_scan_no_cell : forall L i s exp name e c m, scan_made L i s exp name e c -> from_headers i s -> header_numbers L "ubmatrix" (nine m) -> det m <> 0%R ->
    (sget "latticeconstants" (lg_meta L) = None -> from_scan c = Err TypeError) /\
    (forall xs, header_numbers L "latticeconstants" xs -> List.length xs <> 6%nat -> from_scan c = Err UnboundLocalError).
  Proof using.
    intros L i s exp name e c m SM FH HU D. destruct (scan_info_given _ _ _ _ _ _ _ _ SM FH HU D) as (inf & I & U & C & N & _). pose proof SM as (B & _). split.
    - intros HN. destruct (C66_numbers _ _ _ _ _ _ _ _ B "latticeconstants" ["sample"; "unit_cell"] ltac:(vm_compute; tauto) (FH "unit_cell" ltac:(cbn; auto))) as [_ A]. rewrite (A HN) in C.
      unfold from_scan. rewrite I. cbn [bind]. rewrite C. reflexivity.
    - intros xs HL LE. rewrite (numbers_at _ _ _ _ _ _ _ B (or_introl eq_refl) (FH "unit_cell" ltac:(cbn; auto)) HL) in C.
      unfold from_scan. rewrite I. cbn [bind]. rewrite C. unfold cell_ok, as_val, check_lattice.
      destruct xs as [|? [|? [|? [|? [|? [|? [|]]]]]]]; try reflexivity. cbn in LE. congruence.
  Qed.
  (** without a mosaic the sample has none: the 30 minutes of arc of other samples are not used, and the resolution cannot be calculated; *)
  Theorem C83_scan_no_mosaic_refuted : forall L i s exp name e c smp, scan_made L i s exp name e c -> from_headers i s -> from_scan c = Ok smp -> sget "samplemosaic" (lg_meta L) = None ->
    so_mosaic_h smp = JNull /\ so_mosaic_v smp = JNull /\ mosaic_rad (so_mosaic_h smp) = Err TypeError /\ seen smp = Err TypeError.
  Proof using.
    intros L i s exp name e c smp SM FH H NM. apply from_scan_inv in H. destruct H as (inf & p & n & I & _ & _ & ->). rewrite (sample_eq _ _ _ _ _ _ _ _ _ _ _ SM) in I. pose proof SM as (B & _).
    apply bind_ok in I. destruct I as (ub & UB & I). apply bind_ok in I. destruct I as (uv & _ & I). apply Ok_inj in I. subst inf. cbn [sa_mosaic so_mosaic_h so_mosaic_v seen].
    destruct (C66_mosaic _ _ _ _ B (FH "mosaic" ltac:(cbn; auto))) as [_ A]. rewrite (A NM). cbn. auto.
  Qed.
  (** the in-plane reference is never taken over; *)
  Theorem C83_scan_no_reference_refuted : forall c smp, from_scan c = Ok smp -> exists u, so_ub_conf smp = Some u /\ _in_plane_ref u = None.
  Proof using. intros c smp H. apply from_scan_inv in H. destruct H as (inf & p & n & _ & _ & _ & ->). eexists. split; reflexivity. Qed.
  (** and the number which the NeXus entry says to be in degrees is used in minutes of arc. *)
  Theorem C83_scan_units_refuted : forall L i s exp name e c smp x, scan_made L i s exp name e c -> from_headers i s -> from_scan c = Ok smp -> header_mosaic L x ->
    field_value e ["sample"; "mosaic"] = Some (LNum x) /\ leaf_at ["sample"; "mosaic"; "attrs"; "units"] (Dict e) = Some (LStr "degrees") /\
    mosaic_rad (so_mosaic_h smp) = Ok (x / 60 * (PI / 180))%R.
  Proof using.
    intros L i s exp name e c smp x SM FH H HM. pose proof SM as (B & _). destruct (C66_mosaic _ _ _ _ B (FH "mosaic" ltac:(cbn; auto))) as [A _]. destruct (A x HM) as [F U]. split; auto. split; auto.
    destruct (C83_scan _ _ _ _ _ _ _ _ SM FH H) as (_ & _ & MO & _). destruct (MO x HM) as [-> _]. cbn. unfold deg2rad. f_equal. try lra.
  Qed.
  (** A scan and a file with the same numbers describe the same sample to everything that calculates with it. *)
  Theorem C83_same : forall L i s exp name e c smp d m v x, scan_made L i s exp name e c -> from_headers i s -> from_scan c = Ok smp ->
    header_numbers L "ubmatrix" (nine m) -> header_numbers L "plane_normal" [vx v; vy v; vz v] -> header_mosaic L x ->
    writes_lattice d (so_lattice smp) -> writes_matrix d "ub_matrix" m -> writes_vector d "plane_normal" v -> absent d "in_plane_ref" -> written_in d "Spice" ->
    d "mosaic_h" = Some (JNum x) -> d "mosaic_v" = Some (JNum x) ->
    exists s', from_json d = Ok s' /\ seen s' = seen smp /\ exists q, seen smp = Ok q.
  Proof using.
    intros L i s exp name e c smp d m v x SM FH H HU HN HM WL WM WV NR W MH MV.
    destruct (C83_scan _ _ _ _ _ _ _ _ SM FH H) as (SE & _ & MO & u & EU & _ & GU & GN). destruct (MO x HM) as [M1 M2]. specialize (GU m HU). specialize (GN v HN).
    assert (SU : u = scan_ub m v).
    { apply from_scan_inv in H. destruct H as (inf & p & n & _ & _ & _ & ->). cbn [so_ub_conf] in EU. apply Some_inj in EU. subst u. unfold get_ub_mat, get_plane_normal, scan_ub, from_mantid_opt in GU, GN. cbn [_ub_mat _plane_normal convention] in GU, GN.
      change (from_mantid_mat "Spice") with (Ok t_mantid_to_spice) in *. cbn [bind] in *. apply Ok_inj, Some_inj in GU. apply Ok_inj, Some_inj in GN. rewrite mm_assoc in GU. rewrite <- mv_mm in GN. destruct t_inverse as [_ TI]. rewrite TI in *. rewrite mm_id_l in GU. rewrite mv_id in GN. subst. reflexivity. }
    assert (FU : file_ub d = Ok (scan_ub m v)).
    { unfold file_ub. destruct (matrix_inv _ _ _ WM) as [EM NN]. assert (E1 : (match jget d "ub_matrix" with JNull => Ok None | j => do m <- matrix_of j; Ok (Some m) end) = Ok (Some m)). { destruct (jget d "ub_matrix"); try contradiction; rewrite EM; reflexivity. }
      rewrite E1. cbn [bind]. assert (E2 : exists cv, convention_of (jget d "convention") = Ok cv /\ match cv with Some c => c | None => "Spice" end = "Spice").
      { destruct W as [[A _]|T]. { exists None. split; auto. apply convention_inv. auto. } exists (Some "Spice"). split; auto. apply convention_inv. eauto. }
      destruct E2 as (cv & E2 & Q). rewrite E2. cbn [bind]. unfold new_ubconf. rewrite Q. apply absent_get in NR. rewrite NR. unfold jget. rewrite WV. destruct v. reflexivity. }
    eexists. split. { apply from_json_inv. exists (so_lattice smp), (scan_ub m v). split; auto. }
    assert (SH : forall s0, so_mosaic_h (shaped d s0) = JNum x /\ so_mosaic_v (shaped d s0) = JNum x /\ so_lattice (shaped d s0) = so_lattice s0).
    { intros s0. unfold shaped. cbv zeta. assert (E3 : existsb is_null [jget d "mosaic_h"; jget d "mosaic_v"] = false). { unfold jget. rewrite MH, MV. reflexivity. } rewrite E3. assert (J1 : jget d "mosaic_h" = JNum x) by (unfold jget; rewrite MH; auto). assert (J2 : jget d "mosaic_v" = JNum x) by (unfold jget; rewrite MV; auto). rewrite J1, J2. destruct (existsb is_null [jget d "shape"; _; _; _]); cbn; auto. }
    unfold seen. rewrite M1, M2. destruct (SH (object_of (so_lattice smp))) as (S1 & S2 & S3). cbn [with_ub so_mosaic_h so_mosaic_v so_lattice so_ub_conf]. rewrite S1, S2, S3, EU, SU. cbn. eauto.
  Qed.
End C83.
Print Assumptions C83_file.
Print Assumptions C83_accepted.
Print Assumptions C83_missing.
Print Assumptions C83_no_ub.
Print Assumptions C83_convention.
Print Assumptions C83_shape.
Print Assumptions C83_mosaic.
Print Assumptions C83_incomplete_refuted.
Print Assumptions C83_type_refuted.
Print Assumptions C83_refused.
Print Assumptions C66_mosaic.
Print Assumptions C83_scan.
Print Assumptions C83_scan_given.
Print Assumptions C83_scan_no_normal_refuted.
Print Assumptions C83_scan_no_cell.
Print Assumptions C83_scan_no_mosaic_refuted.
Print Assumptions C83_scan_no_reference_refuted.
Print Assumptions C83_scan_units_refuted.
Print Assumptions C83_same.

(** * Examples *)
Definition ex_json (l : list (string * jval)) : json := fun k => dget String.eqb k l.
(** test_data/IPTS32816_HB1A_exp1034/fesn1.json: a cylinder without sizes *)
Definition ex_fesn : list (string * jval) :=
  [("type", JText "xtal"); ("a", JNum 4.765809); ("b", JNum 4.765809); ("c", JNum 4.439077); ("alpha", JNum 90); ("beta", JNum 90); ("gamma", JNum 120); ("shape", JText "cylindrical"); ("mosaic_h", JNum 0); ("mosaic_v", JNum 0);
   ("ub_matrix", JNums [-0.004704; 0.005858; 0.225057; -0.208766; -0.210872; 0.000705; 0.122875; -0.119174; 0.009815]%R); ("plane_normal", JNums [-0.043593; 0.008692; 0.999012]%R); ("in_plane_ref", JNums [0; -0.999962; 0.008700]%R)].
Example C83_file_example : exists s u, from_json (ex_json ex_fesn) = Ok s /\ so_ub_conf s = Some u /\ get_plane_normal u = Ok (Some (V (-0.043593) 0.008692 0.999012)) /\
  get_ub_mat u = Ok (Some (M (-0.004704) 0.005858 0.225057 (-0.208766) (-0.210872) 0.000705 0.122875 (-0.119174) 0.009815)) /\
  so_mosaic_h s = JNum 0 /\ ex_json ex_fesn "shape" = Some (JText "cylindrical") /\ so_shape s = JText "cuboid" /\ ex_json ex_fesn "type" = Some (JText "xtal") /\ so_type s = "crystal".
Proof.
  assert (X : exists s, from_json (ex_json ex_fesn) = Ok s).
  { apply C83_accepted.
    - intros k I. right. cbn [In] in I. destruct I as [<-|[<-|[]]]; [exists (V (-0.043593) 0.008692 0.999012)|exists (V 0 (-0.999962) 0.008700)]; reflexivity.
    - left. left. reflexivity.
    - right. eexists. reflexivity.
    - split; [|split].
      + exists (Lattice 4.765809 4.765809 4.439077 90 90 120). split; [repeat split|]. unfold sensible. cbn. lra.
      + right. exists (M (-0.004704) 0.005858 0.225057 (-0.208766) (-0.210872) 0.000705 0.122875 (-0.119174) 0.009815). left. reflexivity.
      + left. left. split; [left|]; reflexivity. }
  destruct X as (s & H). destruct (C83_file _ _ H) as (_ & _ & u & E & _ & GU & GN & _). exists s, u. split; auto. split; auto. split; [apply GN; reflexivity|]. split; [apply GU; left; reflexivity|].
  destruct (C83_incomplete_refuted _ _ H) as [I _]. destruct I as (I & _). { exists "width". split; [cbn; auto|left; reflexivity]. }
  destruct (C83_mosaic _ _ H) as [M _]. { intros k I0. cbn [In] in I0. destruct I0 as [<-|[<-|[]]]; intros [A|A]; discriminate. }
  split. { cbn in M. injection M as <-. reflexivity. } split; [reflexivity|]. split; auto. split; [reflexivity|]. eapply C83_type_refuted; eauto.
Qed.
(** A sample with all its sizes; *)
Example C83_shape_example : exists s, from_json (ex_json (("width", JNum 2) :: ("height", JNum 3) :: ("depth", JNum 0.5) :: ex_fesn)) = Ok s /\ so_shape s = JText "cylindrical" /\ so_width s = JNum 2 /\ so_height s = JNum 3 /\ so_depth s = JNum 0.5.
Proof.
  set (d := ex_json _). assert (X : exists s, from_json d = Ok s).
  { apply C83_accepted.
    - intros k I. right. cbn [In] in I. destruct I as [<-|[<-|[]]]; [exists (V (-0.043593) 0.008692 0.999012)|exists (V 0 (-0.999962) 0.008700)]; reflexivity.
    - left. left. reflexivity.
    - right. eexists. reflexivity.
    - split; [|split].
      + exists (Lattice 4.765809 4.765809 4.439077 90 90 120). split; [repeat split|]. unfold sensible. cbn. lra.
      + right. exists (M (-0.004704) 0.005858 0.225057 (-0.208766) (-0.210872) 0.000705 0.122875 (-0.119174) 0.009815). left. reflexivity.
      + left. left. split; [left|]; reflexivity. }
  destruct X as (s & H). exists s. split; auto. destruct (C83_shape _ _ H) as (A & B & C & D). { intros k I. cbn [In] in I. destruct I as [<-|[<-|[<-|[<-|[]]]]]; intros [A|A]; discriminate. }
  cbn in A, B, C, D. injection A as <-. injection B as <-. injection C as <-. injection D as <-. auto.
Qed.
(** a file without a UB matrix, and one written in the convention of Mantid. *)
Example C83_no_ub_example : exists s, from_json (ex_json [("a", JNum 5); ("b", JNum 5); ("c", JNum 5); ("alpha", JNum 90); ("beta", JNum 90); ("gamma", JNum 90)]) = Ok s.
Proof.
  eexists. apply from_json_inv. exists (Lattice 5 5 5 90 90 90). eexists. split; [repeat split|]. split; [unfold sensible; cbn; lra|]. split; reflexivity.
Qed.
Example C83_convention_example : exists s s' u u', from_json (ex_json [("a", JNum 5); ("b", JNum 5); ("c", JNum 5); ("alpha", JNum 90); ("beta", JNum 90); ("gamma", JNum 90); ("ub_matrix", JNums [0.2; 0; 0; 0; 0; 0.2; 0; -0.2; 0]%R)]) = Ok s /\
  from_json (ex_json [("a", JNum 5); ("b", JNum 5); ("c", JNum 5); ("alpha", JNum 90); ("beta", JNum 90); ("gamma", JNum 90); ("convention", JText "Mantid");
    ("ub_matrix", let '(M a b c e f g h i j) := mm t_spice_to_mantid (M 0.2 0 0 0 0 0.2 0 (-0.2) 0) in JRows [[a; b; c]; [e; f; g]; [h; i; j]])]) = Ok s' /\
  so_ub_conf s = Some u /\ so_ub_conf s' = Some u' /\ _ub_mat u = _ub_mat u' /\ _ub_mat u <> None.
Proof.
  do 4 eexists. split; [apply from_json_inv; exists (Lattice 5 5 5 90 90 90); eexists; split; [repeat split|]; split; [unfold sensible; cbn; lra|]; split; reflexivity|].
  split; [apply from_json_inv; exists (Lattice 5 5 5 90 90 90); eexists; split; [repeat split|]; split; [unfold sensible; cbn; lra|]; split; reflexivity|].
  split; [reflexivity|]. split; [reflexivity|]. cbn. split; [|discriminate]. apply f_equal. symmetry. apply mm_id_l.
Qed.
(** A scan with lattice, UB matrix, plane normal and mosaic. *)
Definition ex_float3 (s : string) : option R := if String.eqb s "1" then Some 1%R else ex_float2 s.
Definition ex_sample_logs : logs := Logs (more_meta ex_meta ++ [("plane_normal", AMeta (MStr "0,0,1")); ("samplemosaic", AMeta (MStr "30"))]) (lg_data P_Builder6.ex_logs).
Example C83_scan_example : exists e c smp, scan_made ex_float3 ex_digits ex_repr ex_date ex_sample_logs None None "IPTS1_HB1_exp7" "scan0042" e c /\ from_headers None None /\
  header_numbers ex_float3 ex_sample_logs "latticeconstants" (lattice_list (Lattice 5.5 5.5 5.5 90 90 90)) /\ header_numbers ex_float3 ex_sample_logs "ubmatrix" (nine (M 0.2 0 0 0 0 0.2 0 (-0.2) 0)) /\
  header_numbers ex_float3 ex_sample_logs "plane_normal" [0; 0; 1]%R /\ header_mosaic ex_float3 ex_sample_logs 30 /\ from_scan c = Ok smp /\ so_lattice smp = Lattice 5.5 5.5 5.5 90 90 90 /\ so_mosaic_h smp = JNum 30.
Proof.
  assert (X : exists e, spice_scan_to_nxdict ex_float3 ex_digits ex_repr ex_date ex_sample_logs None None = Ok e /\ exists c, new_scan "scan0042" (mark "IPTS1_HB1_exp7" e) = Ok c /\ (exists a, sget "attrs" e = Some (Dict a))).
  { eexists. split; [cbv -[trunc IZR Q2R Ropp]; reflexivity|]. eexists. split; [cbv -[trunc IZR Q2R Ropp]; reflexivity|]. eexists; reflexivity. }
  destruct X as (e & B & c & NS & (a & A)).
  assert (SM : scan_made ex_float3 ex_digits ex_repr ex_date ex_sample_logs None None "IPTS1_HB1_exp7" "scan0042" e c) by (split; [exact B|]; split; [exact ex_plain_none|]; eexists; split; [eapply mark_marked; eauto|exact NS]).
  assert (FH : from_headers None None) by (intros k _ (k0 & v & d & E & _); discriminate).
  assert (HN : forall k t ps xs, header ex_sample_logs k = Some t -> contains "," t = true -> split_on ","%char t = ps -> Forall2 (fun a x => ex_float3 a = Some x) ps xs -> header_numbers ex_float3 ex_sample_logs k xs).
  { intros k t ps xs T C <- F. exists t, (split_on ","%char t). split; auto. split; [apply contains_spec; auto|]. split; auto. apply split_on_pieces. }
  assert (H1 : header_numbers ex_float3 ex_sample_logs "latticeconstants" (lattice_list (Lattice 5.5 5.5 5.5 90 90 90))) by (apply (HN _ "5.5,5.5,5.5,90,90,90" ["5.5"; "5.5"; "5.5"; "90"; "90"; "90"]); [reflexivity|reflexivity|reflexivity|repeat constructor]).
  assert (H2 : header_numbers ex_float3 ex_sample_logs "ubmatrix" (nine (M 0.2 0 0 0 0 0.2 0 (-0.2) 0))) by (apply (HN _ "0.2,0,0,0,0,0.2,0,-0.2,0" ["0.2"; "0"; "0"; "0"; "0"; "0.2"; "0"; "-0.2"; "0"]); [reflexivity|reflexivity|reflexivity|repeat constructor]).
  assert (H3 : header_numbers ex_float3 ex_sample_logs "plane_normal" [0; 0; 1]%R) by (apply (HN _ "0,0,1" ["0"; "0"; "1"]); [reflexivity|reflexivity|reflexivity|repeat constructor]).
  assert (H4 : header_mosaic ex_float3 ex_sample_logs 30). { exists "30". split; [reflexivity|]. split; [discriminate|]. split; [apply contains_false; reflexivity|reflexivity]. }
  destruct (C83_scan_given _ _ _ _ _ _ _ _ _ _ _ (Lattice 5.5 5.5 5.5 90 90 90) (M 0.2 0 0 0 0 0.2 0 (-0.2) 0) (V 0 0 1) SM FH H1) as (smp & S); [unfold sensible; cbn; lra|exact H2|unfold det; cbn; lra|exact H3|].
  exists e, c, smp. destruct (C83_scan _ _ _ _ _ _ _ _ _ _ _ _ SM FH S) as (_ & LA & MO & _). repeat (split; [assumption|]). split. { specialize (LA _ H1). destruct (so_lattice smp). cbn in LA. injection LA as <- <- <- <- <- <-. reflexivity. } apply (MO _ H4).
Qed.
