(** C71: the convolved curve at positions given as integers. *)
From Coq Require Import Reals List ZArith String Bool Arith Lra Lia.
From Verif Require Import Base M_Utilities M_ScanData M_Project M_Tavi M_Fit M_ConvFit S_ConvFit P_ConvFit.
From Verif Require M_Ellipsoid P_Integers.
Import ListNotations.
Open Scope string_scope.
Open Scope list_scope.
Open Scope R_scope.

(** ** Specification *)
(** n is x without what is after the point. *)
Definition whole_part (x : R) (n : Z) : Prop := Rabs (IZR n) <= Rabs x < Rabs (IZR n) + 1 /\ 0 <= x * IZR n.

(** ** Lemmas *)
Definition cut (xs : list Z) (rez : list (R * R)) (g : R -> R) (ys : list num) : Prop :=
  List.length ys = List.length xs /\ (forall i x q, nth_error xs i = Some x -> rez @ i is q -> exists n, whole_part (smeared g q (IZR x)) n /\ ys @ i is Some (IZR n)).
Lemma conv_cut : forall xs f g rez, (List.length xs <= List.length rez)%nat -> Forall (fun p => snd p <> 0) rez -> (forall u, f u = g u) ->
  exists ys, conv_1d_ints xs f rez = Ok ys /\ cut xs rez g ys.
Proof.
  intros xs f g rez L F E. destruct (C71_value (map (fun n => Some (IZR n)) xs) f rez) as (ys & C & N & H & _); [rewrite map_length; auto|auto|].
  unfold conv_1d in C. unfold conv_1d_ints. rewrite C. cbn [bind]. eexists. split; [reflexivity|]. split; [exact (eq_trans (map_length _ ys) (eq_trans N (map_length _ xs)))|].
  intros i x q X Q. specialize (H i (IZR x) q). rewrite nth_error_map, X in H. specialize (H eq_refl Q). 
  destruct (P_Integers.to_int_part (smeared f q (IZR x))) as (n & T & W). exists n. split; [rewrite <- (smeared_ext f g) by auto; exact W|].
  unfold num in *. rewrite nth_error_map, H. cbn [option_map]. rewrite T. reflexivity.
Qed.
Lemma eval_cut : forall p rez xs bp g, shape_of p bp g -> (List.length xs <= List.length rez)%nat -> Forall (fun q => snd q <> 0) rez ->
  exists ys, eval_ints p rez xs bp = Ok ys /\ cut xs rez g ys.
Proof.
  intros p rez xs [b pre] g S L F. unfold shape_of in S. unfold eval_ints. cbn [fst snd] in *. destruct b.
  - destruct S as (a & c & s & A & C & D & S & ->). unfold pget. rewrite A. cbn [bind]. rewrite C. cbn [bind]. rewrite D. cbn [bind]. destruct (Req_EM_T s 0); [contradiction|].
    apply conv_cut; auto. intros u. apply gaussian_peak. auto.
  - destruct S as (c & C & ->). unfold pget. rewrite C. cbn [bind]. apply conv_cut; auto. intros u. unfold constant. ring.
Qed.

(** ** Theorems *)
(** Finding: at positions given as integers every component is the convolved curve without what is after the point, since the array
    made like x holds integers; the model is the sum of these whole numbers. A peak that stays below one count is not there at all. *)
Theorem C71_integers_refuted : forall f p xs comps shapes, composite f = Ok comps -> Forall2 (shape_of p) comps shapes ->
  (List.length xs <= List.length (c_rez f))%nat -> Forall (fun q => snd q <> 0) (c_rez f) ->
  exists ys, conv_eval_ints f p xs = Ok ys /\ List.length ys = List.length xs /\
    forall i x q, nth_error xs i = Some x -> c_rez f @ i is q ->
      exists ns, Forall2 (fun g n => whole_part (smeared g q (IZR x)) n) shapes ns /\ ys @ i is Some (IZR (fold_right Z.add 0%Z ns)).
Proof.
  intros f p xs comps shapes C S L F.
  assert (NE : comps <> []). { unfold composite in C. destruct (_ ++ _) as [|[b [m|m]] l]; try discriminate. cbn [mapM] in C. cbn [bind] in C. destruct (mapM _ l); [|discriminate]. cbn [bind] in C. apply Ok_inj in C. subst. discriminate. }
  unfold conv_eval_ints. rewrite C. cbn [bind].
  assert (M : exists yss, mapM (eval_ints p (c_rez f) xs) comps = Ok yss /\ Forall2 (cut xs (c_rez f)) shapes yss).
  { clear C NE. induction S as [|bp g comps shapes S1 S IH]; [exists []; split; [reflexivity|constructor]|]. destruct IH as (yss & E & H). destruct (eval_cut p (c_rez f) xs bp g S1 L F) as (ys & E1 & H1).
    exists (ys :: yss). split; [|constructor; auto]. cbn [mapM]. rewrite E1. cbn [bind]. rewrite E. reflexivity. }
  destruct M as (yss & E & H). rewrite E. cbn [bind]. destruct H as [|g ys shapes yss H1 H]. { inversion S. subst. congruence. }
  eexists. split; [reflexivity|]. clear S C NE E.
  assert (G : forall ys0 : list num, List.length ys0 = List.length xs -> List.length (fold_left (zipw nadd) yss ys0) = List.length xs /\
    forall i x q k, nth_error xs i = Some x -> c_rez f @ i is q -> ys0 @ i is Some (IZR k) ->
      exists ns, Forall2 (fun g n => whole_part (smeared g q (IZR x)) n) shapes ns /\ fold_left (zipw nadd) yss ys0 @ i is Some (IZR (k + fold_right Z.add 0%Z ns))).
  { induction H as [|g' ys' shapes yss H2 H IH]; intros ys0 N0; cbn [fold_left].
    - split; auto. intros i x q k X Q K. exists []. split; [constructor|]. cbn. rewrite Z.add_0_r. auto.
    - destruct H2 as [N2 H2]. destruct (IH (zipw nadd ys0 ys')) as [N K]. { rewrite zip_length; [exact N0|]. exact (eq_trans N0 (eq_sym N2)). } split; auto. intros i x q k X Q Y. destruct (H2 i x q X Q) as (n & W & Y').
      destruct (K i x q (k + n)%Z X Q) as (ns & FN & R). { rewrite plus_IZR. apply zip_nth; auto. } exists (n :: ns). split; [constructor; auto|]. rewrite R. cbn [fold_right]. rewrite Z.add_assoc. reflexivity. }
  destruct H1 as [N1 H1]. destruct (G ys N1) as [N K]. split; auto. intros i x q X Q. destruct (H1 i x q X Q) as (n & W & Y). destruct (K i x q n X Q Y) as (ns & FN & R). exists (n :: ns). split; [constructor; auto|]. exact R.
Qed.
Print Assumptions C71_integers_refuted.

(** A background of half a count, at one position given as an integer and as a float: 0 and about 0.5 *)
Example C71_integers_example : exists f p c, composite f = Ok [(false, "b1_")] /\ shape_of p (false, "b1_") (fun _ => c) /\ c_rez f = [(1, 1)] /\
  conv_eval f p [Some 3] = Ok [Some (1 / 2)] /\ conv_eval_ints f p [3%Z] = Ok [Some 0].
Proof.
  pose proof C71_constant_positive as WP. set (c := / (2 * weight_sum)).
  set (f := conv_add_background "Constant" (fst (new_conv (Data1D [Some 3] [Some 1] None [Some 1]) [(1, 1)] None))). exists f, [("b1_c", c)], c.
  assert (C : composite f = Ok [(false, "b1_")]) by reflexivity. assert (SH : shape_of [("b1_c", c)] (false, "b1_") (fun _ => c)) by (exists c; split; reflexivity).
  assert (S : Forall2 (shape_of [("b1_c", c)]) [(false, "b1_")] [fun _ => c]) by (constructor; [exact SH|constructor]). assert (F : Forall (fun q => snd q <> 0) (c_rez f)) by (constructor; [cbn; lra|constructor]).
  assert (V : smeared (fun _ => c) (1, 1) 3 = 1 / 2). { rewrite C71_constant. cbn [fst]. unfold c. field. lra. }
  split; [exact C|]. split; [exact SH|]. split; [reflexivity|]. split.
  - destruct (C71_sum f _ [Some 3] _ _ C S ltac:(cbn; lia) F) as (ys & E & N & H). rewrite E. destruct ys as [|y [|]]; try discriminate. specialize (H 0%nat 3 (1, 1) eq_refl eq_refl). cbn in H. injection H as ->. rewrite <- V.
    do 3 f_equal. apply smeared_ext. intros u. ring.
  - destruct (C71_integers_refuted f _ [3%Z] _ _ C S ltac:(cbn; lia) F) as (ys & E & N & H). rewrite E. destruct ys as [|y [|]]; try discriminate. destruct (H 0%nat 3%Z (1, 1) eq_refl eq_refl) as (ns & FN & Y).
    inversion FN as [|? n ? ns' W FN']; subst. inversion FN'; subst. cbn [nth_error] in Y. injection Y as ->. rewrite V in W. destruct W as ((LB & UB) & _). rewrite (Rabs_pos_eq (1 / 2)) in LB by lra. rewrite <- abs_IZR in LB.
    assert (Z.abs n < 1)%Z by (apply lt_IZR; lra). do 2 f_equal. cbn [fold_right]. replace (n + 0)%Z with 0%Z by lia. reflexivity.
Qed.
