(** Specification vocabulary for scans combined along axes of reciprocal space and energy (C69). *)
From Coq Require Import Reals List Bool String.
From Verif Require Import Base LinAlg M_Labels M_Scan S_Grid S_Frame S_ScanData.
Import ListNotations.
Open Scope R_scope.

(** A measured point: where, the counts and the monitor *)
Record point4 := Point4 { p_hkl : vec; p_en : R; p_counts : R; p_mon : R }.
(** The columns of the scan hold the points: h, k, l, energy, counts (column [z]) and monitor (column [ch]). *)
Definition holds4 (s : scan) (z ch : string) (pts : list point4) : Prop :=
  let is name f := column s name = Ok (map (fun p => Some (f p)) pts) in
  is "qh"%string (fun p => vx (p_hkl p)) /\ is "qk"%string (fun p => vy (p_hkl p)) /\ is "ql"%string (fun p => vz (p_hkl p)) /\
  is "en"%string p_en /\ is z p_counts /\ is ch p_mon.

(** [c] are the coordinates of a point along the axes: one number for each axis, in the order of the axes. *)
Definition coordinates (axes : list axis) (c : nat -> R) (p : point4) : Prop :=
  hkl_change axes c = p_hkl p /\ energy_change axes c = p_en p.

(** A pair (a, b) of the grid keeps what lies strictly between a and b. *)
Definition within (g : option pparam) (x : R) : Prop :=
  match g with Some (PTup [Some (Some a); Some (Some b)]) => a < x < b | _ => True end.
Definition within_dec (g : option pparam) (x : R) : {within g x} + {~ within g x}.
Proof.
  unfold within. destruct g as [[| [|[[a|]|] [|[[b|]|] [|]]] |]|]; auto.
  destruct (Rlt_dec a x); [|right; tauto]. destruct (Rlt_dec x b); [left|right]; tauto.
Defined.
(** All the pairs of the grid keep the coordinates. *)
Definition kept (grid : list pparam) (c : nat -> R) : bool :=
  forallb (fun w => decb (within_dec (nth_error grid w) (c w))) (seq 0 4).
(** Element [i] of the grid asks for cells of width [step] from [a] to [b]; what is missing is the extent of the data. *)
Definition asks (g : list pparam) (i : nat) (a b : option R) (step : R) : Prop :=
  (nth_error g i = Some (PTup [option_map Some a; option_map Some b; Some (Some step)]) \/
   (nth_error g i = Some (PNum (Some step)) /\ a = None /\ b = None)) /\
  0 < step /\ (forall u v, a = Some u -> b = Some v -> u < v).
Definition least (a : option R) (l : list R) (x : R) : Prop :=
  match a with Some u => x = u | None => In x l /\ forall y, In y l -> x <= y end.
Definition greatest (b : option R) (l : list R) (x : R) : Prop :=
  match b with Some u => x = u | None => In x l /\ forall y, In y l -> y <= x end.
(** Elements of the grid that give no range to plot *)
Definition is_pair (g : pparam) : bool := match g with PTup l => Nat.eqb (List.length l) 2 | _ => false end.
Definition window (g : list pparam) (i : nat) : Prop :=
  exists lo hi, nth_error g i = Some (PTup [Some (Some lo); Some (Some hi)]) /\ lo < hi.
(** Three vectors that are not coplanar, and the energy *)
Definition good_axes (axes : list axis) : Prop :=
  exists k a b c, (k < 4)%nat /\ is_vec a /\ is_vec b /\ is_vec c /\ axes = placed k En a b c /\
    dot (direction a) (cross (direction b) (direction c)) <> 0.
