(** Model of src/tavi/sample.py (lattice part and constructors). *)
From Coq Require Import Reals List String.
From Verif Require Import Base LinAlg M_Utilities M_Lattice M_UB.
Import ListNotations.
Open Scope R_scope.

(** sample.py:69-88 (the attributes used by geometry and resolution) *)
Record sample := Sample {
  s_lattice : lattice;
  s_ub_conf : option ubconf;
  s_mosaic_h : R;
  s_mosaic_v : R }.

(** sample.py:204-228. The argument is any sequence of numbers: with a length other than 6 the unpacking error is caught
    and printed (lines 210-213), then the unbound names raise UnboundLocalError. *)
Definition check_lattice (ps : list R) : result lattice :=
  match ps with
  | [a; b; c; alpha; beta; gamma] =>
      if Rle_dec a 0 then Err ValueError else if Rle_dec b 0 then Err ValueError else if Rle_dec c 0 then Err ValueError
      else if Rlt_dec alpha 0 then Err ValueError else if Rlt_dec 180 alpha then Err ValueError
      else if Rlt_dec beta 0 then Err ValueError else if Rlt_dec 180 beta then Err ValueError
      else if Rlt_dec gamma 0 then Err ValueError else if Rlt_dec 180 gamma then Err ValueError
      else Ok (Lattice a b c alpha beta gamma)
  | _ => Err UnboundLocalError
  end.

(** The method on an object: the new state and the exception raised, if any. *)
Definition update_lattice_parameters (s : sample) (ps : list R) : sample * option exn :=
  match check_lattice ps with
  | Ok p => (Sample p (s_ub_conf s) (s_mosaic_h s) (s_mosaic_v s), None)
  | Err e => (s, Some e)
  end.

Definition lattice_list (p : lattice) : list R := [la p; lb p; lc p; lalpha p; lbeta p; lgamma p].

(** sample.py:65-89 *)
Definition new_sample (ps : list R) : result sample :=
  do p <- check_lattice ps; Ok (Sample p None 30 30).

(** sample.py:249-251 *)
Definition s_b_mat (s : sample) : result mat := b_mat_from_lattice (s_lattice s).

(** sample.py:253-263 *)
Definition get_q_norm (s : sample) (h : vec) : result R :=
  do (a, b, c) <- reciprocal_space_vectors (s_lattice s);
  Ok (norm (vadd (vadd (vscale (vx h) a) (vscale (vy h) b)) (vscale (vz h) c))).

(** sample.py:270-272 *)
Definition update_lattice_parametres_from_g_star_mat (s : sample) (g : mat) : sample * option exn :=
  match lattice_params_from_g_star_mat g with
  | Ok p => update_lattice_parameters s (lattice_list p)
  | Err e => (s, Some e)
  end.
(** sample.py:265-268 *)
Definition update_lattice_parametres_from_b_mat (s : sample) (b : mat) : sample * option exn :=
  match lattice_params_from_b_mat b with
  | Ok p => update_lattice_parameters s (lattice_list p)
  | Err e => (s, Some e)
  end.
