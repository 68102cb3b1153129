(** Model of Aassoc.py [calc_bonding_volume] and of the two calc_Kijklab methods. *)
From Coq Require Import Reals.
From Verif Require Import Base RSum.
Open Scope R_scope.

(** Aassoc.py:513-517: the given site position, or a fraction of the diameter *)
Definition site_position (rd : option (nat -> nat -> nat -> nat -> R)) (ratio d : R) (k l a b : nat) : R :=
  match rd with
  | None => ratio * d
  | Some f => if Req_EM_T (f k l a b) 0 then ratio * d else f k l a b
  end.
(** Aassoc.py:477-534 [calc_bonding_volume] *)
Definition calc_bonding_volume (rc : nat -> nat -> nat -> nat -> R) (dij : nat -> nat -> R)
    (rd : option (nat -> nat -> nat -> nat -> R)) (ratio : R) (i j k l a b : nat) : R :=
  let c := rc k l a b in let d := dij i j in
  if Req_EM_T c 0 then 0
  else
    let r := site_position rd ratio d k l a b in
    let tmp0 := PI * d ^ 2 / (18 * r ^ 2) in
    let tmp11 := ln ((c + 2 * r) / d) in
    let tmp12 := 6 * c ^ 3 + 18 * c ^ 2 * r - 24 * r ^ 3 in
    let tmp21 := c + 2 * r - d in
    let tmp22 := 22 * r ^ 2 - 5 * r * c - 7 * r * d - 8 * c ^ 2 + c * d + d ^ 2 in
    tmp0 * (tmp11 * tmp12 + tmp21 * tmp22).
(** gamma_mie.py:1408-1444: the mean of the two effective diameters *)
Definition dij_mie (dii : nat -> R) (i j : nat) : R := (dii i + dii j) / 2.
Definition Kijklab_mie dii rc rd ratio := calc_bonding_volume rc (dij_mie dii) rd ratio.
(** gamma_sw.py:830-864: np.mean over two whole rows of sigma_ij *)
Definition dij_sw (n : nat) (sigma : nat -> nat -> R) (i j : nat) : R := (sumn n (sigma i) + sumn n (sigma j)) / INR (2 * n).
Definition Kijklab_sw n sigma rc rd ratio := calc_bonding_volume rc (dij_sw n sigma) rd ratio.

(** saft.py:429-438 and 653-675: the bonding volumes are kept with the temperature they
    were calculated for; a refresh replaces the parameters and keeps them.  [P] stands
    for the parameters (cutoff distances, site positions, diameters), [calc] for
    calc_Kijklab. *)
Section Cache.
  Variables (P T K : Type) (T_eqb : T -> T -> bool) (calc : T -> P -> K).
  Record vol := Vol { v_par : P; v_cache : option K; v_T : option T }.
  Inductive vop := Evaluate (t : T) | Refresh (p : P).
  Definition volume (s : vol) (t : T) : vol * K :=
    match v_cache s, v_T s with
    | Some k, Some t0 => if T_eqb t t0 then (s, k)
                         else let k := calc t (v_par s) in (Vol (v_par s) (Some k) (Some t), k)
    | _, _ => let k := calc t (v_par s) in (Vol (v_par s) (Some k) (Some t), k)
    end.
  Definition vstep (s : vol) (o : vop) : vol :=
    match o with Evaluate t => fst (volume s t) | Refresh p => Vol p (v_cache s) (v_T s) end.
  Definition vrun (p : P) (h : list vop) : vol := fold_left vstep h (Vol p None None).
End Cache.
