(** Model of /repo/despasito/utils/general_toolbox.py *)
From Verif Require Import Base.
From Coq Require Import Reals.

(** An input value: a plain number, or a list/array of values.  [A] is the
    element type; for a composition list an element is itself a row.
    Simplification: conversion to float (np.array(.., float)) is the identity,
    so ragged or non-numeric input, which numpy rejects, is not represented. *)
Inductive value (A : Type) := Scalar (a : A) | Arr (l : list A).
Arguments Scalar {A} a.
Arguments Arr {A} l.

(** general_toolbox.py:269-294 [isiterable] *)
Definition isiterable {A} (v : value A) : bool :=
  match v with Scalar _ => false | Arr _ => true end.

(** general_toolbox.py:328-331: length an entry contributes *)
Definition entry_length {A} (v : value A) : nat :=
  match v with Scalar _ => 1 | Arr l => length l end.

(** general_toolbox.py:324-331: lengths of the entries that are present *)
Fixpoint lx_array {A} (d : dict (value A)) (keys : list string) : list nat :=
  match keys with
  | [] => []
  | k :: ks =>
      match dget d k with
      | Some v => entry_length v :: lx_array d ks
      | None => lx_array d ks
      end
  end.

Definition list_max_nat (l : list nat) : nat := fold_right Nat.max 0 l.

(** general_toolbox.py:323-334: the length all entries must have *)
Definition target_length {A} (d : dict (value A)) (keys : list string) (lx : option nat)
  : result nat :=
  match lx with
  | Some n => Ok n
  | None =>
      match lx_array d keys with
      | [] => Err ValueError                             (* 332-333 *)
      | ls => Ok (list_max_nat ls)                       (* 334 *)
      end
  end.

(** general_toolbox.py:339-349: one entry brought to length [lx] *)
Definition expand_entry {A} (lx : nat) (v : value A) : result (list A) :=
  match v with
  | Arr l =>
      if Nat.eqb (length l) 1 then
        match l with [] => Err IndexError | a :: _ => Ok (repeat a lx) end
      else if Nat.eqb (length l) lx then Ok l
      else Err ValueError
  | Scalar a => Ok (repeat a lx)
  end.

(** general_toolbox.py:336-351 *)
Fixpoint length_loop {A} (d : dict (value A)) (lx : nat) (keys : list string)
         (acc : dict (list A)) : result (dict (list A)) :=
  match keys with
  | [] => Ok acc
  | k :: ks =>
      match dget d k with
      | None => length_loop d lx ks acc
      | Some v => let* l := expand_entry lx v in length_loop d lx ks (dset acc k l)
      end
  end.

(** general_toolbox.py:297-351 *)
Definition check_length_dict {A} (d : dict (value A)) (keys : list string) (lx : option nat)
  : result (dict (list A)) :=
  let* n := target_length d keys lx in
  length_loop d n keys [].

(** general_toolbox.py:354-405 [set_defaults].  Keys and values may each be
    single or lists. *)
Inductive keyarg := OneKey (k : string) | ManyKeys (ks : list string).

(** general_toolbox.py:380-394: pair the keys with their default values *)
Definition pair_defaults {A} (keys : keyarg) (values : value (value A))
  : result (list (string * value A)) :=
  match values, keys with
  | Scalar v, ManyKeys ks => Ok (map (fun k => (k, v)) ks)        (* 382-383 *)
  | Scalar v, OneKey k => Ok [(k, v)]                             (* 385-386 *)
  | Arr vs, ManyKeys ks =>
      if Nat.eqb (length ks) (length vs) then Ok (combine ks vs)  (* 388-389 *)
      else Err ValueError
  | Arr vs, OneKey k =>
      match vs with
      | [v] => Ok [(k, v)]                                        (* 394 *)
      | _ => Err ValueError                                       (* 391-392 *)
      end
  end.

(** general_toolbox.py:396-403 *)
Definition default_value {A} (lx : option nat) (v : value A) : value A :=
  match v, lx with
  | Scalar a, Some n => Arr (repeat a n)
  | _, _ => v
  end.

Definition set_defaults {A} (d : dict (value A)) (keys : keyarg) (values : value (value A))
           (lx : option nat) : result (dict (value A)) :=
  let* kvs := pair_defaults keys values in
  Ok (fold_left (fun acc kv =>
                   if dmem d (fst kv) then acc
                   else dset acc (fst kv) (default_value lx (snd kv))) kvs d).

(** general_toolbox.py:218-266 [central_difference].  [F] is the user's
    vectorised function.  [eps] is numpy.finfo(float).eps.  The scalar [x] case
    behaves as a one-element array (np.append flattens).  Lists [xs] and
    [steps] have equal length. *)
Section CentralDifference.
  Open Scope R_scope.
  Variable eps : R.

  (** 254-260 *)
  Definition cd_step (relative : bool) (step_size : R) (x : R) : R :=
    if relative then
      let s := x * step_size in
      if Rlt_dec s eps then 2 * eps else s
    else step_size.

  (** 262-264 *)
  Definition central_difference (F : list R -> list R) (relative : bool) (step_size : R)
             (xs : list R) : list R :=
    let steps := map (cd_step relative step_size) xs in
    let xp := map (fun p => fst p + snd p) (combine xs steps) in
    let xm := map (fun p => fst p - snd p) (combine xs steps) in
    let y := F (xp ++ xm) in
    let lx := Nat.div (length y) 2 in
    map (fun p => (fst (fst p) - snd (fst p)) / (2 * snd p))
        (combine (combine (firstn lx y) (skipn lx y)) steps).
End CentralDifference.

(** The same stepping in binary64 arithmetic (Coq's SpecFloat, precision 53,
    exponent limit 1024), for relative=True: general_toolbox.py:255-258 and the two
    points of line 262. *)
From Coq Require Import SpecFloat.
Definition f_add := SFadd 53 1024.
Definition f_sub := SFsub 53 1024.
Definition f_mul := SFmul 53 1024.
Definition f_eps : spec_float := S754_finite false 4503599627370496 (-104).   (* 2^-52 *)
Definition f_two : spec_float := S754_finite false 4503599627370496 (-51).
Definition cd_step_float (step_size x : spec_float) : spec_float :=
  let s := f_mul x step_size in
  if SFltb s f_eps then f_mul f_two f_eps else s.
Definition cd_xp_float (step_size x : spec_float) := f_add x (cd_step_float step_size x).
Definition cd_xm_float (step_size x : spec_float) := f_sub x (cd_step_float step_size x).
Definition f_1em5 : spec_float := S754_finite false 5902958103587057 (-69).   (* 1e-5 *)
Definition f_m10 : spec_float := S754_finite true 5629499534213120 (-49).     (* -10.0 *)

(** general_toolbox.py:11-215 [solve_root].  [N] is the type of numbers. *)
Section SolveRoot.
  Context {N : Type}.

  (** The [bounds] argument: None, a flat sequence of numbers or None entries,
      or a sequence whose first element is itself a sequence.  For a nested
      sequence it matters (line 110) whether the outer container is a tuple. *)
  Inductive bounds_arg :=
  | BNone
  | BFlat (l : list (option N))
  | BNested (is_tuple : bool) (l : list (option (list (option N)))).

  Inductive x0_arg := XNone | XVec (n : nat) (v : list N).  (* n = np.size(x0) *)

  (** The scipy call that is finally made *)
  Inductive call :=
  | CallRoot (method : string) (x0 : x0_arg) (opts : dict N)
  | CallMinimize (method : string) (x0 : x0_arg)
                 (bounds : option (list (list (option N)))) (opts : dict N)
  | CallBracket (method : string) (lo hi : option N) (opts : dict N)
  | CallLeastSquares (x0 : x0_arg) (bounds : list (list (option N))) (opts : dict N).

  Definition supported_methods : list string :=
    ["brentq"; "least_squares"; "TNC"; "L-BFGS-B"; "SLSQP"; "hybr"; "lm"; "linearmixing";
     "diagbroyden"; "excitingmixing"; "krylov"; "df-sane"; "anderson"; "hybr_broyden1";
     "hybr_broyden2"; "broyden1"; "broyden2"; "bisect"]%string.

  Definition needs_x0 : list string :=
    ["broyden1"; "broyden2"; "anderson"; "hybr"; "lm"; "linearmixing"; "diagbroyden";
     "excitingmixing"; "krylov"; "df-sane"]%string.

  Definition plain_root : list string :=
    ["hybr"; "lm"; "linearmixing"; "diagbroyden"; "excitingmixing"; "krylov"; "df-sane"]%string.

  Definition bracket_opts : list string :=
    ["xtol"; "rtol"; "maxiter"; "full_output"; "disp"]%string.

  (** defaults overwritten by the user's options, e.g. 119-120 *)
  Definition merge_opts (dflt opts : dict N) : dict N := dupdate dflt opts.
  Definition merge_bracket_opts (dflt opts : dict N) : dict N :=
    dupdate dflt (filter (fun kv => smem (fst kv) bracket_opts) opts).

  Definition x0_size (x : x0_arg) : nat := match x with XNone => 1 | XVec n _ => n end.
  Definition is_none_x0 (x : x0_arg) : bool := match x with XNone => true | _ => false end.
  Definition is_bnone (b : bounds_arg) : bool := match b with BNone => true | _ => false end.

  (** 67-86 *)
  Definition fallback_x0 (m : string) (x0 : x0_arg) (b : bounds_arg) : result string :=
    if is_none_x0 x0 && smem m needs_x0 then
      if is_bnone b then Err ValueError else Ok "bisect"%string
    else Ok m.

  (** 88-90 *)
  Definition fallback_size (m : string) (x0 : x0_arg) : string :=
    if Nat.ltb 1 (x0_size x0) && smem m ["brentq"; "bisect"]%string
    then "least_squares"%string else m.

  (** 92-93: None[0] raises TypeError, an empty sequence IndexError.  The result
      carries whether the outer container is an (immutable) tuple. *)
  Definition wrap_bounds (b : bounds_arg) : result (bool * list (option (list (option N)))) :=
    match b with
    | BNone => Err TypeError
    | BFlat [] => Err IndexError
    | BFlat l => Ok (false, [Some l])
    | BNested _ [] => Err IndexError
    | BNested t (None :: l) => Err TypeError  (* not produced by a nested sequence *)
    | BNested t l => Ok (t, l)
    end.

  (** 95-103 *)
  Definition fallback_bounds (m : string) (x0 : x0_arg) (b : list (option (list (option N))))
    : result string :=
    if existsb (fun x => match x with None => true | Some _ => false end) b
       && smem m ["brentq"; "bisect"]%string
    then if is_none_x0 x0 then Err ValueError else Ok "hybr"%string
    else Ok m.

  (** 105-110: every bound must have two entries; a tuple cannot be assigned to *)
  Fixpoint check_pairs (is_tuple : bool) (b : list (option (list (option N))))
    : result (list (list (option N))) :=
    match b with
    | [] => Ok []
    | None :: _ => Err TypeError
    | Some p :: b' =>
        if Nat.eqb (length p) 2 then
          if is_tuple then Err TypeError
          else let* r := check_pairs is_tuple b' in Ok (p :: r)
        else Err ValueError
    end.

  (** 113-205; [dflt_*] are the built-in option tables of the branches *)
  Definition dispatch (dflt : string -> dict N) (m : string) (x0 : x0_arg)
             (b : list (list (option N))) (opts : dict N) : result call :=
    if smem m ["broyden1"; "broyden2"]%string then Ok (CallRoot m x0 (merge_opts (dflt m) opts))
    else if String.eqb m "anderson" then Ok (CallRoot m x0 (merge_opts (dflt m) opts))
    else if smem m plain_root then Ok (CallRoot m x0 (merge_opts (dflt m) opts))
    else if smem m ["TNC"; "L-BFGS-B"]%string then
      Ok (CallMinimize m x0 (if Nat.eqb (length b) 2 then Some b else None)
                       (merge_opts (dflt m) opts))
    else if String.eqb m "SLSQP" then
      Ok (CallMinimize m x0 (if Nat.eqb (length b) 2 then Some b else None)
                       (merge_opts (dflt m) opts))
    else if String.eqb m "brentq" then
      match b with
      | [lo; hi] :: _ => Ok (CallBracket m lo hi (merge_bracket_opts (dflt m) opts))
      | _ => Err IndexError
      end
    else if String.eqb m "least_squares" then
      Ok (CallLeastSquares x0 b (merge_opts (dflt m) opts))
    else if String.eqb m "bisect" then
      match b with
      | [lo; hi] :: _ => Ok (CallBracket m lo hi (merge_bracket_opts (dflt m) opts))
      | _ => Err IndexError
      end
    else Err UnboundLocalError.                  (* 209: sol never assigned *)

  Definition solve_root (dflt : string -> dict N) (m : string) (x0 : x0_arg)
             (b : bounds_arg) (opts : dict N) : result call :=
    if smem m supported_methods then
      let* m1 := fallback_x0 m x0 b in
      let m2 := fallback_size m1 x0 in
      let* tb := wrap_bounds b in
      let* m3 := fallback_bounds m2 x0 (snd tb) in
      let* pairs := check_pairs (fst tb) (snd tb) in
      dispatch dflt m3 x0 pairs opts
    else Err ValueError.                         (* 40-60 *)
End SolveRoot.
Arguments bounds_arg : clear implicits.
Arguments x0_arg : clear implicits.
Arguments call : clear implicits.
