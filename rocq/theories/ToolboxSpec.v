(** Vocabulary for the statements about the input helpers (C01-C04).  It does not
    use the model's helper functions, only its data types. *)
From Verif Require Import Base ToolboxModel.
From Coq Require Import Reals.

(** [v] was supplied under one of the requested keys [k] *)
Definition supplied {A} (d : dict (value A)) (keys : list string) (k : string) (v : value A) :=
  In k keys /\ dget d k = Some v.

(** number of values an input holds *)
Definition vlen {A} (v : value A) : nat :=
  match v with Scalar _ => 1 | Arr l => length l end.

(** [L] is the longest supplied length *)
Definition longest {A} (d : dict (value A)) keys (L : nat) :=
  (exists k v, supplied d keys k v /\ vlen v = L) /\
  (forall k v, supplied d keys k v -> vlen v <= L).

(** the common length: the explicit one if given, else the longest supplied *)
Definition wanted_length {A} (d : dict (value A)) keys (lx : option nat) (L : nat) :=
  match lx with Some n => L = n | None => longest d keys L end.

(** [v] can be brought to length [L] *)
Definition fits {A} (L : nat) (v : value A) :=
  match v with Scalar _ => True | Arr l => length l = 1 \/ length l = L end.

(** what a supplied value becomes *)
Inductive spread {A} (L : nat) : value A -> list A -> Prop :=
| spread_scalar a : spread L (Scalar a) (repeat a L)
| spread_one a : spread L (Arr [a]) (repeat a L)
| spread_full l : length l = L -> length l <> 1 -> spread L (Arr l) l.

(** a default value as stored *)
Inductive stored_default {A} : option nat -> value A -> value A -> Prop :=
| sd_plain v : stored_default None v v
| sd_arr n l : stored_default (Some n) (Arr l) (Arr l)
| sd_rep n a : stored_default (Some n) (Scalar a) (Arr (repeat a n)).

(** defaults paired with keys, as the caller lists them *)
Definition listed_default {A} (keys : keyarg) (values : value (value A)) (k : string) (v : value A) : Prop :=
  match keys, values with
  | OneKey k0, Scalar v0 => k = k0 /\ v = v0
  | OneKey k0, Arr vs => k = k0 /\ vs = [v]
  | ManyKeys ks, Scalar v0 => In k ks /\ v = v0
  | ManyKeys ks, Arr vs => exists i, nth_error ks i = Some k /\ nth_error vs i = Some v
  end.

Definition listed_key (keys : keyarg) (k : string) : Prop :=
  match keys with OneKey k0 => k = k0 | ManyKeys ks => In k ks end.

(** the quadratic a x^2 + b x + c and its derivative *)
Definition quad (a b c x : R) : R := (a * x * x + b * x + c)%R.
Definition quad' (a b x : R) : R := (2 * a * x + b)%R.

(** name of the solver a scipy call runs *)
Definition call_method {N} (c : call N) : string :=
  match c with
  | CallRoot m _ _ | CallMinimize m _ _ _ | CallBracket m _ _ _ => m
  | CallLeastSquares _ _ _ => "least_squares"%string
  end.

Definition call_opts {N} (c : call N) : dict N :=
  match c with
  | CallRoot _ _ o | CallMinimize _ _ _ o | CallBracket _ _ _ o
  | CallLeastSquares _ _ o => o
  end.

(** methods the docstring of solve_root lists (general_toolbox.py:18-21) *)
Definition documented_methods : list string :=
  ["brent"; "least_squares"; "TNC"; "L-BFGS-B"; "SLSQP"; "hybr"; "lm"; "linearmixing";
   "diagbroyden"; "excitingmixing"; "krylov"; "df-sane"; "anderson"; "hybr_broyden1";
   "hybr_broyden2"; "broyden1"; "broyden2"; "bisect"]%string.

(** methods that start from a point and so need x0 *)
Definition point_methods : list string :=
  ["broyden1"; "broyden2"; "anderson"; "hybr"; "lm"; "linearmixing"; "diagbroyden";
   "excitingmixing"; "krylov"; "df-sane"]%string.

(** the method names solve_root is meant to know: the documented ones, with scipy's
    name "brentq" for the bracketing Brent method *)
Definition known_methods : list string :=
  ["brentq"; "least_squares"; "TNC"; "L-BFGS-B"; "SLSQP"; "hybr"; "lm"; "linearmixing";
   "diagbroyden"; "excitingmixing"; "krylov"; "df-sane"; "anderson"; "hybr_broyden1";
   "hybr_broyden2"; "broyden1"; "broyden2"; "bisect"]%string.
