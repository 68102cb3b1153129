(** Extended rationals: the numbers of the decision code.

    They stand for Python/numpy binary64 values.  Simplifications: arithmetic on
    finite values is exact (no rounding, no overflow) and there is one zero.
    NaN and infinities follow IEEE 754: NaN is unordered and absorbs, and
    inf-inf, 0*inf, inf/inf, 0/0 are NaN.  x/0 is infinity with the sign of x,
    as numpy computes it (with a warning) for +0. *)
From Coq Require Export QArith Qabs.
From Verif Require Export Base.

Inductive num := Fin (q : Q) | PInf | NInf | NaN.

Definition is_nan (a : num) : bool := match a with NaN => true | _ => false end.
Definition is_fin (a : num) : bool := match a with Fin _ => true | _ => false end.

(** a < b ; false as soon as one side is NaN *)
Definition nlt (a b : num) : bool :=
  match a, b with
  | Fin x, Fin y => negb (Qle_bool y x)
  | Fin _, PInf | NInf, Fin _ | NInf, PInf => true
  | _, _ => false
  end.

(** a <= b *)
Definition nle (a b : num) : bool :=
  match a, b with
  | Fin x, Fin y => Qle_bool x y
  | Fin _, PInf | NInf, Fin _ | NInf, PInf | PInf, PInf | NInf, NInf => true
  | _, _ => false
  end.

(** a == b *)
Definition neqb (a b : num) : bool :=
  match a, b with
  | Fin x, Fin y => Qeq_bool x y
  | PInf, PInf | NInf, NInf => true
  | _, _ => false
  end.

Notation ngt a b := (nlt b a).
Notation nge a b := (nle b a).

Definition nneg (a : num) : num :=
  match a with Fin x => Fin (- x) | PInf => NInf | NInf => PInf | NaN => NaN end.

Definition nadd (a b : num) : num :=
  match a, b with
  | Fin x, Fin y => Fin (x + y)
  | NaN, _ | _, NaN => NaN
  | PInf, NInf | NInf, PInf => NaN
  | PInf, _ | _, PInf => PInf
  | NInf, _ | _, NInf => NInf
  end.

Definition nsub (a b : num) : num := nadd a (nneg b).

Definition inf_of_sign (q : Q) : num :=
  match (q ?= 0)%Q with Gt => PInf | Lt => NInf | Eq => NaN end.

Definition nmul (a b : num) : num :=
  match a, b with
  | Fin x, Fin y => Fin (x * y)
  | NaN, _ | _, NaN => NaN
  | Fin x, PInf | PInf, Fin x => inf_of_sign x
  | Fin x, NInf | NInf, Fin x => inf_of_sign (- x)
  | PInf, PInf | NInf, NInf => PInf
  | PInf, NInf | NInf, PInf => NInf
  end.

Definition ndiv (a b : num) : num :=
  match a, b with
  | NaN, _ | _, NaN => NaN
  | Fin x, Fin y => if Qeq_bool y 0 then inf_of_sign x else Fin (x / y)
  | Fin _, _ => Fin 0
  | PInf, Fin y => if Qle_bool 0 y then PInf else NInf
  | NInf, Fin y => if Qle_bool 0 y then NInf else PInf
  | _, _ => NaN
  end.

Definition nabs (a : num) : num :=
  match a with Fin x => Fin (Qabs x) | PInf | NInf => PInf | NaN => NaN end.

Fixpoint npow (a : num) (n : nat) : num :=
  match n with O => Fin 1 | S k => nmul a (npow a k) end.

(** numpy.sum over a list *)
Definition nsum (l : list num) : num := fold_right nadd (Fin 0) l.

(** numpy.nansum: NaN entries count as zero *)
Definition nansum (l : list num) : num :=
  nsum (map (fun a => if is_nan a then Fin 0 else a) l).
