(** Shared vocabulary of the model: exceptions as values and Python
    dictionaries as association lists.  No property theorem lives here. *)
From Coq Require Export String List Bool Arith ZArith Lia.
Export ListNotations.
Open Scope list_scope.

(** The Python exception classes the modelled code can raise.  The message is
    not modelled.  [OutOfFuel] is the model's own marker for a loop whose fuel
    ran out; it is not a Python exception and theorems exclude it. *)
Inductive exn :=
| ValueError | KeyError | IndexError | TypeError | ImportError | NameError
| AttributeError | UnboundLocalError | RuntimeError | ZeroDivisionError
| OSError | OutOfFuel.

(** Result of a Python call: a value or a raised exception. *)
Inductive result (A : Type) := Ok (a : A) | Err (e : exn).
Arguments Ok {A} a.
Arguments Err {A} e.

Definition rbind {A B} (r : result A) (f : A -> result B) : result B :=
  match r with Ok a => f a | Err e => Err e end.
Notation "'let*' x ':=' r 'in' b" := (rbind r (fun x => b))
  (at level 200, x pattern, r at level 100, b at level 200, right associativity).

Definition is_ok {A} (r : result A) : bool :=
  match r with Ok _ => true | Err _ => false end.

(** [mapM] runs a possibly raising function over a list, left to right, and
    stops at the first exception (a Python for loop or comprehension). *)
Fixpoint mapM {A B} (f : A -> result B) (l : list A) : result (list B) :=
  match l with
  | [] => Ok []
  | x :: xs => let* y := f x in let* ys := mapM f xs in Ok (y :: ys)
  end.

Fixpoint foldM {A B} (f : B -> A -> result B) (acc : B) (l : list A) : result B :=
  match l with
  | [] => Ok acc
  | x :: xs => let* acc' := f acc x in foldM f acc' xs
  end.

(** Python [dict] with string keys, in insertion order.  [dset] keeps the
    position of an existing key, as Python does. *)
Definition dict (A : Type) := list (string * A).

Fixpoint dget {A} (d : dict A) (k : string) : option A :=
  match d with
  | [] => None
  | (k', v) :: d' => if String.eqb k k' then Some v else dget d' k
  end.

Fixpoint dset {A} (d : dict A) (k : string) (v : A) : dict A :=
  match d with
  | [] => [(k, v)]
  | (k', v') :: d' => if String.eqb k k' then (k', v) :: d' else (k', v') :: dset d' k v
  end.

Fixpoint ddel {A} (d : dict A) (k : string) : dict A :=
  match d with
  | [] => []
  | (k', v) :: d' => if String.eqb k k' then ddel d' k else (k', v) :: ddel d' k
  end.

Definition dmem {A} (d : dict A) (k : string) : bool :=
  match dget d k with Some _ => true | None => false end.

Definition dkeys {A} (d : dict A) : list string := map fst d.

(** [d[k]] with a missing key raising [KeyError]. *)
Definition dfetch {A} (d : dict A) (k : string) : result A :=
  match dget d k with Some v => Ok v | None => Err KeyError end.

(** [d.update(e)]. *)
Definition dupdate {A} (d e : dict A) : dict A :=
  fold_left (fun acc kv => dset acc (fst kv) (snd kv)) e d.

(** [x in list] for strings. *)
Definition smem (x : string) (l : list string) : bool :=
  existsb (String.eqb x) l.
