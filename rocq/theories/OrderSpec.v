(** Specification vocabulary for C118: listing the same things in another order. *)
From Verif Require Import Base RSum EosToolboxSpec.

(** the same things in another order: position [i] of the second list holds what
    position [sg i] of the first holds *)
Definition same_in_order {A} (sg : nat -> nat) (l l' : list A) : Prop :=
  length l' = length l /\ relabelling (length l) sg /\ forall i, (i < length l)%nat -> nth_error l' i = nth_error l (sg i).
(** where the cross library speaks of a pair in both orders it says the same *)
Definition orders_agree {V} (cl : dict (dict (dict V))) : Prop :=
  forall a b p v w, entry cl a b p = Some v -> entry cl b a p = Some w -> v = w.

