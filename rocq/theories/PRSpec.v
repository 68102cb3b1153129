(** Specification vocabulary for C20-C24, independent of the code: the parameters a
    Peng-Robinson component stands for, and the residual Helmholtz energy. *)
From Verif Require Import Base RSum EosToolboxSpec.
From Coq Require Import Reals.
Open Scope R_scope.

(** Parameters of a component as the user gave them: critical properties or a and b;
    acentric factor or kappa; or neither (then the attraction does not depend on
    temperature). *)
Definition kappa_of (d : dict R) : option R :=
  match dget d "kappa"%string with
  | Some k => Some k
  | None => match dget d "omega"%string with
            | Some w => Some (37464 / 100000 + 154226 / 100000 * w - 26992 / 100000 * w * w)
            | None => None
            end
  end.
Definition ab_of (Rg : R) (d : dict R) : option (R * R) :=
  match dget d "ai"%string, dget d "bi"%string, dget d "Tc"%string, dget d "Pc"%string with
  | Some a, Some b, _, _ => Some (a, b)
  | _, _, Some Tc, Some Pc => Some (45723553 / 100000000 * Rg * Rg * Tc * Tc / Pc, 7779607 / 100000000 * Rg * Tc / Pc)
  | _, _, _, _ => None
  end.
(** the temperature factor; kappa is of no use without the critical temperature *)
Definition alpha_of (d : dict R) (T : R) : result R :=
  match kappa_of d, dget d "Tc"%string with
  | None, _ => Ok 1
  | Some k, Some Tc => Ok ((1 + k * (1 - sqrt (T / Tc))) * (1 + k * (1 - sqrt (T / Tc))))
  | Some _, None => Err KeyError
  end.

(** The residual Helmholtz energy divided by R T of the Peng-Robinson fluid of amounts
    [x i] with co-volumes [b i] and pair attractions [w i j], in volume [V]. *)
Definition total (n : nat) (x : nat -> R) : R := sumn n x.
Definition covolume (n : nat) (b x : nat -> R) : R := sumn n (fun i => x i * b i).
Definition attraction (n : nat) (w : nat -> nat -> R) (x : nat -> R) : R :=
  sumn n (fun i => sumn n (fun j => x i * x j * w i j)).
Definition helmholtz (Rg : R) (n : nat) (b : nat -> R) (w : nat -> nat -> R) (T : R) (x : nat -> R) (V : R) : R :=
  let N := total n x in let B := covolume n b x in let D := attraction n w x in
  - N * ln (1 - B / V) -
  D / (2 * sqrt 2 * B * Rg * T) * ln ((V + (1 + sqrt 2) * B) / (V + (1 - sqrt 2) * B)).
