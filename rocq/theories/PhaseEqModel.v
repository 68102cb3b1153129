(** Model of the equilibrium relations and the fugacity-coefficient wrappers of
    /repo/despasito/thermodynamics/calc.py, over extended rationals. *)
From Coq Require Import SpecFloat.
From Verif Require Import Base Num ToolboxModel.

Definition at_ {A} (l : list A) (i : nat) : result A :=
  match nth_error l i with Some a => Ok a | None => Err IndexError end.

(** calc.py:970-980 and 1020-1028: the checks shared by the two functions *)
Definition check_fractions (phase : option string) (x phil phiv : list num) : result unit :=
  match phase with
  | None => Err ValueError
  | Some ph =>
      if negb (smem ph ["vapor"%string; "liquid"%string]) then Err ValueError
      else if negb (neqb (nsum x) (Fin 1)) then Err ValueError
      else if existsb is_nan phiv then Err ValueError
      else if existsb is_nan phil then Err ValueError
      else Ok tt
  end.

(** calc.py:983-991: the loop over the components that are present *)
Definition ratio_at (x num_phi den_phi : list num) (i : nat) : result num :=
  let* xi := at_ x i in
  if neqb xi (Fin 0) then Ok (Fin 0)
  else
    let* a := at_ num_phi i in
    let* b := at_ den_phi i in
    Ok (ndiv (nmul xi a) b).

(** calc.py:945-993 [calc_new_mole_fractions] *)
Definition calc_new_mole_fractions (x phil phiv : list num) (phase : option string) : result (list num) :=
  let* _ := check_fractions phase x phil phiv in
  match phase with
  | Some "vapor"%string => mapM (ratio_at x phil phiv) (seq 0 (length x))
  | _ => mapM (ratio_at x phiv phil) (seq 0 (length x))
  end.

(** numpy: elementwise operation on two arrays.  Arrays of different length are refused;
    stretching an array of length one is not modelled. *)
Definition zipv (f : num -> num -> num) (a b : list num) : result (list num) :=
  if Nat.eqb (length a) (length b) then Ok (map (fun p => f (fst p) (snd p)) (combine a b)) else Err ValueError.

(** calc.py:996-1038 [equilibrium_objective] *)
Definition equilibrium_objective (x phil phiv : list num) (phase : option string) : result num :=
  let* _ := check_fractions phase x phil phiv in
  match phase with
  | Some "vapor"%string =>
      let* a := zipv nmul x phil in let* b := zipv ndiv a phiv in Ok (nsub (nansum b) (Fin 1))
  | _ =>
      let* a := zipv nmul x phiv in let* b := zipv ndiv a phil in Ok (nsub (nansum b) (Fin 1))
  end.

(** calc.py:975: the same test in binary64, which numpy evaluates from left to right for
    fewer than eight entries *)
Definition sum_is_one (x : list spec_float) : bool :=
  SFeqb (fold_left f_add x (S754_zero false)) (S754_finite false 4503599627370496 (-52)).

(** The flags of the density search (calc.py:430-433). *)
Definition is_failed (flag : nat) : bool := Nat.eqb flag 3.
Definition is_ideal (flag : nat) : bool := Nat.eqb flag 4.

Section Fugacity.
  (** calc_vapor_density, calc_liquid_density: density and flag, or an exception *)
  Variable vapor_density liquid_density : num -> list num -> result (num * nat).
  (** Eos.fugacity_coefficient(P, rho, xi, T) *)
  Variable phi : num -> num -> list num -> result (list num).

  (** calc.py:853-898 [calc_vapor_fugacity_coefficient] *)
  Definition calc_vapor_fugacity_coefficient (P : num) (yi : list num) : result (list num * num * nat) :=
    let* d := vapor_density P yi in
    let (rhov, flagv) := d in
    if is_ideal flagv then Ok (map (fun _ => Fin 1) yi, Fin 0, flagv)
    else if is_failed flagv then Ok ([NaN; NaN], rhov, flagv)
    else let* p := phi P rhov yi in Ok (p, rhov, flagv).

  (** calc.py:901-942 [calc_liquid_fugacity_coefficient] *)
  Definition calc_liquid_fugacity_coefficient (P : num) (xi : list num) : result (list num * num * nat) :=
    let* d := liquid_density P xi in
    let (rhol, flagl) := d in
    if is_failed flagl then Ok ([NaN; NaN], rhol, flagl)
    else let* p := phi P rhol xi in Ok (p, rhol, flagl).
End Fugacity.
