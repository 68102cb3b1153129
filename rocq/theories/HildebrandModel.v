(** Model of [hildebrand_solubility] in /repo/despasito/thermodynamics/calc.py:3272-3348.  Finite values are
    real numbers; overflow and undefined values are kept apart because the function compares them. *)
From Verif Require Import Base.
From Coq Require Import Reals.
Open Scope R_scope.

Inductive ext := RF (r : R) | RPInf | RNInf | RNaN.
Definition eneg (a : ext) : ext := match a with RF r => RF (- r) | RPInf => RNInf | RNInf => RPInf | RNaN => RNaN end.
Definition eadd (a b : ext) : ext :=
  match a, b with
  | RF x, RF y => RF (x + y)
  | RNaN, _ | _, RNaN => RNaN
  | RPInf, RNInf | RNInf, RPInf => RNaN
  | RPInf, _ | _, RPInf => RPInf
  | RNInf, _ | _, RNInf => RNInf
  end.
Definition esub (a b : ext) : ext := eadd a (eneg b).
(** an infinity times a number *)
Definition inf_times (x : R) : ext := match total_order_T x 0 with inleft (left _) => RNInf | inleft (right _) => RNaN | inright _ => RPInf end.
Definition emul (a b : ext) : ext :=
  match a, b with
  | RF x, RF y => RF (x * y)
  | RNaN, _ | _, RNaN => RNaN
  | RF x, RPInf | RPInf, RF x => inf_times x
  | RF x, RNInf | RNInf, RF x => inf_times (- x)
  | RPInf, RPInf | RNInf, RNInf => RPInf
  | _, _ => RNInf
  end.
Definition ediv (a b : ext) : ext :=
  match a, b with
  | RF x, RF y => if Req_EM_T y 0 then inf_times x else RF (x / y)
  | RNaN, _ | _, RNaN => RNaN
  | RF _, _ => RF 0
  | _, RF y => emul a (if Rle_dec 0 y then RF 1 else RF (-1))
  | _, _ => RNaN
  end.
Definition egt (a b : ext) : bool :=
  match a, b with
  | RF x, RF y => if Rlt_dec y x then true else false
  | RPInf, RF _ | RPInf, RNInf | RF _, RNInf => true
  | _, _ => false
  end.
(** np.sqrt *)
Definition esqrt (a : ext) : ext :=
  match a with
  | RF x => if Rle_dec 0 x then RF (sqrt x) else RNaN
  | RPInf => RPInf
  | _ => RNaN
  end.

Section Hildebrand.
  Variable D : Type.
  (** pressure_vs_volume_arrays: temperature, density_opts, max_density; it is modelled in IsothermModel.v *)
  Variable isotherm : R -> dict D -> R -> result (list R * list ext).
  (** scipy: gaussian_filter1d(., sigma=0.1), whose kernel has radius int(4*0.1+0.5) = 0, so that it keeps every value; the integral of the interpolating spline between two volumes;
      np.polyfit(., ., 1), slope and ordinate *)
  Variable smooth : list ext -> list ext.
  Variable integral : list R -> list ext -> R -> R -> ext.
  Variable polyfit : list R -> list ext -> ext * ext.
  (** constants.Nav * constants.kb *)
  Variable Rgas : R.

  Definition map2 {A B C} (f : A -> B -> C) (l : list A) (m : list B) : list C := map (fun p => f (fst p) (snd p)) (combine l m).
  Definition last4 {A} (l : list A) : list A := skipn (length l - 4) l.

  (** 3323: (Plist2 - Plist1) / (2 * dT) / R - Plist / RT *)
  Definition integrand (T dT : R) (P1 P2 P : list ext) : list ext :=
    map2 (fun a b => esub (ediv (ediv a (RF (2 * dT))) (RF Rgas)) (ediv b (RF (T * Rgas)))) (map2 esub P2 P1) P.

  (** 3327-3334: the residual energy *)
  Definition residual_energy (T tol rhol : R) (vlist : list R) (ilist : list ext) : ext :=
    let RT := T * Rgas in
    let vlast := List.last vlist 0 in
    let ilast := List.last ilist RNaN in
    let U := emul (RF (- RT)) (integral vlist ilist (1 / rhol) vlast) in
    if egt ilast (RF tol)
    then let (slope, yroot) := polyfit (last4 vlist) (last4 ilist) in
         let xroot := ediv (eneg yroot) slope in
         eadd U (ediv (emul (emul (RF (- RT)) ilast) (esub xroot (RF vlast))) (RF 2))
    else U.

  (** 3315-3348.  density_opts with an entry max_density makes the keyword appear twice.  Arrays of
      different length cannot be subtracted; different volumes are only logged. *)
  Definition hildebrand (rhol T dT tol : R) (opts : dict D) : result ext :=
    if dmem opts "max_density" then Err TypeError
    else
      let* i1 := isotherm (T - dT) opts rhol in
      let* i2 := isotherm (T + dT) opts rhol in
      let* i0 := isotherm T opts rhol in
      if negb (Nat.eqb (length (snd i2)) (length (snd i1)) && Nat.eqb (length (snd i0)) (length (snd i1))) then Err ValueError
      else match fst i0 with
           | [] => Err IndexError
           | _ =>
               let ilist := smooth (integrand T dT (snd i1) (snd i2) (snd i0)) in
               let U := residual_energy T tol rhol (fst i0) ilist in
               if egt U (RF 0) then Err ValueError else Ok (esqrt (emul (eneg U) (RF rhol)))
           end.
End Hildebrand.
