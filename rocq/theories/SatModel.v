(** Model of the saturation state of one component in /repo/despasito/thermodynamics/calc.py, over extended rationals.
    The pressures on the grid of volumes, the splines and the solvers of scipy are arguments; logging is left out. *)
From Verif Require Import Base Num InnerModel.
Open Scope nat_scope.

(** interpolate.InterpolatedUnivariateSpline through the pressures: the roots of the cubic one, the stationary points and the
    integral of the quartic one (calc.py:177-183; the smoothing with sigma = 0.01 is part of it) *)
Record curve := { c_roots : list num; c_extrema : list num; c_integral : num -> num -> num }.

Section Saturation.
  (** the volumes and, for pressures on them, the splines *)
  Variable vlist : list num.
  Variable fit_curve : list num -> curve.
  (** np.polyfit(vlist[-4:], p[-4:], 1): slope and intercept *)
  Variable line : list num -> num * num.
  (** spo.minimize_scalar(..., method="bounded") on the objective of [Plist], between two pressures *)
  Variable bounded : list num -> num -> num -> result num.
  (** spo.minimize of the error in pressure: start, lower and upper limit of the density, pressure *)
  Variable density : num -> num -> num -> num -> result num.
  (** the two fugacity coefficients computed at the end, whose values are dropped *)
  Variable coefficients : num -> result unit.
  (** np.finfo(float).eps *)
  Variable eps : num.

  (** Plist - shift *)
  Definition shifted (Pl : list num) (shift : num) : list num := map (fun p => nsub p shift) Pl.

  (** calc.py:155-194 [pressure_vs_volume_spline]: roots and extrema *)
  Definition roots_of (Pl : list num) : list num := if any_nan Pl then [NaN] else c_roots (fit_curve Pl).
  Definition extrema_of (Pl : list num) : list num := firstn 2 (c_extrema (fit_curve Pl)).

  Definition last_ (l : list num) : num := last l NaN.

  (** calc.py:354-405 [objective_saturation_pressure] *)
  Definition objective_saturation (shift : num) (Pl : list num) : result num :=
    let q := shifted Pl shift in
    let int := c_integral (fit_curve q) in
    match roots_of q with
    | r0 :: r1 :: r2 :: _ => let s := nadd (int r0 r1) (int r1 r2) in Ok (nmul s s)
    | [r0; r1] =>
        let (slope, yroot) := line q in
        let b := nadd (int r1 (last_ vlist))
                   (ndiv (nmul (nsub (last_ Pl) shift) (nsub (ndiv (nneg yroot) slope) (last_ vlist))) (Fin 2)) in
        let s := nadd (int r0 r1) b in Ok (nmul s s)
    | _ => Err ValueError
    end.

  (** np.argwhere(np.diff(Plist) > 0)[0][0] *)
  Fixpoint first_rise (i : nat) (Pl : list num) : result nat :=
    match Pl with
    | a :: (b :: _) as l => if nlt (Fin 0) (nsub b a) then Ok i else first_rise (S i) l
    | _ => Err IndexError
    end.
  (** np.argmax: the first position of the largest value *)
  Fixpoint argmax_from (best : num) (at_best i : nat) (l : list num) : nat :=
    match l with [] => at_best | a :: l' => if nlt best a then argmax_from a i (S i) l' else argmax_from best at_best (S i) l' end.
  Definition argmax (l : list num) : result nat :=
    match l with [] => Err ValueError | a :: l' => Ok (argmax_from a 0 1 l') end.
  (** np.amin of values that are not NaN; ValueError if there are none *)
  Definition amin (l : list num) : result num := pymin l.

  (** calc.py:295-299: the limits of the search *)
  Definition window (Pl : list num) (Pconverged : num) : result (num * num) :=
    let* i := first_rise 0 Pl in
    let* k := argmax (skipn i Pl) in
    let* top := match nth_error Pl (k + i) with Some p => Ok p | None => Err IndexError end in
    let* low := amin (firstn k (skipn i Pl)) in
    Ok (if nlt Pconverged low then low else Pconverged, top).

  (** pressure, liquid density, vapor density *)
  Definition nothing : num * num * num := (NaN, NaN, NaN).

  (** calc.py:316-334: the densities *)
  Definition densities (Psat : num) (q : list num) : result (num * num) :=
    let roots := roots_of q in
    let* roots :=
      if Nat.eqb (length roots) 2 then
        let (slope, yroot) := line q in
        let vroot := ndiv (nneg yroot) slope in
        let vroot := if nlt vroot (Fin 0) then eps else vroot in
        let* rho := density (ndiv (Fin 1) vroot) (ndiv (Fin 1) (nmul vroot (Fin 100)))
                      (ndiv (Fin 1) (nmul (Fin (11#10)) (last_ roots))) Psat in
        Ok (roots ++ [ndiv (Fin 1) rho])
      else Ok roots in
    match roots with
    | r0 :: _ :: r2 :: _ => Ok (ndiv (Fin 1) r0, ndiv (Fin 1) r2)
    | _ => Err IndexError
    end.

  (** calc.py:238-346 [calc_saturation_properties]; [Pl]: the pressures on the volumes.  scipy refuses limits in the wrong order. *)
  Definition calc_saturation (xi Pl : list num) (tol Pconverged : num) : result (num * num * num) :=
    let count f := length (filter f xi) in
    if negb (Nat.eqb (count (fun x => negb (neqb x (Fin 0)))) 1) then
      if negb (Nat.eqb (count (fun x => nlt (Fin (1#10)) x)) 1) then Err ValueError
      else Err TypeError (* Eos.beads[ind] with an array as index, while the message is put together *)
    else
      let* r :=
        if Nat.ltb (length (extrema_of Pl)) 2 || any_nan (roots_of Pl) then Ok nothing
        else
          let* w := window Pl Pconverged in
          let (low, top) := w in
          let* Psat := if nlt top low then Err ValueError else bounded Pl low top in
          let* obj := objective_saturation Psat Pl in
          if nlt obj tol then
            let* d := densities Psat (shifted Pl Psat) in
            Ok (Psat, fst d, snd d)
          else Ok nothing in
      let* _ := coefficients (fst (fst r)) in
      Ok r.
End Saturation.
