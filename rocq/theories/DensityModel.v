(** Model of the vapor and liquid density searches of
    /repo/despasito/thermodynamics/calc.py: how the roots and extrema of the isotherm
    select a density and a phase flag. *)
From Verif Require Import Base Num PhaseEqModel.

(** What pressure_vs_volume_arrays and pressure_vs_volume_spline produce (calc.py:441-443,
    657-659): sampled volumes, pressures minus the requested one, the spline of those as a
    function of volume, its roots and at most two extrema, both in increasing order. *)
Record isotherm := {
  vlist : list num;
  Plist : list num;
  spline : num -> num;
  roots : list num;
  extrema : list num
}.

Definition last_of (l : list num) : result num := match l with [] => Err IndexError | a :: t => Ok (last (a :: t) NaN) end.
(** python min and max of a list: the first element, replaced by each strictly smaller
    (larger) one; an empty list is refused *)
Definition py_min (l : list num) : result num :=
  match l with [] => Err ValueError | a :: t => Ok (fold_left (fun m x => if nlt x m then x else m) t a) end.
Definition py_max (l : list num) : result num :=
  match l with [] => Err ValueError | a :: t => Ok (fold_left (fun m x => if ngt x m then x else m) t a) end.

Definition q099 := Fin (99 # 100).
Definition q101 := Fin (101 # 100).

Section Density.
  Variable P : num.                                   (** requested pressure *)
  Variable dmax : result num.                         (** Eos.density_max(xi, T, maxpack=0.99) *)
  Variable err : num -> result num.                   (** pressure_spline_error: Eos.pressure(rho) - P *)
  Variable lsq : num -> num -> num -> result num.     (** scipy least_squares: start, lower and upper bound *)
  Variable brentq : num -> num -> result num.         (** scipy brentq on an interval *)
  Variable vroot : list num -> list num -> result num. (** -intercept/slope of the line fitted to the last four points *)
  Variable eps : num.                                 (** np.finfo("float").eps *)

  (** a failure inside [try ... except Exception] *)
  Definition or_else {A} (r : result A) (d : A) : A := match r with Ok a => a | Err _ => d end.

  (** calc.py:476-487 and 548-559, 705-716: least squares from the extrapolated volume; any
      exception, including an empty list of roots, gives the ideal-gas flag.  polyfit is
      outside the try block. *)
  Definition extrapolate (iso : isotherm) : result (num * nat) :=
    let* vr := vroot (vlist iso) (Plist iso) in
    Ok (or_else (let* r := last_of (roots iso) in
                 let* rho := lsq (ndiv (Fin 1) vr) eps (ndiv (Fin 1) (nmul (Fin (11 # 10)) r)) in
                 Ok (rho, 0%nat))
                (NaN, 4%nat)).

  Definition first_of (l : list num) : result num := at_ l 0.

  (** calc.py:518-538, 752-774: one root.  No branch sets the flag when there is one
      extremum and the root does not lie above it. *)
  Definition one_root (iso : isotherm) : result (num * nat) :=
    let* r0 := first_of (roots iso) in
    match extrema iso with
    | [] => Ok (ndiv (Fin 1) r0, 2%nat)
    | _ =>
        let* m := py_max (extrema iso) in
        if ngt (nadd (spline iso r0) P) (nadd (spline iso m) P) then Ok (ndiv (Fin 1) r0, 1%nat)
        else if Nat.ltb 1 (length (extrema iso)) then Ok (ndiv (Fin 1) r0, 0%nat)
        else Err UnboundLocalError
    end.

  (** calc.py:447-579: density, flag and flag_NoOpt before refinement.  The spline is
      evaluated at the reciprocal of the largest volume, as in the code. *)
  Definition vapor_select (iso : isotherm) : result (num * nat * bool) :=
    let three_or_more :=
      let* r := at_ (roots iso) 2 in Ok (ndiv (Fin 1) r, 0%nat, false) in
    if existsb is_nan (roots iso) then Ok (NaN, 3%nat, false)
    else
      match length (roots iso) with
      | 0%nat =>
          let* vl := last_of (vlist iso) in
          if nlt (spline iso (ndiv (Fin 1) vl)) (Fin 0) then
            let* v0 := first_of (vlist iso) in
            let tried := (let* d := dmax in
                          let* rho := lsq (ndiv (Fin 1) v0) eps d in
                          Ok (rho, match extrema iso with [] => 2%nat | _ => 1%nat end)) in
            match tried with
            | Ok (rho, f) => Ok (rho, f, true)
            | Err _ => let* _ := dmax in Ok (NaN, 3%nat, true)   (* dmax is evaluated again for the message *)
            end
          else
            let* m := py_min (Plist iso) in
            if ngt (nadd m P) (Fin 0) then
              let* e := extrapolate iso in let (rho, f) := e : num * nat in Ok (rho, f, false)
            else Ok (NaN, 3%nat, false)
      | 1%nat => let* o := one_root iso in let (rho, f) := o : num * nat in Ok (rho, f, false)
      | 2%nat =>
          let* r0 := first_of (roots iso) in
          if nlt (nadd (spline iso r0) P) (Fin 0) then Ok (ndiv (Fin 1) r0, 1%nat, false)
          else let* e := extrapolate iso in let (rho, f) := e : num * nat in Ok (rho, f, false)
      | _ => three_or_more
      end.

  (** calc.py:581-613: refinement of a vapor or critical density with the equation of state *)
  Definition vapor_refine (iso : isotherm) (rho : num) (noopt : bool) : result num :=
    let lo := nmul rho q099 in
    let* d := dmax in
    let hi := if ngt (nmul rho q101) d then d else nmul rho q101 in
    let* elo := err lo in
    let* ehi := err hi in
    if nlt (nmul elo ehi) (Fin 0) then brentq lo hi
    else
      let* p0 := first_of (Plist iso) in
      if nlt p0 (Fin 0) then Ok rho
      else if noopt then Ok rho
      else lsq rho eps d.

  (** calc.py:408-621 [calc_vapor_density] once the isotherm is known *)
  Definition calc_vapor_density (iso : isotherm) : result (num * nat) :=
    let* s := vapor_select iso in
    let '(rho, flag, noopt) := s : num * nat * bool in
    if Nat.eqb flag 0 || Nat.eqb flag 2 then
      let* rho' := vapor_refine iso rho noopt in Ok (rho', flag)
    else Ok (rho, flag).

  (** calc.py:669-782: liquid.  With no root the test is on the truth value of the spline, so
      any value but zero, NaN included, goes to least squares. *)
  Definition liquid_select (iso : isotherm) : result (num * nat * bool) :=
    let smallest := let* r0 := first_of (roots iso) in Ok (ndiv (Fin 1) r0, 1%nat, false) in
    if existsb is_nan (roots iso) then Ok (NaN, 3%nat, false)
    else
      match length (roots iso) with
      | 0%nat =>
          let* vl := last_of (vlist iso) in
          if negb (neqb (spline iso (ndiv (Fin 1) vl)) (Fin 0)) then
            let tried := (let* v0 := first_of (vlist iso) in
                          let* d := dmax in
                          let lo := ndiv (Fin 1) v0 in
                          let* rho := lsq (ndiv (nadd lo d) (Fin 2)) lo d in
                          Ok (rho, match extrema iso with [] => 2%nat | _ => 1%nat end)) in
            match tried with
            | Ok (rho, f) => Ok (rho, f, true)
            | Err _ => let* _ := dmax in Ok (NaN, 3%nat, true)
            end
          else
            let* m := py_min (Plist iso) in
            if ngt (nadd m P) (Fin 0) then
              let* e := extrapolate iso in let (rho, f) := e : num * nat in Ok (rho, f, false)
            else Ok (NaN, 3%nat, false)
      | 1%nat => let* o := one_root iso in let (rho, f) := o : num * nat in Ok (rho, f, false)
      | _ => smallest                                          (* 2 roots: both branches agree (742-751) *)
      end.

  (** calc.py:784-813 *)
  Definition liquid_refine (rho : num) (noopt : bool) : result num :=
    let lo := nmul rho q099 in
    let hi := nmul rho q101 in
    let* elo := err lo in
    let* ehi := err hi in
    if nlt (nmul elo ehi) (Fin 0) then brentq lo hi
    else if nlt elo (Fin 0) then Ok rho
    else if noopt then Ok rho
    else let* d := dmax in lsq rho eps d.

  (** calc.py:624-819 [calc_liquid_density] once the isotherm is known *)
  Definition calc_liquid_density (iso : isotherm) : result (num * nat) :=
    let* s := liquid_select iso in
    let '(rho, flag, noopt) := s : num * nat * bool in
    if Nat.eqb flag 1 || Nat.eqb flag 2 then
      let* rho' := liquid_refine rho noopt in Ok (rho', flag)
    else Ok (rho, flag).
End Density.
