(** Model of the isotherm sampling in /repo/despasito/thermodynamics/calc.py.
    Densities and volumes are exact rationals; pressures are extended rationals, because an
    equation of state can return NaN.  Eos.pressure on an array is its value at each
    density. *)
From Coq Require Import Qround.
From Verif Require Import Base Num.

(** numpy.arange: start + i*step for i below ceil((stop-start)/step) *)
Definition arange (start stop step : Q) : result (list Q) :=
  if Qeq_bool step 0 then Err ZeroDivisionError
  else Ok (map (fun i => start + inject_Z (Z.of_nat i) * step)
               (seq 0 (Z.to_nat (Qceiling ((stop - start) / step))))).

(** numpy.linspace *)
Definition linspace (a b : Q) (n : nat) : list Q :=
  match n with
  | O => []
  | S O => [a]
  | S m => map (fun i => a + inject_Z (Z.of_nat i) * ((b - a) / inject_Z (Z.of_nat m))) (seq 0 n)
  end.

(** numpy x[:-1] *)
Definition all_but_last {A} (l : list A) : list A := firstn (length l - 1) l.

Definition inv (q : Q) : Q := 1 / q.

(** calc.py:115: (1/rho[:-1]) - (1/rho[1:]) *)
Fixpoint vspace (rho : list Q) : list Q :=
  match rho with
  | a :: ((b :: _) as tl) => inv a - inv b :: vspace tl
  | _ => []
  end.

(** calc.py:117: np.where(vspace > limit)[0][-1], when there is one *)
Fixpoint last_above (limit : Q) (i : nat) (l : list Q) (found : option nat) : option nat :=
  match l with
  | [] => found
  | a :: l' => last_above limit (S i) l' (if Qle_bool a limit then found else Some i)
  end.

Record pv_opts := {
  min_density_fraction : Q;
  density_increment : Q;
  max_volume_increment : Q;
  pressure_min : Q;
  maxiter : nat;
  extended_npts : nat;
  (** None or 0 means the value of Eos.density_max; a list of one value is not modelled *)
  max_density : option num;
  max_array_length : nat
}.

Section PV.
  Variable eos_density_max : result num.   (** Eos.density_max(xi, T) *)
  Variable press : Q -> num.               (** Eos.pressure at a density, T and xi fixed *)

  (** calc.py:93-98.  [max_density] undefined or infinite: every comparison with NaN is
      false, and numpy.arange then refuses the range with ValueError. *)
  Definition top_density (o : pv_opts) : result Q :=
    let* m := match max_density o with
              | None => eos_density_max
              | Some m => if neqb m (Fin 0) then eos_density_max else Ok m
              end in
    match m with
    | Fin q => if Qle_bool q 100000 then Ok q else Err ValueError
    | PInf | NInf | NaN => Err ValueError
    end.

  (** calc.py:112-121: the density grid, denser in volume at low density.  A grid density of
      exactly zero (only possible with a non-positive min_density_fraction) divides by zero
      in the code; it is given that exception here when it is the first one. *)
  Definition density_grid (o : pv_opts) (top : Q) : result (list Q) :=
    let minrho := top * min_density_fraction o in
    let* rho := arange minrho top (density_increment o) in
    if Qeq_bool minrho 0 then Err ZeroDivisionError
    else
      match vspace rho with
      | [] => Err ValueError                                  (* np.amax of an empty array *)
      | vs =>
          match last_above (max_volume_increment o) 0 vs None with
          | None => Ok rho
          | Some k =>
              match nth_error rho (S k) with
              | None => Err IndexError
              | Some r =>
                  let* vgrid := arange (inv r) (inv minrho) (max_volume_increment o) in
                  Ok (map inv (rev vgrid) ++ skipn (k + 2) rho)
              end
          end
      end.

  (** calc.py:134-142: extend to lower densities until the pressure is low enough.  The
      factor is 2 whatever [multfactor] says. *)
  Fixpoint extend (fuel : nat) (npts : nat) (pmin : Q) (rho : list Q) (P : list num)
    : result (list Q * list num) :=
    match fuel with
    | O => Ok (rho, P)
    | S fuel' =>
        match P, rho with
        | p0 :: _, r0 :: _ =>
            if ngt p0 (Fin pmin) then
              let tmp := all_but_last (linspace (r0 / 2) r0 npts) in
              extend fuel' npts pmin (tmp ++ rho) (map press tmp ++ P)
            else Ok (rho, P)
        | _, _ => Err IndexError
        end
    end.

  (** calc.py:21-152 [pressure_vs_volume_arrays].  [xi] may contain NaN. *)
  Definition pressure_vs_volume_arrays (o : pv_opts) (xi : list num) : result (list Q * list num) :=
    if existsb is_nan xi then Err ValueError
    else
      let* top := top_density o in
      let minrho := top * min_density_fraction o in
      if negb (Qle_bool (density_increment o) (top - minrho)) then Err ValueError
      else
        let* rho := density_grid o top in
        if Nat.ltb (max_array_length o) (length rho) then Err ValueError
        else
          let* e := extend (maxiter o) (extended_npts o) (pressure_min o) rho (map press rho) in
          Ok (map inv (rev (fst e)), rev (snd e)).
End PV.
