(** Model of /repo/despasito/thermodynamics/calculation_types.py and __init__.py: the
    calculations a user asks for, as lists of state points. *)
From Verif Require Import Base Num ToolboxModel ParallelModel.
Open Scope nat_scope.

(** A temperature, pressure, flag or other number, or a composition (a row). *)
Inductive elem := ENum (x : num) | ERow (r : list num).
Definition enan : elem := ENum NaN.
Definition nan_row (n : nat) : elem := ERow (repeat NaN n).
Definition flag3 : elem := ENum (Fin 3).

(** fundamental_constants.py:13-14 *)
Definition standard_temperature : elem := ENum (Fin (29815 # 100)).
Definition standard_pressure : elem := ENum (Fin 101325).

(** The keyword arguments with one value per point, by name.  The other keyword arguments are
    carried as one value of an arbitrary type, except "method" and "pressure_options". *)
Definition lists := dict (value elem).

(** "if k in sys_dict and not isiterable(sys_dict[k][0]): sys_dict[k] = np.array([sys_dict[k]], float)",
    e.g. calculation_types.py:83-84.  Indexing a plain number is a TypeError. *)
Definition as_num (e : elem) : result num := match e with ENum x => Ok x | ERow _ => Err ValueError end.
Definition wrap_rows (k : string) (sys : lists) : result lists :=
  match dget sys k with
  | None => Ok sys
  | Some (Scalar _) => Err TypeError
  | Some (Arr []) => Err IndexError
  | Some (Arr (ERow _ :: _)) => Ok sys
  | Some (Arr l) => let* r := mapM as_num l in Ok (dset sys k (Arr [ERow r]))
  end.

Definition as_values (d : dict (list elem)) : lists := map (fun kv => (fst kv, Arr (snd kv))) d.
(** "npoints = len(thermo_dict[list(thermo_dict.keys())[0]])" *)
Definition first_len (d : lists) : nat :=
  match d with (_, Arr l) :: _ => length l | (_, Scalar _) :: _ => 1 | [] => 0 end.
(** "thermo_dict[k][i]" *)
Definition item (d : lists) (k : string) (i : nat) : result elem :=
  match dget d k with
  | Some (Arr l) => match nth_error l i with Some v => Ok v | None => Err IndexError end
  | Some (Scalar _) => Err IndexError
  | None => Err KeyError
  end.
(** "if key in opts_tmp: opts_tmp[key] = opts_tmp[key][i]" *)
Definition opt_item (d : dict (list elem)) (k : string) (i : nat) : result (option elem) :=
  match dget d k with
  | Some l => match nth_error l i with Some v => Ok (Some v) | None => Err IndexError end
  | None => Ok None
  end.
Definition entry (d : lists) (k : string) : list elem :=
  match dget d k with Some (Arr l) => l | Some (Scalar a) => [a] | None => [] end.
(** "thermo_dict.update(gtb.set_defaults(thermo_dict, keys, defaults, lx=npoints))" *)
Definition with_defaults (td : lists) (keys : keyarg) (defaults : list (value elem)) (n : nat) : result lists :=
  let* d := set_defaults td keys (Arr defaults) (Some n) in Ok (dupdate td d).
(** np.array([[1.0] for x in range(npoints)]) *)
Definition pure_rows (n : nat) : value elem := Arr (repeat (ERow [Fin 1]) n).

(** *** The inputs of the points *)
Definition limits := (option elem * option elem * option elem)%type.   (* Pguess, Pmin, Pmax *)
Definition limits_at (op : dict (list elem)) (i : nat) : result limits :=
  let* g := opt_item op "Pguess" i in
  let* a := opt_item op "Pmin" i in
  let* b := opt_item op "Pmax" i in Ok (g, a, b).

(** bubble_pressure (calculation_types.py:81-124) and dew_pressure (229-271): [comp] is "xilist" or
    "yilist".  One (T, composition, limits) per point. *)
Definition prep_saturated (comp : string) (sys : lists) : result (lists * list (elem * elem * limits)) :=
  match dget sys comp with
  | None => Err ValueError
  | Some _ =>
      let* sys1 := wrap_rows comp sys in
      let* td0 := check_length_dict sys1 ["Tlist"%string; comp] None in
      let n := first_len (as_values td0) in
      let* td := with_defaults (as_values td0) (OneKey "Tlist") [Scalar standard_temperature] n in
      let* op := check_length_dict sys1 ["Pguess"; "Pmin"; "Pmax"]%string (Some n) in
      let* ins := mapM (fun i => let* t := item td "Tlist" i in let* x := item td comp i in
                                 let* l := limits_at op i in Ok (t, x, l)) (seq 0 n) in
      Ok (td, ins)
  end.

(** activity_coefficient, 411-430 *)
Inductive mode := Dew | Bubble | FlashMode | Standard.
Definition activity_mode (has_x has_y has_P : bool) : option mode :=
  if negb has_x then
    if negb has_y then if has_P then Some FlashMode else None
    else Some Dew
  else if negb has_y then Some Bubble else Some Standard.

(** activity_coefficient, 396-478.  One (T, P, xi, yi, limits) per point.  The entry "Pguess" that
    lines 418-420 and 422-424 add to thermo_dict is never read again. *)
Definition prep_activity (ncomp : nat) (sys : lists)
  : result (mode * list (elem * elem * elem * elem * limits)) :=
  let* sys1 := wrap_rows "xilist" sys in
  let* sys2 := wrap_rows "yilist" sys1 in
  let keys := ["Tlist"; "yilist"; "xilist"; "Plist"]%string in
  let* td0 := check_length_dict sys2 keys None in
  let n := first_len (as_values td0) in
  match activity_mode (dmem td0 "xilist") (dmem td0 "yilist") (dmem td0 "Plist") with
  | None => Err ValueError
  | Some m =>
      let* td := with_defaults (as_values td0) (ManyKeys keys)
                   [Scalar standard_temperature; Arr (repeat enan ncomp); Arr (repeat enan ncomp); Scalar enan] n in
      let* op := check_length_dict sys2 ["Pguess"; "Pmin"; "Pmax"]%string (Some n) in
      let* ins := mapM (fun i => let* t := item td "Tlist" i in let* p := item td "Plist" i in
                                 let* x := item td "xilist" i in let* y := item td "yilist" i in
                                 let* l := limits_at op i in Ok (t, p, x, y, l)) (seq 0 n) in
      Ok (m, ins)
  end.

(** flash, 617-645.  The number of components is checked after the lists. *)
Definition prep_flash (ncomp : nat) (sys : lists) : result (lists * list (elem * elem)) :=
  let keys := ["Tlist"; "Plist"]%string in
  let* td0 := check_length_dict sys keys None in
  let n := first_len (as_values td0) in
  let* td := with_defaults (as_values td0) (ManyKeys keys) [Scalar standard_temperature; Scalar standard_pressure] n in
  if negb (Nat.eqb ncomp 2) then Err ValueError
  else
    let* ins := mapM (fun i => let* t := item td "Tlist" i in let* p := item td "Plist" i in Ok (t, p)) (seq 0 n) in
    Ok (td, ins).

(** saturation_properties, 730-759 *)
Definition prep_saturation (sys : lists) : result (lists * list (elem * elem)) :=
  let keys := ["Tlist"; "xilist"]%string in
  let* sys1 := wrap_rows "xilist" sys in
  let* td0 := check_length_dict sys1 keys None in
  let td1 := if dmem td0 "Tlist" then as_values td0 else dset (as_values td0) "Tlist" (Arr [standard_temperature]) in
  let n := first_len td1 in
  let* td := with_defaults td1 (ManyKeys keys) [Scalar standard_temperature; pure_rows n] n in
  let* ins := mapM (fun i => let* t := item td "Tlist" i in let* x := item td "xilist" i in Ok (t, x)) (seq 0 n) in
  Ok (td, ins).

(** liquid_properties (834-874), vapor_properties (958-1005) and, with [optional := true],
    solubility_parameter (1082-1131), where thermo_dict is not assigned when none of the lists is
    given.  One (P, T, composition) per point. *)
Definition prep_phase (optional : bool) (comp : string) (ncomp : nat) (sys : lists)
  : result (lists * list (elem * elem * elem)) :=
  let keys := ["Tlist"%string; comp; "Plist"%string] in
  let* sys1 := wrap_rows comp sys in
  if optional && negb (existsb (dmem sys1) keys) then Err UnboundLocalError
  else
    let* td0 := check_length_dict sys1 keys None in
    let n := first_len (as_values td0) in
    if negb (dmem td0 comp) && Nat.ltb 1 ncomp then Err ValueError
    else
      let* td := with_defaults (as_values td0) (ManyKeys keys)
                   [Scalar standard_temperature; pure_rows n; Scalar standard_pressure] n in
      let* ins := mapM (fun i => let* p := item td "Plist" i in let* t := item td "Tlist" i in
                                 let* x := item td comp i in Ok (p, t, x)) (seq 0 n) in
      Ok (td, ins).

(** verify_eos, 1220-1262.  np.linspace(0.01, 0.99, 11) exactly. *)
Definition verify_rows : value elem :=
  Arr (map (fun i => let x := ((1 # 100) + inject_Z (Z.of_nat i) * (98 # 1000))%Q in ERow [Fin x; Fin (1 - x)%Q]) (seq 0 11)).
Definition prep_verify (ncomp : nat) (sys : lists) : result (lists * list (elem * elem * elem)) :=
  let* sys1 := match dget sys "xilist" with
               | None => if Nat.eqb ncomp 2 then Ok (dset sys "xilist" verify_rows) else Err ValueError
               | Some _ => wrap_rows "xilist" sys
               end in
  let* td0 := check_length_dict sys1 ["Tlist"; "xilist"; "Plist"]%string None in
  let n := first_len (as_values td0) in
  let* td := with_defaults (as_values td0) (ManyKeys ["Tlist"; "Plist"]%string)
               [Scalar standard_temperature; Scalar standard_pressure] n in
  let* ins := mapM (fun i => let* p := item td "Plist" i in let* t := item td "Tlist" i in
                             let* x := item td "xilist" i in Ok (p, t, x)) (seq 0 n) in
  Ok (td, ins).

(** *** The calculations of one point *)
Section Calculations.
  (** [G]: what calculations keep in the process (module globals, attributes of the equation of
      state).  [O]: the remaining options. *)
  Context {G O : Type}.

  (** The keyword arguments of one point.  [o_press] is the content of the dictionary
      pressure_options at the time of the call. *)
  Record popts := { o_limits : limits; o_method : option string; o_press : option (dict string); o_rest : O }.

  (** The functions of calc.py used by the wrappers: arbitrary, they may change the process. *)
  Record routines := {
    ncomp : nat;
    c_sat : G -> elem -> elem -> popts -> G * result (elem * elem * elem);            (* T xi: Psat rhol rhov *)
    c_bubble : G -> elem -> elem -> popts -> G * result (elem * elem * elem * elem * elem);   (* xi T: P yi flagv flagl obj *)
    c_dew : G -> elem -> elem -> popts -> G * result (elem * elem * elem * elem * elem);      (* yi T: P xi flagl flagv obj *)
    c_flash : G -> elem -> elem -> O -> G * result (elem * elem * elem * elem * elem);        (* P T: xi flagl yi flagv obj *)
    c_liquid : G -> elem -> elem -> elem -> O -> G * result (elem * elem * elem);             (* P T xi: phil rhol flagl *)
    c_vapor : G -> elem -> elem -> elem -> O -> G * result (elem * elem * elem);
    c_ldensity : G -> elem -> elem -> elem -> O -> G * result (elem * elem);                  (* P T xi: rhol flagl *)
    c_hildebrand : G -> elem -> elem -> elem -> O -> G * result elem;                         (* rhol xi T *)
    c_verify : G -> elem -> elem -> elem -> O -> G * result (list elem)                       (* P T xi: the eight columns *)
  }.
  Variable R : routines.

  (** The process, with the content of the caller's dictionary pressure_options: the per-point copy of
      the options is shallow, so every point and the caller share that dictionary. *)
  Record world := { glob : G; press : option (dict string) }.
  Definition put (w : world) (g : G) : world := {| glob := g; press := press w |}.

  (** 158-160, 305-307, 516-518: "method" is moved out of the shared dictionary *)
  Definition take_method (w : world) (m : option string) : option string * world :=
    match press w with
    | Some d => match dget d "method" with
                | Some v => (Some v, {| glob := glob w; press := Some (ddel d "method") |})
                | None => (m, w)
                end
    | None => (m, w)
    end.

  (** len(xi[xi != 0.0]) == 1 *)
  Definition pure (x : elem) : result bool :=
    match x with
    | ERow r => Ok (Nat.eqb (length (filter (fun v => negb (neqb v (Fin 0))) r)) 1)
    | ENum _ => Err TypeError
    end.
  Definition row_len (x : elem) : nat := match x with ERow r => length r | ENum _ => 0 end.

  (** the options of a call other than the lists: method keyword and the rest *)
  Record call_opts := { k_method : option string; k_rest : O }.
  Definition opts_of (k : call_opts) (w : world) (l : limits) (m : option string) : popts :=
    {| o_limits := l; o_method := m; o_press := press w; o_rest := k_rest k |}.

  (** _bubble_pressure_wrapper, 147-169, and _dew_pressure_wrapper, 293-315: a row
      (P, composition, flagv, flagl, obj).  [dew] swaps the order of the flags in the result of calc. *)
  Definition saturated_point (dew : bool) (k : call_opts) (w : world) (pt : elem * elem * limits)
    : world * result (list elem) :=
    let '(t, x, l) := pt in
    let failed := Ok [enan; nan_row (row_len x); flag3; flag3; enan] in
    match pure x with
    | Err e => (w, Err e)          (* a composition that is not a row: the handler fails as well *)
    | Ok true =>
        let (g, r) := c_sat R (glob w) t x (opts_of k w l (k_method k)) in
        match r with
        | Ok (p, _, _) => (put w g, Ok [p; x; ENum (Fin 0); ENum (Fin 1); ENum (Fin 0)])
        | Err _ => (put w g, failed)
        end
    | Ok false =>
        let (m, w1) := take_method w (k_method k) in
        if dew then
          let (g, r) := c_dew R (glob w1) x t (opts_of k w1 l m) in
          match r with
          | Ok (p, c, fl, fv, ob) => (put w1 g, Ok [p; c; fv; fl; ob])
          | Err _ => (put w1 g, failed)
          end
        else
          let (g, r) := c_bubble R (glob w1) x t (opts_of k w1 l m) in
          match r with
          | Ok (p, c, fv, fl, ob) => (put w1 g, Ok [p; c; fv; fl; ob])
          | Err _ => (put w1 g, failed)
          end
    end.

  (** calc.py:3856-3900 *)
  Definition unit_row (n i : nat) : list num := map (fun j => if Nat.eqb j i then Fin 1 else Fin 0) (seq 0 n).
  Fixpoint psat_loop (w : world) (k : call_opts) (l : limits) (m : option string) (t : elem) (n : nat) (is : list nat)
    : world * result (list num) :=
    match is with
    | [] => (w, Ok [])
    | i :: is' =>
        let (g, r) := c_sat R (glob w) t (ERow (unit_row n i)) (opts_of k w l m) in
        match r with
        | Ok (ENum p, _, _) =>
            let (w', r') := psat_loop (put w g) k l m t n is' in
            (w', let* ps := r' in Ok (p :: ps))
        | Ok (ERow _, _, _) => (put w g, Err ValueError)
        | Err e => (put w g, Err e)
        end
    end.
  Fixpoint gamma_list (p : num) (ys ps xs : list num) : list num :=
    match ys, ps, xs with
    | y :: ys', q :: ps', x :: xs' => ndiv (nmul y p) (nmul q x) :: gamma_list p ys' ps' xs'
    | _, _, _ => []
    end.
  Definition activity (w : world) (k : call_opts) (l : limits) (m : option string) (p t x y : elem)
    : world * result (elem * elem) :=
    match x with
    | ENum _ => (w, Err TypeError)
    | ERow xs =>
        let n := length xs in
        let (w', r) := psat_loop w k l m t n (seq 0 n) in
        (w', let* ps := r in
             match p, y with
             | ENum q, ERow ys => if Nat.eqb (length ys) n then Ok (ERow (gamma_list q ys ps xs), ERow ps) else Err ValueError
             | _, _ => Err ValueError
             end)
    end.

  (** _activity_coefficient_wrapper, 512-577: a row (T, P, xi, yi, flagv, flagl, obj, Psat, gamma).
      calc_flash ignores the pressure limits and options it is given. *)
  Definition activity_point (md : mode) (k : call_opts) (w : world) (pt : elem * elem * elem * elem * limits)
    : world * result (list elem) :=
    let '(t, p, x, y, l) := pt in
    let (m, w1) := take_method w (k_method k) in
    let finish (w : world) (p x y fv fl ob : elem) (bad : list elem) :=
      match activity w k l m p t x y with
      | (w', Ok (gam, ps)) => (w', Ok [t; p; x; y; fv; fl; ob; ps; gam])
      | (w', Err _) => (w', Ok bad)
      end in
    match md with
    | Dew =>
        let bad := [t; enan; nan_row (row_len y); y; flag3; flag3; enan; enan; enan] in
        let (g, r) := c_dew R (glob w1) y t (opts_of k w1 l m) in
        match r with
        | Ok (p', x', fl, fv, ob) => finish (put w1 g) p' x' y fv fl ob bad
        | Err _ => (put w1 g, Ok bad)
        end
    | Bubble =>
        let bad := [t; enan; x; nan_row (row_len x); flag3; flag3; enan; enan; enan] in
        let (g, r) := c_bubble R (glob w1) x t (opts_of k w1 l m) in
        match r with
        | Ok (p', y', fv, fl, ob) => finish (put w1 g) p' x y' fv fl ob bad
        | Err _ => (put w1 g, Ok bad)
        end
    | FlashMode =>
        let bad := [t; p; nan_row (ncomp R); nan_row (ncomp R); flag3; flag3; enan; enan; enan] in
        let (g, r) := c_flash R (glob w1) p t (k_rest k) in
        match r with
        | Ok (x', fl, y', fv, ob) => finish (put w1 g) p x' y' fv fl ob bad
        | Err _ => (put w1 g, Ok bad)
        end
    | Standard => finish w1 p x y enan enan enan [t; p; x; y; enan; enan; enan; enan; enan]
    end.

  (** _flash_wrapper, 671-691: (xi, yi, flagv, flagl, obj) *)
  Definition flash_point (k : call_opts) (w : world) (pt : elem * elem) : world * result (list elem) :=
    let (t, p) := pt in
    let (g, r) := c_flash R (glob w) p t (k_rest k) in
    (put w g, Ok match r with
                 | Ok (x, fl, y, fv, ob) => [x; y; fv; fl; ob]
                 | Err _ => [nan_row (ncomp R); nan_row (ncomp R); flag3; flag3; enan]
                 end).

  (** _saturation_properties_wrapper, 771-791: (Psat, rhol, rhov) *)
  Definition saturation_point (k : call_opts) (w : world) (pt : elem * elem) : world * result (list elem) :=
    let (t, x) := pt in
    let (g, r) := c_sat R (glob w) t x (opts_of k w (None, None, None) (k_method k)) in
    (put w g, Ok match r with
                 | Ok (ENum p, rl, rv) => if is_nan p then [enan; enan; enan] else [ENum p; rl; rv]
                 | Ok (ERow _, _, _) => [enan; enan; enan]
                 | Err _ => [enan; enan; enan]
                 end).

  (** _liquid_properties_wrapper, 899-915, and _vapor_properties_wrapper, 1023-1039: (rho, phi, flag) *)
  Definition phase_point (liquid : bool) (k : call_opts) (w : world) (pt : elem * elem * elem) : world * result (list elem) :=
    let '(p, t, x) := pt in
    let (g, r) := (if liquid then c_liquid R else c_vapor R) (glob w) p t x (k_rest k) in
    (put w g, Ok match r with
                 | Ok (phi, rho, fl) => [rho; phi; fl]
                 | Err _ => [enan; nan_row (ncomp R); flag3]
                 end).

  (** _solubility_parameter_wrapper, 1152-1168: (rhol, flagl, delta) *)
  Definition solubility_point (k : call_opts) (w : world) (pt : elem * elem * elem) : world * result (list elem) :=
    let '(p, t, x) := pt in
    let (g, r) := c_ldensity R (glob w) p t x (k_rest k) in
    match r with
    | Err _ => (put w g, Ok [enan; flag3; enan])
    | Ok (rho, fl) =>
        let (g', d) := c_hildebrand R g rho x t (k_rest k) in
        (put w g', Ok match d with Ok d => [rho; fl; d] | Err _ => [enan; flag3; enan] end)
    end.

  (** _verify_eos_wrapper, 1312-1365: nothing is caught *)
  Definition verify_point (k : call_opts) (w : world) (pt : elem * elem * elem) : world * result (list elem) :=
    let '(p, t, x) := pt in
    let (g, r) := c_verify R (glob w) p t x (k_rest k) in (put w g, r).

  (** *** The calculations *)
  Definition output := dict (list elem).
  (** MultiprocessingJob.serial_job and the unpacking of its result into [names]; "too few values"
      when there is no point. *)
  Definition run_points {I} (step : world -> I -> world * result (list elem)) (w : world) (ins : list I)
             (names : list string) : world * result output :=
    let (w', rows) := run_list step w ins in
    (w', let* rs := rows in
         match np_transpose rs with
         | Cols c => if Nat.eqb (length c) (length names) then Ok (combine names c) else Err ValueError
         | Rows _ => Err ValueError
         end).
  Definition with_given (given : output) (wr : world * result output) : world * result output :=
    let (w, r) := wr in (w, let* o := r in Ok (given ++ o)).

  Definition bubble_pressure (w : world) (sys : lists) (k : call_opts) : world * result output :=
    match prep_saturated "xilist" sys with
    | Err e => (w, Err e)
    | Ok (td, ins) =>
        with_given [("T"%string, entry td "Tlist"); ("xi"%string, entry td "xilist")]
          (run_points (saturated_point false k) w ins ["P"; "yi"; "flagv"; "flagl"; "obj"]%string)
    end.
  Definition dew_pressure (w : world) (sys : lists) (k : call_opts) : world * result output :=
    match prep_saturated "yilist" sys with
    | Err e => (w, Err e)
    | Ok (td, ins) =>
        with_given [("T"%string, entry td "Tlist"); ("yi"%string, entry td "yilist")]
          (run_points (saturated_point true k) w ins ["P"; "xi"; "flagv"; "flagl"; "obj"]%string)
    end.
  Definition activity_coefficient (w : world) (sys : lists) (k : call_opts) : world * result output :=
    match prep_activity (ncomp R) sys with
    | Err e => (w, Err e)
    | Ok (m, ins) =>
        run_points (activity_point m k) w ins
          ["T"; "P"; "xi"; "yi"; "flagv"; "flagl"; "obj"; "Psat"; "gamma"]%string
    end.
  Definition flash (w : world) (sys : lists) (k : call_opts) : world * result output :=
    match prep_flash (ncomp R) sys with
    | Err e => (w, Err e)
    | Ok (td, ins) =>
        with_given [("T"%string, entry td "Tlist"); ("P"%string, entry td "Plist")]
          (run_points (flash_point k) w ins ["xi"; "yi"; "flagv"; "flagl"; "obj"]%string)
    end.
  Definition saturation_properties (w : world) (sys : lists) (k : call_opts) : world * result output :=
    match prep_saturation sys with
    | Err e => (w, Err e)
    | Ok (td, ins) =>
        with_given [("T"%string, entry td "Tlist")]
          (run_points (saturation_point k) w ins ["Psat"; "rhol"; "rhov"]%string)
    end.
  Definition phase_given (comp name : string) (td : lists) : output :=
    [("P"%string, entry td "Plist"); ("T"%string, entry td "Tlist"); (name, entry td comp)].
  Definition liquid_properties (w : world) (sys : lists) (k : call_opts) : world * result output :=
    match prep_phase false "xilist" (ncomp R) sys with
    | Err e => (w, Err e)
    | Ok (td, ins) =>
        with_given (phase_given "xilist" "xi" td) (run_points (phase_point true k) w ins ["rhol"; "phil"; "flagl"]%string)
    end.
  Definition vapor_properties (w : world) (sys : lists) (k : call_opts) : world * result output :=
    match prep_phase false "yilist" (ncomp R) sys with
    | Err e => (w, Err e)
    | Ok (td, ins) =>
        with_given (phase_given "yilist" "yi" td) (run_points (phase_point false k) w ins ["rhov"; "phiv"; "flagv"]%string)
    end.
  (** the flag is computed but not returned (1143-1149) *)
  Definition solubility_parameter (w : world) (sys : lists) (k : call_opts) : world * result output :=
    match prep_phase true "xilist" (ncomp R) sys with
    | Err e => (w, Err e)
    | Ok (td, ins) =>
        let (w', r) := run_points (solubility_point k) w ins ["rhol"; "flagl"; "delta"]%string in
        with_given (phase_given "xilist" "xi" td) (w', let* o := r in Ok (ddel o "flagl"))
    end.
  Definition verify_eos (w : world) (sys : lists) (k : call_opts) : world * result output :=
    match prep_verify (ncomp R) sys with
    | Err e => (w, Err e)
    | Ok (td, ins) =>
        with_given (phase_given "xilist" "xi" td)
          (run_points (verify_point k) w ins
             ["residual_v1"; "residual_v2"; "flagv"; "log_phivi"; "residual_l1"; "residual_l2"; "flagl"; "log_phili"]%string)
    end.

  (** *** thermo, thermodynamics/__init__.py:20-68 *)
  (** What the attributes of the module calculation_types are: the nine calculations, and everything
      else the module holds (wrappers, imported modules, its logger, attributes every module has).
      For the latter, what calling it with the equation of state and the keyword arguments does. *)
  Definition calculation (name : string) : option (world -> lists -> call_opts -> world * result output) :=
    dget [("bubble_pressure", bubble_pressure); ("dew_pressure", dew_pressure);
          ("activity_coefficient", activity_coefficient); ("flash", flash);
          ("saturation_properties", saturation_properties); ("liquid_properties", liquid_properties);
          ("vapor_properties", vapor_properties); ("solubility_parameter", solubility_parameter);
          ("verify_eos", verify_eos)]%string name.
  (** modules and the logger: calling one raises TypeError *)
  Definition not_callable : list string := ["np"; "logging"; "calc"; "constants"; "gtb"; "logger"; "__name__"; "__doc__"; "__file__"]%string.
  Variable other_attribute : string -> option (result output).
  Definition thermo (w : world) (name : option string) (sys : lists) (k : call_opts) : world * result output :=
    match name with
    | None => (w, Err ValueError)
    | Some nm =>
        match calculation nm with
        | Some f => let (w', r) := f w sys k in (w', match r with Ok o => Ok o | Err _ => Err TypeError end)
        | None =>
            if smem nm not_callable then (w, Err TypeError)
            else match other_attribute nm with
                 | None => (w, Err ImportError)
                 | Some r => (w, match r with Ok o => Ok o | Err _ => Err TypeError end)
                 end
        end
    end.
End Calculations.
Arguments popts : clear implicits.
Arguments routines : clear implicits.
Arguments world : clear implicits.
Arguments call_opts : clear implicits.
