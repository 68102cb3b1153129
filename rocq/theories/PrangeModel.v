(** Model of the pressure brackets of /repo/despasito/thermodynamics/calc.py:
    [calc_Prange_xi] (bubble points) and [calc_Prange_yi] (dew points), over extended
    rationals.  Logging is left out. *)
From Verif Require Import Base Num DensityModel.

(** What is computed for the phase sought at one pressure: whether a mole fraction is NaN, the
    density flag, whether the given composition is reproduced within [xytol], and the
    equilibrium objective. *)
Record found := { f_nan : bool; f_flag : nat; f_same : bool; f_obj : num }.

(** The options; a hard limit is one the user gave.  [ext] is the spline at the extrema of the
    isotherm. *)
Record pr_opts := {
  o_Pmin : option num; o_Pmax : option num; o_allowed : num;
  o_maxfactor : num; o_minfactor : num; o_ptol : num; o_ext : list num }.

(** [Prange], [ObjRange], the flags, the last objective (unassigned at first), the composition
    kept between pressures, and the pressure to try *)
Record pr_state (G : Type) := {
  pa : num; pb : num; oa : num; ob : num;
  fmin : bool; fmax : bool; fcrit : bool; fliq : bool; fvap : bool;
  obj : option num; g : G; p : num }.
Arguments pa {G}. Arguments pb {G}. Arguments oa {G}. Arguments ob {G}. Arguments fmin {G}.
Arguments fmax {G}. Arguments fcrit {G}. Arguments fliq {G}. Arguments fvap {G}. Arguments obj {G}.
Arguments g {G}. Arguments p {G}.

Section Update.
  Context {G : Type}.
  Implicit Types s : pr_state G.
  Definition set_lo s a o : pr_state G := {| pa := a; pb := pb s; oa := o; ob := ob s; fmin := fmin s; fmax := fmax s; fcrit := fcrit s; fliq := fliq s; fvap := fvap s; obj := obj s; g := g s; p := p s |}.
  Definition set_hi s b o : pr_state G := {| pa := pa s; pb := b; oa := oa s; ob := o; fmin := fmin s; fmax := fmax s; fcrit := fcrit s; fliq := fliq s; fvap := fvap s; obj := obj s; g := g s; p := p s |}.
  Definition set_p s q : pr_state G := {| pa := pa s; pb := pb s; oa := oa s; ob := ob s; fmin := fmin s; fmax := fmax s; fcrit := fcrit s; fliq := fliq s; fvap := fvap s; obj := obj s; g := g s; p := q |}.
  Definition set_obj s (g' : G) o : pr_state G := {| pa := pa s; pb := pb s; oa := oa s; ob := ob s; fmin := fmin s; fmax := fmax s; fcrit := fcrit s; fliq := fliq s; fvap := fvap s; obj := Some o; g := g'; p := p s |}.
  Definition set_fmin s x : pr_state G := {| pa := pa s; pb := pb s; oa := oa s; ob := ob s; fmin := x; fmax := fmax s; fcrit := fcrit s; fliq := fliq s; fvap := fvap s; obj := obj s; g := g s; p := p s |}.
  Definition set_fmax s x : pr_state G := {| pa := pa s; pb := pb s; oa := oa s; ob := ob s; fmin := fmin s; fmax := x; fcrit := fcrit s; fliq := fliq s; fvap := fvap s; obj := obj s; g := g s; p := p s |}.
  Definition set_fcrit s x : pr_state G := {| pa := pa s; pb := pb s; oa := oa s; ob := ob s; fmin := fmin s; fmax := fmax s; fcrit := x; fliq := fliq s; fvap := fvap s; obj := obj s; g := g s; p := p s |}.
  Definition set_fliq s x : pr_state G := {| pa := pa s; pb := pb s; oa := oa s; ob := ob s; fmin := fmin s; fmax := fmax s; fcrit := fcrit s; fliq := x; fvap := fvap s; obj := obj s; g := g s; p := p s |}.
  Definition set_fvap s x : pr_state G := {| pa := pa s; pb := pb s; oa := oa s; ob := ob s; fmin := fmin s; fmax := fmax s; fcrit := fcrit s; fliq := fliq s; fvap := x; obj := obj s; g := g s; p := p s |}.

  (** (Prange[1] - Prange[0]) / 2 + Prange[0] *)
  Definition between s (w : num) := nadd (nmul (nsub (pb s) (pa s)) w) (pa s).
  Definition midpoint (a b : num) := nadd (ndiv (nsub b a) (Fin 2)) a.
  Definition to_mid s := set_p s (midpoint (pa s) (pb s)).
  (** p = q, and Prange[1] (Prange[0]) is moved there if q lies outside *)
  Definition push_up s q := let s := set_p s q in if ngt q (pb s) then set_hi s q NaN else s.
  Definition push_down s q := let s := set_p s q in if nlt q (pa s) then set_lo s q NaN else s.
End Update.

(** The outcome of one iteration: leave the loop, go on, or fail. *)
Inductive turn (G : Type) := Break (s : pr_state G) | Go (s : pr_state G) | Raise (e : exn).
Arguments Break {G}. Arguments Go {G}. Arguments Raise {G}.

(** np.nanmax([x, y]) *)
Definition nanmax2 (x y : num) : num :=
  if is_nan x then y else if is_nan y then x else if nlt x y then y else x.

(** calc.py:1150-1174 and 1691-1715: the initial range.  A limit given as an iterable stands
    for its first element. *)
Definition initial_range (o : pr_opts) : result (num * num) :=
  let* lo := match o_Pmin o with
             | Some q => Ok q
             | None => match o_ext o with
                       | [] => Ok (Fin 1000)
                       | _ => let* m := py_min (o_ext o) in Ok (if nlt m (Fin 0) then Fin 1000 else m)
                       end
             end in
  let* hi := match o_Pmax o with
             | Some q => Ok q
             | None => match o_ext o with [] => Ok (Fin 100000) | _ => py_max (o_ext o) end
             end in
  Ok (lo, if nlt hi lo then nmul lo (o_maxfactor o) else hi).

Definition is_some {A} (x : option A) : bool := match x with Some _ => true | None => false end.
Definition vapor_flag (f : nat) : bool := Nat.eqb f 0 || Nat.eqb f 2 || Nat.eqb f 4.
Definition liquid_flag (f : nat) : bool := Nat.eqb f 1 || Nat.eqb f 2.

(** slope, intercept and the interpolated guess (1467-1469 and elsewhere) *)
Definition root_of_line (a oa b ob : num) : num :=
  let slope := ndiv (nsub ob oa) (nsub b a) in
  let intercept := nsub ob (nmul slope b) in
  ndiv (nneg intercept) slope.
Definition guess {G} (s : pr_state G) : num := root_of_line (pa s) (oa s) (pb s) (ob s).

(** What a search returns: [Prange] and [Pguess], and for the bubble point the composition
    kept in the global on success *)
Record bracket (G : Type) := { br_lo : num; br_hi : num; br_guess : num; br_global : option G }.
Arguments br_lo {G}. Arguments br_hi {G}. Arguments br_guess {G}. Arguments br_global {G}.
Definition no_bracket {G} : bracket G := {| br_lo := NaN; br_hi := NaN; br_guess := NaN; br_global := None |}.

Section Dew.
  Context {G : Type}.
  Variable vap : num -> result (bool * nat).                (** any(isnan(phiv)), flagv *)
  Variable liqc : G -> num -> result (G * found).           (** calc_liquid_composition + objective *)
  Variable o : pr_opts.
  Variable draw : nat -> num.
  Let hmin := is_some (o_Pmin o).
  Let hmax := is_some (o_Pmax o).
  Let maxf := o_maxfactor o.
  Let minf := o_minfactor o.

  (** calc.py:1847-1870: the checks at the end of an iteration *)
  Definition dew_checks (P0 : num) (z : nat) (s : pr_state G) : turn G :=
    let r :=
      if ngt (pa s) (pb s) then
        if fmax s && negb (fmin s) && negb hmin then Ok (set_lo s (nmul minf (pb s)) (ob s))
        else if negb hmax then Ok (set_hi s (nmul maxf (pa s)) (oa s))
        else Err ValueError
      else Ok s in
    match r with
    | Err e => Raise e
    | Ok s =>
        let s := if (fmax s || hmax) && (fmin s || hmin) && negb (nle (pa s) (p s) && nle (p s) (pb s))
                 then set_p s (between s (draw z)) else s in
        if hmin && neqb P0 (p s) then Raise ValueError
        else if nle (p s) (Fin 0) then Raise ValueError
        else Go s
    end.

  (** calc.py:1764-1799: the given composition is reproduced *)
  Definition dew_same (s : pr_state G) (P0 P1 v : num) : pr_state G :=
    let s :=
      if fcrit s then
        let s := set_lo s (p s) v in
        if hmax then to_mid s else push_up s (nmul maxf (p s))
      else
        let s := set_fmax (set_hi s (p s) v) true in
        if fmin s || hmin then to_mid s else set_p s (nmul minf (p s)) in
    if nlt (p s) (o_allowed o) then
      let s := set_hi (set_lo (set_fmax (set_fcrit s true) false) P0 PInf) P1 PInf in
      if hmax then to_mid s else push_up s (nmul maxf P0)
    else s.

  (** calc.py:1727-1870: one iteration of the search for the lower end; [P0], [P1] are Pmin and
      Pmax *)
  Definition dew_turn1 (P0 P1 : num) (z : nat) (s : pr_state G) : turn G :=
    match vap (p s) with
    | Err e => Raise e
    | Ok (true, _) =>
        let s := set_fmax (set_hi s (p s) PInf) true in
        Go (if hmin then to_mid s else push_down s (nmul minf (p s)))
    | Ok (false, flagv) =>
        if vapor_flag flagv then
          match liqc (g s) (p s) with
          | Err e => Raise e
          | Ok (g', f) =>
              let v := f_obj f in
              let s := set_obj s g' v in
              if f_nan f then
                let s := set_fmax (set_hi s (p s) v) true in
                dew_checks P0 z (if hmin then to_mid s else set_p s (nmul (p s) minf))
              else if f_same f && Nat.eqb (f_flag f) 2 then dew_checks P0 z (dew_same s P0 P1 v)
              else if nlt v (Fin 0) then Break (set_lo s (p s) v)
              else if ngt v (Fin 0) then
                let s := set_hi (set_fmax s true) (p s) v in
                dew_checks P0 z (set_p s (between s minf))
              else dew_checks P0 z s
          end
        else
          let s := if hmin && nle (p s) P0 then set_fmax (set_fcrit s true) false else s in
          match obj s with
          | None => Raise UnboundLocalError
          | Some v =>
              dew_checks P0 z
                (if fcrit s then
                   let s := set_fmin (set_lo s (p s) v) true in
                   if hmax then to_mid s else push_up s (nmul (p s) maxf)
                 else
                   let s := set_fmax (set_hi s (p s) v) true in
                   if fmin s || hmin then to_mid s else push_down s (nmul (p s) minf))
          end
    end.

  (** the loop; leaving it in the last iteration counts as running out of iterations *)
  Fixpoint dew_loop1 (P0 P1 : num) (rest z : nat) (s : pr_state G) : result (pr_state G) :=
    match rest with
    | O => Err (if Nat.eqb z 0 then UnboundLocalError else ValueError)
    | S rest' =>
        match dew_turn1 P0 P1 z s with
        | Raise e => Err e
        | Go s => dew_loop1 P0 P1 rest' (S z) s
        | Break s => match rest' with O => Err ValueError | _ => Ok s end
        end
    end.

  (** calc.py:1890-2028: one iteration of the search for the upper end.  [fvap] records that a
      pressure gave no vapor, [prev] is ObjArray[-1].  In a "well" the objective function
      itself is negated, a TypeError.  [hi] is the objective stored for Prange[1]. *)
  Definition dew_turn2 (z : nat) (prev : num) (s : pr_state G) : turn G * num :=
    match vap (p s) with
    | Err e => (Raise e, prev)
    | Ok (_, flagv) =>
        match liqc (g s) (p s) with
        | Err e => (Raise e, prev)
        | Ok (g', f) =>
            let v := f_obj f in
            let s := set_obj s g' v in
            let s := if Nat.eqb z 0 then set_hi s (pb s) v else s in
            if negb (vapor_flag flagv) then
              (Go (to_mid (set_fvap (set_hi s (p s) v) true)), prev)
            else if ngt v (Fin 0) then
              let s := if nlt (pb s) (p s) then set_lo s (pb s) (ob s) else s in
              (Break (set_hi s (p s) v), prev)
            else if fvap s then (Go (to_mid (set_lo s (p s) v)), prev)
            else if Nat.ltb 0 z && nlt v (nmul (Fin (11 # 10)) prev) then (Raise TypeError, v)
            else if hmax then (Go (to_mid (set_lo s (p s) v)), v)
            else
              let s := if nlt (pb s) (p s) then set_lo s (pb s) (ob s) else s in
              let s := set_hi s (p s) v in
              (Go (set_p s (nanmax2 (guess s) (nmul maxf (pb s)))), v)
        end
    end.

  Fixpoint dew_loop2 (rest z : nat) (prev : num) (s : pr_state G) : result (bracket G) :=
    match rest with
    | O => if Nat.eqb z 0 then Err UnboundLocalError else Ok no_bracket
    | S rest' =>
        match dew_turn2 z prev s with
        | (Raise e, _) => Err e
        | (Go s, prev) => dew_loop2 rest' (S z) prev s
        | (Break s, _) =>
            match rest' with
            | O => Ok no_bracket
            | _ => Ok {| br_lo := pa s; br_hi := pb s; br_guess := guess s; br_global := None |}
            end
        end
    end.

  (** calc.py:1605-2051 [calc_Prange_yi] *)
  Definition calc_Prange_yi (maxiter : nat) (g0 : G) : result (bracket G) :=
    let* r := initial_range o in
    let (P0, P1) := r : num * num in
    let* s := dew_loop1 P0 P1 maxiter 0
      {| pa := P0; pb := P1; oa := Fin 0; ob := Fin 0; fmin := false; fmax := false; fcrit := false;
         fliq := false; fvap := false; obj := None; g := g0; p := P0 |} in
    let s := if nle (pb s) (pa s) then set_hi s (nmul (pa s) (Fin (11 # 10))) (ob s) else s in
    let s := set_p (set_fvap (set_fmin s false) false) (pb s) in
    dew_loop2 maxiter 0 (ob s) s.
End Dew.

Section Bubble.
  Context {G : Type}.
  Variable liq : num -> result (bool * nat).                (** any(isnan(phil)), flagl *)
  Variable vapc : G -> num -> result (G * found).           (** calc_vapor_composition + objective *)
  (** the minimum of the objective searched for in a "well" between two pressures, and the
      objective there (1481-1541) *)
  Variable well : num -> num -> result (num * num).
  Variable o : pr_opts.
  Variable draw : nat -> num.
  Let hmin := is_some (o_Pmin o).
  Let hmax := is_some (o_Pmax o).
  Let maxf := o_maxfactor o.
  Let minf := o_minfactor o.

  (** calc.py:1236-1247, 1278-1289: give up lowering the pressure *)
  Definition start_over (s : pr_state G) (P0 P1 : num) : pr_state G :=
    let s := set_hi (set_lo (set_fmax (set_fcrit s true) false) P0 PInf) P1 PInf in
    if hmax then to_mid s else push_up s (nmul maxf P0).

  (** calc.py:1374-1388: the checks at the end of an iteration *)
  Definition bubble_checks (P0 : num) (s : pr_state G) : turn G :=
    let s := if (hmin || fmin s) && (hmax || fmax s) && (nlt (p s) (pa s) || ngt (p s) (pb s))
             then set_p s (nadd (nsub (pb s) (pa s)) (pa s)) else s in
    if nle (p s) (Fin 0) then Raise ValueError
    else if hmin && neqb P0 (p s) then Raise ValueError
    else Go s.

  (** calc.py:1226-1289: the given composition is reproduced *)
  Definition bubble_same (s : pr_state G) (P0 P1 v : num) : pr_state G :=
    let s :=
      if (fmax s || hmax) && fliq s then
        let s := to_mid (set_lo (set_fmin s true) (p s) v) in
        if nlt (nabs (nsub (pb s) (pa s))) (o_ptol o) then start_over s P0 P1 else s
      else if (fmin s || hmin) && fvap s then
        to_mid (set_hi (set_fmax s true) (p s) v)
      else if fcrit s then
        let s := set_lo s (p s) v in
        if hmax then to_mid s else push_up s (nmul maxf (p s))
      else
        let s := set_hi (set_fmax s true) (p s) v in
        if hmin then to_mid s else push_down s (nmul minf (p s)) in
    if nlt (p s) (o_allowed o) then start_over s P0 P1 else s.

  (** calc.py:1188-1388: one iteration of the search for the lower end *)
  Definition bubble_turn1 (P0 P1 : num) (s : pr_state G) : turn G :=
    match liq (p s) with
    | Err e => Raise e
    | Ok (true, _) =>
        let s := set_fliq (set_fmax (set_hi s (p s) PInf) true) true in
        Go (if hmin then to_mid s else push_down s (nmul minf (p s)))
    | Ok (false, flagl) =>
        if liquid_flag flagl then
          match vapc (g s) (p s) with
          | Err e => Raise e
          | Ok (g', f) =>
              let v := f_obj f in
              let s := set_obj s g' v in
              if f_nan f then
                bubble_checks P0 (to_mid (set_hi (set_fliq (set_fmax s true) true) (p s) v))
              else if f_same f && Nat.eqb (f_flag f) 2 then bubble_checks P0 (bubble_same s P0 P1 v)
              else if negb (vapor_flag (f_flag f)) then
                let s := if hmin && nle (p s) P0 then set_fmax (set_fcrit s true) false else s in
                let s := set_fliq s true in
                bubble_checks P0
                  (if fcrit s then
                     let s := set_fmin (set_lo s (p s) v) true in
                     if hmax then to_mid s else push_up s (nmul (p s) maxf)
                   else
                     let s := set_fmax (set_hi s (p s) v) true in
                     if fmin s || hmin then to_mid s else push_down s (nmul (p s) minf))
              else if ngt v (Fin 0) then Break (set_lo s (p s) v)
              else if nlt v (Fin 0) then
                let s := set_hi (set_fmax (set_fliq s true) true) (p s) v in
                bubble_checks P0 (if fmin s || hmin then to_mid s else push_down s (nmul (p s) minf))
              else Raise ValueError
          end
        else
          let s := set_lo (set_fmin (set_fvap s true) true) (p s) NaN in
          bubble_checks P0 (if fmax s || hmax then to_mid s else set_p s (nmul maxf (pa s)))
    end.

  Fixpoint bubble_loop1 (P0 P1 : num) (rest z : nat) (s : pr_state G) : result (pr_state G) :=
    match rest with
    | O => Err (if Nat.eqb z 0 then UnboundLocalError else ValueError)
    | S rest' =>
        match bubble_turn1 P0 P1 s with
        | Raise e => Err e
        | Go s => bubble_loop1 P0 P1 rest' (S z) s
        | Break s => match rest' with O => Err ValueError | _ => Ok s end
        end
    end.

  (** calc.py:1575-1584: the checks at the end of an iteration *)
  Definition upper_checks (s : pr_state G) : turn G :=
    if nle (p s) (Fin 0) then Raise ValueError
    else if nlt (nabs (nsub (pb s) (pa s))) (o_ptol o) then Raise ValueError
    else Go s.

  (** How the search for the upper end is left: [flag_min] still set means no bracket. *)
  Inductive upper := Found (s : pr_state G) | NotFound | More (s : pr_state G) | Fails (e : exn).
  Definition more (t : turn G) : upper :=
    match t with Go s => More s | Raise e => Fails e | Break s => Found s end.

  (** calc.py:1410-1584: one iteration of the search for the upper end.  [prev] is
      ObjArray[-1].  [flag_min] is false whenever an iteration starts: the "well" leaves the
      loop. *)
  Definition bubble_turn2 (z : nat) (prev : num) (s : pr_state G) : upper * num :=
    match liq (p s) with
    | Err e => (Fails e, prev)
    | Ok (true, _) =>
        match obj s with
        | None => (Fails UnboundLocalError, prev)
        | Some v => (More (to_mid (set_hi (set_fmax s true) (p s) v)), prev)
        end
    | Ok (false, _) =>
        match vapc (g s) (p s) with
        | Err e => (Fails e, prev)
        | Ok (g', f) =>
            let v := f_obj f in
            let s := set_obj s g' v in
            if negb (vapor_flag (f_flag f)) || f_nan f then
              (more (upper_checks
                (if fcrit s then
                   let s := set_lo s (p s) v in
                   if hmax then to_mid s else push_up s (nmul (p s) maxf)
                 else to_mid (set_hi (set_fmax s true) (p s) v))), prev)
            else if f_same f then
              (more (upper_checks (to_mid (set_hi (set_fmax s true) (p s) v))), prev)
            else if nlt v (Fin 0) then
              let s := if nlt (pb s) (p s) then set_lo s (pb s) (ob s) else s in
              (Found (set_hi s (p s) v), prev)
            else if Nat.ltb 0 z && ngt v (nmul (Fin (11 # 10)) prev) then
              match well (pa s) (p s) with
              | Err e => (Fails e, v)
              | Ok (q, w) => (if ngt w (Fin 0) then Found (set_hi s q w) else NotFound, v)
              end
            else if fmax s then
              (more (upper_checks (to_mid (set_lo s (p s) v))), v)
            else
              let s :=
                if hmax then s
                else
                  let s := if nlt (pb s) (p s) then set_lo s (pb s) (ob s) else s in
                  set_hi s (p s) v in
              (more (upper_checks
                (set_p s (if hmax then between s (draw z) else nanmax2 (guess s) (nmul maxf (pb s))))), v)
        end
    end.

  Fixpoint bubble_loop2 (rest z : nat) (prev : num) (s : pr_state G) : result (bracket G) :=
    match rest with
    | O => if Nat.eqb z 0 then Err UnboundLocalError else Ok no_bracket
    | S rest' =>
        match bubble_turn2 z prev s with
        | (Fails e, _) => Err e
        | (More s, prev) => bubble_loop2 rest' (S z) prev s
        | (NotFound, _) => Ok no_bracket
        | (Found s, _) =>
            match rest' with
            | O => Ok no_bracket
            | _ => Ok {| br_lo := pa s; br_hi := pb s; br_guess := guess s; br_global := Some (g s) |}
            end
        end
    end.

  (** calc.py:1067-1602 [calc_Prange_xi] *)
  Definition calc_Prange_xi (maxiter : nat) (g0 : G) : result (bracket G) :=
    let* r := initial_range o in
    let (P0, P1) := r : num * num in
    let* s := bubble_loop1 P0 P1 maxiter 0
      {| pa := P0; pb := P1; oa := Fin 0; ob := Fin 0; fmin := false; fmax := false; fcrit := false;
         fliq := false; fvap := false; obj := None; g := g0; p := P0 |} in
    let s := if nle (pb s) (pa s) then set_hi s (nmul (pa s) maxf) (ob s) else s in
    let s := set_p (set_fmin s false) (pb s) in
    bubble_loop2 maxiter 0 (ob s) s.
End Bubble.
