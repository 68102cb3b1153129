(** Model of the inner loops of bubble and dew points in /repo/despasito/thermodynamics/calc.py: the
    composition of the other phase at a given pressure, temperature and composition, over extended
    rationals.  Pressure, temperature and the equation of state are fixed; logging is left out. *)
From Verif Require Import Base Num PhaseEqModel.
Open Scope nat_scope.

(** l / np.sum(l) *)
Definition normalise (l : list num) : list num := map (fun a => ndiv a (nsum l)) l.
(** np.array([y, 1 - y]) *)
Definition binary (y : num) : list num := [y; nsub (Fin 1) y].
Definition any_nan (l : list num) : bool := existsb is_nan l.
(** all(l != 0.0) *)
Definition all_nonzero (l : list num) : bool := forallb (fun a => negb (neqb a (Fin 0))) l.
Definition two (l : list num) : bool := Nat.eqb (length l) 2.

(** Python's min over an array, which replaces the value only by a smaller one; ValueError if empty *)
Definition pymin (l : list num) : result num :=
  match l with [] => Err ValueError | a :: l' => Ok (fold_left (fun m b => if nlt b m then b else m) l' a) end.
(** np.where(l == m)[0] *)
Definition where_eq (l : list num) (m : num) : list nat :=
  map fst (filter (fun p => neqb (snd p) m) (combine (seq 0 (length l)) l)).
(** np.where(l == m)[0][0] *)
Definition first_eq (l : list num) (m : num) : result nat :=
  match where_eq l m with [] => Err IndexError | i :: _ => Ok i end.
(** np.where(l == min(l))[0][0] *)
Definition argmin (l : list num) : result nat := let* m := pymin l in first_eq l m.
(** [l[i] for i in range(len(l)) if i != ind] *)
Definition drop_nth {A} (l : list A) (ind : nat) : list A := firstn ind l ++ skipn (S ind) l.

(** calc.py:2197, 2233, 2354, 2372: the positions of the smallest positive fraction; used as an index in a
    test, where numpy refuses more than one value *)
Definition smallest (l : list num) : result (list nat) :=
  let* m := pymin (filter (fun a => nlt (Fin 0) a) l) in Ok (where_eq l m).
(** np.abs(new[ind] - old[ind]) / old[ind] as a number in a test *)
Definition change (ind : list nat) (new old : list num) : result num :=
  match ind with
  | [i] => let* a := at_ new i in let* b := at_ old i in Ok (ndiv (nabs (nsub a b)) b)
  | _ => Err ValueError
  end.

Section Search.
  (** calc_vapor_fugacity_coefficient or calc_liquid_fugacity_coefficient at a composition: coefficients and flag *)
  Variable coeff : list num -> result (list num * nat).
  (** the phase sought is the vapor *)
  Variable vapor : bool.
  (** the composition and fugacity coefficients of the known phase *)
  Variables (known phi : list num).
  (** interpolate.Akima1DInterpolator through (x, y): the roots of its derivative and its second derivative there *)
  Variable akima : list (num * num) -> result (list (num * num)).

  Definition trial (p : list num) : result (list num) :=
    if vapor then calc_new_mole_fractions known phi p (Some "vapor"%string)
    else calc_new_mole_fractions known p phi (Some "liquid"%string).

  (** calc.py:2641-2701 [objective_find_yi] and 2798-2858 [objective_find_xi].  A single number stands for a
      binary composition.  For a vapor the known composition is multiplied with the ratio, for a liquid
      the one that is tested. *)
  Definition objective_find (c : list num) : result (num * nat) :=
    let c := normalise c in
    let* p := coeff c in
    let* new := trial (fst p) in
    let c2 := normalise new in
    if any_nan c2 then Ok (NaN, snd p)
    else
      let* p2 := coeff c2 in
      let* a := zipv nmul (if vapor then known else c) phi in
      let* b := zipv ndiv a (fst p2) in
      let* d := zipv nsub new b in
      Ok (nsum (map nabs d), snd p).

  (** np.linspace(lo, hi, n) *)
  Definition grid (lo hi : num) (n : nat) : list num :=
    map (fun i => nadd lo (nmul (Fin (inject_Z (Z.of_nat i) / inject_Z (Z.of_nat (n - 1)))) (nsub hi lo))) (seq 0 n).

  (** calc.py:2482-2521 and 2765-2783: the candidates left after the trivial solution is discarded; for a vapor
      those that are liquids are removed.  [tmp]: the valid grid points. *)
  Definition candidates (tmp roots : list (num * num)) : result (list num) :=
    match roots with
    | [] | [_] => Ok (map fst roots)
    | _ =>
        let minima := map fst (filter (fun r => nlt (Fin 0) (snd r)) roots) in
        let minima := match tmp with
                      | a :: b :: _ => if nlt (snd a) (snd b) then fst a :: minima else minima
                      | _ => minima end in
        let minima := match rev tmp with
                      | a :: b :: _ => if nlt (snd a) (snd b) then minima ++ [fst a] else minima
                      | _ => minima end in
        let* x0 := at_ known 0 in
        let* ind := argmin (map (fun y => ndiv (nabs (nsub y x0)) x0) minima) in
        let rest := drop_nth minima ind in
        if vapor && Nat.ltb 1 (length rest) then
          let* ev := mapM (fun y => let* o := objective_find (binary y) in Ok (y, o)) rest in
          let vapors := filter (fun e => negb (Nat.eqb (snd (snd e)) 1)) ev in
          let among := match vapors with [] => ev | _ => vapors end in
          let* i := argmin (map (fun e => fst (snd e)) among) in
          match nth_error among i with Some e => Ok [fst e] | None => Err IndexError end
        else Ok rest
    end.

  (** calc.py:2409-2528 [find_new_yi] and 2704-2795 [find_new_xi] *)
  Definition find_new (lo hi : num) (npoints : nat) : result (list num) :=
    let* ext := mapM (fun y => let* o := objective_find (binary y) in Ok (y, fst o)) (grid lo hi npoints) in
    let tmp := filter (fun e => negb (is_nan (snd e))) ext in
    match tmp with
    | [] => Ok (binary NaN)
    | _ =>
        let* roots := akima tmp in
        let* c := candidates tmp roots in
        match c with
        | y :: _ => Ok (binary y)
        | [] =>
            let* i := argmin (map (fun e => nabs (snd e)) tmp) in
            match nth_error tmp i with Some e => Ok (binary (fst e)) | None => Err IndexError end
        end
    end.

  (** One end of the bracket: composition, objective and flag. *)
  Record bend := { e_y : num; e_obj : num; e_flag : nat }.
  Definition bend_at (y : num) : result bend :=
    let* o := objective_find (binary y) in Ok {| e_y := y; e_obj := fst o; e_flag := snd o |}.

  (** calc.py:2594-2624: one turn of the bisection; [high]: flag_high_vapor *)
  Definition bisect_turn (tol : num) (high : bool) (a b : bend) : result (bool * bend * bend) :=
    let y := ndiv (nadd (e_y a) (e_y b)) (Fin 2) in
    let* m := bend_at y in
    if high then Ok (true, (if nlt (e_obj m) (e_obj a) then m else a), (if nlt (e_obj m) (e_obj a) then b else m))
    else if Nat.eqb (e_flag a) (e_flag m) then
      if Nat.eqb (e_flag m) 0 && nlt (ndiv (Fin 1) tol) (e_obj m) then Ok (true, a, m) else Ok (false, m, b)
    else if Nat.eqb (e_flag b) (e_flag m) then
      if Nat.eqb (e_flag m) 0 && nlt (ndiv (Fin 1) tol) (e_obj m) then Ok (true, b, m) else Ok (false, a, m)
    else Err IndexError.
  Fixpoint bisect (fuel : nat) (tol : num) (high : bool) (a b : bend) : result (bend * bend) :=
    match fuel with
    | O => Ok (a, b)
    | S fuel' =>
        let* r := bisect_turn tol high a b in
        let '(high', a', b') := r in
        if nlt (nabs (nsub (e_y b') (e_y a'))) tol then Ok (a', b') else bisect fuel' tol high' a' b'
    end.
  (** calc.py:2531-2638 [bracket_bounding_yi] with maxiter > 0 *)
  Definition bracket_bounding (lo hi : num) (maxiter : nat) (tol : num) : result (list num * nat) :=
    let* a := bend_at lo in
    let* b := bend_at hi in
    if Nat.eqb (e_flag a) (e_flag b) then Ok (binary (e_y b), e_flag b)
    else
      let* r := bisect maxiter tol false a b in
      let (a', b') := r in
      let by_flag := (Nat.eqb (e_flag a') 0, Nat.eqb (e_flag b') 0) in
      match by_flag with
      | (true, false) => Ok (binary (e_y a'), e_flag a')
      | (false, true) => Ok (binary (e_y b'), e_flag b')
      | _ =>
          (* np.min is NaN if one is; nothing equals NaN *)
          if is_nan (e_obj a') || is_nan (e_obj b') then Err IndexError
          else if nle (e_obj a') (e_obj b') then Ok (binary (e_y a'), e_flag a') else Ok (binary (e_y b'), e_flag b')
      end.

  (** np.random.rand(len(...)) in iteration z *)
  Variable rand : nat -> list num.
  (** spo.least_squares on the objective from a start value, bounds (0, 1) *)
  Variable lsq : num -> result num.
  (** the limits and number of points of the search, the two tolerances, and np.sum(l) of the last totals *)
  Variables (lo hi : num) (npoints : nat) (tol tol_trivial : num).

  Definition known_sum_change (c : list num) : result num :=
    let* d := zipv nsub known c in let* r := zipv ndiv (map nabs d) known in Ok (nsum r).

  (** where an iteration stands after the trial composition is found: the composition tested, its flag, the new mole
      numbers and the two switches; [Leave]: no composition found *)
  Inductive tested := Leave (flag : nat) | Tested (c : list num) (p : list num) (flag : nat) (new : list num) (check trivial : bool).

  (** flags that mean the wrong phase: 1 for a vapor, 0 or 4 for a liquid *)
  Definition wrong_phase (f : nat) : bool := if vapor then Nat.eqb f 1 else Nat.eqb f 0 || Nat.eqb f 4.

  (** calc.py:2119-2168 and 2313-2353 *)
  Definition test_composition (z : nat) (cur : list num) (check trivial : bool) : result tested :=
    let c := normalise cur in
    let* p := coeff c in
    let again (c' : list num) (check' : bool) : result tested :=
      if any_nan c' then Ok (Leave 3)
      else let* p' := coeff c' in
           let* new := trial (fst p') in Ok (Tested c' (fst p') (snd p') new check' false) in
    if (any_nan (fst p) || wrong_phase (snd p)) && check then
      if all_nonzero c && two c then
        let* c' := find_new lo hi npoints in again c' false
      else Ok (Tested c (fst p) (snd p) cur false trivial)
    else
      (* the relative distance is computed before the switch is looked at *)
      let* d := known_sum_change c in
      if nlt d tol_trivial && trivial then
        if all_nonzero c && two c then
          let* c' := find_new lo hi npoints in again c' false
        else again (normalise (rand z)) check
      else let* new := trial (fst p) in Ok (Tested c (fst p) (snd p) new check trivial).

  (** new[np.isnan(new)] = 0.0 *)
  Definition zero_nan (l : list num) : list num := map (fun a => if is_nan a then Fin 0 else a) l.

  (** what the loops return: composition, coefficients, flag ([None]: NaN); and what is stored in the global *)
  Record found := { f_comp : list num; f_phi : list num; f_flag : option nat; f_global : option (list num) }.

  (** calc.py:2175-2178: bouncing between values.  [totals]: the totals so far, the latest first *)
  Definition bouncing (totals : list num) (s : num) (f f2 : nat) : bool :=
    match totals with
    | t1 :: t2 :: t3 :: _ :: _ =>
        nlt (nadd (nabs (nsub s t2)) (nabs (nsub t1 t3))) (nabs (nsub s t1)) && negb (Nat.eqb f f2)
    | _ => false
    end.
  Definition last_total (totals : list num) : num := match totals with t :: _ => t | [] => NaN end.

  (** calc.py:2206-2245: after the loop.  [last]: z == maxiter - 1; [c] the composition tested last, [flag] its flag,
      [new] the new mole numbers, [cur] what the loop found *)
  Definition vapor_end (last : bool) (c : list num) (flag : nat) (new : list num) (cur : found) : result found :=
    let* ind := smallest c in
    if Nat.eqb flag 3 then
      Ok {| f_comp := normalise new; f_phi := map (fun _ => NaN) c; f_flag := None; f_global := f_global cur |}
    else if last then
      let c2 := normalise new in
      let* d := change ind c2 c in
      let* c2 := if nlt (Fin (1#10)) d then let* n := find_new lo hi npoints in Ok (normalise n) else Ok c2 in
      let* y0 := at_ c2 0 in
      let* y := lsq y0 in
      let* p2 := coeff (binary y) in
      let* o := objective_find (binary y) in
      if nlt tol (fst o) then Ok {| f_comp := binary y; f_phi := map (fun _ => NaN) c; f_flag := Some 3; f_global := f_global cur |}
      else Ok {| f_comp := binary y; f_phi := fst p2; f_flag := Some (snd p2); f_global := f_global cur |}
    else Ok cur.

  (** calc.py:2115-2204: the loop; [rest]: iterations left including this one *)
  Fixpoint vapor_loop (rest z : nat) (cur : list num) (totals : list num) (check trivial : bool) : result found :=
    match rest with
    | O => Err UnboundLocalError
    | S rest' =>
        let last := Nat.eqb rest' 0 in
        let* t := test_composition z cur check trivial in
        match t with
        | Leave f => vapor_end last (binary NaN) f (binary NaN) {| f_comp := []; f_phi := []; f_flag := None; f_global := None |}
        | Tested c p flag new check' trivial' =>
            let new := zero_nan new in
            let s := nsum new in
            let c2 := normalise new in
            let* p2 := coeff c2 in
            if bouncing totals s flag (snd p2) then
              let* y0 := at_ c 0 in
              let* y1 := at_ c2 0 in
              let* r := (if nle y0 y1 then bracket_bounding y0 y1 else bracket_bounding y1 y0) 50 (Fin (1#10000000)) in
              let* p3 := coeff (fst r) in
              vapor_end last c flag new {| f_comp := fst r; f_phi := fst p3; f_flag := Some (snd p3); f_global := Some (fst r) |}
            else
              let here g := {| f_comp := c2; f_phi := fst p2; f_flag := Some (snd p2); f_global := g |} in
              let* done :=
                if nlt (nabs (nsub s (last_total totals))) tol then
                  let* ind := smallest c in
                  let* d := change ind c2 c in Ok (nlt d tol)
                else Ok false in
              if done : bool then vapor_end last c flag new (here (Some c2))
              else if last then vapor_end last c flag new (here None)
              else vapor_loop rest' (S z) new (s :: totals) check' trivial'
        end
    end.
  (** calc.py:2054-2245 [calc_vapor_composition]; the total of the guess is taken before it is normalised *)
  Definition calc_vapor_composition (maxiter : nat) (guess : list num) : result found :=
    if any_nan phi then Err ValueError
    else vapor_loop maxiter 0 (normalise guess) [nsum guess] true true.

  (** calc.py:2370-2391: after the loop; the coefficients and the flag stay those of the composition tested last *)
  Definition liquid_end (last : bool) (c p : list num) (flag : nat) (new : list num) (g : option (list num)) : result found :=
    let c2 := normalise new in
    let* ind := smallest c in
    if last then
      let* d := change ind c2 c in
      let* start := if nlt (Fin (1#10)) d then find_new lo hi npoints else Ok new in
      let* x0 := at_ start 0 in
      let* x := lsq x0 in
      let* _ := objective_find (binary x) in
      Ok {| f_comp := binary x; f_phi := p; f_flag := Some flag; f_global := g |}
    else Ok {| f_comp := c; f_phi := p; f_flag := Some flag; f_global := g |}.
  (** calc.py:2305-2368 *)
  Fixpoint liquid_loop (rest z : nat) (cur : list num) (total : num) (check trivial : bool) : result found :=
    match rest with
    | O => Err UnboundLocalError
    | S rest' =>
        let last := Nat.eqb rest' 0 in
        let* t := test_composition z cur check trivial in
        match t with
        | Leave f => liquid_end last (binary NaN) [NaN] f (binary NaN) None
        | Tested c p flag new check' trivial' =>
            let new := zero_nan new in
            let s := nsum new in
            let c2 := normalise new in
            let* done :=
              if nlt (nabs (nsub s total)) tol then
                let* ind := smallest c in
                let* d := change ind c2 c in Ok (nlt d tol)
              else Ok false in
            if done : bool then liquid_end last c p flag new (Some c2)
            else if last then liquid_end last c p flag new None
            else liquid_loop rest' (S z) new s check' trivial'
        end
    end.
  (** calc.py:2248-2406 [calc_liquid_composition]; the total of the guess is taken after it is normalised *)
  Definition calc_liquid_composition (maxiter : nat) (guess : list num) : result found :=
    if any_nan phi then Err ValueError
    else liquid_loop maxiter 0 (normalise guess) (nsum (normalise guess)) true true.
End Search.
