(** Model of [calc_bubble_pressure], [calc_dew_pressure] and their objectives in
    /repo/despasito/thermodynamics/calc.py: what is kept in the module-level compositions
    [_yi_global] and [_xi_global], and what is reported.

    Compositions are an arbitrary type.  The equation of state, the inner composition loops
    [calc_vapor_composition] and [calc_liquid_composition], the bracket search and the root
    finder are arbitrary functions; the root finder is a strategy that asks for the objective at
    pressures of its choice. *)
From Verif Require Import Base Num.

(** What a root finder does: return a pressure, fail, or ask for the objective. *)
Inductive strategy := Done (P : num) | Fail (e : exn) | Ask (P : num) (k : num -> strategy).

(** The process state: the composition kept, [_yi_global] for bubble and [_xi_global] for dew
    points, between calculations (not defined at first) and
    the entry "tol" of the caller's mole_fraction_options, if it has one. *)
Record process (C : Type) := { kept : option C; tol_entry : option num }.
Arguments kept {C}. Arguments tol_entry {C}.

Section Point.
  Context {C : Type}.
  (** division by the sum, in place or not *)
  Variable norm : C -> C.
  Variable has_nan : C -> bool.

  (** One state point, by what is computed for it. *)
  Record point := {
    raoult : result C;                                  (** the guess from saturation pressures *)
    brackets : option num -> C -> option C * result (num * num * num);
        (** calc_Prange from a composition: what it leaves in the global, Prange and Pguess *)
    inner : option num -> C -> num -> option C * result C;
        (** the inner loop from a composition at a pressure: what it leaves in the global, if
            anything, and the composition found *)
    value : num -> C -> result num;                     (** the objective for a pressure and composition *)
    own_flag : num -> result nat;                       (** flag of the phase whose composition is given *)
    other_flag : num -> C -> result nat;                (** flag of the phase whose composition is sought *)
    Pguess : option num;
    solver : num -> num -> num -> strategy              (** solve_root: start and bounds *)
  }.

  (** calc.py:2861-2916 and 2919-2974: the objective; it leaves the composition it was
      evaluated at in the global *)
  Definition objective (pt : point) (st : process C) (P : num) : process C * result num :=
    if nlt P (Fin 0) then (st, Ok (Fin 10))
    else
      match kept st with
      | None => (st, Err NameError)
      | Some c =>
          match inner pt (tol_entry st) c P with
          | (lft, Err e) => ({| kept := match lft with Some d => Some d | None => Some (norm c) end; tol_entry := tol_entry st |}, Err e)
          | (_, Ok c') =>
              let st' := {| kept := Some (norm c'); tol_entry := tol_entry st |} in
              (st', value pt P (norm c'))
          end
      end.

  Fixpoint run_solver (pt : point) (s : strategy) (st : process C) : process C * result num :=
    match s with
    | Done P => (st, Ok P)
    | Fail e => (st, Err e)
    | Ask P k =>
        match objective pt st P with
        | (st', Ok v) => run_solver pt (k v) st'
        | (st', Err e) => (st', Err e)
        end
    end.

  Record report := { r_P : num; r_comp : C; r_flag : nat; r_own : nat; r_obj : num }.

  (** 3067-3072 and 3214-3219: the guess *)
  Definition guess_of (pt : point) (st : process C) : result C :=
    match kept st with
    | Some c => if has_nan c then raoult pt else Ok c
    | None => raoult pt
    end.

  (** 3111-3113, 3258-3260: the tolerance in the caller's dictionary is tightened *)
  Definition tighten (t : option num) : option num :=
    match t with
    | Some q => if ngt q (Fin (1 # 10000000000)) then Some (Fin (1 # 10000000000)) else Some q
    | None => None
    end.

  (** calc.py:2977-3122 and 3125-3269.  [dew] tells the two apart: the bubble point reports the
      composition kept at the end, the dew point the guess it started from, which is only
      normalised in place.  Both compute the flag of the phase sought for the guess.  The guess
      is computed after the saturation pressures, whose failure ([raoult]) ends the calculation
      in either case. *)
  Definition calc_pressure (dew : bool) (pt : point) (st : process C) : process C * result report :=
    match raoult pt with
    | Err e => (st, Err e)
    | Ok _ =>
      match guess_of pt st with
      | Err e => (st, Err e)
      | Ok c0 =>
          let c := norm c0 in
          let (lft, br) := brackets pt (tol_entry st) c in
          let st1 := {| kept := match lft with Some d => Some d | None => Some c end; tol_entry := tol_entry st |} in
          match br with
          | Err e => (st1, Err e)
          | Ok (lo, hi, est) =>
              if is_nan lo || is_nan hi then (st1, Err ValueError)
              else
                let x0 := match Pguess pt with
                          | Some q => if ngt q hi || nlt q lo then est else q
                          | None => est
                          end in
                match run_solver pt (solver pt x0 lo hi) st1 with
                | (st2, Err e) => (st2, Err e)
                | (st2, Ok P) =>
                    match own_flag pt P, other_flag pt P c with
                    | Ok fo, Ok f =>
                        let st3 := {| kept := kept st2; tol_entry := tighten (tol_entry st2) |} in
                        match objective pt st3 P with
                        | (st4, Err e) => (st4, Err e)
                        | (st4, Ok v) =>
                            match (if dew then Some c else kept st4) with
                            | None => (st4, Err NameError)
                            | Some rc => (st4, Ok {| r_P := P; r_comp := rc; r_flag := f; r_own := fo; r_obj := v |})
                            end
                        end
                    | Err e, _ | _, Err e => (st2, Err e)
                    end
                end
          end
      end
    end.

  (** several points, one after the other in one process *)
  Fixpoint calc_pressures (dew : bool) (pts : list point) (st : process C) : process C * list (result report) :=
    match pts with
    | [] => (st, [])
    | pt :: rest =>
        let (st1, r) := calc_pressure dew pt st in
        let (st2, rs) := calc_pressures dew rest st1 in
        (st2, r :: rs)
    end.
End Point.
