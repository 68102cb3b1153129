(** Model of how the options of a fit reach the optimiser: the part of each method of
    /repo/despasito/parameter_fitting/global_methods.py before (and after) the call of
    scipy.optimize, the dispatch in fit_functions.py:254-322, and the keywords fit hands over
    (parameter_fitting/__init__.py:115-117, 201).  scipy itself is not modelled: a method's result
    here is the list of keyword arguments scipy receives.  Logging is left out. *)
From Coq Require Import QArith.
From Verif Require Import Base Num FitSetupModel.
Open Scope nat_scope.
Open Scope string_scope.

(** Values found in the option dictionaries.  [GMp n]: a multiprocessing object with n cores;
    [GPoolMap]: its pool's map; [GFun]: a named function; [GCallback]: a _WriteParameterResults with
    the given cut-off and file name; [GStep]: a _BasinStep with its magnitudes and step size;
    [GBuilt]: a tuple of converted constraints; [GBounds]: a _BasinBounds. *)
Inductive gval :=
| GStr (s : string) | GNum (x : num) | GBool (b : bool) | GNone
| GDict (d : list (string * gval))
| GMp (ncores : Z) | GPoolMap | GFun (name : string)
| GCallback (obj_cut filename : option gval)
| GStep (magnitudes : list num) (stepsize : gval)
| GBuilt (l : list built)
| GBounds (bounds : list (num * num)).

(** Python's truth value of an option *)
Definition truthy (v : gval) : bool :=
  match v with
  | GStr s => negb (String.eqb s "")
  | GNum (Fin q) => negb (Qeq_bool q 0)
  | GBool b => b
  | GNone => false
  | GDict [] => false
  | GBuilt [] => false
  | _ => true
  end.

(** [value > 1] *)
Definition above_one (v : gval) : result bool :=
  match v with
  | GNum x => Ok (nlt (Fin 1) x)
  | GBool _ => Ok false
  | _ => Err TypeError
  end.

(** global_methods.py:119-139 and 582-602: obj_cut, filename and write_intermediate_file become a
    callback *)
Definition intermediate_file (g : dict gval) : dict gval :=
  let '(g1, cut) := match dget g "obj_cut" with
                    | Some v => (dset (ddel g "obj_cut") "write_intermediate_file" (GBool true), Some v)
                    | None => (g, None)
                    end in
  let '(g2, file) := match dget g1 "filename" with
                     | Some v => (dset (ddel g1 "filename") "write_intermediate_file" (GBool true), Some v)
                     | None => (g1, None)
                     end in
  match dget g2 "write_intermediate_file" with
  | Some v => if truthy v then dset (ddel g2 "write_intermediate_file") "callback" (GCallback cut file) else g2
  | None => g2
  end.

(** What scipy is called with: the keyword arguments, and whether the multiprocessing object was
    taken away from the data sets (_del_Data_MultiprocessingObject, 918-938) *)
Record call := { kw : dict gval; stripped : bool }.

(** global_methods.py:143-151 and 501-509: one option.  [opts] is the whole dictionary, [skip] the
    names that are not handed on. *)
Definition put_parallel (opts : dict gval) (skip : list string) (c : call) (kv : string * gval) : result call :=
  if String.eqb (fst kv) "MultiprocessingObject" then
    let* flag := match dget opts "workers" with Some w => above_one w | None => Ok false end in
    match snd kv with
    | GMp n => if ((1 <? n)%Z && flag)%bool then Ok {| kw := dset (kw c) "workers" GPoolMap; stripped := true |} else Ok c
    | _ => Err AttributeError
    end
  else if smem (fst kv) skip then Ok c
  else Ok {| kw := dset (kw c) (fst kv) (snd kv); stripped := stripped c |}.

(** global_methods.py:68-165 [differential_evolution].  [functions]: the attributes of
    constraint_types, as in FitSetupModel. *)
Definition differential_evolution (functions : list string) (g : dict gval) (constraints : option (list constraint)) : result call :=
  let g1 := intermediate_file g in
  let* c := foldM (put_parallel g1 ["obj_cut"; "filename"; "write_intermediate_file"])
              {| kw := [("init", GStr "random")]; stripped := false |} g1 in
  match constraints with
  | None => Ok c
  | Some cs =>
      let* b := initialize_constraints functions "class" cs in
      Ok {| kw := dset (kw c) "constraints" (GBuilt b); stripped := stripped c |}
  end.

(** global_methods.py:236-245 and 612-621: the local minimiser's method and options; any other key
    is left out *)
Definition put_minimizer (m : gval * dict gval) (kv : string * gval) : result (gval * dict gval) :=
  if String.eqb (fst kv) "method" then Ok (snd kv, snd m)
  else if String.eqb (fst kv) "options" then
    match snd kv with
    | GDict d => Ok (fst m, fold_left (fun acc e => dset acc (fst e) (snd e)) d (snd m))
    | _ => Err AttributeError
    end
  else Ok m.
Definition minimizer (m : dict gval) : result (gval * dict gval) :=
  foldM put_minimizer (GStr "nelder-mead", [("maxiter", GNum (Fin 50))]) m.

(** global_methods.py:247-259: with constraints the minimiser becomes SLSQP.  An option it does not
    take is deleted from the dictionary while that dictionary is being iterated over; CPython then
    raises RuntimeError at the next step of the loop. *)
Definition slsqp_options : list string := ["ftol"; "eps"; "disp"; "maxiter"; "finite_diff_rel_step"].
Definition with_constraints (m : gval * dict gval) : result (gval * dict gval) :=
  let kept := match fst m with GStr s => smem s ["COBYLA"; "SLSQP"] | _ => false end in
  if kept then Ok m
  else if forallb (fun k => smem k slsqp_options) (dkeys (snd m)) then Ok (GStr "SLSQP", snd m)
  else Err RuntimeError.

(** One option of shgo (225-233) and basinhopping (605-610): all but [skip] are handed on *)
Definition put_plain (skip : list string) (acc : dict gval) (kv : string * gval) : dict gval :=
  if smem (fst kv) skip then acc else dset acc (fst kv) (snd kv).

(** global_methods.py:168-269 [shgo]: the keywords of scipy.optimize.shgo, minimizer_kwargs apart *)
Definition shgo (functions : list string) (g m : dict gval) (constraints : option (list constraint))
  : result (dict gval * (gval * dict gval)) :=
  let kw := fold_left (put_plain ["MultiprocessingObject"; "obj_cut"; "filename"; "write_intermediate_file"]) g
              [("sampling_method", GStr "sobol")] in
  let* mm := minimizer m in
  match constraints with
  | None => Ok (kw, mm)
  | Some cs =>
      let* b := initialize_constraints functions "dict" cs in
      let* mm' := with_constraints mm in
      Ok (dset kw "constraints" (GBuilt b), mm')
  end.

(** global_methods.py:499-511 [brute], before the call *)
Definition brute (g : dict gval) : result call :=
  let* c := foldM (put_parallel g []) {| kw := [("Ns", GNum (Fin 5)); ("finish", GFun "minimize")]; stripped := false |} g in
  Ok {| kw := dset (kw c) "full_output" (GBool true); stripped := stripped c |}.
(** global_methods.py:517-527: the number of grid points brute reports, len(x0)*Ns, for [n]
    parameters *)
Definition brute_reported (n Ns : nat) : nat := n * Ns.

(** global_methods.py:623-648 and the options before it [basinhopping]: scipy's keywords.  [bounds]: one pair
    per parameter; np.transpose(np.array(bounds))[1] is the list of the upper bounds and fails when
    there is none.  minimizer_kwargs is a dictionary whose "args" entry (the same for every method)
    is left out; a user's minimizer_kwargs updates it. *)
Definition basinhopping (bounds : list (num * num)) (g m : dict gval) : result (dict gval) :=
  let g1 := intermediate_file g in
  let kw := fold_left (put_plain ["MultiprocessingObject"]) g1
              [("niter", GNum (Fin 10)); ("T", GNum (Fin (1 # 2))); ("niter_success", GNum (Fin 3))] in
  let* mm := minimizer m in
  let stepsize := match dget kw "stepsize" with Some s => s | None => GNum (Fin (1 # 10)) end in
  match bounds with
  | [] => Err TypeError
  | _ =>
      let kw1 := dset kw "take_step" (GStep (map snd bounds) stepsize) in
      let mk := [("method", fst mm); ("options", GDict (snd mm))] in
      let* kw2 := match dget kw1 "minimizer_kwargs" with
                  | None => Ok (kw1, mk)
                  | Some (GDict d) => Ok (ddel kw1 "minimizer_kwargs", fold_left (fun acc e => dset acc (fst e) (snd e)) d mk)
                  | Some _ => Err TypeError
                  end in
      (* **global_opts together with an explicit accept_test: a repeated keyword *)
      if dmem (fst kw2) "accept_test" then Err TypeError
      else Ok (dset (dset (fst kw2) "accept_test" (GBounds bounds)) "minimizer_kwargs" (GDict (snd kw2)))
  end.

(** global_methods.py:20-65 [single_objective]: x and fun of what it returns; the options are not
    used *)
Definition single_objective (objective : list num -> num) (guess : list num) (g : dict gval) : list num * num :=
  (guess, objective guess).

(** The keyword parameters each method takes besides the five positional ones
    (global_methods.py:20, 68-76, 168-177, 272-281, 464, 534-542) *)
Definition keywords_of (method : string) : option (list string) :=
  if String.eqb method "single_objective" then Some ["global_opts"]
  else if String.eqb method "differential_evolution" then Some ["global_opts"; "constraints"]
  else if String.eqb method "shgo" then Some ["global_opts"; "minimizer_opts"; "constraints"]
  else if String.eqb method "grid_minimization" then Some ["global_opts"; "minimizer_opts"; "constraints"]
  else if String.eqb method "brute" then Some ["global_opts"]
  else if String.eqb method "basinhopping" then Some ["global_opts"; "minimizer_opts"]
  else None.
(** parameter_fitting/__init__.py:114-117: the keywords fit passes on *)
Definition fit_passes (minimizer_opts_given : bool) : list string :=
  "global_opts" :: (if minimizer_opts_given then ["minimizer_opts"] else []).
(** fit_functions.py:309-320 with the six methods above as the attributes of the module (a name of
    one of its other attributes is C52's matter): the call is made only if every keyword is one of
    the method's parameters *)
Definition global_minimization {A} (method : string) (passed : list string) (run : A) : result A :=
  match keywords_of method with
  | None => Err ImportError
  | Some ks => if forallb (fun k => smem k ks) passed then Ok run else Err TypeError
  end.
