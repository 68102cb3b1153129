(** Model of the preparation of a fit: /repo/despasito/parameter_fitting/fit_functions.py
    [consolidate_bounds], [check_parameter_bounds], [initial_guess], [initialize_constraints],
    interface.py [update_parameters] and equations_of_state/interface.py [guess_parameters]. *)
From Verif Require Import Base Num IOModel EosToolboxModel.
Open Scope nat_scope.
Open Scope string_scope.

(** what optimization_parameters can hold *)
Inductive oval :=
| ONames (l : list string)      (* fit_parameter_names as a list *)
| OStr (s : string)             (* fit_bead, or a single name *)
| ONums (l : list num)          (* bounds, guesses *)
| OOther.

(** key.replace("_bounds", ""): leftmost occurrences, not overlapping; [skip] characters are dropped *)
Fixpoint drop_bounds (skip : nat) (s : string) : string :=
  match s with
  | EmptyString => EmptyString
  | String c s' =>
      match skip with
      | S k => drop_bounds k s'
      | O => if prefix "_bounds" s then drop_bounds 6 s' else String c (drop_bounds 0 s')
      end
  end.

(** list.index *)
Fixpoint index_of (x : string) (l : list string) : option nat :=
  match l with
  | [] => None
  | y :: l' => if String.eqb y x then Some 0 else option_map S (index_of x l')
  end.
Fixpoint set_nth {A} (n : nat) (v : A) (l : list A) : list A :=
  match l, n with
  | [], _ => []
  | _ :: l', O => v :: l'
  | x :: l', S n' => x :: set_nth n' v l'
  end.

(** fit_functions.py:171-185, the loop over the items; [bs]: the bounds so far, [out]: the copied items *)
Fixpoint consolidate_loop (names : list string) (items : list (string * oval)) (bs : list oval) (out : dict oval)
  : list oval * dict oval :=
  match items with
  | [] => (bs, out)
  | (k, v) :: items' =>
      if substring_in "bounds" k then
        match index_of (drop_bounds 0 k) names with
        | Some i => consolidate_loop names items' (set_nth i v bs) out
        | None => consolidate_loop names items' bs out
        end
      else consolidate_loop names items' bs (dset out k v)
  end.
(** [0, 1e4] *)
Definition default_bounds : oval := ONums [Fin 0; Fin 10000].

(** fit_functions.py:114-187 [consolidate_bounds].  The entry "bounds" of the result is returned
    separately.  fit has made the names a list before (parameter_fitting/__init__.py:134-140). *)
Definition consolidate_bounds (opt : dict oval) : result (list oval * dict oval) :=
  match dget opt "fit_bead" with
  | None => Err ValueError
  | Some _ =>
      match dget opt "fit_parameter_names" with
      | None => Err ValueError
      | Some (ONames names) => Ok (consolidate_loop names opt (repeat default_bounds (length names)) [])
      | Some _ => Err TypeError
      end
  end.

(** bounds[i][0], bounds[i][1] in check_bounds *)
Definition as_pair (v : oval) : result (num * num) :=
  match v with
  | ONums (a :: b :: _) => Ok (a, b)
  | ONums _ => Err IndexError
  | _ => Err TypeError
  end.

(** fit_functions.py:70-111 [check_parameter_bounds]; [check] is Eos.check_bounds *)
Fixpoint check_parameter_bounds (check : string -> num * num -> result (num * num)) (names : list string) (bounds : list oval)
  : result (list (num * num)) :=
  match names with
  | [] => Ok []
  | p :: names' =>
      match bounds with
      | [] => Err IndexError
      | b :: bounds' =>
          let* b := as_pair b in
          let* c := check p b in
          let* r := check_parameter_bounds check names' bounds' in Ok (c :: r)
      end
  end.

(** parameter_fitting/__init__.py:143-152: the bounds a fit uses *)
Definition fit_bounds (check : string -> num * num -> result (num * num)) (opt : dict oval) : result (list (num * num)) :=
  let* c := consolidate_bounds opt in
  match dget opt "fit_parameter_names" with
  | Some (ONames names) => check_parameter_bounds check names (fst c)
  | _ => Err TypeError
  end.

(** equations_of_state/interface.py:140-198 [guess_parameters].  [garbage] is the content of
    np.empty(2), an array that is not initialised. *)
Definition guess_parameters (check : string -> num * num -> result (num * num)) (garbage : num * num)
    (e : eos_params num) (p : string) (names : list string) : result num :=
  if Nat.ltb 2 (length names) then Err ValueError
  else if negb (forallb (fun b => smem b (ep_beads e)) names) then Err ValueError
  else
    let stored :=
      match names with
      | [b] => match dget (ep_bead_library e) b with Some d => dget d p | None => None end
      | [b0; b1] =>
          let cl := ep_cross_library e in
          let second := match dget cl b0 with
                        | Some d0 => match dget d0 b1 with Some d => dget d p | None => None end
                        | None => None end in
          match dget cl b1 with
          | Some d1 => match dget d1 b0 with Some d => dget d p | None => second end
          | None => second
          end
      | _ => None
      end in
    match stored with
    | Some v => Ok v
    | None =>
        let* b := check p garbage in
        Ok (nadd (ndiv (nsub (snd b) (fst b)) (Fin 2)) (fst b))
    end.

(** the parameter and the beads a fitting name stands for (fit_functions.py:50-65, interface.py:115-135) *)
Definition address (fit_bead name : string) : result (string * list string) :=
  match split_us name with
  | [p] => Ok (p, [fit_bead])
  | [p; b] => Ok (p, [fit_bead; b])
  | _ => Err ValueError
  end.

(** fit_functions.py:16-67 [initial_guess]; [guess] is Eos.guess_parameters *)
Definition initial_guess (guess : string -> list string -> result num) (fit_bead : string) (names : list string) : result (list num) :=
  mapM (fun name => let* a := address fit_bead name in guess (fst a) (snd a)) names.

Section UpdateParameters.
  Variable E : Type.
  (** Eos.update_parameter *)
  Variable update : E -> string -> list string -> num -> result E.
  (** Eos.parameter_refresh, when the object has it *)
  Variable refresh : E -> result E.
  (** parameter_fitting/interface.py:95-138 [update_parameters]: the object as it is left behind and the
      exception, if any *)
  Fixpoint apply_all (e : E) (fit_bead : string) (names : list string) (values : list num) : E * option exn :=
    match names with
    | [] => (e, None)
    | name :: names' =>
        match address fit_bead name with
        | Err x => (e, Some x)
        | Ok (p, beads) =>
            match values with
            | [] => (e, Some IndexError)
            | v :: values' =>
                match update e p beads v with
                | Err x => (e, Some x)
                | Ok e' => apply_all e' fit_bead names' values'
                end
            end
        end
    end.
  Definition update_parameters (e : E) (fit_bead : string) (names : list string) (values : list num) : E * option exn :=
    match apply_all e fit_bead names values with
    | (e', Some x) => (e', Some x)
    | (e', None) => match refresh e' with Ok e'' => (e'', None) | Err x => (e', Some x) end
    end.
End UpdateParameters.

(** One constraint dictionary *)
Record constraint := { c_function : option string; c_args : option (list num); c_type : option string; c_kwargs : bool }.
(** What is handed to the optimiser: for 'dict' the type, function and arguments *)
Inductive built := BDict (ty fn : string) (args : list num) | BLinear (fn : string) (args : list num) | BNonlinear (fn : string) (args : list num).

(** fit_functions.py:361-404, one constraint.  [functions]: the attributes of constraint_types.
    [prev]: the local variable output, which keeps its value from the constraint before. *)
Definition build_constraint (functions : list string) (constraint_type : string) (prev : option built) (c : constraint) : result built :=
  match c_function c with
  | None => Err ValueError
  | Some f =>
      if negb (smem f functions) then Err ImportError
      else match c_args c with
      | None => Err ValueError
      | Some args =>
          let build (mk : string -> list num -> built) : result built :=
            if c_kwargs c then Err TypeError                 (* **kwargs passes "function", "args", "type" on *)
            else match args with _ :: _ :: _ => Ok (mk f args) | _ => Err IndexError end in
          if String.eqb constraint_type "class" then
            match c_type c with
            | None => Err ValueError
            | Some ty =>
                if smem ty ["linear"; "nonlinear"] then Err ValueError
                else if String.eqb ty "linear" then build BLinear
                else if String.eqb ty "nonlinear" then build BNonlinear
                else match prev with Some b => Ok b | None => Err UnboundLocalError end
            end
          else if String.eqb constraint_type "dict" then
            match c_type c with
            | None => Err ValueError
            | Some ty => if smem ty ["eq"; "ineq"] then Err ValueError else Ok (BDict ty f args)
            end
          else Err ValueError
      end
  end.
(** fit_functions.py:325-406 [initialize_constraints] *)
Fixpoint initialize_constraints_from (functions : list string) (constraint_type : string) (prev : option built) (l : list constraint)
  : result (list built) :=
  match l with
  | [] => Ok []
  | c :: l' =>
      let* b := build_constraint functions constraint_type prev c in
      let* r := initialize_constraints_from functions constraint_type (Some b) l' in Ok (b :: r)
  end.
Definition initialize_constraints functions constraint_type l := initialize_constraints_from functions constraint_type None l.
