(** Model of a run from the command line: /repo/despasito/main.py (get_parser, run) and /repo/despasito/__main__.py *)
From Verif Require Import Base IOModel LoggerModel.
Open Scope nat_scope.
Open Scope string_scope.

(** ** main.py:98-168 [run] *)
Section Run.
  (** equation of state objects, results of a calculation, results of a fit *)
  Context {E O F : Type}.
  (** equations_of_state.initiate_eos (modelled in SaftEosModel), thermodynamics.thermo (CalcTypesModel), parameter_fitting.fit
      (FitRunModel), the writers of the result files (IOModel) and the opening of a file, as functions of what they are given *)
  Variable initiate_eos : dict json -> result E.
  Variable thermo : E -> dict json -> result O.
  Variable fit : dict (dict json * E) -> dict json -> result F.
  Variable write_thermo : json -> O -> json -> result unit.
  Variable write_fit : json -> F -> json * json -> result unit.

  (** What a run does that can be observed, in order *)
  Inductive event :=
  | Calculated (e : E) (args : dict json) (o : O)
  | Fitted (sets : dict (dict json * E)) (args : dict json) (f : F)
  | WroteResult (file : json) (o : O) (calculation : json)
  | WroteFit (file : json) (f : F) (bead_and_names : json * json)
  | OnlyLogged (o : O)
  | StoppedWorkers.

  (** truth of a JSON value; other ways to write zero are left out *)
  Definition truthy (j : json) : bool :=
    match j with
    | JAtom s => negb (smem s ["null"; "false"; "0"])
    | JStr s => negb (String.eqb s "")
    | JList l => match l with [] => false | _ => true end
    | JDict d => match d with [] => false | _ => true end
    end.
  (** main.py:122-125 *)
  Definition output_name (o : option json) : json :=
    match o with Some j => if truthy j then j else JStr "despasito_out.txt" | None => JStr "despasito_out.txt" end.

  (** main.py:136 *)
  Definition fitting_opts : list string := ["objective_method"; "nan_number"; "nan_ratio"].
  (** main.py:139-145: one data set.  The entry "eos_dict" is replaced by the object as "eos_obj", here kept beside the others. *)
  Definition prepare_set (args : dict json) (e : dict json) : result (dict json * E) :=
    let* j := dfetch e "eos_dict" in
    match j with
    | JDict d =>
        let* obj := initiate_eos d in
        Ok (fold_left (fun acc k => match dget args k with Some v => dset acc k v | None => acc end) fitting_opts (ddel e "eos_dict"), obj)
    | _ => Err TypeError
    end.

  (** main.py:149-154: the names taken from the optimization parameters after the fit; [fit] has made a list of a single name
      (parameter_fitting/__init__.py:126-133) *)
  Definition bead_and_names (args : dict json) : result (json * json) :=
    let* o := dfetch args "optimization_parameters" in
    match o with
    | JDict d =>
        let* b := dfetch d "fit_bead" in
        let* n := dfetch d "fit_parameter_names" in
        Ok (b, match n with JStr s => JList [JStr s] | _ => n end)
    | _ => Err TypeError
    end.

  (** main.py:167-168 *)
  Definition stop (parallel : bool) : list event := if parallel then [StoppedWorkers] else [].

  (** [cd]: the outcome of read_input.extract_calc_data (IOModel); [mp]: the keyword MultiprocessingObject, if given, by its
      flag_use_mp.  Messages other than the final output are left out. *)
  Definition run (cd : result calc_data) (mp : option bool) : list event * result unit :=
    match cd with
    | Err e => ([], Err e)
    | Ok c =>
        match mp with
        | None => ([], Err KeyError)
        | Some parallel =>
            let args := thermo_args c in
            let file := output_name (out_file c) in
            if dmem args "optimization_parameters" then
              match mapM (fun ke => let* s := prepare_set args (snd ke) in Ok (fst ke, s)) (exp_sets c) with
              | Err e => ([], Err e)
              | Ok sets =>
                  match fit sets args with
                  | Err e => ([], Err e)
                  | Ok f =>
                      match bead_and_names args with
                      | Err e => ([Fitted sets args f], Err e)
                      | Ok bn =>
                          match write_fit file f bn with
                          | Err e => ([Fitted sets args f], Err e)
                          | Ok _ => ([Fitted sets args f; WroteFit file f bn] ++ stop parallel, Ok tt)%list
                          end
                      end
                  end
              end
            else
              match initiate_eos (eos_args c) with
              | Err e => ([], Err e)
              | Ok eos =>
                  match thermo eos args with
                  | Err e => ([], Err e)
                  | Ok o =>
                      match (let* t := dfetch args "calculation_type" in let* _ := write_thermo file o t in Ok t) with
                      | Ok t => ([Calculated eos args o; WroteResult file o t] ++ stop parallel, Ok tt)%list
                      | Err _ => ([Calculated eos args o; OnlyLogged o] ++ stop parallel, Ok tt)%list
                      end
                  end
              end
        end
    end.
End Run.
Arguments event : clear implicits.

(** ** __main__.py: the loggers *)
(** a handler: where it writes (None: the console), and its level *)
Record lhandler := { lh_file : option string; lh_level : nat }.
(** the handlers of the root logger and of the logger "despasito", and the latter's level *)
Record loggers := { root_handlers : list lhandler; own_handlers : list lhandler; own_level : nat }.

(** a message sent to a logger of the package: the handlers that write it.  It is passed on to the handlers of the root logger whose
    own level does not matter (logging.Logger.callHandlers). *)
Definition written_by (l : loggers) (level : nat) : list lhandler :=
  if Nat.ltb level (own_level l) then []
  else filter (fun h => Nat.leb (lh_level h) level) (own_handlers l ++ root_handlers l).

(** the arguments of the command line (main.py:22-95) after parsing.  "--log" takes an optional name: without one argparse stores
    None, and the default name if the switch is absent *)
Record cmdline := { a_input : option string; a_verbose : nat; a_log : option string; a_ncores : Z; a_path : string; a_console : bool }.
Inductive log_switch := LogAbsent | LogBare | LogNamed (s : string).
Definition parse_log (s : log_switch) : option string :=
  match s with LogAbsent => Some "despasito.log" | LogBare => None | LogNamed n => Some n end.

(** __main__.py:22-45 and the first message of line 42, sent with logging.info: if the root logger has no handler that function adds
    one for the console, without a level.  The files are those in the directory; os.path.isfile of None is a TypeError. *)
Definition set_up (l : loggers) (files : list string) (a : cmdline) : result (loggers * list string) :=
  let level := log_level (a_verbose a) in
  match a_log a with
  | None => Err TypeError
  | Some name =>
      let h := {| lh_file := Some name; lh_level := level |} in
      let own := (own_handlers l ++ [h] ++ (if a_console a then [{| lh_file := None; lh_level := level |}] else []))%list in
      let root := match root_handlers l with [] => [{| lh_file := None; lh_level := 0 |}] | r => r end in
      Ok ({| root_handlers := root; own_handlers := own; own_level := level |},
          filter (fun f => negb (String.eqb f name)) files ++ [name])%list
  end.

(** __main__.py:46-50 and main.py:98 *)
Definition input_name (a : cmdline) : string := match a_input a with Some s => if String.eqb s "" then "input.json" else s | None => "input.json" end.

(** parallelization.py:33-79: the level a worker is told to log at: that of the last handler of the root logger with a file *)
Definition worker_level (l : loggers) : option nat :=
  fold_left (fun acc h => match lh_file h with Some _ => Some (lh_level h) | None => acc end) (root_handlers l) None.
(** parallelization.py:82-112, in a new process: the worker's logger.  Without a level the root logger's (30, warnings) holds. *)
Definition worker_loggers (file : string) (level : option nat) : loggers :=
  {| root_handlers := [];
     own_handlers := [{| lh_file := Some file; lh_level := match level with Some n => n | None => 0 end |}];
     own_level := match level with Some n => n | None => 30 end |}.
