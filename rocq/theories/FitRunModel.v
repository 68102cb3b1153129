(** Model of what a fit does to the dictionaries of its caller: /repo/despasito/parameter_fitting/__init__.py
    [fit], interface.py [ExpDataTemplate.__init__] and the constructors in data_classes. *)
From Verif Require Import Base Num ToolboxModel EosToolboxModel FitSetupModel.
Open Scope nat_scope.
Open Scope string_scope.

(** values in the dictionary of a data set or in global_opts *)
Inductive val :=
| VStr (s : string)
| VObj (i : nat)                          (* an equation of state, a multiprocessing object, data *)
| VOpts (d : dict num)                    (* density_opts *)
| VWeights (d : dict (value num)).        (* weights *)

(** The five data classes. *)
Inductive data_class := LiquidDensity | Flash | Saturation | TLVE | Solubility.
Definition class_of (name : string) : option data_class :=
  if String.eqb name "liquid_density" then Some LiquidDensity
  else if String.eqb name "flash" then Some Flash
  else if String.eqb name "saturation_properties" then Some Saturation
  else if String.eqb name "TLVE" then Some TLVE
  else if String.eqb name "solubility_parameter" then Some Solubility
  else None.

(** keys that interface.py:62-94 moves out of the (copied) dictionary *)
Definition template_keys : list string :=
  ["eos_obj"; "weights"; "objective_method"; "nan_number"; "nan_ratio"; "MultiprocessingObject"; "density_opts"; "calculation_type"].

(** liquid_density.py:93-100, flash.py:94-101, saturation_properties.py:99-106 *)
Definition density_defaults (min_fraction : Q) : dict num :=
  [("min_density_fraction", Fin min_fraction); ("density_increment", Fin 10); ("max_volume_increment", Fin (1 # 10000))].
(** the density_opts of the calculations of a data set; [user]: those in its dictionary.
    TLVE.py:93-95 replaces them by an empty dictionary first; solubility_parameter.py:94-95. *)
Definition class_density_opts (c : data_class) (user : option (dict num)) : dict num :=
  let update (d : dict num) := match user with Some u => dupdate d u | None => d end in
  match c with
  | LiquidDensity | Flash => update (density_defaults (1 # 300000))
  | Saturation => update (density_defaults (1 # 80000))
  | TLVE => []
  | Solubility => match user with Some u => u | None => [] end
  end.

(** which weights are renamed when the data key is present: (data key, new name) *)
Definition weight_renames (c : data_class) : list (string * string) :=
  match c with
  | LiquidDensity => []
  | Flash => [("xi", "xilist"); ("yi", "yilist")]
  | Saturation => [("P", "Psat")]
  | TLVE => [("xi", "xilist"); ("yi", "yilist"); ("P", "Plist")]
  | Solubility => [("P", "Plist")]
  end.
(** self.result_keys when the weights are completed *)
Definition result_keys (c : data_class) : list string :=
  match c with
  | LiquidDensity => ["rhol"; "phil"]
  | Flash => ["xilist"; "yilist"]
  | Saturation => ["rhol"; "rhov"; "Psat"]
  | TLVE => ["Plist"; "xilist"; "yilist"]
  | Solubility => ["rhol"; "delta"]
  end.
(** "if key in data_dict: ... if key in self.weights: self.weights[new] = self.weights.pop(key)" *)
Definition rename_weights (c : data_class) (keys : list string) (w : dict (value num)) : dict (value num) :=
  fold_left (fun w r => if smem (fst r) keys then
                          match dget w (fst r) with Some v => dset (ddel w (fst r)) (snd r) v | None => w end
                        else w) (weight_renames c) w.
(** "self.weights.update(check_length_dict(self.weights, self.result_keys, lx=npoints));
     self.weights.update(set_defaults(self.weights, self.result_keys, 1.0))" *)
Definition complete_weights (c : data_class) (npoints : nat) (w : dict (value num)) : result (dict (value num)) :=
  let* full := check_length_dict w (result_keys c) (Some npoints) in
  let w1 := dupdate w (map (fun kv => (fst kv, Arr (snd kv))) full) in
  let* w2 := set_defaults w1 (ManyKeys (result_keys c)) (Scalar (Scalar (Fin 1))) None in
  Ok (dupdate w1 w2).
(** TLVE.py:155-160 *)
Definition drop_given (c : data_class) (calculation : string) (w : dict (value num)) : dict (value num) :=
  match c with
  | TLVE => if String.eqb calculation "bubble_pressure" then ddel w "xilist"
            else if String.eqb calculation "dew_pressure" then ddel w "yilist" else w
  | _ => w
  end.

Record instance := { i_class : data_class; i_eos : val; i_opts : dict num; i_weights : dict (value num) }.

Section Construct.
  (** the other checks of the constructors: number of points and calculation type, or an exception *)
  Variable finish : data_class -> dict val -> result (nat * string).
  (** The constructors: the weights dictionary as it is left behind (it is the caller's object), and
      the instance or the exception.  The dictionary of the data set itself is copied first. *)
  Definition construct (c : data_class) (dd : dict val) : dict (value num) * result instance :=
    let w0 := match dget dd "weights" with Some (VWeights w) => w | _ => [] end in
    match dget dd "eos_obj" with
    | None => (w0, Err ValueError)
    | Some eos =>
        let keys := filter (fun k => negb (smem k template_keys)) (dkeys dd) in
        let w1 := rename_weights c keys w0 in
        match finish c dd with
        | Err e => (w1, Err e)
        | Ok (n, calculation) =>
            match complete_weights c n w1 with
            | Err e => (w1, Err e)
            | Ok w2 =>
                let w3 := drop_given c calculation w2 in
                let user := match dget dd "density_opts" with Some (VOpts u) => Some u | _ => None end in
                (w3, Ok {| i_class := c; i_eos := eos; i_opts := class_density_opts c user; i_weights := w3 |})
            end
        end
    end.

  (** The caller's dictionaries *)
  Record world := { w_opt : dict oval; w_exp : dict (dict val); w_glob : dict val }.

  (** __init__.py:170-192, the loop over the data sets *)
  Fixpoint build_all (todo : list (string * dict val)) (exp : dict (dict val)) : dict (dict val) * result (list instance) :=
    match todo with
    | [] => (exp, Ok [])
    | (key, dd) :: todo' =>
        match dget dd "data_class_type" with
        | None => (exp, Err KeyError)
        | Some ty =>
            match match ty with VStr s => class_of s | _ => None end with
            | None => (exp, Err ImportError)
            | Some c =>
                let (w, r) := construct c dd in
                let exp' := match dget dd "weights" with
                            | Some (VWeights _) => dset exp key (dset dd "weights" (VWeights w))
                            | _ => exp end in
                match r with
                | Err _ => (exp', Err AttributeError)
                | Ok i => let (exp'', r') := build_all todo' exp' in
                          (exp'', match r' with Ok l => Ok (i :: l) | Err e => Err e end)
                end
            end
        end
    end.

  (** Eos.check_bounds, Eos.guess_parameters and the minimisation, given its name, guess, bounds, bead,
      parameters, data sets, the rest of global_opts *)
  Variable check : string -> num * num -> result (num * num).
  Variable guess : string -> list string -> result num.
  Variable minimise : string -> list num -> list (num * num) -> string -> list string -> list instance -> dict val -> result (list num * num).

  (** __init__.py:122-132: the multiprocessing object and the other keywords are stored in the caller's dictionaries *)
  Definition add_shared (mpo : option val) (kwargs : dict val) (w : world) : world :=
    let exp1 := match mpo with
                | Some m => map (fun kd => (fst kd, dset (snd kd) "MultiprocessingObject" m)) (w_exp w)
                | None => w_exp w end in
    let glob := match mpo with Some m => dset (w_glob w) "MultiprocessingObject" m | None => w_glob w end in
    let fill (d : dict val) := fold_left (fun d kv => if dmem d (fst kv) then d else dset d (fst kv) (snd kv)) kwargs d in
    {| w_opt := w_opt w; w_exp := map (fun kd => (fst kd, fill (snd kd))) exp1; w_glob := glob |}.

  (** __init__.py:23-233 [fit]: the caller's dictionaries afterwards and the outcome (parameters and
      objective).  Keys in the dictionaries are strings. *)
  Definition fit (mpo : option val) (kwargs : dict val) (w : world) : world * result (list num * num) :=
    let w1 := add_shared mpo kwargs w in
    match dget (w_opt w1) "fit_parameter_names" with
    | None => (w1, Err KeyError)                                                        (* 134 *)
    | Some (ONums _) | Some OOther => (w1, Err ValueError)                              (* 138-140 *)
    | Some names =>
        let l := match names with ONames l => l | OStr s => [s] | _ => [] end in
        let opt := match names with OStr s => dset (w_opt w1) "fit_parameter_names" (ONames [s]) | _ => w_opt w1 end in
        let w2 := {| w_opt := opt; w_exp := w_exp w1; w_glob := w_glob w1 |} in
        match consolidate_bounds opt with
        | Err e => (w2, Err e)
        | Ok (bs, opt') =>
            match w_exp w2 with
            | [] => (w2, Err IndexError)                                                (* 149 *)
            | (_, d0) :: _ =>
                match dget d0 "eos_obj" with
                | None => (w2, Err KeyError)
                | Some _ =>
                    match check_parameter_bounds check l bs with
                    | Err e => (w2, Err e)
                    | Ok bounds =>
                        let bead := match dget opt "fit_bead" with Some (OStr b) => b | _ => "" end in
                        let start := match dget opt' "parameters_guess" with
                                     | Some (ONums g) => if Nat.eqb (length g) (length l) then Ok g else Err ValueError
                                     | Some _ => Err TypeError
                                     | None => initial_guess guess bead l end in
                        match start with
                        | Err e => (w2, Err e)
                        | Ok start =>
                            let (exp, built) := build_all (w_exp w2) (w_exp w2) in
                            let w3 := {| w_opt := opt; w_exp := exp; w_glob := w_glob w2 |} in
                            match built with
                            | Err e => (w3, Err e)
                            | Ok data =>
                                let method := match dget (w_glob w3) "method" with Some (VStr m) => m | Some _ => "" | None => "differential_evolution" end in
                                let w4 := {| w_opt := opt; w_exp := exp; w_glob := ddel (w_glob w3) "method" |} in
                                match minimise method start bounds bead l data (w_glob w4) with
                                | Ok r => (w4, Ok r)
                                | Err _ => (w4, Err TypeError)                           (* 225-226 *)
                                end
                            end
                        end
                    end
                end
            end
        end
    end.
End Construct.
