(** Model of the data sets of a fit: /repo/despasito/parameter_fitting/data_classes/*.py (the data part of the constructors,
    [_thermo_wrapper] and [objective]) and fit_functions.py [reformat_output].
    Density options and the completion of the weights are in FitRunModel.v, the comparison of two columns in FitObjModel.v. *)
From Verif Require Import Base Num ToolboxModel FitObjModel FitRunModel.
Open Scope nat_scope.
Open Scope string_scope.

(** one entry of a column of results or data: a number, or a row of numbers (mole fractions) *)
Inductive cell := CNum (a : num) | CRow (l : list num).

(** ** fit_functions.py:190-251 [reformat_output] *)
(** fit_functions.py:223-227: number of columns of a quantity, from its first entry *)
Definition cell_len (c : cell) : nat := match c with CNum _ => 1 | CRow l => length l end.
(** numpy assignment of a list to a slice of [n] elements *)
Definition broadcast (n : nat) (l : list num) : result (list num) :=
  if Nat.eqb (length l) n then Ok l else match l with [a] => Ok (repeat a n) | _ => Err ValueError end.
(** fit_functions.py:239: "matrix[:, j] = tmp" *)
Definition fill (rows : nat) (c : cell) : result (list num) :=
  match c with CNum a => Ok (repeat a rows) | CRow l => broadcast rows l end.
(** the rows of the matrix with these columns *)
Definition rows_of (rows : nat) (cols : list (list num)) : list (list num) :=
  map (fun j => map (fun c => nth j c NaN) cols) (seq 0 rows).
(** fit_functions.py:233-249: the columns of the final matrix that one quantity fills.  The test "len(matrix) == 1" (245)
    is never true, since there the matrix has l <> 1 rows. *)
Definition block (npts : nat) (val : list cell) : result (list (list num)) :=
  match val with
  | [] => Err IndexError
  | c :: _ => let* m := mapM (fill (cell_len c)) val in mapM (broadcast npts) (rows_of (cell_len c) m)
  end.
(** The matrix as the list of its columns (the callers transpose it at once, e.g. TLVE.py:218).  One quantity alone
    (fit_functions.py:211-216) is used for numbers only (liquid_density.py:186), where it is the list itself;
    rows are not represented there. *)
Definition reformat_output (cluster : list (list cell)) : result (list (list num)) :=
  match cluster with
  | [] => Err IndexError
  | [v] => let* l := mapM (fun c => match c with CNum a => Ok a | CRow _ => Err ValueError end) v in Ok [l]
  | v :: _ => let* bs := mapM (block (length v)) cluster in Ok (concat bs)
  end.

(** ** Constructors *)
Definition data := dict (value cell).

(** which keys of the user's dictionary are moved, and where: liquid_density.py:105-113, flash.py:103-119,
    saturation_properties.py:108-129, TLVE.py:97-115, solubility_parameter.py:97-112.  In this order. *)
Definition renames (c : data_class) : list (string * list string) :=
  match c with
  | LiquidDensity => [("xi", ["xilist"]); ("T", ["Tlist"]); ("P", ["Plist"])]
  | Flash => [("xi", ["xilist"]); ("yi", ["yilist"]); ("T", ["Tlist"]); ("P", ["Plist"])]
  | Saturation => [("xi", ["xilist"]); ("yi", ["xilist"]); ("T", ["Tlist"]); ("P", ["Psat"])]
  | TLVE => [("T", ["Tlist"]); ("xi", ["xilist"]); ("yi", ["yilist"]); ("P", ["Plist"; "Pguess"])]
  | Solubility => [("xi", ["xilist"]); ("yi", ["xilist"]); ("T", ["Tlist"]); ("P", ["Plist"])]
  end.
Definition move (td_dd : data * data) (r : string * list string) : data * data :=
  let (td, dd) := td_dd in
  match dget dd (fst r) with
  | Some v => (fold_left (fun td k => dset td k v) (snd r) td, ddel dd (fst r))
  | None => (td, dd)
  end.
(** ... followed by "self.thermodict.update(data_dict)" *)
Definition gather (c : data_class) (dd : data) : data :=
  let (td, rest) := fold_left move (renames c) ([], dd) in dupdate td rest.

(** liquid_density.py:117, flash.py:123, saturation_properties.py:133, TLVE.py:119, solubility_parameter.py:116 *)
Definition thermo_keys (c : data_class) : list string :=
  match c with
  | LiquidDensity | TLVE | Solubility => ["Plist"; "xilist"; "Tlist"]
  | Flash => ["Plist"; "Tlist"]
  | Saturation => ["xilist"; "Tlist"]
  end.
(** list(set(thermo_keys + self.result_keys)), in some order *)
Definition length_keys (c : data_class) : list string :=
  thermo_keys c ++ filter (fun k => negb (smem k (thermo_keys c))) (result_keys c).

(** fundamental_constants.py:13-14: standard conditions *)
Definition standard_pressure : cell := CNum (Fin 101325).
Definition standard_temperature : cell := CNum (Fin (29815 # 100)).

(** "self.npoints = ...": liquid_density.py:122, flash.py:128, TLVE.py:124 (Tlist), solubility_parameter.py:121 (delta),
    saturation_properties.py:138-141 (the first of the compared quantities; NaN, here [None], without any).
    np.size of a list of rows is not represented: the number of entries is used. *)
Definition npoints (c : data_class) (td : data) : result (option nat) :=
  match c with
  | LiquidDensity | Flash | TLVE => let* v := dfetch td "Tlist" in Ok (Some (entry_length v))
  | Solubility => let* v := dfetch td "delta" in Ok (Some (entry_length v))
  | Saturation =>
      Ok (match find (dmem td) (result_keys Saturation) with
          | Some k => option_map entry_length (dget td k)
          | None => None end)
  end.
(** liquid_density.py:124-125, saturation_properties.py:143-146, solubility_parameter.py:123-124 *)
Definition ambiguous (c : data_class) (ncomp : nat) (td : data) : bool :=
  match c with
  | LiquidDensity | Saturation | Solubility => negb (dmem td "xilist") && Nat.ltb 1 ncomp
  | Flash | TLVE => false
  end.
(** the default values: liquid_density.py:126-131, flash.py:130-131, saturation_properties.py:147-151, TLVE.py:126-133,
    solubility_parameter.py:125-130.  range(NaN) is a TypeError. *)
Definition pure (n : nat) : value cell := Arr (repeat (CRow [Fin 1]) n).
Definition with_defaults (c : data_class) (n : option nat) (td : data) : result data :=
  match n with
  | None => Err TypeError
  | Some n =>
      match c with
      | LiquidDensity | Solubility =>
          set_defaults td (ManyKeys (thermo_keys c)) (Arr [Scalar standard_pressure; pure n; Scalar standard_temperature]) (Some n)
      | Flash => set_defaults td (ManyKeys (thermo_keys c)) (Arr [Scalar standard_pressure; Scalar standard_temperature]) (Some n)
      | Saturation => set_defaults td (ManyKeys (thermo_keys c)) (Arr [pure n; Scalar standard_temperature]) (Some n)
      | TLVE => set_defaults td (OneKey "Tlist") (Scalar (Scalar standard_temperature)) (Some n)
      end
  end.
(** the last tests: liquid_density.py:136-137, flash.py:136-140, saturation_properties.py:156-161, TLVE.py:138-143,
    solubility_parameter.py:135-136 *)
Definition complete (c : data_class) (td : data) : bool :=
  match c with
  | LiquidDensity => dmem td "Tlist" || dmem td "rhol"
  | Flash => (dmem td "Plist" || dmem td "Tlist") && (dmem td "xilist" && dmem td "yilist")
  | Saturation => dmem td "Tlist" && (dmem td "Psat" || dmem td "rhol" || dmem td "rhov")
  | TLVE => dmem td "Tlist" && (dmem td "xilist" || dmem td "yilist" || dmem td "Plist")
  | Solubility => dmem td "Tlist" || dmem td "delta"
  end.

(** the truth value of an array: an error unless it holds one number (an empty one counts as false) *)
Definition nonzero (a : num) : bool := negb (neqb a (Fin 0)).
Definition truth (v : value cell) : result bool :=
  let cells := match v with Scalar c => [c] | Arr l => l end in
  match concat (map (fun c => match c with CNum a => [a] | CRow l => l end) cells) with
  | [] => Ok false
  | [a] => Ok (nonzero a)
  | _ => Err ValueError
  end.
(** the calculation: the one asked for, else the default of the class (flash.py:90-92 etc.); TLVE.py:145-153 looks at the data *)
Definition calculation (c : data_class) (asked : option string) (td : data) : result string :=
  match asked with
  | Some s => Ok s
  | None =>
      match c with
      | LiquidDensity => Ok "liquid_properties"
      | Flash => Ok "flash"
      | Saturation => Ok "saturation_properties"
      | Solubility => Ok "solubility_parameter"
      | TLVE =>
          let* x := dfetch td "xilist" in
          let* bx := truth x in
          if bx then Ok "bubble_pressure"
          else let* y := dfetch td "yilist" in
               let* by_ := truth y in
               if by_ then Ok "dew_pressure" else Err ValueError
      end
  end.

(** what a constructor leaves behind: the class, the calculation, thermodict (data part) and the number of components *)
Record dataset := { d_class : data_class; d_calc : string; d_data : data; d_ncomp : nat }.

Definition build (c : data_class) (asked : option string) (ncomp : nat) (dd : data) : result dataset :=
  let td := gather c dd in
  let* full := check_length_dict td (length_keys c) None in
  let td := dupdate td (map (fun kv => (fst kv, Arr (snd kv))) full) in
  let* n := npoints c td in
  if ambiguous c ncomp td then Err ValueError
  else
    let* td := with_defaults c n td in
    if complete c td then
      let* calc := calculation c asked td in
      Ok {| d_class := c; d_calc := calc; d_data := td; d_ncomp := ncomp |}
    else Err ImportError.

(** ** Evaluation *)
(** self.result_keys at the end of the constructor: TLVE.py:155-160 removes what is given *)
Definition final_keys (c : data_class) (calc : string) : list string :=
  match c with
  | TLVE => if String.eqb calc "bubble_pressure" then ["Plist"; "yilist"]
            else if String.eqb calc "dew_pressure" then ["Plist"; "xilist"] else result_keys TLVE
  | _ => result_keys c
  end.
(** the options passed to the calculation: TLVE.py:183-187 and the same lines of the other classes *)
Definition options (ds : dataset) : data :=
  fold_left (fun d k => ddel d k) (final_keys (d_class ds) (d_calc ds) ++ ["name"; "parameters_guess"]) (d_data ds).
(** the results used: liquid_density.py:168, flash.py:171, saturation_properties.py:190, TLVE.py:189-201,
    solubility_parameter.py:167; TLVE with any other calculation leaves "output" undefined *)
Definition output_keys (c : data_class) (calc : string) : option (list string) :=
  match c with
  | LiquidDensity => Some ["rhol"]
  | Flash => Some ["yi"; "xi"]
  | Saturation => Some ["Psat"; "rhol"; "rhov"]
  | Solubility => Some ["delta"; "rhol"]
  | TLVE => if String.eqb calc "bubble_pressure" then Some ["P"; "yi"]
            else if String.eqb calc "dew_pressure" then Some ["P"; "xi"] else None
  end.

Section Objective.
  (** despasito.thermodynamics.thermo: name and options to results *)
  Variable thermo : string -> data -> result (dict (list cell)).
  (** fit_functions.py:511-624 with the options of the data set *)
  Variable compare : list num -> list num -> weights -> result num.

  (** [_thermo_wrapper]: every exception of the calculation is reported as a ValueError *)
  Definition predictions (ds : dataset) : result (list (list cell)) :=
    match output_keys (d_class ds) (d_calc ds) with
    | None => Err UnboundLocalError
    | Some ks =>
        match thermo (d_calc ds) (options ds) with
        | Err _ => Err ValueError
        | Ok out => match mapM (dfetch out) ks with Ok l => Ok l | Err _ => Err ValueError end
        end
    end.

  (** a measured quantity as numbers; anything else is not represented *)
  Definition numbers (v : value cell) : result (list num) :=
    match v with
    | Scalar _ => Err ValueError
    | Arr l => mapM (fun c => match c with CNum a => Ok a | CRow _ => Err ValueError end) l
    end.
  (** np.transpose of measured mole fractions: one list per component *)
  Definition components (v : value cell) : result (list (list num)) :=
    match v with
    | Scalar _ => Err ValueError
    | Arr l =>
        let* rows := mapM (fun c => match c with CRow r => Ok r | CNum _ => Err ValueError end) l in
        match rows with
        | [] => Ok []
        | r :: _ => if forallb (fun r' => Nat.eqb (length r') (length r)) rows then Ok (rows_of (length r) rows) else Err ValueError
        end
    end.
  Definition column (cols : list (list num)) (i : nat) : result (list num) :=
    match nth_error cols i with Some c => Ok c | None => Err IndexError end.

  (** "if key in self.thermodict: obj_value[..] = obj_function_form(phase_list[i], ...)", else 0 *)
  Definition scalar_part (td : data) (w : dict weights) (cols : list (list num)) (key : string) (i : nat) : result num :=
    match dget td key with
    | None => Ok (Fin 0)
    | Some v =>
        let* p := column cols i in
        let* d := numbers v in
        let* wk := dfetch w key in
        compare p d wk
    end.
  (** the loops over components: the first at column [i] *)
  Fixpoint component_loop (cols : list (list num)) (wk : weights) (i : nat) (ds : list (list num)) (acc : num) : result num :=
    match ds with
    | [] => Ok acc
    | d :: ds' => let* p := column cols i in let* v := compare p d wk in component_loop cols wk (S i) ds' (nadd acc v)
    end.
  Definition component_part (td : data) (w : dict weights) (cols : list (list num)) (key : string) (i : nat) : result num :=
    match dget td key with
    | None => Ok (Fin 0)
    | Some v =>
        let* ds := components v in
        match ds with
        | [] => Ok (Fin 0)
        | _ => let* wk := dfetch w key in component_loop cols wk i ds (Fin 0)
        end
    end.

  (** [objective]: liquid_density.py:173-199, flash.py:176-219, saturation_properties.py:197-241, TLVE.py:205-251,
      solubility_parameter.py:172-207 *)
  Definition objective (ds : dataset) (w : dict weights) : result num :=
    let td := d_data ds in
    let* l := predictions ds in
    let* cols := reformat_output l in
    match d_class ds with
    | LiquidDensity =>
        let* p := column cols 0 in
        let* v := dfetch td "rhol" in
        let* d := numbers v in
        let* wk := dfetch w "rhol" in
        let* o := compare p d wk in
        Ok (if is_nan o || neqb o (Fin 0) then PInf else o)
    | Flash =>
        let* a := component_part td w cols "yilist" 0 in
        let* b := component_part td w cols "xilist" (d_ncomp ds) in
        Ok (dataset_objective [a; b])
    | Saturation =>
        let* a := scalar_part td w cols "Psat" 0 in
        let* b := scalar_part td w cols "rhol" 1 in
        let* c := scalar_part td w cols "rhov" 2 in
        Ok (dataset_objective [a; b; c])
    | Solubility =>
        let* a := scalar_part td w cols "delta" 0 in
        let* b := scalar_part td w cols "rhol" 1 in
        Ok (dataset_objective [a; b])
    | TLVE =>
        let* a := scalar_part td w cols "Plist" 0 in
        let* b := (if String.eqb (d_calc ds) "bubble_pressure" then component_part td w cols "yilist" 1
                   else if String.eqb (d_calc ds) "dew_pressure" then component_part td w cols "xilist" 1
                   else Ok (Fin 0)) in
        Ok (dataset_objective [a; b])
    end.
End Objective.
