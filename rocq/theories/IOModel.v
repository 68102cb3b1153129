(** Model of /repo/despasito/input_output/read_input.py and write_output.py *)
From Verif Require Import Base Num SortLib.
From Coq Require Import Ascii DecimalString.
Open Scope nat_scope.

(** JSON values.  Numbers are opaque strings of digits (their value never matters here). *)
Inductive json :=
| JAtom (s : string)               (* number, true, false, null *)
| JStr (s : string)
| JList (l : list json)
| JDict (d : list (string * json)).

Definition underscore : ascii := "_"%char.

(** str.split("_") *)
Fixpoint split_us (s : string) : list string :=
  match s with
  | EmptyString => [""%string]
  | String c s' =>
      if Ascii.eqb c underscore then ""%string :: split_us s'
      else match split_us s' with
           | h :: t => String c h :: t
           | [] => [String c ""]
           end
  end.

(** "_".join(l) *)
Fixpoint join_us (l : list string) : string :=
  match l with
  | [] => ""%string
  | [x] => x
  | x :: l' => (x ++ String underscore (join_us l'))%string
  end.

Section Reader.
  (** json_to_dict (read_input.py:34-53), os.path.join, process_bead_data on a JSON value
      (modelled on typed input below) and the numeric part of process_exp_data_file *)
  Variable read_json : string -> result json.
  Variable path_join : string -> string -> string.
  Variable bead_data : json -> result (json * json).
  Variable exp_file : json -> result (dict json).

  Definition join_value (path : string) (v : json) : result json :=
    match v with JStr s => Ok (JStr (path_join path s)) | _ => Err TypeError end.

  (** read_input.py:23-27, one of the two library files *)
  Definition append_lib (path key : string) (d : dict json) : result (dict json) :=
    match dget d key with
    | Some v => let* v' := join_value path v in Ok (dset d key v')
    | None => Ok d
    end.

  (** read_input.py:29-31, one entry *)
  Definition append_entry (path : string) (kv : string * json) : result (string * json) :=
    match snd kv with
    | JDict d =>
        match dget d "file" with
        | Some f => let* f' := join_value path f in Ok (fst kv, JDict (dset d "file" f'))
        | None => Ok kv
        end
    | _ => Ok kv
    end.

  (** read_input.py:12-31 *)
  Definition append_data_file_path (path : string) (d : dict json) : result (dict json) :=
    let* d1 := append_lib path "EOSgroup" d in
    let* d2 := append_lib path "EOScross" d1 in
    mapM (append_entry path) d2.

  Definition EOS_dict_keys : list string :=
    ["bead_configuration"; "EOSgroup"; "EOScross"; "output_file"]%string.

  (** read_input.py:121-128: one entry of the input is routed *)
  Definition route_entry (st : dict json * dict json) (kv : string * json) : dict json * dict json :=
    let '(eos, thermo) := st in
    let '(k, v) := kv in
    if String.prefix "eos_" k then (dset eos (join_us (tl (split_us k))) v, thermo)
    else if String.eqb k "eos" then (dset eos "eos" v, thermo)
    else if smem k EOS_dict_keys then (eos, thermo)
    else (eos, dset thermo k v).

  (** read_input.py:130-133 *)
  Definition move_backend (st : dict json * dict json) (k : string) : dict json * dict json :=
    let '(eos, thermo) := st in
    match dget thermo k with
    | Some v => (dset eos k v, ddel thermo k)
    | None => (eos, thermo)
    end.
  Definition backends : list string := ["numba"; "cython"; "python"]%string.

  (** read_input.py:101-117: bead and parameter libraries *)
  Definition eos_start (d : dict json) : result (dict json) :=
    let* eos0 :=
      match dget d "bead_configuration" with
      | Some b => let* bm := bead_data b in
                  Ok [("beads", fst bm); ("molecular_composition", snd bm)]%string
      | None => if dmem d "optimization_parameters" then Ok [] else Err ValueError
      end in
    let* g := dfetch d "EOSgroup" in
    let* gname := (match g with JStr s => Ok s | _ => Err TypeError end) in
    let* lib := read_json gname in
    let eos1 := dset eos0 "bead_library" lib in
    match dget d "EOScross" with
    | Some (JStr c) => let* cross := read_json c in Ok (dset eos1 "cross_library" cross)
    | Some _ => Err TypeError
    | None => Ok eos1
    end.

  (** read_input.py:366-382 process_exp_data *)
  Definition exp_entry (acc : dict json) (kv : string * json) : result (dict json) :=
    let '(k, v) := kv in
    if String.eqb k "data_class_type" then Ok (dset acc "data_class_type" v)
    else if String.eqb k "file" then let* f := exp_file v in Ok (dupdate acc f)
    else if String.eqb k "bead_configuration" then
      let* bm := bead_data v in
      Ok (dset acc "eos_dict" (JDict [("beads", fst bm); ("molecular_composition", snd bm)]%string))
    else Ok (dset acc k v).
  Definition process_exp_data (d : dict json) : result (dict json) := foldM exp_entry [] d.

  (** read_input.py:309-328 process_param_fit_inputs.  The result is the list of data sets
      (the "exp_data" entry) and the remaining entries. *)
  Definition fit_entry (st : dict (dict json) * dict json) (kv : string * json)
    : result (dict (dict json) * dict json) :=
    match snd kv with
    | JDict d => if dmem d "data_class_type"
                 then let* e := process_exp_data d in Ok (dset (fst st) (fst kv) e, snd st)
                 else Ok (fst st, dset (snd st) (fst kv) (JDict d))
    | v => Ok (fst st, dset (snd st) (fst kv) v)
    end.
  Definition process_param_fit_inputs (thermo : dict json)
    : result (dict (dict json) * dict json) :=
    let* st := foldM fit_entry ([], []) thermo in
    let* o := dfetch (snd st) "optimization_parameters" in
    match o with
    | JDict od => if dmem od "fit_bead" && dmem od "fit_parameter_names" then Ok st
                  else Err ValueError
    | _ => Err AttributeError
    end.

  (** read_input.py:142-147: a data set inherits the equation-of-state arguments *)
  Definition inherit_eos (eos : dict json) (e : dict json) : result (dict json) :=
    match dget e "eos_dict" with
    | None => Ok (dset e "eos_dict" (JDict (fold_left
                (fun acc kv => if dmem acc (fst kv) then acc else dset acc (fst kv) (snd kv)) eos [])))
    | Some (JDict own) => Ok (dset e "eos_dict" (JDict (fold_left
                (fun acc kv => if dmem acc (fst kv) then acc else dset acc (fst kv) (snd kv)) eos own)))
    | Some _ => Err TypeError
    end.

  Record calc_data := { eos_args : dict json; thermo_args : dict json;
                        exp_sets : dict (dict json); out_file : option json }.

  (** read_input.py:56-160 extract_calc_data; [kwargs] are the keyword arguments.  Logging
      (which reads "fit_bead" and "data_class_type") is dropped. *)
  Definition extract_calc_data (fname path : string) (kwargs : dict json) : result calc_data :=
    let* j := read_json fname in
    match j with
    | JDict d0 =>
        let* d := append_data_file_path path d0 in
        let* eos0 := eos_start d in
        let '(eos1, th1) := fold_left route_entry d (eos0, kwargs) in
        let '(eos2, th2) := fold_left move_backend backends (eos1, th1) in
        if dmem th2 "optimization_parameters" then
          let* st := process_param_fit_inputs th2 in
          let* sets := mapM (fun ke => let* e := inherit_eos eos2 (snd ke) in Ok (fst ke, e)) (fst st) in
          Ok {| eos_args := eos2; thermo_args := snd st; exp_sets := sets; out_file := dget d "output_file" |}
        else Ok {| eos_args := eos2; thermo_args := th2; exp_sets := []; out_file := dget d "output_file" |}
    | _ => Err TypeError
    end.
End Reader.

(** read_input.py:200-234 process_bead_data on well-formed input: a component is a list of
    (bead, count). *)
Definition component := list (string * Q).

Definition add_bead (beads : list string) (b : string) : list string :=
  if smem b beads then beads else beads ++ [b].
(** 220-226 *)
Definition bead_names (comps : list component) : list string :=
  sort_by (fun s => s)
    (fold_left (fun acc (c : component) => fold_left (fun acc' p => add_bead acc' (fst p)) c acc) comps []).
(** 231-233 *)
Definition set_bead (beads : list string) (row : list Q) (p : string * Q) : list Q :=
  map (fun br => if String.eqb (fst p) (fst br) then snd p else snd br) (combine beads row).
(** 228-233 *)
Definition bead_row (beads : list string) (c : component) : list Q :=
  fold_left (set_bead beads) c (repeat 0%Q (length beads)).
Definition process_bead_data (comps : list component) : list string * list (list Q) :=
  let beads := bead_names comps in (beads, map (bead_row beads) comps).

(** Cells of a data file: numpy.genfromtxt gives 0-dimensional columns for a file with
    exactly one data row. *)
Inductive arr := A0 (x : num) | A1 (l : list num) | A2 (rows : list (list num)).

Definition starts (c : ascii) (s : string) : bool :=
  match s with String c' _ => Ascii.eqb c c' | EmptyString => false end.

(** read_input.py:406-410: the table as columns by name *)
Definition column (i : nat) (rows : list (list num)) : arr :=
  match rows with
  | [r] => A0 (nth i r NaN)
  | _ => A1 (map (fun r => nth i r NaN) rows)
  end.
Definition file_columns (names : list string) (rows : list (list num)) : list (string * arr) :=
  combine names (map (fun i => column i rows) (seq 0 (length names))).

(** read_input.py:433-440: numpy.transpose of the stacked columns of one phase *)
Definition stack_columns (cols : list arr) : arr :=
  match cols with
  | A0 _ :: _ => A1 (map (fun c => match c with A0 x => x | _ => NaN end) cols)
  | A1 l0 :: _ => A2 (map (fun p => map (fun c => match c with A1 l => nth p l NaN | _ => NaN end) cols)
                          (seq 0 (length l0)))
  | _ => A2 []
  end.

Definition phase_columns (c : ascii) (d : list (string * arr)) : list arr :=
  map snd (filter (fun kv => starts c (fst kv)) d).

(** read_input.py:406-442 process_exp_data_file, from the parsed table *)
Definition process_exp_table (names : list string) (rows : list (list num)) : dict arr :=
  let d := file_columns names rows in
  let keep := filter (fun kv => negb (starts "x" (fst kv) || starts "y" (fst kv) || starts "z" (fst kv))) d in
  let put (k : string) (cols : list arr) (acc : dict arr) :=
    match cols with [] => acc | _ => dset acc k (stack_columns cols) end in
  put "zi"%string (phase_columns "z" d)
    (put "yi"%string (phase_columns "y" d)
       (put "xi"%string (phase_columns "x" d) keep)).

(** write_output.py:12-30 write_EOSparameters: the ordered dictionary that is dumped (and
    left in the caller's library) *)
Definition write_EOSparameters {V} (library : dict (dict V)) : dict (dict V) :=
  map (fun bd => (fst bd, sort_by (fun kv => lower (fst kv)) (snd bd))) library.

(** write_output.py:33-105 writeout_thermo_dict.  A value of a result at one point is a
    0-dimensional number or a one-dimensional array. *)
Inductive cell := C0 (x : num) | C1 (l : list num).
Definition csize (c : cell) : nat := match c with C0 _ => 1 | C1 l => length l end.

Definition as_vec (n : nat) (c : cell) : result (list num) :=
  match c with C1 l => if Nat.eqb (length l) n then Ok l else Err ValueError | C0 _ => Err ValueError end.
Definition as_scalar (c : cell) : result num :=
  match c with C0 x => Ok x | C1 _ => Err ValueError end.
Definition as_piece (c : cell) : result (list num) :=
  match c with C1 l => Ok l | C0 _ => Err ValueError end.

Definition nat_str (n : nat) : string := NilZero.string_of_uint (Nat.to_uint n).

(** write_output.py:74-89: the columns one result contributes *)
Definition key_columns (key : string) (value : list cell) : result (list (string * list num)) :=
  match value with
  | [] => Err IndexError
  | v0 :: _ =>
      if Nat.ltb 1 (csize v0) then
        let* rows := mapM (as_vec (csize v0)) value in
        Ok (map (fun i => ((key ++ nat_str (i + 1))%string, map (fun r => nth i r NaN) rows))
                (seq 0 (csize v0)))
      else match v0 with
           | C0 _ => let* col := mapM as_scalar value in Ok [(key, col)]
           | C1 _ => let* ps := mapM as_piece value in Ok [(key, concat ps)]
           end
  end.

Definition units : dict string :=
  [("T", "K"); ("P", "Pa"); ("Psat", "Pa"); ("rhol", "mol/m^3"); ("rhov", "mol/m^3");
   ("delta", "Pa^(1/2)")]%string.
(** write_output.py:92-99, one header name *)
Definition header_name (k : string) : string :=
  match dget units k with Some u => (k ++ " [" ++ u ++ "]")%string | None => k end.

Record table_file := { comment : string; header : list string; body : list (list num) }.

(** write_output.py:67-69: the second string is a statement of its own *)
Definition comment_line (calctype : string) : string :=
  "# This data was generated in DESPASITO using the thermodynamic "%string.

Fixpoint all_columns (d : list (string * list cell)) : result (list (string * list num)) :=
  match d with
  | [] => Ok []
  | (k, v) :: d' => let* c := key_columns k v in let* cs := all_columns d' in Ok (c ++ cs)
  end.

Definition writeout_thermo_dict (d : list (string * list cell)) (calctype : string) : result table_file :=
  let* cols := all_columns d in
  match cols with
  | [] => Err ValueError                                  (* np.stack of nothing *)
  | (_, c0) :: _ =>
      if forallb (fun kc => Nat.eqb (length (snd kc)) (length c0)) cols then
        Ok {| comment := comment_line calctype; header := map (fun kc => header_name (fst kc)) cols;
              body := map (fun p => map (fun kc => nth p (snd kc) NaN) cols) (seq 0 (length c0)) |}
      else Err ValueError                                 (* 90: np.stack of unequal columns *)
  end.

(** write_output.py:108-130 writeout_fit_dict: the (name, value) lines *)
Fixpoint fit_lines (names : list string) (vals : list num) : result (list (string * num)) :=
  match names, vals with
  | [], _ => Ok []
  | n :: ns, v :: vs => let* l := fit_lines ns vs in Ok ((n, v) :: l)
  | _ :: _, [] => Err IndexError
  end.
