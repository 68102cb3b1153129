(** Vocabulary for C07-C11, C64-C66. *)
From Verif Require Import Base Num IOModel SortLib.
From Coq Require Import Ascii.
Open Scope nat_scope.

(** Where an input entry must go, by its name. *)
Inductive dest := ToEos (name : string) | ToCalc | FileLevel.

Inductive goes_to : string -> dest -> Prop :=
| goes_prefixed s : goes_to ("eos_" ++ s)%string (ToEos s)
| goes_eos : goes_to "eos" (ToEos "eos")
| goes_backend k : In k ["numba"; "cython"; "python"]%string -> goes_to k (ToEos k)
| goes_file k : In k ["bead_configuration"; "EOSgroup"; "EOScross"; "output_file"]%string ->
    goes_to k FileLevel
| goes_calc k :
    ~ In k ["numba"; "cython"; "python"; "bead_configuration"; "EOSgroup"; "EOScross"; "output_file"; "eos"]%string ->
    (forall s, k <> ("eos_" ++ s)%string) -> goes_to k ToCalc.

(** The value of an entry as it is passed on: unchanged, except that the "file" of a
    nested dictionary is looked up under the data path. *)
Inductive moved (path_join : string -> string -> string) (path : string) : json -> json -> Prop :=
| moved_same v : (forall m, v = JDict m -> dget m "file" = None) -> moved path_join path v v
| moved_file m f : dget m "file" = Some (JStr f) ->
    moved path_join path (JDict m) (JDict (dset m "file" (JStr (path_join path f)))).

(** the entries every equation of state gets besides the routed ones *)
Definition eos_base : list string :=
  ["beads"; "molecular_composition"; "bead_library"; "cross_library"]%string.

Definition is_data_set (v : json) : Prop := exists m t, v = JDict m /\ dget m "data_class_type" = Some t.

(** What one entry of a data set adds to it: the columns of its file, its bead names with the composition of its
    molecules as equation-of-state arguments, or the entry itself. *)
Inductive adds (bead_data : json -> result (json * json)) (exp_file : json -> result (dict json)) : string * json -> dict json -> Prop :=
| adds_file v columns : exp_file v = Ok columns -> adds bead_data exp_file ("file"%string, v) columns
| adds_beads v names composition : bead_data v = Ok (names, composition) ->
    adds bead_data exp_file ("bead_configuration"%string, v)
      [("eos_dict", JDict [("beads", names); ("molecular_composition", composition)])]%string
| adds_entry k v : k <> "file"%string -> k <> "bead_configuration"%string -> adds bead_data exp_file (k, v) [(k, v)].

(** total count of bead [b] in a component *)
Definition count_bead (b : string) (c : component) : Q :=
  fold_right (fun p acc => if String.eqb b (fst p) then snd p + acc else acc)%Q 0%Q c.

(** element [p] of a column of a data file, whatever its dimension *)
Definition at_row (a : arr) (p : nat) : option num :=
  match a with A0 x => if Nat.eqb p 0 then Some x else None | A1 l => nth_error l p | A2 _ => None end.

(** the numbers a result holds at one point *)
Definition cell_values (c : cell) : list num := match c with C0 x => [x] | C1 l => l end.

(** the header [k] begins with letter [c] *)
Definition begins (c : ascii) (k : string) : bool := String.prefix (String c "") k.
(** a mole fraction column by the reader's convention *)
Definition phase_letter (k : string) : bool := begins "x" k || begins "y" k || begins "z" k.
(** positions of the headers that begin with [c], in file order *)
Definition phase_idx (c : ascii) (names : list string) : list nat :=
  filter (fun j => begins c (nth j names ""%string)) (seq 0 (length names)).

(** a result over n points: all numbers, or all vectors of m entries *)
Definition scalars (n : nat) (v : list cell) : Prop :=
  length v = n /\ forall c, In c v -> exists x, c = C0 x.
Definition shaped (n m : nat) (v : list cell) : Prop :=
  length v = n /\ (forall c, In c v -> exists l, c = C1 l /\ length l = m).

(** header text of a column: name and, where one is documented, unit *)
Definition label (k : string) : string :=
  if String.eqb k "T" then "T [K]"%string
  else if String.eqb k "P" then "P [Pa]"%string
  else if String.eqb k "Psat" then "Psat [Pa]"%string
  else if String.eqb k "rhol" then "rhol [mol/m^3]"%string
  else if String.eqb k "rhov" then "rhov [mol/m^3]"%string
  else if String.eqb k "delta" then "delta [Pa^(1/2)]"%string
  else k.

(** the labels of one result: its own name, or name1..namem for vectors of m>1 entries;
    [nat_str] prints a natural number in decimal *)
Definition names_of (k : string) (v : list cell) : list string :=
  match v with
  | C1 ((_ :: _ :: _) as l) :: _ => map (fun i => label (k ++ nat_str i)) (seq 1 (length l))
  | _ => [label k]
  end.

(** the numbers of one result at point p *)
Definition value_at (v : list cell) (p : nat) : list num := cell_values (nth p v (C1 [])).
