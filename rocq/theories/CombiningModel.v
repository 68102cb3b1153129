(** Model of /repo/despasito/equations_of_state/combining_rule_types.py and of
    [combining_rules] in eos_toolbox.py.  Parameters are real numbers (exact
    arithmetic); np.sqrt of a negative number, NaN in numpy, is 0 for Coq's [sqrt],
    so theorems about square roots assume nonnegative arguments. *)
From Verif Require Import Base.
From Coq Require Import Reals.
Open Scope R_scope.

(** A bead: its parameters by name *)
Definition bead := dict R.

(** combining_rule_types.py:13-34 *)
Definition mean (A B : bead) (p : string) : result R :=
  let* a := dfetch A p in let* b := dfetch B p in Ok ((a + b) / 2).

(** 37-57 *)
Definition geometric_mean (A B : bead) (p : string) : result R :=
  let* a := dfetch A p in let* b := dfetch B p in Ok (sqrt (a * b)).

(** weighting_parameters[k] *)
Definition weight_name (w : list string) (k : nat) : result string :=
  match nth_error w k with Some n => Ok n | None => Err IndexError end.

(** 59-86 *)
Definition volumetric_geometric_mean (A B : bead) (p : string) (w : list string) : result R :=
  let* p2 := weight_name w 0 in
  let* a := dfetch A p in let* b := dfetch B p in
  let* sa := dfetch A p2 in let* sb := dfetch B p2 in
  Ok (sqrt (a * b) * (sqrt (sa ^ 3 * sb ^ 3) * 8 / (sa + sb) ^ 3)).

(** 89-118 *)
Definition weighted_mean (A B : bead) (p : string) (w : list string) : result R :=
  let* p2 := weight_name w 0 in
  let* a := dfetch A p in let* wa := dfetch A p2 in
  let* b := dfetch B p in let* wb := dfetch B p2 in
  Ok ((a * wa + b * wb) / (wa + wb)).

(** 121-142 *)
Definition mie_exponent (A B : bead) (p : string) : result R :=
  let* a := dfetch A p in let* b := dfetch B p in Ok (3 + sqrt ((a - 3) * (b - 3))).

(** 145-177 *)
Definition square_well_berthelot (A B : bead) (p : string) (w : list string) : result R :=
  let* p2 := weight_name w 0 in let* p3 := weight_name w 1 in
  let* a := dfetch A p in let* b := dfetch B p in
  let* sa := dfetch A p2 in let* sb := dfetch B p2 in
  let* l12 := weighted_mean A B p3 [p2] in
  let* la := dfetch A p3 in let* lb := dfetch B p3 in
  Ok (sqrt (a * b) * (sqrt (sa ^ 3 * sb ^ 3) * 8 / (sa + sb) ^ 3)
      * (sqrt ((la ^ 3 - 1) * (lb ^ 3 - 1)) / (l12 ^ 3 - 1))).

(** 180-242.  [mapsci] stands for the optional plug-in: [None] when it is not
    installed, else the function that fits the cross parameters of a pair of beads at
    a temperature.  The conversion of sigma to Angstrom, the two fitting modes and the
    shape factor option are inside that oracle. *)
Definition multipole (mapsci : option (bead -> bead -> option R -> result (dict R)))
    (A B : bead) (p : string) (temperature : option R) : result (dict R) :=
  match mapsci with
  | None => Err ImportError                                        (* 208-214 *)
  | Some fit =>
      match temperature with
      | None => fit A B temperature                                (* 221-238 *)
      | Some _ => let* v := geometric_mean A B p in Ok [(p, v)]    (* 239-241 *)
      end
  end.

(** The options of one combining rule, as in the EOS's combining dictionary: function
    name and remaining keyword arguments.  Simplification: a keyword the function does
    not take, a TypeError in Python, is ignored. *)
Record rule_opts := { ro_function : string; ro_weights : list string; ro_temperature : option R }.

(** eos_toolbox.py:365-409 [combining_rules].  Functions found in
    combining_rule_types by name; any other name is refused. *)
Definition combining_rules (mapsci : option (bead -> bead -> option R -> result (dict R)))
    (A B : bead) (p : string) (o : rule_opts) : result (dict R) :=
  let one r := let* v := r in Ok [(p, v)] in
  let f := ro_function o in let w := ro_weights o in
  if String.eqb f "None" then Ok []
  else if String.eqb f "mean" then one (mean A B p)
  else if String.eqb f "geometric_mean" then one (geometric_mean A B p)
  else if String.eqb f "volumetric_geometric_mean" then one (volumetric_geometric_mean A B p w)
  else if String.eqb f "weighted_mean" then one (weighted_mean A B p w)
  else if String.eqb f "mie_exponent" then one (mie_exponent A B p)
  else if String.eqb f "square_well_berthelot" then one (square_well_berthelot A B p w)
  else if String.eqb f "multipole" then multipole mapsci A B p (ro_temperature o)
  else Err ImportError.
