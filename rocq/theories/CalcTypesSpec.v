(** Vocabulary for C49-C52 and C79: what the user gave for point [i], and what was reported for it. *)
From Verif Require Import Base Num ToolboxModel ToolboxSpec CalcTypesModel.

(** the documented defaults: 298.15 K and 1 atm *)
Definition ambient_T : elem := ENum (Fin (29815 # 100)).
Definition ambient_P : elem := ENum (Fin 101325).

(** the value of list [k] at point [i] of [n], or the default if the list is absent *)
Definition value_at (sys : lists) (k : string) (dflt : option elem) (n i : nat) (v : elem) : Prop :=
  match dget sys k with
  | Some u => exists l, spread n u l /\ nth_error l i = Some v
  | None => dflt = Some v
  end.

(** the same keyword arguments, with a composition given as a flat list of numbers read as one
    composition *)
Definition rows_in (comp : string) (sys sys1 : lists) : Prop :=
  (forall k, k <> comp -> dget sys1 k = dget sys k) /\
  match dget sys comp with
  | None => dget sys1 comp = None
  | Some (Scalar _) => False
  | Some (Arr l) =>
      (exists r, r <> [] /\ l = map ENum r /\ dget sys1 comp = Some (Arr [ERow r])) \/
      (exists r l', l = ERow r :: l' /\ dget sys1 comp = Some (Arr l))
  end.

(** the entry of column [nm] for point [i] *)
Definition cell (out : output) (nm : string) (i : nat) (v : elem) : Prop :=
  exists l, dget out nm = Some l /\ nth_error l i = Some v.
(** every column has one entry per point *)
Definition full_columns (out : output) (n : nat) : Prop :=
  forall nm l, dget out nm = Some l -> length l = n.

(** an optional list: its value at the point, if it was given *)
Definition option_at (sys : lists) (k : string) (n i : nat) (v : option elem) : Prop :=
  match dget sys k with
  | Some u => exists l x, spread n u l /\ nth_error l i = Some x /\ v = Some x
  | None => v = None
  end.

(** no calculation depends on what was computed before *)
Definition history_free {G O} (R : routines G O) : Prop :=
  (forall g g' t x o, snd (c_sat R g t x o) = snd (c_sat R g' t x o)) /\
  (forall g g' x t o, snd (c_bubble R g x t o) = snd (c_bubble R g' x t o)) /\
  (forall g g' x t o, snd (c_dew R g x t o) = snd (c_dew R g' x t o)) /\
  (forall g g' p t o, snd (c_flash R g p t o) = snd (c_flash R g' p t o)) /\
  (forall g g' p t x o, snd (c_liquid R g p t x o) = snd (c_liquid R g' p t x o)) /\
  (forall g g' p t x o, snd (c_vapor R g p t x o) = snd (c_vapor R g' p t x o)) /\
  (forall g g' p t x o, snd (c_ldensity R g p t x o) = snd (c_ldensity R g' p t x o)) /\
  (forall g g' r x t o, snd (c_hildebrand R g r x t o) = snd (c_hildebrand R g' r x t o)) /\
  (forall g g' p t x o, snd (c_verify R g p t x o) = snd (c_verify R g' p t x o)).

(** the number of components that are present in a composition *)
Definition present (r : list num) : nat := length (filter (fun v => negb (neqb v (Fin 0))) r).
(** no "method" entry in the caller's pressure_options *)
Definition no_method {G} (w : world G) : Prop :=
  match press w with Some d => dget d "method" = None | None => True end.
(** the columns [names] of point [i] in one result and of point [j] in another are the same *)
Definition same_row (names : list string) (out : output) (i : nat) (out' : output) (j : nat) : Prop :=
  forall nm, In nm names -> exists v, cell out nm i v /\ cell out' nm j v.
(** the activity coefficients of a composition: y P / (Psat x), entry by entry *)
Definition activity_of (p : num) (ys ps xs gs : list num) : Prop :=
  length ys = length xs /\ length ps = length xs /\ length gs = length xs /\
  forall i y q x, nth_error ys i = Some y -> nth_error ps i = Some q -> nth_error xs i = Some x ->
    nth_error gs i = Some (ndiv (nmul y p) (nmul q x)).
(** the composition of the pure component [i] of [n] *)
Definition pure_of (n i : nat) (r : list num) : Prop :=
  length r = n /\ forall j, j < n -> nth_error r j = Some (if Nat.eqb j i then Fin 1 else Fin 0).
(** the default compositions of verify_eos for a binary: eleven, the first mole fraction going from 0.01 to
    0.99 in equal steps *)
Definition eleven_compositions (v : value elem) : Prop :=
  exists xs : list Q, length xs = 11 /\ v = Arr (map (fun x => ERow [Fin x; Fin (1 - x)%Q]) xs) /\
  (nth 0 xs 0 == 1 # 100)%Q /\ (nth 10 xs 0 == 99 # 100)%Q /\
  forall i, i < 10 -> (nth (S i) xs 0 - nth i xs 0 == 98 # 1000)%Q.
