(** Specification vocabulary for C13-C19: reading libraries, independent of the code. *)
From Verif Require Import Base Num.
Open Scope string_scope.

(** What the user's cross library says about a parameter of a pair: the entry under
    [a][b], else the one under [b][a]. *)
Definition entry {V} (cl : dict (dict (dict V))) (a b p : string) : option V :=
  match dget cl a with
  | Some d => match dget d b with Some e => dget e p | None => None end
  | None => None
  end.
Definition pair_value {V} (cl : dict (dict (dict V))) (a b p : string) : option V :=
  match entry cl a b p with Some v => Some v | None => entry cl b a p end.
Definition given {V} (cl : dict (dict (dict (option V)))) (a b p : string) (v : V) : Prop :=
  entry cl a b p = Some (Some v) \/
  ((forall w, entry cl a b p <> Some (Some w)) /\ entry cl b a p = Some (Some v)).
Definition not_given {V} (cl : dict (dict (dict (option V)))) (a b p : string) : Prop :=
  (forall w, entry cl a b p <> Some (Some w)) /\ (forall w, entry cl b a p <> Some (Some w)).

(** Does the library hold a dictionary for the ordered pair? *)
Definition has_pair {V} (cl : dict (dict (dict V))) (a b : string) : Prop :=
  exists d e, dget cl a = Some d /\ dget d b = Some e.
(** Each unordered pair is stored in at most one order. *)
Definition one_order {V} (cl : dict (dict (dict V))) : Prop :=
  forall a b, a <> b -> has_pair cl a b -> ~ has_pair cl b a.

Definition bead_value {V} (lib : dict (dict V)) (b p : string) : option V :=
  match dget lib b with Some d => dget d p | None => None end.

(** [t] is the parameter type a name starts with: everything before the first
    occurrence of the separator. *)
Fixpoint lacks (c : Ascii.ascii) (s : string) : Prop :=
  match s with EmptyString => True | String d s' => d <> c /\ lacks c s' end.
(** how often a character occurs in a name *)
Fixpoint occurrences (c : Ascii.ascii) (s : string) : nat :=
  match s with EmptyString => 0 | String d s' => (if Ascii.eqb d c then 1 else 0) + occurrences c s' end.
Definition starts_with_type (c : Ascii.ascii) (name t : string) : Prop :=
  lacks c t /\ (name = t \/ exists rest, name = t ++ String c rest).

Definition within (lim : num * num) (x : num) : Prop :=
  nle (fst lim) x = true /\ nle x (snd lim) = true.

(** Parameter updates, seen through reads only. *)
Record view (V : Type) := mkView {
  vw_bead : string -> string -> option V;
  vw_pair : string -> string -> string -> option V }.
Arguments vw_bead {V}. Arguments vw_pair {V}. Arguments mkView {V}.

Definition same_pair (a b c d : string) : Prop := (a = c /\ b = d) \/ (a = d /\ b = c).
Definition pairb (a b c d : string) : bool :=
  (String.eqb a c && String.eqb b d) || (String.eqb a d && String.eqb b c).

(** the effect of one accepted update: one bead's or one unordered pair's parameter *)
Definition apply {V} (w : view V) (p : string) (names : list string) (v : V) : view V :=
  match names with
  | [b] => mkView (fun b' p' => if String.eqb b b' && String.eqb p p' then Some v else vw_bead w b' p')
                  (vw_pair w)
  | [a; b] => mkView (vw_bead w)
                  (fun x y q => if pairb a b x y && String.eqb p q then Some v else vw_pair w x y q)
  | _ => w
  end.
Definition same_view {V} (w1 w2 : view V) : Prop :=
  (forall b p, vw_bead w1 b p = vw_bead w2 b p) /\ (forall a b p, vw_pair w1 a b p = vw_pair w2 a b p).

Definition occurs_in (t s : string) : Prop := exists pre post, s = pre ++ t ++ post.
(** an update the object accepts *)
Definition acceptable (beads types : list string) (p : string) (names : list string) : Prop :=
  (length names <= 2)%nat /\ (forall b, In b names -> In b beads) /\ (exists t, In t types /\ occurs_in t p).

(** a history of attempted updates: refused ones have no effect *)
Inductive updates {V} (beads types : list string) : view V -> list (string * list string * V) -> view V -> Prop :=
| upd_none w : updates beads types w [] w
| upd_accept w p names v us w' : acceptable beads types p names ->
    updates beads types (apply w p names v) us w' -> updates beads types w ((p, names, v) :: us) w'
| upd_refuse w p names v us w' : ~ acceptable beads types p names ->
    updates beads types w us w' -> updates beads types w ((p, names, v) :: us) w'.
