(** Property theorems C13-C16, C18, C19, C69. *)
From Verif Require Import Base BaseFacts Num NumFacts IOModel EosToolboxModel EosToolboxSpec EosToolboxProofs.
From Verif Require CombiningModel CombiningProps.
From Coq Require Import Lqa.
Open Scope string_scope.

(** C13, symmetry: for any rules, even ones that return several parameters. *)
Theorem C13_symmetric : forall V zero rule beads lib keys cl m,
  cross_interaction_from_dict V zero rule beads lib keys cl = Ok m ->
  forall key i j, m key i j = m key j i.
Proof. exact cross_sym. Qed.
Print Assumptions C13_symmetric.

(** C13, values: bead parameters on the diagonal, the user's value where the cross
    library gives one in either order, the rule's value elsewhere (the rule named
    "None" leaves 0).  For rules that return the parameter asked for only: all
    built-in ones but "multipole", see C12_single_output. *)
Theorem C13_values_partial : forall V zero rule beads lib keys cl m,
  (forall key a b out, rule key a b = Ok out -> out = [] \/ exists v, out = [(key, v)]) ->
  NoDup keys ->
  cross_interaction_from_dict V zero rule beads lib keys cl = Ok m ->
  (forall key k b, In key keys -> nth_error beads k = Some b ->
     exists bd, dget lib b = Some bd /\ dget bd key = Some (m key k k)) /\
  (forall key i j bi bj, In key keys -> (i < j)%nat -> nth_error beads i = Some bi -> nth_error beads j = Some bj ->
     (given cl bi bj key (m key i j) \/
      (not_given cl bi bj key /\ exists d1 d2, dget lib bi = Some d1 /\ dget lib bj = Some d2 /\
         (rule key d1 d2 = Ok [(key, m key i j)] \/ (rule key d1 d2 = Ok [] /\ m key i j = zero)))) /\
     m key j i = m key i j).
Proof. intros V zero rule beads lib keys cl m S ND H. exact (cross_values V zero rule S beads lib keys cl m ND H). Qed.
Print Assumptions C13_values_partial.

Definition demo_rule (key : string) (a b : dict nat) : result (dict nat) :=
  let* x := dfetch a key in let* y := dfetch b key in Ok [(key, x + y)].
Definition demo_lib : dict (dict nat) :=
  [("A", [("e", 1); ("s", 2)]); ("B", [("e", 3); ("s", 4)]); ("C", [("e", 5); ("s", 6)])].
Definition demo_cross : dict (dict (dict (option nat))) :=
  [("B", [("A", [("e", Some 100)])]); ("C", [("A", [("s", None)])])].
Example C13_case : exists m,
  cross_interaction_from_dict nat 0 demo_rule ["A"; "B"; "C"] demo_lib ["e"; "s"] demo_cross = Ok m /\
  m "e" 0 0 = 1 /\ m "e" 0 1 = 100 /\ m "e" 1 0 = 100 /\ m "s" 0 1 = 6 /\ m "s" 2 0 = 8 /\ m "e" 2 1 = 8.
Proof. eexists. split; [vm_compute; reflexivity|]. vm_compute. repeat split; reflexivity. Qed.
Example C13_case_rule : forall key a b out, demo_rule key a b = Ok out -> out = [] \/ exists v, out = [(key, v)].
Proof.
  intros key a b out. unfold demo_rule, dfetch. destruct (dget a key), (dget b key); cbn; intros H; try discriminate.
  injection H as <-. right; eauto.
Qed.

(** C13, refuted for a rule that returns several parameters (the multipole rule does):
    it overwrites a cross parameter the user supplied. *)
Theorem C13_multi_output_refuted :
  exists rule beads lib keys cl m i j bi bj key v,
    cross_interaction_from_dict nat 0 rule beads lib keys cl = Ok m /\
    In key keys /\ nth_error beads i = Some bi /\ nth_error beads j = Some bj /\
    given cl bi bj key v /\ m key i j <> v.
Proof.
  exists (fun key _ _ => if String.eqb key "e" then Ok [("e", 7); ("s", 8)] else Ok [(key, 9)]),
    ["A"; "B"], demo_lib, ["s"; "e"], [("A", [("B", [("s", Some 50)])])].
  eexists. exists 0, 1, "A", "B", "s", 50. split; [vm_compute; reflexivity|].
  split; [left; reflexivity|]. split; [reflexivity|]. split; [reflexivity|].
  split; [left; reflexivity|]. vm_compute. discriminate.
Qed.
Print Assumptions C13_multi_output_refuted.

(** C14: what is returned, and when the call is refused. *)
Theorem C14_defaults_filled : forall V (lib : dict (dict V)) defaults,
  NoDup (dkeys defaults) ->
  match snd (check_bead_parameters V lib defaults) with
  | Ok out =>
      dkeys out = dkeys lib /\
      forall b, match dget lib b with
                | None => dget out b = None
                | Some bd => exists bd', dget out b = Some bd' /\
                    (forall p, dget bd' p = match dget bd p with
                                            | Some v => Some v
                                            | None => match dget defaults p with Some o => o | None => None end
                                            end) /\
                    (forall p, dget defaults p = Some None -> dget bd p <> None)
                end
  | Err e => e = ValueError /\
      exists b bd p, In (b, bd) lib /\ dget defaults p = Some None /\ dget bd p = None
  end.
Proof.
  intros V lib defaults ND. unfold check_bead_parameters.
  destruct (check_beads V lib defaults) as [lib' ok] eqn:E.
  destruct (check_beads_spec V lib defaults lib' ok ND E) as [K [A [B C]]].
  destruct ok; cbn [snd].
  - split; [exact K|apply A; reflexivity].
  - split; [reflexivity|apply B; reflexivity].
Qed.
Print Assumptions C14_defaults_filled.

Example C14_case : snd (check_bead_parameters nat
    [("CH3", [("epsilon", 256); ("Vks", 2)]); ("CH2", [("epsilon", 473)])]
    [("epsilon", None); ("Sk", Some 1); ("Vks", Some 1)])
  = Ok [("CH3", [("epsilon", 256); ("Vks", 2); ("Sk", 1)]); ("CH2", [("epsilon", 473); ("Sk", 1); ("Vks", 1)])].
Proof. reflexivity. Qed.

(** C14, the caller's library: unchanged if nothing was missing ... *)
Theorem C14_complete_library_kept : forall V (lib : dict (dict V)) defaults,
  NoDup (dkeys defaults) ->
  (forall b bd p o, In (b, bd) lib -> dget defaults p = Some o -> dget bd p <> None) ->
  check_bead_parameters V lib defaults = (lib, Ok lib).
Proof.
  intros V lib defaults ND H. unfold check_bead_parameters.
  destruct (check_beads V lib defaults) as [lib' ok] eqn:E.
  destruct (check_beads_spec V lib defaults lib' ok ND E) as [K [A [B C]]].
  rewrite (C H) in *. destruct ok; [reflexivity|].
  destruct (B eq_refl) as [b [bd [p [P1 [P2 P3]]]]]. exfalso. exact (H b bd p None P1 P2 P3).
Qed.
Print Assumptions C14_complete_library_kept.

(** ... but refuted in general: a default is written into the caller's own library,
    even when the call then raises. *)
Theorem C14_caller_library_changed_refuted :
  (exists (lib : dict (dict nat)) defaults out, check_bead_parameters nat lib defaults = (out, Ok out) /\ out <> lib) /\
  (exists (lib : dict (dict nat)) defaults, snd (check_bead_parameters nat lib defaults) = Err ValueError /\
     fst (check_bead_parameters nat lib defaults) <> lib).
Proof.
  split.
  - exists [("CH3", [("epsilon", 256)])], [("Sk", Some 1)], [("CH3", [("epsilon", 256); ("Sk", 1)])].
    split; [reflexivity|discriminate].
  - exists [("CH3", [("sigma", 3)])], [("Sk", Some 1); ("epsilon", None)]. split; [reflexivity|discriminate].
Qed.
Print Assumptions C14_caller_library_changed_refuted.

(** C15 *)
Theorem C15_insignificant_removed : forall eps xi massi,
  length massi = length xi ->
  let keep := filter (fun xm : num * num => negb (nlt (fst xm) eps)) (combine xi massi) in
  remove_insignificant_components eps xi massi = Ok (map fst keep, map snd keep).
Proof. exact remove_spec. Qed.
Print Assumptions C15_insignificant_removed.

Example C15_case : remove_insignificant_components (Fin (1 # 100)) [Fin 0; Fin (1#2); Fin (1#200); Fin (1#2)]
    [Fin 1; Fin 2; Fin 3; Fin 4] = Ok ([Fin (1#2); Fin (1#2)], [Fin 2; Fin 4]).
Proof. reflexivity. Qed.

(** C16, proved part: with the pure-python or the numba switch, and provided the
    package imports, that backend runs. *)
Theorem C16_backend_partial : forall numba python loaded compiled ms fl,
  mk_method_stat numba false python = Ok ms ->
  import_saft loaded compiled = Ok fl ->
  let want := if python then PurePython else Numba in
  xika_backend (fst fl) (snd fl) ms = Ok want /\ mie_backend (fst fl) (snd fl) ms = Ok want.
Proof.
  intros numba python loaded compiled ms fl H I. unfold mk_method_stat, import_saft in *.
  destruct numba, python, loaded, compiled; cbn in *; try discriminate; injection H as <-; injection I as <-;
    split; reflexivity.
Qed.
Print Assumptions C16_backend_partial.

Example C16_case : mk_method_stat true false true = Ok {| ms_numba := false; ms_cython := false; ms_python := true |}
  /\ import_saft false false = Ok (true, false).
Proof. split; reflexivity. Qed.

(** C16: a choice is refused exactly when no backend is selected at all. *)
Theorem C16_none_refused : forall numba cython python,
  mk_method_stat numba cython python = Err ValueError <-> numba = false /\ cython = false /\ python = false.
Proof. intros [|] [|] [|]; cbn; split; intros H; try discriminate; try (repeat split; reflexivity); destruct H as [? [? ?]]; discriminate. Qed.
Print Assumptions C16_none_refused.

(** C16, refuted: asking for cython never runs cython, on any machine; on a machine
    where Cython is not loaded it crashes with a NameError. *)
Theorem C16_cython_refuted :
  (forall numba python loaded compiled ms fl,
     mk_method_stat numba true python = Ok ms -> import_saft loaded compiled = Ok fl ->
     xika_backend (fst fl) (snd fl) ms <> Ok Cython /\ mie_backend (fst fl) (snd fl) ms <> Ok Cython) /\
  (forall numba python compiled ms fl,
     mk_method_stat numba true python = Ok ms -> import_saft false compiled = Ok fl ->
     xika_backend (fst fl) (snd fl) ms = Err NameError /\ mie_backend (fst fl) (snd fl) ms = Err NameError).
Proof.
  split.
  - intros numba python loaded compiled ms fl H I. unfold mk_method_stat, import_saft in *.
    destruct numba, python, loaded, compiled; cbn in *; try discriminate; injection H as <-; injection I as <-;
      split; discriminate.
  - intros numba python compiled ms fl H I. unfold mk_method_stat, import_saft in *.
    destruct numba, python; cbn in *; injection H as <-; injection I as <-; split; reflexivity.
Qed.
Print Assumptions C16_cython_refuted.

(** C16, refuted: with Cython loaded but the extension not compiled, even the
    pure-python and numba backends are out of reach, because the import fails. *)
Theorem C16_import_refuted : forall numba python,
  (numba || python = true) ->
  (exists ms, mk_method_stat numba false python = Ok ms) /\ import_saft true false = Err ImportError.
Proof. intros [|] [|] H; try discriminate; (split; [eexists; reflexivity|reflexivity]). Qed.
Print Assumptions C16_import_refuted.

(** C18.  Limits are in order; a requested bound may be infinite but not NaN. *)
Theorem C18_bounds_clipped : forall extreme name t bounds,
  starts_with_type underscore name t ->
  match dget extreme t with
  | None => check_bounds extreme name bounds = Err ValueError
  | Some lim =>
      fst bounds <> NaN -> snd bounds <> NaN -> nle (fst lim) (snd lim) = true ->
      exists b, check_bounds extreme name bounds = Ok b /\
        within lim (fst b) /\ within lim (snd b) /\
        (within lim (fst bounds) -> fst b = fst bounds) /\
        (within lim (snd bounds) -> snd b = snd bounds) /\
        (~ within lim (fst bounds) -> fst b = fst lim) /\
        (~ within lim (snd bounds) -> snd b = snd lim) /\
        (nle (fst bounds) (snd bounds) = true -> nle (fst b) (snd b) = true)
  end.
Proof. exact check_bounds_spec. Qed.
Print Assumptions C18_bounds_clipped.

(** The SAFT variant first drops the association site names after a dash. *)
Theorem C18_saft_bounds_clipped : forall extreme name site_free t bounds,
  starts_with_type dash name site_free -> starts_with_type underscore site_free t ->
  match dget extreme t with
  | None => saft_check_bounds extreme name bounds = Err ValueError
  | Some lim =>
      fst bounds <> NaN -> snd bounds <> NaN -> nle (fst lim) (snd lim) = true ->
      exists b, saft_check_bounds extreme name bounds = Ok b /\
        within lim (fst b) /\ within lim (snd b) /\
        (within lim (fst bounds) -> fst b = fst bounds) /\
        (within lim (snd bounds) -> snd b = snd bounds) /\
        (~ within lim (fst bounds) -> fst b = fst lim) /\
        (~ within lim (snd bounds) -> snd b = snd lim) /\
        (nle (fst bounds) (snd bounds) = true -> nle (fst b) (snd b) = true)
  end.
Proof.
  intros extreme name sf t bounds H1 H2. unfold saft_check_bounds.
  rewrite <- (type_unique _ _ _ _ H1 (split_dash_type name)). apply check_bounds_spec; exact H2.
Qed.
Print Assumptions C18_saft_bounds_clipped.

Example C18_case : check_bounds [("epsilon", (Fin 100, Fin 1000))] "epsilon_CO2" (NInf, Fin 700)
  = Ok (Fin 100, Fin 700) /\ starts_with_type underscore "epsilon_CO2" "epsilon".
Proof.
  split; [reflexivity|]. split; [vm_compute; repeat split; discriminate|]. right. exists "CO2". reflexivity.
Qed.

(** C18: NaN bounds are outside the quantifier and do slip through. *)
Theorem C18_nan_bound_passes : check_bounds [("epsilon", (Fin 100, Fin 1000))] "epsilon" (NaN, NaN) = Ok (NaN, NaN).
Proof. reflexivity. Qed.
Print Assumptions C18_nan_bound_passes.

(** C19: after any history of update attempts, every later read of a bead's or pair's
    parameter (pairs in either order) is what applying the accepted updates one by one
    to the lookup tables gives.  For libraries that store each pair in one order. *)
Theorem C19_history_partial : forall V (e : eos_params V) us,
  one_order (ep_cross_library e) ->
  exists w, updates (ep_beads e) (ep_types e) (view_of V e) us w /\ same_view (view_of V (run V e us)) w /\
            one_order (ep_cross_library (run V e us)).
Proof. exact run_spec. Qed.
Print Assumptions C19_history_partial.

(** C19: exactly the updates with unknown beads, too many beads or a name that contains
    no parameter type are refused. *)
Theorem C19_refusals : forall V (e : eos_params V) p names v,
  (exists e', update_parameter e p names v = Ok e') <-> acceptable (ep_beads e) (ep_types e) p names.
Proof. exact update_refused. Qed.
Print Assumptions C19_refusals.

(** C19 for SAFT: a name carries no association sites or two of them (two dashes), else
    the update is refused; the update itself is the general one. *)
Theorem C19_saft_sites : forall V (e : eos_params V) p names v,
  saft_update_parameter e p names v =
    if existsb (Nat.eqb (occurrences dash p)) [0; 2] then update_parameter e p names v else Err ValueError.
Proof.
  intros V e p names v. unfold saft_update_parameter.
  pose proof (split_dash_length p) as H. destruct (split_dash p) as [|h t]; [discriminate H|].
  cbn [length tl] in *. injection H as <-. destruct t as [|? [|? [|? ?]]]; reflexivity.
Qed.
Print Assumptions C19_saft_sites.
Example C19_saft_case :
  saft_update_parameter {| ep_beads := ["H2O"]; ep_types := ["epsilonHB"]; ep_bead_library := [("H2O", [])]; ep_cross_library := [] |}
    "epsilonHB-H-e1" ["H2O"] 5
  = Ok {| ep_beads := ["H2O"]; ep_types := ["epsilonHB"]; ep_bead_library := [("H2O", [("epsilonHB-H-e1", 5)])]; ep_cross_library := [] |}
  /\ saft_update_parameter {| ep_beads := ["H2O"]; ep_types := ["epsilonHB"]; ep_bead_library := [("H2O", [])]; ep_cross_library := [] |}
    "epsilonHB-H" ["H2O"] 5 = Err ValueError.
Proof. split; reflexivity. Qed.

Definition demo_eos : eos_params nat :=
  {| ep_beads := ["CO2"; "H2O"]; ep_types := ["epsilon"; "sigma"];
     ep_bead_library := [("CO2", [("epsilon", 1)]); ("H2O", [("epsilon", 2)])];
     ep_cross_library := [("CO2", [("H2O", [("epsilon", 3)])])] |}.
Example C19_case :
  one_order (ep_cross_library demo_eos) /\
  let e := run nat demo_eos [("epsilon", ["H2O"; "CO2"], 30); ("epsilon", ["CO2"], 10); ("oops", ["CO2"], 99)] in
  pair_value (ep_cross_library e) "CO2" "H2O" "epsilon" = Some 30 /\
  bead_value (ep_bead_library e) "CO2" "epsilon" = Some 10 /\ bead_value (ep_bead_library e) "CO2" "oops" = None.
Proof.
  split; [|repeat split; reflexivity]. intros a b N [d [x [E F]]] [d' [x' [E' F']]].
  cbn in E, E'. destruct (String.eqb_spec a "CO2"), (String.eqb_spec b "CO2"); try discriminate; congruence.
Qed.

(** C19, refuted when the library stores a pair in both orders: the update goes to one
    entry, the combining matrices are built from the other. *)
Theorem C19_both_orders_refuted :
  exists (e : eos_params nat) p a b v e',
    update_parameter e p [a; b] v = Ok e' /\ pair_value (ep_cross_library e') a b p <> Some v.
Proof.
  exists {| ep_beads := ["A"; "B"]; ep_types := ["epsilon"]; ep_bead_library := [];
            ep_cross_library := [("A", [("B", [("epsilon", 1)])]); ("B", [("A", [("epsilon", 2)])])] |},
    "epsilon", "A", "B", 5. eexists. split; [reflexivity|]. vm_compute. discriminate.
Qed.
Print Assumptions C19_both_orders_refuted.

(** C19, refuted: a name that merely contains a parameter type is accepted and stored,
    although it is no parameter ("source" contains the type "rc"). *)
Theorem C19_unknown_parameter_refuted :
  exists (e : eos_params nat) p, ~ In p (ep_types e) /\ (forall t, In t (ep_types e) -> ~ starts_with_type underscore p t) /\
    exists e', saft_update_parameter e p ["A"] 5 = Ok e' /\ bead_value (ep_bead_library e') "A" p = Some 5.
Proof.
  exists {| ep_beads := ["A"]; ep_types := ["rc"]; ep_bead_library := [("A", [])]; ep_cross_library := [] |}, "source".
  split; [intros [H|[]]; discriminate|]. split.
  - intros t [<-|[]] [_ [H|[r H]]]; discriminate.
  - eexists. split; reflexivity.
Qed.
Print Assumptions C19_unknown_parameter_refuted.

(** C69: component masses and extracted properties. *)
Inductive mass_sum (lib : dict (dict num)) : list num -> list string -> num -> num -> Prop :=
| ms_nil cs acc : mass_sum lib cs [] acc acc
| ms_cons c cs b bs bd m acc out : dget lib b = Some bd -> dget bd "mass" = Some m ->
    mass_sum lib cs bs (nadd acc (nmul c m)) out -> mass_sum lib (c :: cs) (b :: bs) acc out.

Theorem C69_component_masses : forall composition lib beads,
  (forall row, In row composition -> length row = length beads) ->
  match calc_massi composition lib beads with
  | Ok ms => Forall2 (fun row m => mass_sum lib row beads (Fin 0) m) composition ms
  | Err e => (e = ValueError /\ exists b bd, In b beads /\ dget lib b = Some bd /\ dget bd "mass" = None) \/
             (e = KeyError /\ exists b, In b beads /\ dget lib b = None)
  end.
Proof.
  intros composition lib beads HL. unfold calc_massi.
  assert (Row : forall bs row acc, length row = length bs ->
    match component_mass row lib bs acc with
    | Ok m => mass_sum lib row bs acc m
    | Err e => (e = ValueError /\ exists b bd, In b bs /\ dget lib b = Some bd /\ dget bd "mass" = None) \/
             (e = KeyError /\ exists b, In b bs /\ dget lib b = None)
    end).
  { induction bs as [|b bs IH]; intros row acc HR; cbn [component_mass]; [constructor|].
    unfold dfetch. destruct (dget lib b) as [bd|] eqn:E1; cbn [rbind].
    - destruct (dget bd "mass") as [m|] eqn:E2.
      + destruct row as [|c row]; [discriminate|]. injection HR as HR. specialize (IH row (nadd acc (nmul c m)) HR).
        destruct (component_mass row lib bs (nadd acc (nmul c m))) as [o|e].
        * econstructor; eassumption.
        * destruct IH as [[-> [b' [bd' [A B]]]]|[-> [b' [A B]]]].
          -- left. split; [reflexivity|]. exists b', bd'. split; [right; exact A|exact B].
          -- right. split; [reflexivity|]. exists b'. split; [right; exact A|exact B].
      + left. split; [reflexivity|]. exists b, bd. split; [left; reflexivity|]. split; assumption.
    - right. split; [reflexivity|]. exists b. split; [left; reflexivity|exact E1]. }
  induction composition as [|row rows IH]; cbn [mapM]; [constructor|].
  specialize (Row beads row (Fin 0) (HL row (or_introl eq_refl))).
  destruct (component_mass row lib beads (Fin 0)) as [m|e]; cbn [rbind]; [|exact Row].
  specialize (IH (fun r Hr => HL r (or_intror Hr))).
  destruct (mapM _ rows) as [ms|e]; cbn [rbind]; [constructor; assumption|exact IH].
Qed.
Print Assumptions C69_component_masses.

Example C69_case : calc_massi [[Fin 2; Fin 1]; [Fin 0; Fin 3]] [("A", [("mass", Fin 10)]); ("B", [("mass", Fin 4)])] ["A"; "B"]
  = Ok [Fin 24; Fin 12].
Proof. reflexivity. Qed.

(** C69: each bead's property, or the default, or a refusal. *)
Theorem C69_extract_property : forall V prop (lib : dict (dict V)) beads default,
  match extract_property V prop lib beads default with
  | Ok vs => Forall2 (fun b v => bead_value lib b prop = Some v \/ (bead_value lib b prop = None /\ default = Some v)) beads vs
  | Err e => (e = ValueError /\ default = None /\ exists b, In b beads /\ bead_value lib b prop = None) \/
             (e = KeyError /\ exists b, In b beads /\ dget lib b = None)
  end.
Proof.
  intros V prop lib beads default. unfold extract_property, bead_value.
  induction beads as [|b bs IH]; cbn [mapM]; [constructor|].
  unfold dfetch at 1. destruct (dget lib b) as [bd|] eqn:E; cbn [rbind].
  - destruct (dget bd prop) as [v|] eqn:Ev; [|destruct default as [d|]]; cbn [rbind].
    + destruct (mapM _ bs) as [vs|e]; cbn [rbind].
      * constructor; [left; rewrite E; exact Ev|exact IH].
      * destruct IH as [[-> [D [b' [A B]]]]|[-> [b' [A B]]]]; [left|right].
        -- split; [reflexivity|]. split; [exact D|]. exists b'. split; [right; exact A|exact B].
        -- split; [reflexivity|]. exists b'. split; [right; exact A|exact B].
    + destruct (mapM _ bs) as [vs|e]; cbn [rbind].
      * constructor; [right; rewrite E; split; [exact Ev|reflexivity]|exact IH].
      * destruct IH as [[-> [D _]]|[-> [b' [A B]]]]; [discriminate|right].
        split; [reflexivity|]. exists b'. split; [right; exact A|exact B].
    + left. split; [reflexivity|]. split; [reflexivity|]. exists b. split; [left; reflexivity|]. rewrite E. exact Ev.
  - right. split; [reflexivity|]. exists b. split; [left; reflexivity|exact E].
Qed.
Print Assumptions C69_extract_property.
Example C69_case2 : extract_property nat "mass" [("A", [("mass", 3)]); ("B", [])] ["B"; "A"] (Some 1) = Ok [1; 3].
Proof. reflexivity. Qed.
