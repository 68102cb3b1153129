(** Model of /repo/despasito/equations_of_state/saft/gamma_sw.py and of the parts of
    saft.py that evaluate a non-associating fluid, over the reals.  Real arithmetic is
    exact; ln of a non-positive number, division by zero (NaN/inf in numpy) are excluded
    by hypotheses where they matter. *)
From Coq Require Import Reals.
From Verif Require Import Base RSum IOModel EosToolboxModel CombiningModel SaftToolboxModel.
Open Scope R_scope.

Definition arr (l : list R) : nat -> R := fun i => nth i l 0.

Section SW.
  (** the optional plug-in of the "multipole" combining rule *)
  Variable mapsci : option (bead -> bead -> option R -> result (dict R)).

  (** Attributes.  [sw_mats] holds sigma_kl, lambda_kl, epsilon_kl under the parameter
      names, [sw_avg] sigma_ij, lambda_ij, epsilon_ij.  [sw_comp] is self.xi with the
      Cmol2seg and xskl computed for it ([None]: self.xi is NaN).  EosType and the variant
      object share bead dictionaries and cross library and are one record. *)
  Record sw := {
    sw_par : eos_params R;
    sw_rules : string -> rule_opts;
    sw_n : nat;
    sw_nu : nat -> nat -> R;
    sw_rings : nat -> R;
    sw_Vks : list R;
    sw_Sk : list R;
    sw_mats : matrices R;
    sw_avg : matrices R;
    sw_alpha : nat -> nat -> R;
    sw_comp : option (list R * (R * (nat -> nat -> R))) }.

  Definition sbeads (s : sw) := ep_beads (sw_par s).
  Definition slib (s : sw) := ep_bead_library (sw_par s).
  Definition scross (s : sw) := ep_cross_library (sw_par s).
  Definition sm (s : sw) : nat := length (sbeads s).

  (** gamma_sw.py:157-171 and saft.py:205-234 *)
  Definition sw_types : list string := ["epsilonHB"; "K"; "rc"; "rd"; "epsilon"; "lambda"; "sigma"; "Sk"]%string.
  Definition sw_defaults : dict (option R) :=
    [("epsilon", None); ("lambda", None); ("sigma", None); ("Sk", Some 1); ("Vks", Some 1)]%string.
  (** 172-179: keys of the combining rules, in order *)
  Definition sw_keys : list string := ["sigma"; "lambda"; "epsilon"]%string.
  Definition sw_default_rules (k : string) : rule_opts :=
    if String.eqb k "sigma" then {| ro_function := "mean"; ro_weights := []; ro_temperature := None |}
    else if String.eqb k "lambda" then {| ro_function := "weighted_mean"; ro_weights := ["sigma"%string]; ro_temperature := None |}
    else {| ro_function := "square_well_berthelot"; ro_weights := ["sigma"; "lambda"]%string; ro_temperature := None |}.

  Definition rule_of (rules : string -> rule_opts) (key : string) (a b : dict R) : result (dict R) :=
    combining_rules mapsci a b key (rules key).
  (** the cross library as eos_toolbox reads it: every stored number is a value *)
  Definition opt_cross (cl : dict (dict (dict R))) : dict (dict (dict (option R))) :=
    map (fun ad => (fst ad, map (fun be => (fst be, map (fun pv => (fst pv, Some (snd pv))) (snd be))) (snd ad))) cl.

  (** 210-219, 899-908 *)
  Definition group_matrices (rules : string -> rule_opts) (beads : list string) (lib : dict (dict R))
      (cl : dict (dict (dict R))) : result (matrices R) :=
    cross_interaction_from_dict R 0 (rule_of rules) beads lib sw_keys (opt_cross cl).

  (** 264-278: the group fractions of a molecule *)
  Definition zki (m : nat) (nu : nat -> nat -> R) (V Sk : nat -> R) (i k : nat) : R :=
    nu i k * V k * Sk k / sumn m (fun l => nu i l * V l * Sk l).
  (** 280-288 *)
  Definition sigma_ii (m : nat) nu V Sk (sg : nat -> nat -> R) (i : nat) : R :=
    Rpower (sumn m (fun k => zki m nu V Sk i k * sg k k ^ 3)) (1 / 3).
  Definition mean_ii (m : nat) nu V Sk (e : nat -> nat -> R) (i : nat) : R :=
    sumn m (fun k => sumn m (fun l => zki m nu V Sk i k * zki m nu V Sk i l * e k l)).

  (** eos_toolbox.py:322-362 [construct_dummy_bead_library] without keys: the label of
      component i is str(i) *)
  Definition dummy_library (n : nat) (params : list (string * (nat -> R))) : dict (dict R) :=
    map (fun i => (nat_str i, map (fun pf => (fst pf, snd pf i)) params)) (seq 0 n).
  Definition dummy_labels (n : nat) : list string := map nat_str (seq 0 n).

  (** 237-289 [calc_component_averaged_properties] *)
  Definition averaged (rules : string -> rule_opts) (n m : nat) nu V Sk (mats : matrices R) : result (matrices R) :=
    let lib := dummy_library n [("sigma"%string, sigma_ii m nu V Sk (mats "sigma"%string));
                                ("lambda"%string, mean_ii m nu V Sk (mats "lambda"%string));
                                ("epsilon"%string, mean_ii m nu V Sk (mats "epsilon"%string))] in
    cross_interaction_from_dict R 0 (rule_of rules) (dummy_labels n) lib sw_keys [].

  (** 228-235, 917-924 *)
  Definition alpha_kl (mats : matrices R) (k l : nat) : R :=
    2 * PI / 3 * mats "epsilon"%string k l * mats "sigma"%string k l ^ 3 * (mats "lambda"%string k l ^ 3 - 1).

  (** 143-235 [__init__].  [rings] is zero unless num_rings is given.  The combining
      rules are those in force after the caller's own were merged in (saft.py:282-285). *)
  Definition sw_init (rules : string -> rule_opts) (beads : list string) (lib0 : dict (dict R))
      (cl : dict (dict (dict R))) (n : nat) (nu : nat -> nat -> R) (rings : nat -> R) : result sw :=
    let* lib := snd (check_bead_parameters R lib0 sw_defaults) in
    let* V := extract_property R "Vks" lib beads (Some 1) in
    let* Sk := extract_property R "Sk" lib beads (Some 1) in
    let* mats := group_matrices rules beads lib cl in
    let* avg := averaged rules n (length beads) nu (arr V) (arr Sk) mats in
    Ok {| sw_par := {| ep_beads := beads; ep_types := sw_types; ep_bead_library := lib; ep_cross_library := cl |};
          sw_rules := rules; sw_n := n; sw_nu := nu; sw_rings := rings; sw_Vks := V; sw_Sk := Sk;
          sw_mats := mats; sw_avg := avg; sw_alpha := alpha_kl mats; sw_comp := None |}.

  (** the composition dependent quantities, read from the bead library (saft_toolbox.py) *)
  Definition composition (s : sw) (xi : list R) : result (R * (nat -> nat -> R)) :=
    let* V := mapM (fun b => let* d := dfetch (slib s) b in dfetch d "Vks") (sbeads s) in
    let* Sk := mapM (fun b => let* d := dfetch (slib s) b in dfetch d "Sk") (sbeads s) in
    Ok (Cmol2seg (sw_n s) (sm s) (arr xi) (sw_nu s) (arr V) (arr Sk),
        xskl (sw_n s) (sm s) (arr xi) (sw_nu s) (arr V) (arr Sk)).
  Definition with_comp (s : sw) c : sw :=
    {| sw_par := sw_par s; sw_rules := sw_rules s; sw_n := sw_n s; sw_nu := sw_nu s; sw_rings := sw_rings s;
       sw_Vks := sw_Vks s; sw_Sk := sw_Sk s; sw_mats := sw_mats s; sw_avg := sw_avg s; sw_alpha := sw_alpha s;
       sw_comp := c |}.

  (** 958-988 [_check_composition_dependent_parameters] *)
  Definition check_composition (s : sw) (xi : list R) : result sw :=
    match sw_comp s with
    | Some (x, _) => if list_eq_dec Req_EM_T x xi then Ok s
                     else let* c := composition s xi in Ok (with_comp s (Some (xi, c)))
    | None => let* c := composition s xi in Ok (with_comp s (Some (xi, c)))
    end.

  (** ** Formulas.  Each method first runs [check_composition] with the same xi; the
      nested repetitions do nothing and are dropped, so the formulas take the conversion
      factor [C] and the matrix [X] = xskl.  One density at a time. *)
  Section Formulas.
    Variables (n m : nat) (mats avg : matrices R) (alpha : nat -> nat -> R) (C : R) (X : nat -> nat -> R).

    Definition sigma_kl := mats "sigma"%string.
    Definition lambda_kl := mats "lambda"%string.
    Definition epsilon_kl := mats "epsilon"%string.
    Definition sigma_ij := avg "sigma"%string.
    Definition lambda_ij := avg "lambda"%string.
    Definition epsilon_ij := avg "epsilon"%string.

    (** 291-322 [reduced_density], power [p] *)
    Definition zeta (rho : R) (p : nat) : R :=
      rho * molecule_per_nm3 * C * (sumn m (fun k => sqrt (X k k) * sigma_kl k k ^ p) * (PI / 6)).

    (** 19-25 *)
    Definition ckl0 (l : R) := 225855 / 100000 * 1 + - 150349 / 100000 * l + 249434 / 1000000 * l ^ 2.
    Definition ckl1 (l : R) := - 669270 / 1000000 * 1 + 140049 / 100000 * l + - 827739 / 1000000 * l ^ 2.
    Definition ckl2 (l : R) := 101576 / 10000 * 1 + - 150427 / 10000 * l + 530827 / 100000 * l ^ 2.

    (** 324-377 [effective_packing_fraction] *)
    Definition zeta_eff (l z : R) : R :=
      if Req_EM_T l 0 then 0 else z * ckl0 l + z * z * ckl1 l + z * z * z * ckl2 l.
    (** 379-432 [_dzetaeff_dzetax] *)
    Definition dzeta_eff (l z : R) : R :=
      if Req_EM_T l 0 then 0 else 1 * ckl0 l + 2 * z * ckl1 l + 3 * z ^ 2 * ckl2 l.
    (** 595-631 [calc_g0HS] *)
    Definition g0HS (e : R) : R := (1 - e / 2) / (1 - e) ^ 3.
    (** 543, 714 *)
    Definition dg0HS (e : R) : R := (25 / 10 - e) / (1 - e) ^ 4.

    (** 434-465 [Ahard_sphere] *)
    Definition Ahard_sphere (rho : R) : R :=
      let z := zeta rho in
      let tmp := 6 / (PI * rho * molecule_per_nm3) in
      let tmp1 := ln (1 - z 3%nat) * (z 2%nat ^ 3 / z 3%nat ^ 2 - z 0%nat) in
      let tmp2 := 3 * z 2%nat / (1 - z 3%nat) * z 1%nat in
      let tmp3 := z 2%nat ^ 3 / (z 3%nat * (1 - z 3%nat) ^ 2) in
      tmp * (tmp1 + tmp2 + tmp3).

    (** 467-500 [Afirst_order] *)
    Definition Afirst_order (rho T : R) : R :=
      - (C ^ 2 / T) * sumn m (fun k => sumn m (fun l =>
          rho * molecule_per_nm3 * (X k l * alpha k l) * g0HS (zeta_eff (lambda_kl k l) (zeta rho 3%nat)))).

    (** 502-554 [Asecond_order] *)
    Definition Asecond_order (rho T : R) : R :=
      let z := zeta rho 3%nat in
      let rho2 := C * rho * molecule_per_nm3 in
      - (C / T ^ 2) * sumn m (fun k => sumn m (fun l =>
          let e := zeta_eff (lambda_kl k l) z in
          KHS z * rho2 / 2 * (epsilon_kl k l * alpha k l * X k l)
          * (g0HS e + z * dzeta_eff (lambda_kl k l) z * (25 / 10 - e) / (1 - e) ^ 4))).

    (** 633-674 [calc_gHS] *)
    Definition gHS (rho : R) (i j : nat) : R :=
      let z := zeta rho in
      let tmp := sigma_ij i i * sigma_ij j j / (sigma_ij i i + sigma_ij j j) in
      1 / (1 - z 3%nat) + 3 * tmp * (z 2%nat / (1 - z 3%nat) ^ 2) + 2 * tmp ^ 2 * (z 2%nat ^ 2 / (1 - z 3%nat) ^ 3).

    (** 717-723 *)
    Definition dzeta_dlambda (l z : R) : R :=
      z * (- 150349 / 100000 * 1 + 249434 / 1000000 * (2 * l))
      + z ^ 2 * (140049 / 100000 * 1 + - 827739 / 1000000 * (2 * l))
      + z ^ 3 * (- 150427 / 10000 * 1 + 530827 / 100000 * (2 * l)).

    (** 676-730 [calc_gSW] *)
    Definition gSW (rho T : R) (i j : nat) : R :=
      let z := zeta rho 3%nat in
      let l := lambda_ij i j in
      let e := zeta_eff l z in
      let dzetaeff := l / 3 * dzeta_dlambda l z - z * dzeta_eff l z in
      gHS rho i j + epsilon_ij i j / T * (g0HS e + (l ^ 3 - 1) * dg0HS e * dzetaeff).

    (** 732-767 [Achain] *)
    Definition Achain (nu : nat -> nat -> R) (V Sk rings xi : nat -> R) (rho T : R) : R :=
      - sumn n (fun i =>
          xi i * (-1 + rings i + sumn m (fun k => nu i k * V k * Sk k)) * ln (gSW rho T i i)).

    (** 769-799 [density_max] *)
    Definition rho_max (maxpack : R) : R :=
      maxpack * 6 / (C * PI * sumn m (fun k => sumn m (fun l => X k l * sigma_kl k l ^ 3))) / molecule_per_nm3.
  End Formulas.

  Definition monomer (s : sw) (C : R) (X : nat -> nat -> R) (rho T : R) : R :=
    Ahard_sphere (sm s) (sw_mats s) C X rho
    + Afirst_order (sm s) (sw_mats s) (sw_alpha s) C X rho T
    + Asecond_order (sm s) (sw_mats s) (sw_alpha s) C X rho T.
  Definition chain (s : sw) (C : R) (X : nat -> nat -> R) (xi : list R) (rho T : R) : R :=
    Achain (sw_n s) (sm s) (sw_mats s) (sw_avg s) C X (sw_nu s) (arr (sw_Vks s)) (arr (sw_Sk s)) (sw_rings s) (arr xi) rho T.

  (** saft.py:566-592 [density_max] *)
  Definition sw_density_max (s : sw) (xi : list R) (maxpack : R) : sw * result R :=
    if negb (Nat.eqb (length xi) (sw_n s)) then (s, Err ValueError)
    else match check_composition s xi with
         | Err e => (s, Err e)
         | Ok s1 => match sw_comp s1 with
                    | Some (_, (C, X)) => (s1, Ok (rho_max (sm s1) (sw_mats s1) C X maxpack))
                    | None => (s1, Err KeyError)
                    end
         end.

  (** saft.py:287-322 [residual_helmholtz_energy] for a fluid without association sites:
      556-593 Amonomer (which refuses densities that are all above density_max), then
      Achain.  The densities are the checked ones. *)
  Definition residual (s : sw) (rho : list R) (T : R) (xi : list R) : sw * result (list R) :=
    if negb (Nat.eqb (length xi) (sw_n s)) then (s, Err ValueError)
    else if match rho with [] => true | _ => false end then (s, Err ValueError)
    else if existsb (fun r => if Rlt_dec r 0 then true else false) rho then (s, Err ValueError)
    else if existsb (fun x => if Rlt_dec x 0 then true else false) xi then (s, Err ValueError)
    else match check_composition s xi with
         | Err e => (s, Err e)
         | Ok s1 =>
             match sw_comp s1 with
             | None => (s1, Err KeyError)
             | Some (_, (C, X)) =>
                 let lim := rho_max (sm s1) (sw_mats s1) C X (65 / 100) in
                 if forallb (fun r => if Rgt_dec r lim then true else false) rho then (s1, Err ValueError)
                 else (s1, Ok (map (fun r => monomer s1 C X r T + chain s1 C X xi r T) rho))
             end
         end.

  (** saft.py:624-651 [update_parameter] *)
  Definition sw_update (s : sw) (p : string) (names : list string) (v : R) : result sw :=
    let* par := saft_update_parameter (sw_par s) p names v in
    Ok {| sw_par := par; sw_rules := sw_rules s; sw_n := sw_n s; sw_nu := sw_nu s; sw_rings := sw_rings s;
          sw_Vks := sw_Vks s; sw_Sk := sw_Sk s; sw_mats := sw_mats s; sw_avg := sw_avg s; sw_alpha := sw_alpha s;
          sw_comp := sw_comp s |}.

  (** 866-924 [parameter_refresh] *)
  Definition sw_refresh (s : sw) : result sw :=
    let* Sk := extract_property R "Sk" (slib s) (sbeads s) (Some 1) in
    let* mats := group_matrices (sw_rules s) (sbeads s) (slib s) (scross s) in
    let* avg := averaged (sw_rules s) (sw_n s) (sm s) (sw_nu s) (arr (sw_Vks s)) (arr Sk) mats in
    let* comp := match sw_comp s with
                 | Some (x, _) => let* c := composition s x in Ok (Some (x, c))
                 | None => Ok None
                 end in
    Ok {| sw_par := sw_par s; sw_rules := sw_rules s; sw_n := sw_n s; sw_nu := sw_nu s; sw_rings := sw_rings s;
          sw_Vks := sw_Vks s; sw_Sk := Sk; sw_mats := mats; sw_avg := avg; sw_alpha := alpha_kl mats; sw_comp := comp |}.

  (** Use of an object.  A refused update leaves it as it was; an evaluation that raises
      may still have stored the composition; a refresh that raises ends the history. *)
  Inductive sw_op := SEval (rho : list R) (T : R) (xi : list R) | SMax (xi : list R) (maxpack : R)
                   | SUpdate (p : string) (names : list string) (v : R) | SRefresh.
  Definition sw_step (s : sw) (o : sw_op) : result sw :=
    match o with
    | SEval rho T xi => Ok (fst (residual s rho T xi))
    | SMax xi mp => Ok (fst (sw_density_max s xi mp))
    | SUpdate p names v => match sw_update s p names v with Ok s' => Ok s' | Err _ => Ok s end
    | SRefresh => sw_refresh s
    end.
  Definition sw_run (s : sw) (l : list sw_op) : result sw := foldM sw_step s l.
End SW.
