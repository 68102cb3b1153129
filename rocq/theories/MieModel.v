(** Model of /repo/despasito/equations_of_state/saft/gamma_mie.py (and of the parts of
    saft.py that evaluate a non-associating fluid) over the reals, with its caches.
    Simplification: the combining rules have no "temperature" entry (1577-1609 then do
    nothing). *)
From Coq Require Import Reals.
From Verif Require Import Base RSum IOModel EosToolboxModel CombiningModel SaftToolboxModel SwModel MieExtModel.
Open Scope R_scope.

Section Mie.
  Variable mapsci : option (bead -> bead -> option R -> result (dict R)).

  (** eos_dict entries computed for a temperature: dkl, x0kl, dii_eff, x0ii *)
  Record mie_tables := { t_dkl : nat -> nat -> R; t_x0kl : nat -> nat -> R; t_dii : nat -> R; t_x0ii : nat -> R }.

  (** Attributes.  [mi_mats] holds sigmakl, lambdarkl, lambdaakl, epsilonkl under the
      parameter names, [mi_avg] the component averages sigmaii_avg ....  [mi_T] is self.T
      ([None]: NaN), [mi_tab] the entries above ([None]: not yet in eos_dict), [mi_comp]
      self.xi with Cmol2seg and xskl ([None]: self.xi is NaN). *)
  Record mie := {
    mi_par : eos_params R;
    mi_rules : string -> rule_opts;
    mi_n : nat;
    mi_nu : nat -> nat -> R;
    mi_rings : nat -> R;
    mi_Vks : list R;
    mi_Sk : list R;
    mi_mats : matrices R;
    mi_avg : string -> nat -> R;
    mi_Ckl : nat -> nat -> R;
    mi_alpha : nat -> nat -> R;
    mi_T : option R;
    mi_tab : option mie_tables;
    mi_comp : option (list R * (R * (nat -> nat -> R))) }.

  Definition mbeads (s : mie) := ep_beads (mi_par s).
  Definition mlib (s : mie) := ep_bead_library (mi_par s).
  Definition mcross (s : mie) := ep_cross_library (mi_par s).
  Definition mm (s : mie) : nat := length (mbeads s).

  (** 193-201 and saft.py:205-234 *)
  Definition mie_types : list string :=
    ["epsilonHB"; "K"; "rc"; "rd"; "epsilon"; "sigma"; "lambdar"; "lambdaa"; "Sk"]%string.
  Definition mie_defaults : dict (option R) :=
    [("epsilon", None); ("lambdar", None); ("lambdaa", None); ("sigma", None); ("Sk", Some 1); ("Vks", Some 1)]%string.
  (** 210-218 *)
  Definition mie_keys : list string := ["sigma"; "lambdar"; "lambdaa"; "epsilon"]%string.
  Definition mie_default_rules (k : string) : rule_opts :=
    if String.eqb k "sigma" then {| ro_function := "mean"; ro_weights := []; ro_temperature := None |}
    else if String.eqb k "epsilon" then
      {| ro_function := "volumetric_geometric_mean"; ro_weights := ["sigma"%string]; ro_temperature := None |}
    else {| ro_function := "mie_exponent"; ro_weights := []; ro_temperature := None |}.

  (** 255-265, 1483-1492 *)
  Definition mie_matrices (rules : string -> rule_opts) (beads : list string) (lib : dict (dict R))
      (cl : dict (dict (dict R))) : result (matrices R) :=
    cross_interaction_from_dict R 0 (rule_of mapsci rules) beads lib mie_keys (opt_cross cl).

  (** 268, 1511: [prefactor] on the matrices raises if any repulsive exponent is zero *)
  Definition prefactor_matrix (m : nat) (mats : matrices R) : result (nat -> nat -> R) :=
    if existsb (fun kl => if Req_EM_T (mats "lambdar"%string (fst kl) (snd kl)) 0 then true else false)
         (list_prod (seq 0 m) (seq 0 m)) then Err ValueError
    else Ok (fun k l => prefactor_value (mats "lambdar"%string k l) (mats "lambdaa"%string k l)).
  (** 269-271, 1512-1514 *)
  Definition mie_alpha (mats : matrices R) (Ckl : nat -> nat -> R) (k l : nat) : R :=
    Ckl k l * (1 / (mats "lambdaa"%string k l - 3) - 1 / (mats "lambdar"%string k l - 3)).

  (** 282-332 [calc_component_averaged_properties] *)
  Definition cube_mean (m : nat) nu V Sk (d : nat -> nat -> R) (i : nat) : R :=
    Rpower (sumn m (fun k => sumn m (fun l => zki m nu V Sk i k * zki m nu V Sk i l * d k l ^ 3))) (1 / 3).
  Definition mie_averages (m : nat) nu V Sk (mats : matrices R) (p : string) (i : nat) : R :=
    if String.eqb p "sigma" then cube_mean m nu V Sk (mats p) i else mean_ii m nu V Sk (mats p) i.

  (** 184-280 [__init__] *)
  Definition mie_init (rules : string -> rule_opts) (beads : list string) (lib0 : dict (dict R))
      (cl : dict (dict (dict R))) (n : nat) (nu : nat -> nat -> R) (rings : nat -> R) : result mie :=
    let* lib := snd (check_bead_parameters R lib0 mie_defaults) in
    let* V := extract_property R "Vks" lib beads (Some 1) in
    let* Sk := extract_property R "Sk" lib beads (Some 1) in
    let* mats := mie_matrices rules beads lib cl in
    let* Ckl := prefactor_matrix (length beads) mats in
    Ok {| mi_par := {| ep_beads := beads; ep_types := mie_types; ep_bead_library := lib; ep_cross_library := cl |};
          mi_rules := rules; mi_n := n; mi_nu := nu; mi_rings := rings; mi_Vks := V; mi_Sk := Sk;
          mi_mats := mats; mi_avg := mie_averages (length beads) nu (arr V) (arr Sk) mats;
          mi_Ckl := Ckl; mi_alpha := mie_alpha mats Ckl; mi_T := None; mi_tab := None; mi_comp := None |}.

  Definition with_T (s : mie) T tab : mie :=
    {| mi_par := mi_par s; mi_rules := mi_rules s; mi_n := mi_n s; mi_nu := mi_nu s; mi_rings := mi_rings s;
       mi_Vks := mi_Vks s; mi_Sk := mi_Sk s; mi_mats := mi_mats s; mi_avg := mi_avg s; mi_Ckl := mi_Ckl s;
       mi_alpha := mi_alpha s; mi_T := T; mi_tab := tab; mi_comp := mi_comp s |}.
  Definition with_mcomp (s : mie) c : mie :=
    {| mi_par := mi_par s; mi_rules := mi_rules s; mi_n := mi_n s; mi_nu := mi_nu s; mi_rings := mi_rings s;
       mi_Vks := mi_Vks s; mi_Sk := mi_Sk s; mi_mats := mi_mats s; mi_avg := mi_avg s; mi_Ckl := mi_Ckl s;
       mi_alpha := mi_alpha s; mi_T := mi_T s; mi_tab := mi_tab s; mi_comp := c |}.

  (** saft_toolbox.py:51-66: the diameter of one bead, from the bead library *)
  Definition bead_diameter (lib : dict (dict R)) (T : R) (b : string) : result R :=
    let* d := dfetch lib b in
    let* lr := dfetch d "lambdar" in
    let* la := dfetch d "lambdaa" in
    let* c := prefactor lr la in
    let* e := dfetch d "epsilon" in
    let* sg := dfetch d "sigma" in
    Ok (calc_dkk e sg T c lr la).

  (** 1611-1618: calc_hard_sphere_matricies, then 1653-1701
      [_update_chain_temperature_dependent_variables] *)
  Definition mie_tables_at (s : mie) (T : R) : result mie_tables :=
    let* dkk := mapM (bead_diameter (mlib s) T) (mbeads s) in
    let dkl := dkl_of (arr dkk) in
    let dii := cube_mean (mm s) (mi_nu s) (arr (mi_Vks s)) (arr (mi_Sk s)) dkl in
    Ok {| t_dkl := dkl; t_x0kl := fun k l => mi_mats s "sigma"%string k l / dkl k l;
          t_dii := dii; t_x0ii := fun i => mi_avg s "sigma"%string i / dii i |}.

  (** 1549-1618 [_check_temperature_dependent_parameters].  The temperature is stored
      before the tables are computed. *)
  Definition check_temperature (s : mie) (T : R) : mie * result unit :=
    if match mi_T s with Some T' => if Req_EM_T T' T then true else false | None => false end then (s, Ok tt)
    else match mie_tables_at s T with
         | Ok t => (with_T s (Some T) (Some t), Ok tt)
         | Err e => (with_T s (Some T) (mi_tab s), Err e)
         end.

  (** 1620-1651 [_check_composition_dependent_parameters] *)
  Definition mie_composition (s : mie) (xi : list R) : result (R * (nat -> nat -> R)) :=
    let* V := mapM (fun b => let* d := dfetch (mlib s) b in dfetch d "Vks") (mbeads s) in
    let* Sk := mapM (fun b => let* d := dfetch (mlib s) b in dfetch d "Sk") (mbeads s) in
    Ok (Cmol2seg (mi_n s) (mm s) (arr xi) (mi_nu s) (arr V) (arr Sk),
        xskl (mi_n s) (mm s) (arr xi) (mi_nu s) (arr V) (arr Sk)).
  Definition check_mie_composition (s : mie) (xi : list R) : result mie :=
    match mi_comp s with
    | Some (x, _) => if list_eq_dec Req_EM_T x xi then Ok s
                     else let* c := mie_composition s xi in Ok (with_mcomp s (Some (xi, c)))
    | None => let* c := mie_composition s xi in Ok (with_mcomp s (Some (xi, c)))
    end.

  (** 1227-1301 [calc_fm]: rows 1 to 6 of the table; [fm] is a quotient of two cubics *)
  Definition fm (a0 a1 a2 a3 b1 b2 b3 al : R) : R :=
    (a0 + a1 * al + a2 * al ^ 2 + a3 * al ^ 3) / (1 + b1 * al + b2 * al ^ 2 + b3 * al ^ 3).
  Definition fm1 := fm (753655570 / 10 ^ 8) (- 376046300 / 10 ^ 7) (717459530 / 10 ^ 7) (- 468355200 / 10 ^ 7)
                       (- 246798200 / 10 ^ 8) (- 502720000 / 10 ^ 9) (809568830 / 10 ^ 8).
  Definition fm2 := fm (- 35944 / 100) (182560 / 100) (- 316800 / 100) (188420 / 100)
                       (- 82376 / 100000) (- 319350 / 100000) (370900 / 100000).
  Definition fm3 := fm (155090 / 100) (- 507010 / 100) (653460 / 100) (- 328870 / 100)
                       (- 271710 / 100000) (208830 / 100000) 0.
  Definition fm4 := fm (- 119932 / 100000) (9063632 / 1000000) (- 179482 / 10000) (1134027 / 100000)
                       (2052142 / 100000) (- 566377 / 10000) (4053683 / 100000).
  Definition fm5 := fm (- 191128 / 100) (213901750 / 10000) (- 513207 / 10) (3706454 / 100)
                       (1103742 / 1000) (- 326461 / 100) (2556181 / 1000).
  Definition fm6 := fm (92369 / 10) (- 129430) (357230) (- 315530) (13902 / 10) (- 45182 / 10) (42416 / 10).

  (** ** Formulas, one density at a time *)
  Section Formulas.
    Variables (n m : nat) (mats : matrices R) (avg : string -> nat -> R) (Ckl alpha : nat -> nat -> R)
              (t : mie_tables) (C : R) (X : nat -> nat -> R).

    Definition m_sigma := mats "sigma"%string.
    Definition m_eps := mats "epsilon"%string.
    Definition m_lr := mats "lambdar"%string.
    Definition m_la := mats "lambdaa"%string.
    Definition zetax (rho : R) : R := packing m rho C X (t_dkl t).
    Definition zetaxstar (rho : R) : R := packing m rho C X m_sigma.

    (** 357-367 *)
    Definition eta_m (rho : R) (p : nat) : R :=
      rho * molecule_per_nm3 * C * (sumn m (fun k => sqrt (X k k) * t_dkl t k k ^ p) * (PI / 6)).
    (** 334-379 [Ahard_sphere] *)
    Definition mie_hard_sphere (rho : R) : R :=
      let z := eta_m rho in
      let tmp := 6 / (PI * rho * molecule_per_nm3) in
      let tmp1 := if Nat.eqb n 1 then 0 else ln (1 + - z 3%nat) * (z 2%nat ^ 3 / z 3%nat ^ 2 - z 0%nat) in
      let tmp2 := 3 * z 2%nat / (1 - z 3%nat) * z 1%nat in
      let tmp3 := z 2%nat ^ 3 / (z 3%nat * (1 - z 3%nat) ^ 2) in
      tmp * (tmp1 + tmp2 + tmp3).
    (** 381-438 [Afirst_order] *)
    Definition mie_first_order (rho T : R) : R :=
      C / T * sumn m (fun k => sumn m (fun l =>
        a1ii rho C (t_dkl t k l) (m_la k l) (m_lr k l) (t_x0kl t k l) (m_eps k l) (zetax rho) * X k l)).
    (** 440-613 [Asecond_order] *)
    Definition chi (rho : R) (k l : nat) : R :=
      zetaxstar rho * fm1 (alpha k l) + zetaxstar rho ^ 5 * fm2 (alpha k l) + zetaxstar rho ^ 8 * fm3 (alpha k l).
    Definition a2kl (rho : R) (k l : nat) : R :=
      let z := zetax rho in
      let la := m_la k l in let lr := m_lr k l in let d := t_dkl t k l in let e := m_eps k l in let x0 := t_x0kl t k l in
      KHS z / 2 *
      ((Rpower x0 (2 * la) * (a1s rho C (2 * la) z e d + Bkl rho (2 * la) C d e x0 z) / molecule_per_nm3
        - 2 * Rpower x0 (la + lr) * (a1s rho C (la + lr) z e d + Bkl rho (la + lr) C d e x0 z) / molecule_per_nm3
        + Rpower x0 (2 * lr) * (a1s rho C (2 * lr) z e d + Bkl rho (2 * lr) C d e x0 z) / molecule_per_nm3)
       * ((1 + chi rho k l) * e * Ckl k l ^ 2)).
    Definition mie_second_order (rho T : R) : R :=
      C / T ^ 2 * sumn m (fun k => sumn m (fun l => a2kl rho k l * X k l)).
    (** 615-660 [Athird_order] *)
    Definition mie_third_order (rho T : R) : R :=
      let z := zetaxstar rho in
      C / T ^ 3 * sumn m (fun k => sumn m (fun l =>
        z * (- m_eps k l ^ 3 * fm4 (alpha k l)) * exp (z * fm5 (alpha k l) + z ^ 2 * fm6 (alpha k l)) * X k l)).

    (** 713-768 [gdHS] *)
    Definition mie_gdHS (z : R) (i : nat) : R :=
      let k0 := - ln (1 - z) + (42 * z - 39 * z ^ 2 + 9 * z ^ 3 - 2 * z ^ 4) / (6 * (1 - z) ^ 3) in
      let k1 := (z ^ 4 + 6 * z ^ 2 - 12 * z) / (2 * (1 - z) ^ 3) in
      let k2 := - 3 * z ^ 2 / (8 * (1 - z) ^ 2) in
      let k3 := (- z ^ 4 + 3 * z ^ 2 + 3 * z) / (6 * (1 - z) ^ 3) in
      let x0 := t_x0ii t i in
      exp (k0 + k1 * x0 + k2 * x0 ^ 2 + k3 * x0 ^ 3).

    Definition v_eps (i : nat) := avg "epsilon"%string i.
    Definition v_lr (i : nat) := avg "lambdar"%string i.
    Definition v_la (i : nat) := avg "lambdaa"%string i.
    (** 770-905 [g1] *)
    Definition mie_g1 (rho : R) (i : nat) : result R :=
      let z := zetax rho in
      let la := v_la i in let lr := v_lr i in let d := t_dii t i in let e := v_eps i in let x0 := t_x0ii t i in
      let* D := da1ii_drhos d la lr x0 e z in
      let* Cii := prefactor lr la in
      Ok (1 / (2 * PI * e * d ^ 3 * molecule_per_nm3 ^ 2) *
          (3 * D
           - Cii * la * Rpower x0 la * ((a1s rho C la z e d + Bkl rho la C d e x0 z) * (1 / (rho * C)))
           + Cii * lr * Rpower x0 lr * ((a1s rho C lr z e d + Bkl rho lr C d e x0 z) * (1 / (rho * C))))).
    (** 907-1113 [g2] *)
    Definition gammac (rho T al e : R) : R :=
      10 * (- tanh (10 * (57 / 100 - al)) + 1) * zetaxstar rho * (exp (e / T) - 1)
      * exp (- 67 / 10 * zetaxstar rho + - 8 * zetaxstar rho ^ 2).
    Definition mie_g2 (rho T : R) (i : nat) : result R :=
      let z := zetax rho in
      let la := v_la i in let lr := v_lr i in let d := t_dii t i in let e := v_eps i in let x0 := t_x0ii t i in
      let* Cii := prefactor lr la in
      let* D := da2_1pchi_drhos rho C d la lr x0 e z in
      let al := Cii * (1 / (la - 3) - 1 / (lr - 3)) in
      let eKC2 := KHS z / rho / C * (e * Cii ^ 2) in
      Ok ((1 + gammac rho T al e) *
          (1 / (2 * PI * e ^ 2 * d ^ 3 * molecule_per_nm3 ^ 2) *
           (3 * D
            - eKC2 * lr * Rpower x0 (2 * lr) * (a1s rho C (2 * lr) z e d + Bkl rho (2 * lr) C d e x0 z)
            + eKC2 * (lr + la) * Rpower x0 (lr + la) * (a1s rho C (la + lr) z e d + Bkl rho (la + lr) C d e x0 z)
            - eKC2 * la * Rpower x0 (2 * la) * (a1s rho C (2 * la) z e d + Bkl rho (2 * la) C d e x0 z)))).
    (** 1143-1146 *)
    Definition mie_gii (rho T : R) (i : nat) : result R :=
      let gd := mie_gdHS (zetax rho) i in
      let* g1 := mie_g1 rho i in
      let* g2 := mie_g2 rho T i in
      Ok (gd * exp (v_eps i * g1 / (T * gd) + (v_eps i / T) ^ 2 * g2 / gd)).
    (** 1115-1160 [Achain]; [prefactor] raises before any component is summed *)
    Definition mie_chain (nu : nat -> nat -> R) (V Sk rings xi : nat -> R) (rho T : R) : result R :=
      let* g := mapM (mie_gii rho T) (seq 0 n) in
      Ok (- sumn n (fun i =>
          xi i * (-1 + rings i + sumn m (fun k => nu i k * V k * Sk k)) * ln (arr g i))).

    (** 1162-1194 [density_max] *)
    Definition mie_rho_max (maxpack : R) : R :=
      maxpack * 6 / (C * PI * sumn m (fun k => sumn m (fun l => X k l * t_dkl t k l ^ 3))) / molecule_per_nm3.
  End Formulas.

  Definition mie_monomer (s : mie) (t : mie_tables) (C : R) (X : nat -> nat -> R) (rho T : R) : R :=
    mie_hard_sphere (mi_n s) (mm s) t C X rho
    + mie_first_order (mm s) (mi_mats s) t C X rho T
    + mie_second_order (mm s) (mi_mats s) (mi_Ckl s) (mi_alpha s) t C X rho T
    + mie_third_order (mm s) (mi_mats s) (mi_alpha s) C X rho T.
  Definition mie_chain_of (s : mie) (t : mie_tables) (C : R) (X : nat -> nat -> R) (xi : list R) (rho T : R) : result R :=
    mie_chain (mi_n s) (mm s) (mi_mats s) (mi_avg s) t C X (mi_nu s) (arr (mi_Vks s)) (arr (mi_Sk s)) (mi_rings s) (arr xi) rho T.

  (** bring temperature and composition up to date, then use the cached data *)
  Definition refreshed {A} (s : mie) (T : R) (xi : list R)
      (f : mie -> mie_tables -> R -> (nat -> nat -> R) -> result A) : mie * result A :=
    match check_temperature s T with
    | (s1, Err e) => (s1, Err e)
    | (s1, Ok _) =>
        match check_mie_composition s1 xi with
        | Err e => (s1, Err e)
        | Ok s2 => match mi_tab s2, mi_comp s2 with
                   | Some t, Some (_, (C, X)) => (s2, f s2 t C X)
                   | _, _ => (s2, Err KeyError)
                   end
        end
    end.

  (** saft.py:566-592 [density_max] *)
  Definition mie_density_max (s : mie) (xi : list R) (T maxpack : R) : mie * result R :=
    if negb (Nat.eqb (length xi) (mi_n s)) then (s, Err ValueError)
    else refreshed s T xi (fun s t C X => Ok (mie_rho_max (mm s) t C X maxpack)).

  (** saft.py:287-322 [residual_helmholtz_energy] without association sites; 662-711
      [Amonomer] refuses densities that are all at or above density_max(maxpack=1) *)
  Definition mie_residual (s : mie) (rho : list R) (T : R) (xi : list R) : mie * result (list R) :=
    if negb (Nat.eqb (length xi) (mi_n s)) then (s, Err ValueError)
    else if match rho with [] => true | _ => false end then (s, Err ValueError)
    else if existsb (fun r => if Rlt_dec r 0 then true else false) rho then (s, Err ValueError)
    else if existsb (fun x => if Rlt_dec x 0 then true else false) xi then (s, Err ValueError)
    else refreshed s T xi (fun s t C X =>
      let lim := mie_rho_max (mm s) t C X 1 in
      if forallb (fun r => if Rge_dec r lim then true else false) rho then Err ValueError
      else mapM (fun r => let* c := mie_chain_of s t C X xi r T in Ok (mie_monomer s t C X r T + c)) rho).

  (** saft.py:624-651 [update_parameter] *)
  Definition mie_update (s : mie) (p : string) (names : list string) (v : R) : result mie :=
    let* par := saft_update_parameter (mi_par s) p names v in
    Ok {| mi_par := par; mi_rules := mi_rules s; mi_n := mi_n s; mi_nu := mi_nu s; mi_rings := mi_rings s;
          mi_Vks := mi_Vks s; mi_Sk := mi_Sk s; mi_mats := mi_mats s; mi_avg := mi_avg s; mi_Ckl := mi_Ckl s;
          mi_alpha := mi_alpha s; mi_T := mi_T s; mi_tab := mi_tab s; mi_comp := mi_comp s |}.

  (** 1446-1514 [parameter_refresh].  The temperature dependent entries are checked
      against the temperature they were computed for, so they are kept; only an object
      that has no temperature yet computes them, at 298 and with the averages from before
      the refresh. *)
  Definition mie_refresh (s : mie) : result mie :=
    let* Sk := extract_property R "Sk" (mlib s) (mbeads s) (Some 1) in
    let* mats := mie_matrices (mi_rules s) (mbeads s) (mlib s) (mcross s) in
    let s1 := {| mi_par := mi_par s; mi_rules := mi_rules s; mi_n := mi_n s; mi_nu := mi_nu s; mi_rings := mi_rings s;
                 mi_Vks := mi_Vks s; mi_Sk := Sk; mi_mats := mats; mi_avg := mi_avg s; mi_Ckl := mi_Ckl s;
                 mi_alpha := mi_alpha s; mi_T := mi_T s; mi_tab := mi_tab s; mi_comp := mi_comp s |} in
    let (s2, ok) := check_temperature s1 (match mi_T s1 with Some T => T | None => 298 end) in
    let* _ := ok in
    let* comp := match mi_comp s2 with
                 | Some (x, _) => let* c := mie_composition s2 x in Ok (Some (x, c))
                 | None => Ok None
                 end in
    let* Ckl := prefactor_matrix (mm s2) mats in
    Ok {| mi_par := mi_par s2; mi_rules := mi_rules s2; mi_n := mi_n s2; mi_nu := mi_nu s2; mi_rings := mi_rings s2;
          mi_Vks := mi_Vks s2; mi_Sk := Sk; mi_mats := mats;
          mi_avg := mie_averages (mm s2) (mi_nu s2) (arr (mi_Vks s2)) (arr Sk) mats;
          mi_Ckl := Ckl; mi_alpha := mie_alpha mats Ckl; mi_T := mi_T s2; mi_tab := mi_tab s2; mi_comp := comp |}.

  (** Use of an object.  A refused update leaves it as it was; an evaluation that raises
      may still have stored temperature and composition; a refresh that raises ends the
      history. *)
  Inductive mie_op := MEval (rho : list R) (T : R) (xi : list R) | MMax (xi : list R) (T maxpack : R)
                    | MUpdate (p : string) (names : list string) (v : R) | MRefresh.
  Definition mie_step (s : mie) (o : mie_op) : result mie :=
    match o with
    | MEval rho T xi => Ok (fst (mie_residual s rho T xi))
    | MMax xi T mp => Ok (fst (mie_density_max s xi T mp))
    | MUpdate p names v => match mie_update s p names v with Ok s' => Ok s' | Err _ => Ok s end
    | MRefresh => mie_refresh s
    end.
  Definition mie_run (s : mie) (l : list mie_op) : result mie := foldM mie_step s l.
End Mie.
