(** Model of the SAFT object's methods in /repo/despasito/equations_of_state/saft/saft.py (energies,
    pressure, fugacity coefficient), of Aideal.py, and of the factory [initiate_eos], over the reals.
    The residual terms of a variant are an argument; SwModel.v and MieModel.v model two of them. *)
From Coq Require Import Reals Ascii.
From Verif Require Import Base ToolboxModel PartialDensityModel SaftToolboxModel.
Open Scope R_scope.

(** constants.py *)
Definition c_R : R := 831446261815324 / 10 ^ 14.
Definition c_h : R := 662607004 / 10 ^ 42.
Definition c_Nav : R := 602214086 * 10 ^ 15.
Definition c_kb : R := 138064852 / 10 ^ 31.
Definition c_m2nm : R := 10 ^ 9.

Section SaftEos.
  Variable eps : R.   (** np.finfo(float).eps *)

  (** eos_toolbox.py:10-40 [remove_insignificant_components] over the reals (EosToolboxModel.v has it with NaN) *)
  Fixpoint significant (xi massi : list R) : result (list (R * R)) :=
    match xi with
    | [] => Ok []
    | x :: xs =>
        if Rlt_dec x eps then significant xs (tl massi)
        else match massi with
             | [] => Err IndexError
             | m :: ms => let* r := significant xs ms in Ok ((x, m) :: r)
             end
    end.

  (** Aideal.py:84-88: the thermal wavelength in nm *)
  Definition wavelength (T m : R) : R :=
    sqrt (c_h * c_Nav * c_m2nm * (c_h / c_kb * c_m2nm) / (2 * PI * m * T)).
  (** Aideal.py:57-99 [Abroglie].  Densities are positive: at density zero the code gives -inf.  For positive
      temperature and masses the logarithm is defined, so the test against NaN does not fire. *)
  Definition Abroglie (rho : list R) (T : R) (xi massi : list R) : result (list R) :=
    let* s := significant xi massi in
    Ok (map (fun r => fold_right (fun xm acc =>
              fst xm * ln (wavelength T (snd xm) ^ 3 * (r * molecule_per_nm3 * fst xm)) + acc) 0 s - 1) rho).
  (** Aideal.py:17-54 *)
  Definition Aideal_contribution (rho : list R) (T : R) (xi massi : list R) (method : string) : result (list R) :=
    if String.eqb method "Abroglie" then Abroglie rho T xi massi else Err ValueError.

  (** saft.py:677-701 over the reals *)
  Definition check_rho (rho : list R) : result (list R) :=
    match rho with
    | [] => Err ValueError
    | _ => if existsb (fun r => if Rlt_dec r 0 then true else false) rho then Err ValueError else Ok rho
    end.

  Variable ncomp : nat.                                              (** number_of_components *)
  Variable massi : list R.
  Variable method : string.                                          (** eos_dict["Aideal_method"] *)
  Variable terms : list R -> R -> list R -> result (list R).         (** the residual contributions, summed *)

  (** saft.py:287-326 [residual_helmholtz_energy] *)
  Definition residual_helmholtz_energy (rho : list R) (T : R) (xi : list R) : result (list R) :=
    if negb (Nat.eqb (length xi) ncomp) then Err ValueError
    else let* rho := check_rho rho in
         if existsb (fun x => if Rlt_dec x 0 then true else false) xi then Err ValueError
         else terms rho T xi.
  (** saft.py:360-393 [Aideal] *)
  Definition Aideal (rho : list R) (T : R) (xi : list R) : result (list R) :=
    if negb (Nat.eqb (length xi) ncomp) then Err ValueError
    else let* rho := check_rho rho in Aideal_contribution rho T xi massi method.
  (** saft.py:328-358 [helmholtz_energy] *)
  Definition helmholtz_energy (rho : list R) (T : R) (xi : list R) : result (list R) :=
    if negb (Nat.eqb (length xi) ncomp) then Err ValueError
    else let* rho := check_rho rho in
         let* a := residual_helmholtz_energy rho T xi in
         let* b := Aideal rho T xi in
         Ok (map (fun p => fst p + snd p) (combine a b)).

  (** general_toolbox.py:262: the points at which the function is evaluated, in one call *)
  Definition cd_points (step_size : R) (xs : list R) : list R :=
    (map (fun x => x + cd_step eps true step_size x) xs ++ map (fun x => x - cd_step eps true step_size x) xs)%list.
  (** saft.py:478-508 [pressure] *)
  Definition pressure (rho : list R) (T : R) (xi : list R) (step_size : R) : result (list R) :=
    if negb (Nat.eqb (length xi) ncomp) then Err ValueError
    else let* rho := check_rho rho in
         let* y := helmholtz_energy (cd_points step_size rho) T xi in
         let d := central_difference eps (fun _ => y) true step_size rho in
         Ok (map (fun p => fst p * T * c_R * snd p ^ 2) (combine d rho)).

  (** saft.py:510-564 [fugacity_coefficient] for scalar arguments (lists of one value are unpacked, longer
      ones refused).  The residual energy is a total function here: evaluations that raise end the call with
      that exception, which is not modelled.  [log_method] is accepted and not used: the call has True. *)
  Definition fugacity_coefficient (ares : R -> R -> list R -> R) (P rho : R) (xi : list R) (T dy : R) (log_method : bool)
    : result (list R) :=
    if negb (Nat.eqb (length xi) ncomp) then Err ValueError
    else let* _ := check_rho [rho] in
         let logZ := ln (P / (rho * T * c_R)) in
         let d := partial_density_central_difference ares eps xi rho T dy true in
         Ok (map (fun q => exp (ares rho T xi + rho * q - logZ)) d).
End SaftEos.

(** ** The factory *)
(** python str.split(".") *)
Fixpoint split_dot (s : string) : list string :=
  match s with
  | EmptyString => [EmptyString]
  | String c rest =>
      if Ascii.eqb c "."%char then EmptyString :: split_dot rest
      else match split_dot rest with
           | [] => [String c EmptyString]
           | w :: ws => String c w :: ws
           end
  end.
Inductive eos_class := SaftClass (variant : string) | OtherClass (family name : string).
Section Factory.
  (** importlib: does despasito.equations_of_state.<family>.<module> exist, and has it the class EosType? *)
  Variable module_exists has_class : string -> string -> bool.
  (** equations_of_state/__init__.py:36-96 [initiate_eos] up to the constructor; method_stat (12-24) refuses
      when every switch is off.  saft.py:24-54 [saft_type] runs in the constructor of the SAFT class. *)
  Definition initiate_eos (eos : string) (numba cython python : bool) : result eos_class :=
    if negb (numba || cython || python) then Err ValueError
    else match split_dot eos with
         | [fam; typ] =>
             if String.eqb fam "saft" then
               if String.eqb typ "gamma_mie" || String.eqb typ "gamma_sw" then Ok (SaftClass typ) else Err ValueError
             else if negb (module_exists fam typ) then Err ImportError
             else if negb (has_class fam typ) then Err ImportError
             else Ok (OtherClass fam typ)
         | _ => Err ValueError
         end.
End Factory.

(** ** Association of an object through its life *)
Section AssocState.
  (** [P]: parameters; [M]: association matrices; [sites]: some component has a bead with sites;
      [mats]: calc_assoc_matrices; [none]: no energy differs from zero *)
  Variables (P M : Type) (sites : bool) (mats : P -> result M) (none : M -> bool).
  Record astate := AState { a_flag : bool; a_mats : M }.
  (** saft.py:263-281 *)
  Definition assoc_init (p : P) : result astate :=
    let* m := mats p in Ok (AState (sites && negb (none m)) m).
  (** saft.py:653-675 [parameter_refresh] *)
  Definition assoc_refresh (s : astate) (p : P) : result astate :=
    if a_flag s then let* m := mats p in Ok (AState (a_flag s) m) else Ok s.
End AssocState.
