(** Model of the consistency tests behind the calculation type verify_eos, and of the activity coefficients:
    /repo/despasito/thermodynamics/calc.py:3681-3900, over the reals.  [phi] is Eos.fugacity_coefficient (pressure, density,
    composition, temperature).  The object is taken in the same state at every call: all calls are at one temperature. *)
From Coq Require Import Reals.
From Verif Require Import Base ToolboxModel PRModel.
Open Scope R_scope.

(** an argument that may be an array *)
Inductive arg := One (x : R) | Many (l : list R).
(** one composition, or an array of compositions *)
Inductive comp := OneX (x : list R) | ManyX (l : list (list R)).

Section Consistency.
  Variable phi : R -> R -> list R -> R -> result (list R).

  Definition rsum (l : list R) : R := fold_right Rplus 0 l.
  (** np.sum(xi * np.log(v)) for one composition.  An array of coefficients of another length than the composition is taken as an
      error: numpy would stretch one of length 1. *)
  Definition weighted (xi v : list R) : result R :=
    if Nat.eqb (length xi) (length v) then Ok (rsum (map (fun p => fst p * ln (snd p)) (combine xi v))) else Err ValueError.
  (** ... and for an array of compositions, which numpy sums over all entries *)
  Definition weighted_all (rows : list (list R)) (v : list R) : result R :=
    let* l := mapM (fun r => weighted r v) rows in Ok (rsum l).

  (** calc.py:3681-3729 [mixture_fugacity_coefficient].  An empty composition has no xi[0]. *)
  Definition mixture_fugacity_coefficient (P T : arg) (xi : comp) (rho : arg) : result arg :=
    match xi with
    | OneX [] | ManyX [] => Err IndexError
    | ManyX rows =>
        match P, T, rho with
        | One p, One t, One r =>
            let* l := mapM (fun x => let* v := phi p r x t in weighted_all rows v) rows in Ok (Many l)
        | _, _, _ => Err ValueError
        end
    | OneX x =>
        match P, T, rho with
        | Many ps, One t, One r => let* l := mapM (fun p => let* v := phi p r x t in weighted x v) ps in Ok (Many l)
        | One p, Many ts, One r => let* l := mapM (fun t => let* v := phi p r x t in weighted x v) ts in Ok (Many l)
        | One p, One t, Many rs => let* l := mapM (fun r => let* v := phi p r x t in weighted x v) rs in Ok (Many l)
        | One p, One t, One r => let* v := phi p r x t in let* s := weighted x v in Ok (One s)
        | _, _, _ => Err ValueError
        end
    end.

  (** calc.py:3732-3774 [fugacity_test_1].  The central difference is absolute (general_toolbox.py:259-264) and evaluates its
      function on the array of the two pressures. *)
  Definition fugacity_test_1 (P T : R) (xi : list R) (rho step : R) : result R :=
    match xi with
    | [] => Err IndexError
    | _ =>
        let Z := P / (rho * T * Rgas) in
        let* y := mixture_fugacity_coefficient (Many [P + step; P - step]) (One T) (OneX xi) (One rho) in
        match y with
        | Many [a; b] => Ok ((a - b) / (2 * step) - (Z - 1) / P)
        | _ => Err ValueError
        end
    end.

  (** calc.py:3833-3853 [_fugacity_test_2] at one amount *)
  Definition moved (n0 n : R) (xi : list R) : result (list R) :=
    match map (fun x => x * n0) xi with
    | [] => Err IndexError
    | a :: l =>
        let a' := a + (n - n0) in
        if Rlt_dec a' 0 then Err ValueError
        else Ok (map (fun v => v / rsum (a' :: l)) (a' :: l))
    end.
  Definition log_phi_at (n0 n P rho : R) (xi : list R) (T : R) : result (list R) :=
    let* x := moved n0 n xi in
    let* v := phi P rho x T in
    Ok (map ln v).
  (** calc.py:3777-3830 [fugacity_test_2].  The messages about absent components have no other effect.  The central difference
      has one step for all the values (general_toolbox.py:262-264). *)
  Definition fugacity_test_2 (P T : R) (xi : list R) (rho step n0 : R) : result R :=
    if Rle_dec n0 step then Err ValueError
    else match xi with
    | [] => Err IndexError
    | _ =>
        let* y1 := log_phi_at n0 (n0 + step) P rho xi T in
        let* y2 := log_phi_at n0 (n0 - step) P rho xi T in
        let y := (y1 ++ y2)%list in
        let lx := Nat.div (length y) 2 in
        let d := map (fun p => (fst p - snd p) / (2 * step)) (combine (firstn lx y) (skipn lx y)) in
        Ok (rsum (map (fun p => fst p * snd p) (combine xi d)) * 2 * step)
    end.

  (** calc.py:3856-3900 [activity_coefficient]; [psat] is the pressure of calc_saturation_properties.  Over the reals a division by 0 is
      0, where numpy gives infinity or NaN: the theorems ask for positive mole fractions and saturation pressures.  The pure
      composition of component [i]: *)
  Variable psat : R -> list R -> result R.
  Definition pure (n i : nat) : list R := map (fun j => if Nat.eqb j i then 1 else 0) (seq 0 n).
  Definition activity_coefficient (P T : R) (xi yi : list R) : result (list R * list R) :=
    let* ps := mapM (fun i => psat T (pure (length xi) i)) (seq 0 (length xi)) in
    if Nat.eqb (length yi) (length xi) then
      Ok (map (fun p => fst p * P / (snd (snd p) * fst (snd p))) (combine yi (combine xi ps)), ps)
    else Err ValueError.
End Consistency.

(** Eos.fugacity_coefficient of a Peng-Robinson object (peng_robinson.py:231-295), as an array *)
Definition pr_phi (s : pr) (P rho : R) (xi : list R) (T : R) : result (list R) :=
  let* r := fugacity_coefficient s P rho T (fun i => nth i xi 0) in
  Ok (map (snd r) (seq 0 (length (beads_of (fst r))))).
