(** Model of the objective functions of /repo/despasito/parameter_fitting: fit_functions.py
    [obj_function_form] and [compute_obj], and the last lines of every [objective] in data_classes. *)
From Verif Require Import Base Num.
Open Scope nat_scope.

(** the argument "weights": one number, or one per point *)
Inductive weights := WOne (w : num) | WMany (l : list num).

Section Form.
  (** np.exp *)
  Variable nexp : num -> num.

  (** (data_test[i] - data0[i]) / data0[i] *)
  Definition rel (p : num * num) : num := ndiv (nsub (fst p) (snd p)) (snd p).
  (** np.min of a list without NaN; ValueError if it is empty *)
  Definition np_min (l : list num) : result num :=
    match l with [] => Err ValueError | a :: l' => Ok (fold_left (fun m b => if nlt b m then b else m) l' a) end.
  (** np.mean; NaN if empty *)
  Definition np_mean (l : list num) : num := ndiv (nsum l) (Fin (inject_Z (Z.of_nat (length l)))).
  (** elementwise product of two arrays of the same length *)
  Definition times (l m : list num) : list num := map (fun p => nmul (fst p) (snd p)) (combine l m).
  (** the weights of the points that are kept: "[weights[i] for i in range(len(data_test)) if not isnan(...)]" *)
  Fixpoint kept_weights (ds : list num) (ws : list num) : result (list num) :=
    match ds with
    | [] => Ok []
    | d :: ds' =>
        if is_nan d then kept_weights ds' (tl ws)
        else match ws with
             | [] => Err IndexError
             | w :: ws' => let* r := kept_weights ds' ws' in Ok (w :: r)
             end
    end.
  (** exp((data_min - data_tmp) / |data_min|) *)
  Definition boltz (m : num) (l : list num) : list num := map (fun d => nexp (ndiv (nsub m d) (nabs m))) l.

  (** fit_functions.py:511-624 [obj_function_form].  [None] is the variable obj_value not being
      assigned (an unknown method). *)
  Definition obj_function_form (data_test data0 : list num) (w : weights) (method : string) (nan_number nan_ratio : num)
    : result num :=
    let n := length data_test in
    if negb (Nat.eqb (length data0) n) then Err ValueError
    else if match w with WMany l => Nat.ltb 1 (length l) && negb (Nat.eqb (length l) n) | WOne _ => false end then Err ValueError
    else
      let ds := map rel (combine data_test data0) in
      let data_tmp := filter (fun d => negb (is_nan d)) ds in
      let k := length data_tmp in
      let* weight_tmp := match w with WOne w => Ok (repeat w k) | WMany l => kept_weights ds l end in
      let sq := times (map (fun d => nmul d d) data_tmp) weight_tmp in
      let* value :=
        if String.eqb method "average-squared-deviation" then Ok (Some (np_mean sq))
        else if String.eqb method "sum-squared-deviation" then Ok (Some (nsum sq))
        else if String.eqb method "sum-squared-deviation-boltz" then
          let* m := np_min data_tmp in Ok (Some (nsum (times sq (boltz m data_tmp))))
        else if String.eqb method "sum-deviation-boltz" then
          let* m := np_min data_tmp in Ok (Some (nsum (times (times data_tmp weight_tmp) (boltz m data_tmp))))
        else if String.eqb method "percent-absolute-average-deviation" then
          Ok (Some (nmul (np_mean (times (map nabs data_tmp) weight_tmp)) (Fin 100)))
        else Ok None in
      let value := if Nat.eqb k 0 then Some NaN else value in
      let qz (i : nat) := Fin (inject_Z (Z.of_nat i)) in
      if negb (Nat.eqb n k) then
        if nlt nan_ratio (nsub (Fin 1) (ndiv (qz k) (qz n))) then
          match value with
          | Some v => Ok (nadd v (nmul (qz (n - k)) nan_number))
          | None => Err UnboundLocalError
          end
        else match value with Some v => Ok v | None => Err UnboundLocalError end
      else match value with Some v => Ok v | None => Err UnboundLocalError end.
End Form.

(** The end of [objective] in data_classes/*.py (e.g. saturation_properties.py:230-235,
    liquid_density.py:180-183): the values of the properties, 0 for those without data. *)
Definition dataset_objective (values : list num) : num :=
  if forallb (fun x => is_nan x || neqb x (Fin 0)) values then PInf else nansum values.

(** The objective of a mixture data set: the contributions of the components are added (TLVE.py:229-244,
    flash.py:186-204). *)
Definition component_values (l : list (result num)) : result num :=
  let* vs := mapM (fun x => x) l in Ok (fold_left nadd vs (Fin 0)).

(** fit_functions.py:475-487, the penalty loop; bounds[i] may be missing *)
Fixpoint penalties (total : num) (params : list num) (bounds : list (num * num)) : result num :=
  match params with
  | [] => Ok total
  | p :: params' =>
      match bounds with
      | [] => Err IndexError
      | (lo, hi) :: bounds' =>
          let total' := if nlt p lo then nadd total (npow (nmul (Fin 1000) (nsub p lo)) 8)
                        else if nlt hi p then nadd total (npow (nmul (Fin 1000) (nsub p hi)) 8)
                        else total in
          penalties total' params' bounds'
      end
  end.

(** fit_functions.py:409-508 [compute_obj].  A data set is what its update_parameters and objective
    do with the parameter values: a number or an exception.  [nnames]: the number of fitted parameters;
    the message of lines 455-459 fails when there are fewer values than names. *)
Definition compute_obj (datasets : list (list num -> result num)) (nnames : nat) (bounds : list (num * num))
    (beadparams : list num) (frozen : option (list num)) : result num :=
  let* params := if Nat.eqb (length beadparams) nnames then Ok beadparams
                 else match frozen with Some f => Ok (f ++ beadparams) | None => Err ValueError end in
  if Nat.ltb (length params) nnames then Err IndexError
  else if existsb is_nan params then Ok PInf
  else
    let values := map (fun d => match d params with Ok v => v | Err _ => PInf end) datasets in
    let* total := penalties (nansum values) params bounds in
    Ok (if neqb total (Fin 0) && is_nan (nsum values) then PInf else total).
