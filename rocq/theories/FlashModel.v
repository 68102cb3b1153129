(** Model of the binary flash of /repo/despasito/thermodynamics/calc.py: [constrain_Ki] and
    [calc_flash], over extended rationals. *)
From Verif Require Import Base Num PhaseEqModel DensityModel.

Definition pair_ (A : Type) := (A * A)%type.
Definition one := Fin 1.

(** calc.py:3586: sqrt(np.finfo(float).eps) = 2^-26 exactly *)
Definition seps : num := Fin (1 # 67108864).
Definition inv_seps : num := ndiv one seps.

(** 0.0 <= m <= 1.0 *)
Definition in_unit (m : num) : bool := nle (Fin 0) m && nle m one.
Definition out_of_unit (m : num) : bool := nlt m (Fin 0) || ngt m one.

(** calc.py:3606-3607, 3628-3629 *)
Definition bound_x (m k0 : num) : num := ndiv (nsub one (nmul m k0)) (nsub one m).
Definition bound_y (m k0 : num) : num := ndiv (nmul (nsub one m) k0) (nsub k0 m).

Definition if_positive (b : num) : list num := if ngt b (Fin 0) then [b] else [].

(** calc.py:3588-3603: the initial limits and the check of K0.  With K0 = K1, or an undefined
    one, [min0] is never assigned. *)
Definition k_setup (k0 k1 : num) : result (bool * num) :=
  if ngt k0 k1 then
    Ok (true, if nlt k0 one then inv_seps else k0)
  else if nlt k0 k1 then
    Ok (false, if ngt k0 one || nlt k0 (Fin 0) then seps else k0)
  else Err UnboundLocalError.

(** calc.py:3605-3648: what the two limits add to (min_list, max_list).  The comparisons of
    K0 with K1 are made again after K0 may have been replaced; [up] is their outcome then:
    Some true for K0 > K1, Some false for K0 < K1, None otherwise. *)
Definition limit_min (m k0 : num) (up : option bool) : result (list num * list num) :=
  if in_unit m then
    match up with
    | Some true => Ok ([], bound_y m k0 :: if_positive (bound_x m k0))
    | Some false => Ok (bound_x m k0 :: if_positive (bound_y m k0), [])
    | None => Ok ([], [])
    end
  else if out_of_unit m then Err ValueError else Ok ([], []).
Definition limit_max (m k0 : num) (up : option bool) : result (list num * list num) :=
  if in_unit m then
    match up with
    | Some true => Ok (bound_y m k0 :: if_positive (bound_x m k0), [])
    | Some false => Ok ([], bound_x m k0 :: if_positive (bound_y m k0))
    | None => Ok ([], [])
    end
  else if out_of_unit m then Err ValueError else Ok ([], []).

(** calc.py:3659-3660 *)
Definition frac_x (k0 k1 : num) : num := ndiv (nsub one k1) (nsub k0 k1).
Definition frac_y (k0 k1 : num) : num := nmul k0 (frac_x k0 k1).

(** calc.py:3554-3678 [constrain_Ki].  [r] is the value np.random.rand would return. *)
Definition constrain_Ki (K : pair_ num) (lo hi r : num) : result (pair_ num * bool) :=
  let (k0i, k1) := K in
  let* s := k_setup k0i k1 in
  let (above, k0) := s : bool * num in
  let up := if ngt k0 k1 then Some true else if nlt k0 k1 then Some false else None in
  let* a := limit_min lo k0 up in
  let* b := limit_max hi k0 up in
  let min_list := (if above then seps else one) :: fst a ++ fst b in
  let max_list := (if above then one else Fin 100000000) :: snd a ++ snd b in
  let* max0 := py_min max_list in
  let* min0 := py_max min_list in
  let reset := existsb (fun m => ngt k1 m) max_list || existsb (fun m => nlt k1 m) min_list in
  let k1' := if reset then nadd (nmul (nsub max0 min0) r) min0 else k1 in
  let x0 := frac_x k0 k1' in
  let y0 := frac_y k0 k1' in
  if nlt x0 lo || nlt y0 lo then Err ValueError
  else if ngt x0 hi || ngt y0 hi then Err ValueError
  else Ok ((k0, k1'), reset).

(** calc.py:3437-3446: liquid fractions from K values; the first negative one is replaced *)
Definition liquid_fractions (K : pair_ num) : pair_ num :=
  let x0 := frac_x (fst K) (snd K) in
  let x1 := nsub one x0 in
  if nlt x0 (Fin 0) then (seps, nsub one seps)
  else if nlt x1 (Fin 0) then (nsub one seps, seps)
  else (x0, x1).

(** calc.py:3448-3456: vapor fractions.  The inner test compares |True| with 1.5e-8, so it
    never raises and the fractions are always normalised. *)
Definition vapor_fractions (K x : pair_ num) : pair_ num :=
  let y0 := nmul (fst K) (fst x) in
  let y1 := nmul (snd K) (snd x) in
  let s := nadd y0 y1 in
  if neqb s one then (y0, y1) else (ndiv y0 s, ndiv y1 s).

(** np.where(K == min(K[K > 0]))[0][0] *)
Definition smallest_index (K : pair_ num) : result nat :=
  let pos := filter (fun k => ngt k (Fin 0)) [fst K; snd K] in
  let* m := py_min pos in
  if neqb (fst K) m then Ok 0%nat else if neqb (snd K) m then Ok 1%nat else Err IndexError.
Definition comp (K : pair_ num) (i : nat) : num := match i with O => fst K | _ => snd K end.
Definition rel_err (a b : pair_ num) (i : nat) : num := ndiv (nabs (nsub (comp a i) (comp b i))) (comp b i).
Definition swap (K : pair_ num) : pair_ num := (snd K, fst K).
Definition pair_eqb (a b : pair_ num) : bool := neqb (fst a) (fst b) && neqb (snd a) (snd b).
Definition near_one (k : num) : bool := nlt (nabs (nsub k one)) (Fin (1 # 1000000)).

Record flash_state := { fs_K : pair_ num; fs_critical : nat; fs_reset : nat }.
Record flash_out := { out_x : pair_ num; out_fl : nat; out_y : pair_ num; out_fv : nat; out_err : num }.

Section Flash.
  (** fugacity coefficients and flag of the liquid and of the vapor at fixed P, T; a failed
      density gives two NaN *)
  Variable liquid vapor : pair_ num -> result (pair_ num * nat).
  Variable lo hi tol : num.            (** min_mole_fraction0, max_mole_fraction0, tol *)
  Variable draw : nat -> num.          (** random numbers; 0 for the initial call, S i in iteration i *)

  Definition div2 (a b : pair_ num) : pair_ num := (ndiv (fst a) (fst b), ndiv (snd a) (snd b)).
  Definition err2 (a b : pair_ num) : num := nadd (nabs (nsub (fst a) (fst b))) (nabs (nsub (snd a) (snd b))).

  (** what the choice of the next K values leaves: whether the loop stops, the error, the
      state, and [Kiprev].  [Kiprev] is the same array as the old [Ki], so it changes with it
      when [Ki] is overwritten in place (3495-3501). *)
  Record step := { st_stop : bool; st_err : num; st_next : flash_state; st_prev : pair_ num }.

  (** calc.py:3470-3516.  Both retries from near-critical K values use the same guess. *)
  Definition next_K (i : nat) (s : flash_state) (Kinew : pair_ num) : result step :=
    let K := fs_K s in
    let err := err2 Kinew K in
    let* c := constrain_Ki Kinew lo hi (draw (S i)) in
    let (Ktmp, reset) := c : pair_ num * bool in
    let count := if reset then S (fs_reset s) else fs_reset s in
    let st K' crit := {| fs_K := K'; fs_critical := crit; fs_reset := count |} in
    if negb (pair_eqb Kinew Ktmp) then
      if Nat.eqb count 10 then
        Ok {| st_stop := false; st_err := err; st_next := st (swap Ktmp) (fs_critical s); st_prev := K |}
      else if Nat.eqb count 20 then
        let* ind := smallest_index K in
        Ok {| st_stop := true; st_err := rel_err Ktmp K ind; st_next := st Ktmp (fs_critical s); st_prev := K |}
      else Ok {| st_stop := false; st_err := err; st_next := st Ktmp (fs_critical s); st_prev := K |}
    else if near_one (fst K) && near_one (snd K) && Nat.ltb (fs_critical s) 2 then
      let K' := (inv_seps, seps) in
      Ok {| st_stop := false; st_err := err; st_next := st K' (S (fs_critical s)); st_prev := K' |}
    else if nlt err tol then
      let* ind := smallest_index K in
      let e := rel_err Kinew K ind in
      if nlt e tol then Ok {| st_stop := true; st_err := e; st_next := st K (fs_critical s); st_prev := K |}
      else Ok {| st_stop := false; st_err := e; st_next := st Kinew (fs_critical s); st_prev := K |}
    else Ok {| st_stop := false; st_err := err; st_next := st Kinew (fs_critical s); st_prev := K |}.

  (** calc.py:3435-3521: the loop; [rest] iterations remain.  After the last iteration the
      error is recomputed whether or not the loop was left by [break]. *)
  Fixpoint flash_loop (rest i : nat) (s : flash_state) : result (pair_ num * nat * pair_ num * nat * num) :=
    match rest with
    | O => Err UnboundLocalError                        (* maxiter = 0: [i] is never assigned *)
    | S rest' =>
        let x := liquid_fractions (fs_K s) in
        let y := vapor_fractions (fs_K s) x in
        let* l := liquid x in
        let* v := vapor y in
        let* st := next_K i s (div2 (fst l) (fst v)) in
        match rest' with
        | O =>
            let* ind := smallest_index (st_prev st) in
            Ok (x, snd l, y, snd v, rel_err (fs_K (st_next st)) (st_prev st) ind)
        | _ =>
            if st_stop st then Ok (x, snd l, y, snd v, st_err st)
            else flash_loop rest' (S i) (st_next st)
        end
    end.

  Definition vap (f : nat) : bool := Nat.eqb f 0 || Nat.eqb f 4.
  Definition liq (f : nat) : bool := Nat.eqb f 1.

  (** calc.py:3524-3531 *)
  Definition must_switch (x : pair_ num) (fl : nat) (y : pair_ num) (fv : nat) : bool :=
    if vap fl || liq fv then
      if liq fl || vap fv then ngt (fst x) (fst y) else true
    else false.

  (** calc.py:3351-3551 [calc_flash]: [ncomp] components, saturation pressures [psat] (an
      undefined one is replaced by [Psat_set]). *)
  Definition calc_flash (ncomp maxiter : nat) (P Psat_set : num) (psat : nat -> result num) : result flash_out :=
    if negb (Nat.eqb ncomp 2) then Err ValueError
    else
      let ps i := let* p := psat i in Ok (ndiv (if is_nan p then Psat_set else p) P) in
      let* k0 := ps 0%nat in
      let* k1 := ps 1%nat in
      let* c := constrain_Ki (k0, k1) lo hi (draw 0) in
      let* r := flash_loop maxiter 0 {| fs_K := fst c; fs_critical := 0; fs_reset := 0 |} in
      let '(x, fl, y, fv, e) := r : pair_ num * nat * pair_ num * nat * num in
      if must_switch x fl y fv then Ok {| out_x := y; out_fl := fv; out_y := x; out_fv := fl; out_err := e |}
      else Ok {| out_x := x; out_fl := fl; out_y := y; out_fv := fv; out_err := e |}.
End Flash.
