(** Model of the partial-density derivative of
    /repo/despasito/equations_of_state/eos_toolbox.py, over the reals. *)
From Verif Require Import Base.
From Coq Require Import Reals.
Open Scope R_scope.

Definition rsum (l : list R) : R := fold_right Rplus 0 l.

(** [l] with entry [i] replaced by [f l[i]] *)
Fixpoint adjust (i : nat) (f : R -> R) (l : list R) : list R :=
  match l, i with
  | [], _ => []
  | x :: xs, O => f x :: xs
  | x :: xs, S k => x :: adjust k f xs
  end.

Section PD.
  (** the caller's function of total density, temperature and mole fractions *)
  Variable func : R -> R -> list R -> R.
  (** np.finfo(float).eps *)
  Variable eps : R.

  (** eos_toolbox.py:107-133 [_partial_density_wrapper] *)
  Definition wrapper (rhoi : list R) (T : R) : R :=
    let rho := rsum rhoi in func rho T (map (fun r => r / rho) rhoi).

  (** eos_toolbox.py:88-102, one component.  [y_temp[i] != 0] guards the shift. *)
  Definition pd_plain (xi : list R) (rho T dy : R) (i : nat) : R :=
    let y := map (fun x => rho * x) xi in
    if Req_EM_T (nth i xi 0) 0 then eps
    else
      let shifted d := adjust i (fun v => if Req_EM_T v 0 then v else v + d) y in
      (wrapper (shifted dy) T - wrapper (shifted (- dy)) T) / (2 * dy).

  (** eos_toolbox.py:73-86, one component.  exp(log(y) + d) is written y * exp(d),
      which also holds for an absent component (log 0 = -inf, exp(-inf) = 0). *)
  Definition pd_log (xi : list R) (rho T dy : R) (i : nat) : R :=
    let y := map (fun x => rho * x) xi in
    if Req_EM_T (nth i xi 0) 0 then eps
    else
      let shifted d := adjust i (fun v => v * exp d) y in
      (wrapper (shifted dy) T - wrapper (shifted (- dy)) T) / (2 * dy) / (rho * nth i xi 0).

  (** eos_toolbox.py:43-104 [partial_density_central_difference] *)
  Definition partial_density_central_difference (xi : list R) (rho T step_size : R) (log_method : bool)
    : list R :=
    map (fun i => if log_method then pd_log xi rho T step_size i else pd_plain xi rho T step_size i)
        (seq 0 (length xi)).
End PD.
