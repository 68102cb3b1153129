(** Model of the association mass balance: compiled_modules/ext_Aassoc_python.py and
    ext_Aassoc_numba.py, and of the energy computed from it in saft.py, over the reals.
    Lists of densities only (the numba wrapper also turns a scalar into a list of one). *)
From Coq Require Import Reals.
From Verif Require Import Base.
Open Scope R_scope.

Definition site := (nat * nat * nat)%type.  (** component, bead, site type *)
(** constants.py *)
Definition per_nm3 : R := 602214086 / 10 ^ 12.
(** Kklab has four or six indices *)
Inductive bonding := K4 (K : nat -> nat -> nat -> nat -> R) | K6 (K : nat -> nat -> nat -> nat -> nat -> nat -> R).

Definition tot (l : list R) : R := fold_right Rplus 0 l.
(** np.sum(np.abs(new - old)) *)
Definition dist (new old : list R) : R := tot (map (fun p => Rabs (fst p - snd p)) (combine new old)).
(** max(old), np.max(old) *)
Definition rmax (l : list R) : R := match l with [] => 0 | x :: l' => fold_left Rmax l' x end.
(** old + damp * (new - old) *)
Definition damped (damp : R) (new old : list R) : list R :=
  map (fun p => snd p + damp * (fst p - snd p)) (combine new old).

(** ext_Aassoc_python.py:79-111, ext_Aassoc_numba.py:133-167 and 232-266: the loop over
    knd.  [step] computes the next fractions.  The result is the last accepted list and
    the last error.  With maxiter = 0 python would raise; the callers use 500. *)
Fixpoint iterate (step : list R -> list R) (tol damp : R) (fuel : nat) (old : list R) (obj : R) : list R * R :=
  match fuel with
  | O => (old, obj)
  | S fuel' =>
      let new := step old in
      let obj' := dist new old in
      if Rlt_dec obj' tol then (old, obj')
      else if Rgt_dec (obj' / rmax old) 1000 then iterate step tol damp fuel' (damped damp new old) obj'
      else iterate step tol damp fuel' new obj'
  end.
(** the loop over densities; the fractions of one density start the next *)
Fixpoint densities (step : nat -> R -> list R -> list R) (tol damp : R) (maxiter r : nat) (rho : list R) (old : list R)
  : list (list R * R) :=
  match rho with
  | [] => []
  | p :: rho' =>
      let res := iterate (step r p) tol damp maxiter old 0 in
      res :: densities step tol damp maxiter (S r) rho' (fst res)
  end.

Section Xika.
  Variables (sites : list site) (xi : nat -> R) (nu : nat -> nat -> R) (nk : nat -> nat -> R)
            (F : nat -> nat -> nat -> nat -> R) (g : nat -> nat -> nat -> R).
  Definition comp_of (s : site) := fst (fst s).
  Definition bead_of (s : site) := snd (fst s).
  Definition type_of (s : site) := snd s.

  (** ext_Aassoc_python.py:84-88 *)
  Definition py_delta (K : bonding) (r : nat) (s t : site) : R :=
    match K with
    | K4 K => F (bead_of s) (bead_of t) (type_of s) (type_of t) * K (bead_of s) (bead_of t) (type_of s) (type_of t) * g r (comp_of s) (comp_of t)
    | K6 K => F (bead_of s) (bead_of t) (type_of s) (type_of t)
              * K (comp_of s) (comp_of t) (bead_of s) (bead_of t) (type_of s) (type_of t) * g r (comp_of s) (comp_of t)
    end.
  Definition site_at (j : nat) : site := nth j sites (0, 0, 0)%nat.
  (** 81-98 *)
  Definition py_step (K : bonding) (r : nat) (rho : R) (old : list R) : list R :=
    map (fun ind =>
           1 / fold_left (fun acc jnd => let t := site_at jnd in
                 acc + per_nm3 * rho * xi (comp_of t) * nu (comp_of t) (bead_of t) * nk (bead_of t) (type_of t)
                       * nth jnd old 0 * py_delta K r (site_at ind) t)
               (seq 0 (length sites)) 1)
        (seq 0 (length sites)).
  (** 11-118 [calc_Xika] with the tolerances as arguments *)
  Definition py_calc_Xika (K : bonding) (rho : list R) (maxiter : nat) (tol damp : R) : list (list R * R) :=
    densities (py_step K) tol damp maxiter 0 rho (repeat (1 / 2) (length sites)).

  Fixpoint set_nth (n : nat) (v : R) (l : list R) : list R :=
    match l, n with
    | [], _ => []
    | _ :: l', O => v :: l'
    | x :: l', S n' => x :: set_nth n' v l'
    end.
  (** ext_Aassoc_numba.py:136-155 (calc_Xika_4) and 235-254 (calc_Xika_6): the counters
      ind and jnd run beside the loop variables *)
  Definition nb_inner (delta : site -> site -> R) (rho : R) (old : list R) (A : list R) (ind iind : nat) : list R :=
    fst (fold_left (fun st jjnd =>
           let '(A, jnd) := st in
           let s := site_at iind in let t := site_at jjnd in
           (set_nth ind (nth ind A 0 + per_nm3 * rho * xi (comp_of t) * nu (comp_of t) (bead_of t)
                         * nk (bead_of t) (type_of t) * nth jnd old 0 * delta s t) A, S jnd))
         (seq 0 (length sites)) (A, O)).
  Definition nb_step (delta : nat -> site -> site -> R) (r : nat) (rho : R) (old : list R) : list R :=
    map (fun x => 1 / x)
      (fst (fold_left (fun st iind => let '(A, ind) := st in (nb_inner (delta r) rho old A ind iind, S ind))
              (seq 0 (length sites)) (repeat 1 (length sites), O))).
  Definition delta4 (K : nat -> nat -> nat -> nat -> R) (r : nat) (s t : site) : R :=
    F (bead_of s) (bead_of t) (type_of s) (type_of t) * K (bead_of s) (bead_of t) (type_of s) (type_of t) * g r (comp_of s) (comp_of t).
  Definition delta6 (K : nat -> nat -> nat -> nat -> nat -> nat -> R) (r : nat) (s t : site) : R :=
    F (bead_of s) (bead_of t) (type_of s) (type_of t)
    * K (comp_of s) (comp_of t) (bead_of s) (bead_of t) (type_of s) (type_of t) * g r (comp_of s) (comp_of t).
  Definition calc_Xika_4 K (rho : list R) : list (list R * R) :=
    densities (nb_step (delta4 K)) (1 / 10 ^ 12) (1 / 10) 500 0 rho (repeat (1 / 2) (length sites)).
  Definition calc_Xika_6 K (rho : list R) : list (list R * R) :=
    densities (nb_step (delta6 K)) (1 / 10 ^ 12) (1 / 10) 500 0 rho (repeat (1 / 2) (length sites)).
  (** ext_Aassoc_numba.py:7-62 *)
  Definition nb_calc_Xika (K : bonding) (rho : list R) : list (list R * R) :=
    match K with K4 K => calc_Xika_4 K rho | K6 K => calc_Xika_6 K rho end.
  (** the defaults of ext_Aassoc_python.py:11-23, which Aassoc.py:31-59 does not override *)
  Definition calc_Xika (K : bonding) (rho : list R) : list (list R * R) :=
    py_calc_Xika K rho 500 (1 / 10 ^ 12) (1 / 10).

  (** saft.py:457-464: the energy of one density from its fractions *)
  Definition assoc_energy (X : list R) : R :=
    fold_left (fun acc ind =>
        let s := site_at ind in
        if Req_EM_T (nk (bead_of s) (type_of s)) 0 then acc
        else acc + xi (comp_of s) * nu (comp_of s) (bead_of s) * nk (bead_of s) (type_of s)
                   * (ln (nth ind X 0) + (1 - nth ind X 0) / 2))
      (seq 0 (length sites)) 0.
End Xika.
