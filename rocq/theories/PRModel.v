(** Model of /repo/despasito/equations_of_state/cubic/peng_robinson.py over the reals.
    An np.ndarray of shape (n,) is a function of an index, read below n only.  Reals are
    exact; division by zero and square roots of negative numbers, inf/NaN in numpy, are
    excluded by the hypotheses of the theorems. *)
From Verif Require Import Base EosToolboxModel RSum.
From Coq Require Import Reals.
Open Scope R_scope.

(** constants.py:11 *)
Definition Rgas : R := 831446261815324 / 100000000000000.

(** Attributes of the object: parameters and libraries (shared with EosTemplate), the
    flags of __init__ (88-95), eos_dict (107-114) and T (117).  aij and bij are
    recomputed by every evaluation before they are read (218, 272, 320) and are
    therefore results of [mixed] rather than attributes; [_test_kappa] is never read. *)
Record pr := {
  pr_par : eos_params R;
  pr_critical : list bool;
  pr_given : list bool;
  pr_ai : nat -> R;
  pr_bi : nat -> R;
  pr_alpha : nat -> R;
  pr_kij : nat -> nat -> R;
  pr_T : option R }.

Definition beads_of (s : pr) := ep_beads (pr_par s).
Definition lib_of (s : pr) := ep_bead_library (pr_par s).
Definition cross_of (s : pr) := ep_cross_library (pr_par s).

(** 77 *)
Definition pr_types : list string := ["ai"; "bi"; "kij"; "Tc"; "Pc"; "omega"]%string.

(** 125-150 [_calc_temp_dependent_parameters]: the new alpha array, or KeyError when a
    bead has kappa but no Tc *)
Definition alpha_entry (lib : dict (dict R)) (T : R) (b : string) : result R :=
  let* d := dfetch lib b in
  match dget d "kappa" with
  | Some kappa => let* Tc := dfetch d "Tc" in Ok ((1 + kappa * (1 - sqrt (T / Tc))) ^ 2)
  | None => Ok 1
  end.
Definition calc_temp_dependent (s : pr) (T : R) : result pr :=
  let* al := mapM (alpha_entry (lib_of s) T) (beads_of s) in
  Ok {| pr_par := pr_par s; pr_critical := pr_critical s; pr_given := pr_given s;
        pr_ai := pr_ai s; pr_bi := pr_bi s; pr_alpha := fun i => nth i al 0;
        pr_kij := pr_kij s; pr_T := Some T |}.

(** [if T != self.T: ...] of 172-174, 213-215, 267-269, 315-317 *)
Definition at_temperature (s : pr) (T : R) : result pr :=
  match pr_T s with
  | Some T' => if Req_EM_T T T' then Ok s else calc_temp_dependent s T
  | None => calc_temp_dependent s T
  end.

(** 152-192 [_calc_mixed_parameters] *)
Definition mix_a (s : pr) (n : nat) (xi : nat -> R) : R :=
  sumn n (fun i => sumn n (fun j =>
    xi i * xi j * sqrt (pr_ai s i * pr_alpha s i * pr_ai s j * pr_alpha s j) * (1 - pr_kij s i j))).
Definition mix_b (s : pr) (n : nat) (xi : nat -> R) : R := sumn n (fun i => xi i * pr_bi s i).

(** 225-227 *)
Definition pressure_formula (a b T rho : R) : R :=
  Rgas * T * rho / (1 - b * rho) - rho ^ 2 * a / ((1 + b * rho) + rho * b * (1 - b * rho)).

(** 194-229 [pressure]; [xi] has as many entries as there are components *)
Definition pressure (s : pr) (rho : list R) (T : R) (xi : nat -> R) : result (pr * list R) :=
  let* s1 := at_temperature s T in
  let n := length (beads_of s1) in
  Ok (s1, map (pressure_formula (mix_a s1 n xi) (mix_b s1 n xi) T) rho).

(** 271-294: the exponent whose exp is returned for component [i] *)
Definition ln_phi (s : pr) (n : nat) (P rho T : R) (xi : nat -> R) (i : nat) : R :=
  let RT := Rgas * T in
  let Z := P / (RT * rho) in
  let Ai k := pr_ai s k * pr_alpha s k * P / RT ^ 2 in
  let Bi k := pr_bi s k * P / RT in
  let B := mix_b s n xi * P / RT in
  let A := mix_a s n xi * P / RT ^ 2 in
  let sqrt2 := sqrt 2 in
  let tmp1 := A / (2 * sqrt2 * B) * ln ((Z + (1 + sqrt2) * B) / (Z + (1 - sqrt2) * B)) in
  let tmp3 := Bi i * (Z - 1) / B - ln (Z - B) in
  let Aij j := sqrt (Ai i * Ai j) * (1 - pr_kij s i j) in
  let tmp2 := Bi i / B - 2 * sumn n (fun j => xi j * Aij j) / A in
  tmp1 * tmp2 + tmp3.

(** 231-295 [fugacity_coefficient], for scalar arguments *)
Definition fugacity_coefficient (s : pr) (P rho T : R) (xi : nat -> R) : result (pr * (nat -> R)) :=
  let* s1 := at_temperature s T in
  let n := length (beads_of s1) in
  Ok (s1, fun i => exp (ln_phi s1 n P rho T xi i)).

(** 297-324 [density_max] *)
Definition density_max (s : pr) (xi : nat -> R) (T maxpack : R) : result (pr * R) :=
  let* s1 := at_temperature s T in
  Ok (s1, maxpack / mix_b s1 (length (beads_of s1)) xi).

(** 359-376: one bead of parameter_refresh; the dictionary of the bead after the
    derived entries are written, and its ai and bi *)
Definition derive_bead (critical given_ab : bool) (d : dict R) : result (dict R * (R * R)) :=
  let d1 := match dget d "omega", dget d "kappa" with
            | Some w, None => dset d "kappa" (37464 / 100000 + 154226 / 100000 * w - 26992 / 100000 * w ^ 2)
            | _, _ => d
            end in
  let* d2 := if critical && negb given_ab then
               let* Tc := dfetch d1 "Tc" in let* Pc := dfetch d1 "Pc" in
               Ok (dset (dset d1 "ai" (45723553 / 100000000 * (Rgas * Tc) ^ 2 / Pc))
                        "bi" (7779607 / 100000000 * (Rgas * Tc / Pc)))
             else Ok d1 in
  let* a := dfetch d2 "ai" in let* b := dfetch d2 "bi" in Ok (d2, (a, b)).

Fixpoint derive_beads (beads : list string) (critical given_ab : list bool) (lib : dict (dict R)) {struct beads}
  : result (dict (dict R) * list (R * R)) :=
  match beads with
  | [] => Ok (lib, [])
  | b :: bs =>
      match critical, given_ab with
      | c :: cs, g :: gs =>
          let* d := dfetch lib b in
          let* r := derive_bead c g d in
          let* r' := derive_beads bs cs gs (dset lib b (fst r)) in
          Ok (fst r', snd r :: snd r')
      | _, _ => Err IndexError
      end
  end.

(** 378-396: the entry of one ordered pair of beads *)
Definition kset (k : nat -> nat -> R) (i j : nat) (v : R) : nat -> nat -> R :=
  fun i' j' => if (Nat.eqb i i' && Nat.eqb j j') || (Nat.eqb j i' && Nat.eqb i j') then v else k i' j'.
Definition cross_entry (cl : dict (dict (dict R))) (a b : string) : option R :=
  match dget cl a with
  | Some d => match dget d b with Some e => dget e "kij" | None => None end
  | None => None
  end.
Definition kij_step (beads : list string) (cl : dict (dict (dict R))) (k : nat -> nat -> R) (ij : nat * nat)
  : nat -> nat -> R :=
  let bi := nth (fst ij) beads ""%string in
  let bj := nth (snd ij) beads ""%string in
  match cross_entry cl bi bj with
  | Some v => kset k (fst ij) (snd ij) v
  | None => match cross_entry cl bj bi with
            | Some v => kset k (fst ij) (snd ij) v
            | None => k
            end
  end.
Definition kij_refresh (beads : list string) (cl : dict (dict (dict R))) (k : nat -> nat -> R)
  : nat -> nat -> R :=
  fold_left (kij_step beads cl) (list_prod (seq 0 (length beads)) (seq 0 (length beads))) k.

(** 350-400 [parameter_refresh].  The loop over beads does, per bead, the derived
    parameters and then its row of kij; the two do not touch the same data and are
    written as two loops here. *)
Definition parameter_refresh (s : pr) : result pr :=
  let* r := derive_beads (beads_of s) (pr_critical s) (pr_given s) (lib_of s) in
  let par := {| ep_beads := beads_of s; ep_types := ep_types (pr_par s);
                ep_bead_library := fst r; ep_cross_library := cross_of s |} in
  let s1 := {| pr_par := par; pr_critical := pr_critical s; pr_given := pr_given s;
               pr_ai := fun i => fst (nth i (snd r) (0, 0)); pr_bi := fun i => snd (nth i (snd r) (0, 0));
               pr_alpha := pr_alpha s;
               pr_kij := kij_refresh (beads_of s) (cross_of s) (pr_kij s); pr_T := pr_T s |} in
  match pr_T s with Some T => calc_temp_dependent s1 T | None => Ok s1 end.

(** 92-101: the flags of one bead, or the refusal of an incomplete one *)
Definition bead_flags (lib : dict (dict R)) (b : string) : result (bool * bool) :=
  let* d := dfetch lib b in
  let c := dmem d "Tc" && dmem d "Pc" in
  let g := dmem d "ai" && dmem d "bi" in
  if negb c && negb g then Err ValueError else Ok (c, g).

(** 73-119 [__init__] *)
Definition init (beads : list string) (lib : dict (dict R)) (cl : dict (dict (dict R))) : result pr :=
  let* flags := mapM (bead_flags lib) beads in
  parameter_refresh
    {| pr_par := {| ep_beads := beads; ep_types := pr_types; ep_bead_library := lib; ep_cross_library := cl |};
       pr_critical := map fst flags; pr_given := map snd flags;
       pr_ai := fun _ => 0; pr_bi := fun _ => 0; pr_alpha := fun _ => 0; pr_kij := fun _ _ => 0; pr_T := None |}.

(** list.index *)
Fixpoint list_index (x : string) (l : list string) : result nat :=
  match l with
  | [] => Err ValueError
  | y :: ys => if String.eqb x y then Ok O else let* k := list_index x ys in Ok (S k)
  end.

(** 326-348 [update_parameter] *)
Definition pr_update (s : pr) (p : string) (names : list string) (v : R) : result pr :=
  let* blocked :=
    if smem p ["ai"; "bi"]%string then
      match names with
      | [] => Err IndexError
      | b :: _ => let* k := list_index b (beads_of s) in Ok (nth k (pr_critical s) false)
      end
    else Ok false in
  if blocked then Err ValueError
  else
    let* par := update_parameter (pr_par s) p names v in
    Ok {| pr_par := par; pr_critical := pr_critical s; pr_given := pr_given s; pr_ai := pr_ai s;
          pr_bi := pr_bi s; pr_alpha := pr_alpha s; pr_kij := pr_kij s; pr_T := pr_T s |}.
