(** Model of /repo/despasito/equations_of_state/saft/saft_toolbox.py over the reals, and
    of the density check shared by the SAFT classes.  Arrays are functions of an index,
    read below their length only. *)
From Coq Require Import Reals.
From Verif Require Import Base Num RSum.
Open Scope R_scope.

(** constants.py: molecule_per_nm3 *)
Definition molecule_per_nm3 : R := 602214086 / 1000000000000.

(** 250-257 [calc_composition_dependent_variables]: the conversion factor.  [n]
    components, [m] beads; [nu] is molecular_composition, [V] and [Sk] the bead
    parameters Vks and Sk. *)
Definition Cmol2seg (n m : nat) (xi : nat -> R) (nu : nat -> nat -> R) (V Sk : nat -> R) : R :=
  sumn n (fun i => sumn m (fun j => xi i * nu i j * V j * Sk j)).
(** 259-265 *)
Definition xsk (n m : nat) (xi : nat -> R) (nu : nat -> nat -> R) (V Sk : nat -> R) (k : nat) : R :=
  sumn n (fun i => xi i * nu i k) * V k * Sk k / Cmol2seg n m xi nu V Sk.
(** 267-271 *)
Definition xskl (n m : nat) (xi : nat -> R) (nu : nat -> nat -> R) (V Sk : nat -> R) (k l : nat) : R :=
  xsk n m xi nu V Sk k * xsk n m xi nu V Sk l.

(** 274-311 [calc_zetaxstar] and 314-339 [calc_zetax]: the same formula, with sigma_kl
    and d_kl; [x] is the matrix xskl and [C] the conversion factor *)
Definition packing (m : nat) (rho C : R) (x d : nat -> nat -> R) : R :=
  rho * C * (PI / 6 * sumn m (fun k => sumn m (fun l => x k l * (d k l ^ 3 * molecule_per_nm3)))).

(** 342-361 [calc_KHS] *)
Definition KHS (z : R) : R :=
  (1 - z) ^ 4 / (1 + 4 * z + 4 * z ^ 2 - 4 * z ^ 3 + z ^ 4).

(** 128-217: weights and nodes of the quadrature, in units of 1e-9 *)
Definition quadrature : list (Z * Z) :=
  [(77505948, -38772418); (77505948, 38772418); (77039818, -116084071); (77039818, 116084071);
   (76110362, -192697581); (76110362, 192697581); (74723169, -268152185); (74723169, 268152185);
   (72886582, -341994091); (72886582, 341994091); (70611647, -413779204); (70611647, 413779204);
   (67912046, -483075802); (67912046, 483075802); (64804013, -549467125); (64804013, 549467125);
   (61306242, -612553890); (61306242, 612553890); (57439769, -671956685); (57439769, 671956685);
   (53227847, -727318255); (53227847, 727318255); (48695808, -778305651); (48695808, 778305651);
   (43870908, -824612231); (43870908, 824612231); (38782168, -865959503); (38782168, 865959503);
   (33460195, -902098807); (33460195, 902098807); (27937007, -932812808); (27937007, 932812808);
   (22245849, -957916819); (22245849, 957916819); (16421058, -977259950); (16421058, 977259950);
   (10498285, -990726239); (10498285, 990726239); (4521277, -998237710); (4521277, 998237710)]%Z.
Definition nano (z : Z) : R := IZR z / 1000000000.

(** 73-100 [_dkk_int] *)
Definition dkk_int (r CekT sigma lr la : R) : R :=
  1 - exp (- CekT * (Rpower (sigma / r) lr - Rpower (sigma / r) la)).

(** 103-224 [calc_dkk] *)
Definition calc_dkk (epsilon sigma T Cpre lr la : R) : R :=
  1 / 2 * sigma *
  fold_right (fun wx acc => nano (fst wx) *
     dkk_int (1 / 2 * sigma * (nano (snd wx) + 1)) (Cpre * epsilon / T) sigma lr la + acc) 0 quadrature.

(** 50-70 [calc_hard_sphere_matricies], from the diameters of the beads *)
Definition dkl_of (dkk : nat -> R) (k l : nat) : R := (dkk k + dkk l) / 2.

(** The density argument of the SAFT methods: a python or numpy scalar, a list or
    one-dimensional array, a two-dimensional array, or an array of dimension zero. *)
Inductive density_arg := RScalar (x : num) | RList (l : list num) | RRows (rows : list (list num)) | RZeroDim (x : num).

(** saft.py:677-701 and gamma_sw.py:926-956 [_check_density]; gamma_mie.py:1516-1547 does
    the same.  Densities below zero are compared with < so NaN does not count. *)
Definition check_density (rho : density_arg) : result (list num) :=
  let finish l :=
    if existsb is_nan l then Err ValueError
    else match l with
         | [] => Err ValueError
         | _ => if existsb (fun x => nlt x (Fin 0)) l then Err ValueError else Ok l
         end in
  match rho with
  | RScalar x => finish [x]
  | RList l => finish l
  | RRows [] => Err IndexError                     (* rho[0] *)
  | RRows (r :: _) => finish r
  | RZeroDim _ => Err TypeError                    (* any() of a zero-dimensional array *)
  end.
