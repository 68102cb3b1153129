(** Model of /repo/despasito/equations_of_state/saft/compiled_modules/ext_gamma_mie_python.py
    over the reals.  Every kernel is element-wise in density and in the group pair (or
    component), so one element is modelled.  ext_gamma_mie_numba.py holds the same
    formulas; its [prefactor_1d] prints instead of raising.  [x ** y] with a real exponent
    is [Rpower], which agrees with numpy for positive [x], the only case used. *)
From Coq Require Import Reals.
From Verif Require Import Base SaftToolboxModel.
Open Scope R_scope.

(** 25-44 [prefactor] *)
Definition prefactor_value (lr la : R) : R := lr / (lr - la) * Rpower (lr / la) (la / (lr - la)).
Definition prefactor (lr la : R) : result R :=
  if Req_EM_T lr 0 then Err ValueError else Ok (prefactor_value lr la).

(** 11-18 [ckl_coef], row by row, applied to (1, 1/l, 1/l^2, 1/l^3) *)
Definition coef0 (l : R) := 81096 / 100000 * 1 + 17888 / 10000 * (1 / l) + - 37578 / 1000 * (1 / l ^ 2) + 92284 / 1000 * (1 / l ^ 3).
Definition coef1 (l : R) := 10205 / 10000 * 1 + - 19341 / 1000 * (1 / l) + 15126 / 100 * (1 / l ^ 2) + - 46350 / 100 * (1 / l ^ 3).
Definition coef2 (l : R) := - 19057 / 10000 * 1 + 22845 / 1000 * (1 / l) + - 22814 / 100 * (1 / l ^ 2) + 97392 / 100 * (1 / l ^ 3).
Definition coef3 (l : R) := 10885 / 10000 * 1 + - 61962 / 10000 * (1 / l) + 10698 / 100 * (1 / l ^ 2) + - 67764 / 100 * (1 / l ^ 3).

(** 79-100, 261-280: the effective packing fraction *)
Definition eta_eff (l z : R) : R := z * coef0 l + z * z * coef1 l + z * z * z * coef2 l + z * z * z * z * coef3 l.

(** 47-114 [calc_a1s] and 228-293 [calc_a1s_eff] (same formula) *)
Definition a1s (rho C l z e d : R) : R :=
  - (1 - eta_eff l z / 2) / (1 - eta_eff l z) ^ 3 * 2 * PI * C * (e * (d ^ 3 * molecule_per_nm3 ^ 2) / (l - 3)) * rho.

(** 153, 155-157: the integrals I and J *)
Definition Ikl (x0 l : R) : R := (1 - Rpower x0 (3 - l)) / (l - 3).
Definition Jkl (x0 l : R) : R :=
  (1 - Rpower x0 (4 - l) * (l - 3) + Rpower x0 (3 - l) * (l - 4)) / ((l - 3) * (l - 4)).

(** 117-173 [calc_Bkl] and 296-348 [calc_Bkl_eff] (same formula) *)
Definition Bkl (rho l C d e x0 z : R) : R :=
  C * rho * (2 * PI) * (d ^ 3 * molecule_per_nm3 ^ 2 * e)
  * ((1 - z / 2) / (1 - z) ^ 3 * Ikl x0 l - 9 * z * (1 + z) / (2 * (1 - z) ^ 3) * Jkl x0 l).

(** 176-225 [calc_a1ii] *)
Definition a1ii (rho C d la lr x0 e z : R) : R :=
  prefactor_value lr la
  * (Rpower x0 la / molecule_per_nm3 * (a1s rho C la z e d + Bkl rho la C d e x0 z)
     - Rpower x0 lr / molecule_per_nm3 * (a1s rho C lr z e d + Bkl rho lr C d e x0 z)).

(** 351-417 [calc_da1sii_drhos] *)
Definition rhos_deta (l z : R) : R :=
  z * (coef0 l * 1) + z * z * (coef1 l * 2) + z * z * z * (coef2 l * 3) + z * z * z * z * (coef3 l * 4).
Definition da1s_drhos (l z e d : R) : R :=
  ((1 - eta_eff l z / 2) / (1 - eta_eff l z) ^ 3
   + (5 - 2 * eta_eff l z) / (2 * (1 - eta_eff l z) ^ 4) * rhos_deta l z)
  * (- 2 * PI * (e * (d ^ 3 * molecule_per_nm3 ^ 2) / (l - 3))).

(** 420-474 [calc_dBkl_drhos] *)
Definition dBkl_drhos (l d e x0 z : R) : R :=
  2 * PI * d ^ 3 * e
  * (((1 - z / 2) / (1 - z) ^ 3 * Ikl x0 l - 9 * z * (1 + z) / (2 * (1 - z) ^ 3) * Jkl x0 l)
     + ((5 - 2 * z) * z / (2 * (1 - z) ^ 4) * Ikl x0 l
        - 9 * z * (z ^ 2 + 4 * z + 1) / (2 * (1 - z) ^ 4) * Jkl x0 l))
  * molecule_per_nm3 ^ 2.

(** 477-525 [calc_da1iidrhos]; [prefactor] raises for lr = 0 *)
Definition da1ii_drhos (d la lr x0 e z : R) : result R :=
  let* Cii := prefactor lr la in
  Ok (Cii * (Rpower x0 la * (da1s_drhos la z e d + dBkl_drhos la d e x0 z)
             - Rpower x0 lr * (da1s_drhos lr z e d + dBkl_drhos lr d e x0 z))).

(** 569: the isothermal compressibility, as written here and in saft_toolbox.py *)
Definition KHS_mie (z : R) : R := (1 - z) ^ 4 / (1 + 4 * z + 4 * z ^ 2 - 4 * z ^ 3 + z ^ 4).
(** 570-574 *)
Definition dKHS_drhos (rho C z : R) : R :=
  4 * (z ^ 2 - 5 * z - 2) * (1 - z) ^ 3 / (z ^ 4 - 4 * z ^ 3 + 4 * z ^ 2 + 4 * z + 1) ^ 2 * (z / (rho * C)).

(** 528-611 [calc_da2ii_1pchi_drhos] *)
Definition a2_bracket (rho C d la lr x0 e z : R) : R :=
  Rpower x0 (2 * la) * (a1s rho C (2 * la) z e d + Bkl rho (2 * la) C d e x0 z)
  - 2 * Rpower x0 (la + lr) * (a1s rho C (la + lr) z e d + Bkl rho (la + lr) C d e x0 z)
  + Rpower x0 (2 * lr) * (a1s rho C (2 * lr) z e d + Bkl rho (2 * lr) C d e x0 z).
Definition da2_bracket (d la lr x0 e z : R) : R :=
  Rpower x0 (2 * la) * (da1s_drhos (2 * la) z e d + dBkl_drhos (2 * la) d e x0 z)
  - 2 * Rpower x0 (la + lr) * (da1s_drhos (la + lr) z e d + dBkl_drhos (la + lr) d e x0 z)
  + Rpower x0 (2 * lr) * (da1s_drhos (2 * lr) z e d + dBkl_drhos (2 * lr) d e x0 z).
Definition da2_1pchi_drhos (rho C d la lr x0 e z : R) : result R :=
  let* Cii := prefactor lr la in
  Ok (1 / 2 * e * Cii ^ 2 * da2_bracket d la lr x0 e z * KHS_mie z
      + 1 / 2 * e * Cii ^ 2 * a2_bracket rho C d la lr x0 e z * dKHS_drhos rho C z).
