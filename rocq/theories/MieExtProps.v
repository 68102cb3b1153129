(** C31 (Mie kernels) and C32. *)
From Coq Require Import Reals Lra.
From Coquelicot Require Import Coquelicot.
From Verif Require Import Base SaftToolboxModel MieExtModel.
Open Scope R_scope.

(** ** C31.  The packing fraction is proportional to the segment density: z = q * rhos,
    where rhos = C * rho.  The left-hand sides are the free-energy kernels as functions of
    the segment density. *)
Lemma a1s_derive : forall C q l e d rhos, C <> 0 -> l - 3 <> 0 -> 1 - eta_eff l (q * rhos) <> 0 ->
  is_derive (fun r => a1s (r / C) C l (q * r) e d) rhos (da1s_drhos l (q * rhos) e d).
Proof.
  intros C q l e d rhos HC Hl He.
  assert (Hd : is_derive (fun r => eta_eff l (q * r)) rhos
            (q * (coef0 l + 2 * (q * rhos) * coef1 l + 3 * (q * rhos) ^ 2 * coef2 l + 4 * (q * rhos) ^ 3 * coef3 l))).
  { unfold eta_eff. auto_derive; [exact I | ring]. }
  assert (Hf : forall y, 1 - y <> 0 ->
     is_derive (fun y => (1 - y / 2) / (1 - y) ^ 3) y ((5 - 2 * y) / (2 * (1 - y) ^ 4))).
  { intros y Hy. auto_derive; [ | field; repeat split; assumption].
    repeat apply Rmult_integral_contrapositive_currified; auto; lra. }
  assert (Hc := is_derive_comp (fun y => (1 - y / 2) / (1 - y) ^ 3) (fun r => eta_eff l (q * r)) rhos _ _ (Hf _ He) Hd).
  set (K := e * (d ^ 3 * molecule_per_nm3 ^ 2) / (l - 3)) in *.
  apply (is_derive_ext (fun r => (- 2 * PI * K) * (r * ((1 - eta_eff l (q * r) / 2) / (1 - eta_eff l (q * r)) ^ 3)))).
  { intros t. match goal with |- ?a = ?b => change (@eq R a b) end. unfold a1s. fold K. unfold Rdiv. rewrite !Ropp_mult_distr_l_reverse. 
    transitivity (-((1 - eta_eff l (q * t) * / 2) * / (1 - eta_eff l (q * t)) ^ 3 * 2 * PI * K * t * (C * / C))).
    - rewrite Rinv_r by assumption. ring.
    - ring. }
  replace (da1s_drhos l (q * rhos) e d) with
    (scal (- 2 * PI * K) (plus (scal 1 ((1 - eta_eff l (q * rhos) / 2) / (1 - eta_eff l (q * rhos)) ^ 3))
      (scal rhos (scal (q * (coef0 l + 2 * (q * rhos) * coef1 l + 3 * (q * rhos) ^ 2 * coef2 l + 4 * (q * rhos) ^ 3 * coef3 l)) 
      ((5 - 2 * eta_eff l (q * rhos)) / (2 * (1 - eta_eff l (q * rhos)) ^ 4)))))).
  - apply (is_derive_scal (fun r => r * ((1 - eta_eff l (q * r) / 2) / (1 - eta_eff l (q * r)) ^ 3))).
    apply (is_derive_mult (fun r => r) (fun r => (1 - eta_eff l (q * r) / 2) / (1 - eta_eff l (q * r)) ^ 3)).
    + auto_derive; [exact I | reflexivity].
    + exact Hc.
    + intros; apply Rmult_comm.
  - unfold da1s_drhos. fold K. unfold scal, plus; cbn. unfold mult; cbn.
    set (E := eta_eff l (q * rhos)). unfold rhos_deta. unfold Rdiv. ring.
Qed.

Lemma Bkl_derive : forall C q l d e x0 rhos, C <> 0 -> 1 - q * rhos <> 0 ->
  is_derive (fun r => Bkl (r / C) l C d e x0 (q * r)) rhos (dBkl_drhos l d e x0 (q * rhos)).
Proof.
  intros C q l d e x0 rhos HC Hz. unfold Bkl, dBkl_drhos.
  set (I := Ikl x0 l). set (J := Jkl x0 l). set (N := molecule_per_nm3).
  auto_derive.
  - assert (1 + - (q * rhos) <> 0) by lra. repeat split; auto;
      repeat apply Rmult_integral_contrapositive_currified; auto; lra.
  - field. split; auto.
Qed.

Lemma KHS_mie_den : forall z, 0 <= z -> z < 1 -> 0 < 1 + 4 * z + 4 * z ^ 2 - 4 * z ^ 3 + z ^ 4.
Proof. intros z H0 H1. assert (0 <= z ^ 2 * (4 - 4 * z)) by (apply Rmult_le_pos; [apply pow2_ge_0 | lra]).
  assert (0 <= (z ^ 2) ^ 2) by apply pow2_ge_0. nra. Qed.

Lemma KHS_derive : forall C q rhos, C <> 0 -> rhos <> 0 -> 0 <= q * rhos -> q * rhos < 1 ->
  is_derive (fun r => KHS_mie (q * r)) rhos (dKHS_drhos (rhos / C) C (q * rhos)).
Proof.
  intros C q rhos HC Hr H0 H1. assert (D := KHS_mie_den _ H0 H1). unfold KHS_mie, dKHS_drhos.
  assert (D' : q * rhos * (q * rhos * (q * rhos * (q * rhos))) - 4 * (q * rhos * (q * rhos * (q * rhos))) +
   4 * (q * rhos * (q * rhos)) + 4 * (q * rhos) + 1 <> 0) by (cbn [pow] in D; lra).
  auto_derive.
  - repeat split. cbn [pow] in D |- *. lra.
  - field. repeat split; auto; cbn [pow] in D |- *; lra.
Qed.

(** the second-order energy without its (1 + chi) correction, gamma_mie.py:590-610 *)
Definition a2_1pchi (rho C d la lr x0 e z : R) : R :=
  e * prefactor_value lr la ^ 2 * KHS_mie z / 2 * a2_bracket rho C d la lr x0 e z.

Lemma prefactor_ok : forall lr la, lr <> 0 -> prefactor lr la = Ok (prefactor_value lr la).
Proof. intros lr la H. unfold prefactor. destruct (Req_EM_T lr 0); congruence. Qed.

(** For every state with a positive segment density whose packing fraction is in [0,1)
    and whose effective packing fractions are not 1, the two analytic derivatives the
    chain term uses are the derivatives, with respect to the segment density, of the
    first-order and second-order energies.  The first-order kernel is divided by the
    constant molecule_per_nm3 in calc_a1ii and not in calc_da1iidrhos. *)
Theorem C31_mie : forall C q la lr d e x0 rhos,
  0 < C -> 0 < rhos -> 0 <= q -> q * rhos < 1 -> 3 < la -> la < lr ->
  eta_eff la (q * rhos) <> 1 -> eta_eff lr (q * rhos) <> 1 ->
  eta_eff (2 * la) (q * rhos) <> 1 -> eta_eff (la + lr) (q * rhos) <> 1 -> eta_eff (2 * lr) (q * rhos) <> 1 ->
  exists D1 D2,
    da1ii_drhos d la lr x0 e (q * rhos) = Ok D1
    /\ is_derive (fun r => molecule_per_nm3 * a1ii (r / C) C d la lr x0 e (q * r)) rhos D1
    /\ da2_1pchi_drhos (rhos / C) C d la lr x0 e (q * rhos) = Ok D2
    /\ is_derive (fun r => a2_1pchi (r / C) C d la lr x0 e (q * r)) rhos D2.
Proof.
  intros C q la lr d e x0 rhos HC Hr Hq Hz Hla Hlr E1 E2 E3 E4 E5.
  assert (HC' : C <> 0) by lra. assert (Hz0 : 0 <= q * rhos) by (apply Rmult_le_pos; lra).
  assert (Hz' : 1 - q * rhos <> 0) by lra.
  eexists; eexists; split; [|split; [|split]].
  - unfold da1ii_drhos. rewrite prefactor_ok by lra. reflexivity.
  - assert (HN : molecule_per_nm3 <> 0) by (unfold molecule_per_nm3; lra).
    apply (is_derive_ext (fun r => prefactor_value lr la *
       (Rpower x0 la * (a1s (r / C) C la (q * r) e d + Bkl (r / C) la C d e x0 (q * r)) -
        Rpower x0 lr * (a1s (r / C) C lr (q * r) e d + Bkl (r / C) lr C d e x0 (q * r))))).
    { intros t. match goal with |- ?a = ?b => change (@eq R a b) end. unfold a1ii. field. exact HN. }
    apply (is_derive_scal (fun r => Rpower x0 la * (a1s (r / C) C la (q * r) e d + Bkl (r / C) la C d e x0 (q * r)) -
        Rpower x0 lr * (a1s (r / C) C lr (q * r) e d + Bkl (r / C) lr C d e x0 (q * r)))).
    apply @is_derive_minus; apply @is_derive_scal; apply @is_derive_plus;
      first [apply a1s_derive | apply Bkl_derive]; auto; lra.
  - unfold da2_1pchi_drhos. rewrite prefactor_ok by lra. reflexivity.
  - set (P := prefactor_value lr la).
    assert (HK := KHS_derive C q rhos HC' (Rgt_not_eq _ _ Hr) Hz0 Hz).
    assert (HB : is_derive (fun r => a2_bracket (r / C) C d la lr x0 e (q * r)) rhos (da2_bracket d la lr x0 e (q * rhos))).
    { unfold a2_bracket, da2_bracket.
      apply @is_derive_plus; [apply @is_derive_minus |]; apply @is_derive_scal; apply @is_derive_plus;
        first [apply a1s_derive | apply Bkl_derive]; auto; lra. }
    assert (HM := is_derive_mult _ _ rhos _ _ HK HB (fun a b => Rmult_comm a b)).
    assert (HS := is_derive_scal _ rhos (1 / 2 * e * P ^ 2) _ HM).
    eapply is_derive_ext; [ | evar_last; [exact HS | ] ].
    + intros t. match goal with |- ?a = ?b => change (@eq R a b) end. unfold a2_1pchi. fold P. unfold scal, mult; cbn. unfold mult; cbn. field.
    + match goal with |- ?a = ?b => change (@eq R a b) end. unfold scal, plus, mult; cbn. unfold mult; cbn.
      rewrite (Rmult_comm (KHS_mie (q * rhos)) (da2_bracket d la lr x0 e (q * rhos))). field.
Qed.

(** The terms the two are built from.  (At exponent four the code divides by zero: its
    results are then not numbers.) *)
Theorem C31_mie_terms : forall C q l d e x0 rhos,
  0 < C -> 0 < rhos -> 0 <= q -> q * rhos < 1 -> 3 < l -> eta_eff l (q * rhos) <> 1 ->
  is_derive (fun r => a1s (r / C) C l (q * r) e d) rhos (da1s_drhos l (q * rhos) e d) /\
  is_derive (fun r => Bkl (r / C) l C d e x0 (q * r)) rhos (dBkl_drhos l d e x0 (q * rhos)) /\
  is_derive (fun r => KHS_mie (q * r)) rhos (dKHS_drhos (rhos / C) C (q * rhos)) /\
  rhos_deta l (q * rhos) = rhos * Derive (fun r => eta_eff l (q * r)) rhos.
Proof.
  intros C q l d e x0 rhos HC Hr Hq Hz Hl He. assert (0 <= q * rhos) by (apply Rmult_le_pos; lra).
  split; [apply a1s_derive; lra|]. split; [apply Bkl_derive; lra|]. split; [apply KHS_derive; lra|].
  rewrite (is_derive_unique _ _ (q * (coef0 l + 2 * (q * rhos) * coef1 l + 3 * (q * rhos) ^ 2 * coef2 l + 4 * (q * rhos) ^ 3 * coef3 l))).
  - unfold rhos_deta. ring.
  - unfold eta_eff. auto_derive; [exact I | ring].
Qed.

(** ** C32 *)
(** The Mie potential with the prefactor the code uses. *)
Definition mie_potential (lr la eps sigma r : R) : R :=
  prefactor_value lr la * eps * (Rpower (sigma / r) lr - Rpower (sigma / r) la).

(** weighted arithmetic-geometric inequality in exponential form *)
Lemma exp_bernoulli : forall a u, 1 < a -> a * exp u <= exp (a * u) + (a - 1) /\
  (a * exp u = exp (a * u) + (a - 1) -> u = 0).
Proof.
  intros a u Ha.
  set (m := (exp (a * u) + (a - 1)) / a).
  assert (Hm : 0 < m). { unfold m. apply Rdiv_lt_0_compat; [|lra]. assert (H := exp_pos (a * u)). lra. }
  assert (E1 := exp_ineq1_le (a * u - ln m)). assert (E2 := exp_ineq1_le (- ln m)).
  unfold Rminus in E1. rewrite exp_plus in E1. rewrite exp_Ropp, exp_ln in * by assumption.
  assert (Hid : exp (a * u) * / m + (a - 1) * / m = a).
  { rewrite <- Rmult_plus_distr_r. unfold m. unfold Rdiv.
    assert (H := exp_pos (a * u)). field. split; lra. }
  assert (Hln : u <= ln m).
  { assert ((a - 1) * (1 + - ln m) <= (a - 1) * / m) by (apply Rmult_le_compat_l; lra).
    assert (Hs : a * (u - ln m) <= 0) by (replace ((a - 1) * (1 + - ln m)) with (a - 1 - a * ln m + ln m) in H by ring; lra).
    destruct (Rle_lt_dec u (ln m)) as [|Hgt]; [assumption|exfalso].
    assert (0 < a * (u - ln m)) by (apply Rmult_lt_0_compat; lra). lra. }
  assert (Hle : exp u <= m).
  { rewrite <- (exp_ln m) by assumption. destruct Hln as [h|h]; [left; apply exp_increasing; exact h | rewrite h; lra]. }
  split.
  - unfold m in Hle. apply (Rmult_le_compat_l a) in Hle; [|lra].
    replace (a * ((exp (a * u) + (a - 1)) / a)) with (exp (a * u) + (a - 1)) in Hle by (field; lra). exact Hle.
  - intros Heq. assert (Hm' : exp u = m). { unfold m. rewrite <- Heq. field. lra. }
    assert (Hu : u = ln m) by (rewrite <- Hm', ln_exp; reflexivity).
    destruct (Req_dec u 0) as [|Hn]; [assumption|exfalso].
    assert (Hn' : - ln m <> 0) by (rewrite <- Hu; lra).
    assert (S2 := exp_ineq1 (- ln m) Hn'). rewrite exp_Ropp, exp_ln in S2 by assumption.
    assert ((a - 1) * (1 + - ln m) < (a - 1) * / m) by (apply Rmult_lt_compat_l; lra).
    replace ((a - 1) * (1 + - ln m)) with (a - 1 - a * ln m + ln m) in H by ring. rewrite <- Hu in *. lra.
Qed.

(** For every pair of exponents with 0 < lambda_a < lambda_r and every positive sigma and
    epsilon: the deepest value of the potential over all separations is exactly -epsilon,
    and it is reached at one separation only. *)
Theorem C32_prefactor_minimum : forall lr la eps sigma,
  0 < la -> la < lr -> 0 < eps -> 0 < sigma ->
  exists rmin, 0 < rmin
    /\ mie_potential lr la eps sigma rmin = - eps
    /\ (forall r, 0 < r -> - eps <= mie_potential lr la eps sigma r)
    /\ (forall r, 0 < r -> mie_potential lr la eps sigma r = - eps -> r = rmin).
Proof.
  intros lr la eps sigma Hla Hlt He Hs.
  set (a := lr / la). assert (Ha : 1 < a). { unfold a. apply (Rmult_lt_reg_r la); [assumption|]. unfold Rdiv. rewrite Rmult_assoc, Rinv_l; lra. }
  set (y := ln (la / lr) / (lr - la)).
  assert (Hy : exp (la * y) = a * exp (lr * y)).
  { replace (lr * y) with (la * y + ln (la / lr)) by (unfold y; field; lra).
    rewrite exp_plus, exp_ln by (apply Rdiv_lt_0_compat; lra). unfold a. field. lra. }
  assert (HP : prefactor_value lr la * exp (lr * y) * (a - 1) = 1).
  { assert (Hp : Rpower (lr / la) (la / (lr - la)) = / exp (la * y)).
    { unfold Rpower. rewrite <- exp_Ropp. f_equal. unfold y.
      replace (la / lr) with (/ (lr / la)) by (field; lra).
      rewrite ln_Rinv by (apply Rdiv_lt_0_compat; lra). field. lra. }
    unfold prefactor_value. rewrite Hp, Hy. unfold a. field.
    repeat split; try lra. apply Rgt_not_eq, exp_pos. }
  assert (HPpos : 0 < prefactor_value lr la).
  { unfold prefactor_value. apply Rmult_lt_0_compat; [apply Rdiv_lt_0_compat; lra | apply exp_pos]. }
  assert (Hval : forall r, 0 < r -> let u := la * (ln (sigma / r) - y) in
     mie_potential lr la eps sigma r = - eps + eps * (prefactor_value lr la * exp (lr * y)) * (exp (a * u) + (a - 1) - a * exp u)).
  { intros r Hr u. unfold mie_potential, Rpower.
    replace (lr * ln (sigma / r)) with (lr * y + a * u) by (unfold u, a; field; lra).
    replace (la * ln (sigma / r)) with (la * y + u) by (unfold u; ring).
    rewrite !exp_plus, Hy.
    transitivity (- eps * 1 + eps * (prefactor_value lr la * exp (lr * y)) * (exp (a * u) + (a - 1) - a * exp u)); [|ring].
    replace (- eps * 1) with (- eps * (prefactor_value lr la * exp (lr * y) * (a - 1))) by (rewrite HP; reflexivity). ring. }
  assert (Hk : 0 < eps * (prefactor_value lr la * exp (lr * y))).
  { apply Rmult_lt_0_compat; [assumption|]. apply Rmult_lt_0_compat; [assumption | apply exp_pos]. }
  exists (sigma / exp y).
  assert (Hrm : 0 < sigma / exp y) by (apply Rdiv_lt_0_compat; [assumption | apply exp_pos]).
  split; [exact Hrm | split; [|split]].
  - rewrite Hval by exact Hrm. cbv zeta.
    replace (sigma / (sigma / exp y)) with (exp y) by (field; split; [apply Rgt_not_eq, exp_pos | lra]).
    rewrite ln_exp. replace (la * (y - y)) with 0 by ring. rewrite Rmult_0_r, exp_0. ring.
  - intros r Hr. rewrite Hval by exact Hr. cbv zeta. set (u := la * (ln (sigma / r) - y)).
    destruct (exp_bernoulli a u Ha) as [H _]. assert (0 <= exp (a * u) + (a - 1) - a * exp u) by lra.
    assert (0 <= eps * (prefactor_value lr la * exp (lr * y)) * (exp (a * u) + (a - 1) - a * exp u)) by (apply Rmult_le_pos; lra).
    lra.
  - intros r Hr Heq. rewrite Hval in Heq by exact Hr. cbv zeta in Heq. set (u := la * (ln (sigma / r) - y)) in *.
    assert (Hz : exp (a * u) + (a - 1) - a * exp u = 0).
    { apply (Rmult_eq_reg_l (eps * (prefactor_value lr la * exp (lr * y)))); lra. }
    destruct (exp_bernoulli a u Ha) as [_ H]. assert (Hu : u = 0) by (apply H; lra).
    assert (Hl : ln (sigma / r) = y). { unfold u in Hu. apply Rmult_integral in Hu as [|]; lra. }
    rewrite <- Hl, exp_ln by (apply Rdiv_lt_0_compat; assumption). field. split; lra.
Qed.

(** a Lennard-Jones fluid meets both sets of hypotheses *)
Example C32_lennard_jones : prefactor 12 6 = Ok 4.
Proof. rewrite prefactor_ok by lra. f_equal. unfold prefactor_value.
  replace (6 / (12 - 6)) with 1 by field. rewrite Rpower_1 by lra. field. Qed.
Example C31_nonvacuous : exists la lr z, 3 < la /\ la < lr /\ 0 < z < 1
  /\ eta_eff la z <> 1 /\ eta_eff lr z <> 1 /\ eta_eff (2 * la) z <> 1 /\ eta_eff (la + lr) z <> 1 /\ eta_eff (2 * lr) z <> 1.
Proof. exists 6, 12, (1 / 10). unfold eta_eff, coef0, coef1, coef2, coef3. repeat split; lra. Qed.

Print Assumptions C31_mie.
Print Assumptions C31_mie_terms.
Print Assumptions C32_prefactor_minimum.
