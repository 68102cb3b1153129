(** The Gibbs-Duhem equation for the Peng-Robinson fugacity coefficients (C104) *)
From Coq Require Import Reals Lra Lia.
From Coquelicot Require Import Coquelicot.
From Verif Require Import Base EosToolboxModel RSum PRModel PRSpec PRProofs PRProps PRThermo.
Open Scope R_scope.

(** the weighted sum of the logarithms *)
Lemma weighted_ln_phi s n P rho T (w xi : nat -> R) :
  0 < P -> 0 < T -> (forall k, (k < n)%nat -> 0 <= pr_ai s k * pr_alpha s k) ->
  let c := P / (Rgas * T) in let V := / rho in let a := mix_a s n xi in let b := mix_b s n xi in
  sumn n (fun i => w i * ln_phi s n P rho T xi i) =
  a / b * / (2 * sqrt 2 * (Rgas * T)) * ln ((V + (1 + sqrt 2) * b) / (V + (1 - sqrt 2) * b)) *
    (covolume n (pr_bi s) w / b - 2 * sumn n (fun i => w i * row n (pair_attraction s) xi i) / a)
  + covolume n (pr_bi s) w * (c * V - 1) / b - sumn n w * ln (c * V - b * c).
Proof.
  intros HP HT Hnn c V a b. pose proof Rgas_pos as HR. pose proof sqrt2_bounds as [Q1 Q2].
  assert (Ht : 0 < Rgas * T) by (apply Rmult_lt_0_compat; lra).
  assert (Hc : 0 < c) by (unfold c; apply Rdiv_lt_0_compat; assumption).
  rewrite (sumn_ext n _ (fun i =>
    a / b * / (2 * sqrt 2 * (Rgas * T)) * ln ((V + (1 + sqrt 2) * b) / (V + (1 - sqrt 2) * b)) * / b * (w i * pr_bi s i)
    + (- 2 * (a / b * / (2 * sqrt 2 * (Rgas * T)) * ln ((V + (1 + sqrt 2) * b) / (V + (1 - sqrt 2) * b))) * / a) * (w i * row n (pair_attraction s) xi i)
    + ((c * V - 1) / b * (w i * pr_bi s i) + - ln (c * V - b * c) * w i))).
  - rewrite !sumn_plus, !sumn_scal. unfold covolume. unfold Rdiv. ring.
  - intros i Hi. unfold ln_phi. fold a b.
    set (RT := Rgas * T) in *.
    assert (EZ : P / (RT * rho) = c * V) by (unfold c, V, Rdiv; rewrite Rinv_mult; ring). rewrite EZ.
    assert (EB : b * P / RT = b * c) by (unfold c, Rdiv; ring). rewrite EB.
    assert (EL : (c * V + (1 + sqrt 2) * (b * c)) / (c * V + (1 - sqrt 2) * (b * c)) = (V + (1 + sqrt 2) * b) / (V + (1 - sqrt 2) * b)).
    { replace (c * V + (1 + sqrt 2) * (b * c)) with (c * (V + (1 + sqrt 2) * b)) by ring.
      replace (c * V + (1 - sqrt 2) * (b * c)) with (c * (V + (1 - sqrt 2) * b)) by ring.
      unfold Rdiv. rewrite Rinv_mult. set (y := / (V + (1 - sqrt 2) * b)). field. lra. }
    rewrite EL. set (L := ln ((V + (1 + sqrt 2) * b) / (V + (1 - sqrt 2) * b))). set (M := ln (c * V - b * c)).
    assert (ES : sumn n (fun j => xi j * (sqrt (pr_ai s i * pr_alpha s i * P / RT ^ 2 * (pr_ai s j * pr_alpha s j * P / RT ^ 2)) * (1 - pr_kij s i j)))
       = P / RT ^ 2 * row n (pair_attraction s) xi i).
    { unfold row, pair_attraction. rewrite <- sumn_scal. apply sumn_ext. intros j Hj.
      assert (Hc' : 0 <= P / RT ^ 2) by (left; apply Rdiv_lt_0_compat; [exact HP|apply pow_lt; exact Ht]).
      replace (pr_ai s i * pr_alpha s i * P / RT ^ 2 * (pr_ai s j * pr_alpha s j * P / RT ^ 2))
        with ((P / RT ^ 2) * (P / RT ^ 2) * (pr_ai s i * pr_alpha s i * pr_ai s j * pr_alpha s j)) by (field; lra).
      rewrite sqrt_mult.
      - rewrite sqrt_square by exact Hc'. ring.
      - apply Rmult_le_pos; exact Hc'.
      - replace (pr_ai s i * pr_alpha s i * pr_ai s j * pr_alpha s j) with ((pr_ai s i * pr_alpha s i) * (pr_ai s j * pr_alpha s j)) by ring.
        apply Rmult_le_pos; apply Hnn; assumption. }
    rewrite ES. set (S := row n (pair_attraction s) xi i).
    replace (P / RT ^ 2) with (c / RT) by (unfold c; field; lra).
    replace (a * P / RT ^ 2) with (a * (c / RT)) by (unfold c; field; lra).
    replace (pr_bi s i * P / RT) with (pr_bi s i * c) by (unfold c; field; lra).
    clearbody c L M S. unfold Rdiv. rewrite !Rinv_mult, ?Rinv_inv.
    set (ia := / a). set (ib := / b). assert (0 < sqrt 2) by lra. field. repeat split; lra.
Qed.

(** derivative of the sum along a path *)
Lemma derive_sum (c RT b0 : R) (a b C V : R -> R) t da db dV :
  0 < c -> 0 < RT -> is_derive a t da -> is_derive b t db -> is_derive C t (da / 2) -> is_derive V t dV ->
  b t = b0 -> C t = a t -> a t <> 0 -> 0 < b0 -> b0 < V t ->
  c = / (V t - b0) - a t / RT / (V t * V t + 2 * V t * b0 - b0 * b0) ->
  is_derive (fun t => a t / b t * / (2 * sqrt 2 * RT) * ln ((V t + (1 + sqrt 2) * b t) / (V t + (1 - sqrt 2) * b t)) *
     (b0 / b t - 2 * C t / a t) + b0 * (c * V t - 1) / b t - 1 * ln (c * V t - b t * c)) t 0.
Proof.
  intros Hc HRT Da Db DC DV Eb EC Na Hb HV Ec. pose proof sqrt2 as Q. pose proof sqrt2_bounds as [Q1 Q2].
  set (r := sqrt 2) in *.
  assert (P1 : 0 < V t + (1 + r) * b0) by nra.
  assert (P2 : 0 < V t + (1 - r) * b0) by nra.
  assert (P3 : 0 < V t * V t + 2 * V t * b0 - b0 * b0) by nra.
  assert (L2 : 0 < (V t + (1 + r) * b0) / (V t + (1 - r) * b0)) by (apply Rdiv_lt_0_compat; assumption).
  assert (L1 : 0 < c * V t - b0 * c) by nra.
  assert (Xa : ex_derive a t) by now exists da. assert (Xb : ex_derive b t) by now exists db.
  assert (XC : ex_derive C t) by now exists (da / 2). assert (XV : ex_derive V t) by now exists dV.
  auto_derive.
  - rewrite Eb. change (1 + - r) with (1 - r). repeat split; try assumption; try lra; try nra.
  - change (Derive (fun x => a x) t) with (Derive a t). change (Derive (fun x => b x) t) with (Derive b t).
    change (Derive (fun x => C x) t) with (Derive C t). change (Derive (fun x => V x) t) with (Derive V t).
    rewrite (is_derive_unique _ _ _ Da), (is_derive_unique _ _ _ Db), (is_derive_unique _ _ _ DC), (is_derive_unique _ _ _ DV), EC, Eb.
    change (1 + - r) with (1 - r). set (LB := ln _). generalize LB; intros L.
    set (v := V t) in *. set (A := a t) in *. clearbody v A. clear Xa Xb XC XV Da Db DC DV Eb EC LB L2.
    assert (Hv : 0 < v - b0) by lra.
    assert (E2 : (c * (1 * dV) + - (1 * db * c)) * / (c * v + - (b0 * c)) = (dV - db) / (v - b0)).
    { replace (c * v + - (b0 * c)) with (c * (v - b0)) by ring. field. lra. }
    assert (D : v * v + 2 * v * b0 - b0 * b0 = (v + (1 + r) * b0) * (v + (1 - r) * b0)) by ring [Q].
    assert (E1 : ((1 * dV + (1 + r) * (1 * db)) * / (v + (1 - r) * b0) +
      (v + (1 + r) * b0) * (- (1 * dV + (1 - r) * (1 * db)) * / ((v + (1 - r) * b0) * (v + (1 - r) * b0)))) *
      / ((v + (1 + r) * b0) * / (v + (1 - r) * b0)) = 2 * r * (v * db - b0 * dV) / (v * v + 2 * v * b0 - b0 * b0)).
    { rewrite D. field. split; lra. }
    rewrite E1, E2, Ec. set (dd := v * v + 2 * v * b0 - b0 * b0) in *.
    assert (E3 : forall X : R, (1 * da * / b0 + A * (- (1 * db) * / (b0 * b0))) * / (2 * r * RT) * L * (b0 * / b0 + - (2 * A * / A)) +
       A * / b0 * / (2 * r * RT) * L * (b0 * (- (1 * db) * / (b0 * b0)) + - (2 * (1 * (da / 2)) * / A + 2 * A * (- (1 * da) * / (A * A)))) = 0).
    { intros _. field. repeat split; lra. }
    assert (E4 : A * / b0 * / (2 * r * RT) * (2 * r * (v * db - b0 * dV) / dd) * (b0 * / b0 + - (2 * A * / A))
       + (b0 * ((/ (v - b0) - A / RT / dd) * (1 * dV)) * / b0 + b0 * ((/ (v - b0) - A / RT / dd) * v + - (1)) * (- (1 * db) * / (b0 * b0)))
       + - (1 * ((dV - db) / (v - b0))) = 0).
    { field. repeat split; lra. }
    specialize (E3 0). rewrite <- (Rplus_0_r 0). rewrite <- E3 at 1. rewrite <- E4. ring.
Qed.

(** C104, the Gibbs-Duhem equation: whatever way composition and density change, the logarithms of the fugacity coefficients at
    fixed pressure and temperature, weighted with the mole fractions, do not change to first order - at every state on the
    surface P(rho, T, x).  In particular along the isobar. *)
Theorem C104_gibbs_duhem : forall beads lib cl s T s1 P (x : R -> nat -> R) (rho : R -> R) t v r,
  let n := length beads in
  init beads lib cl = Ok s -> at_temperature s T = Ok s1 ->
  0 < T -> 0 < P -> total n (x t) = 1 ->
  (forall k, (k < n)%nat -> 0 <= pr_ai s1 k * pr_alpha s1 k) ->
  0 < rho t -> 0 < covolume n (pr_bi s1) (x t) -> covolume n (pr_bi s1) (x t) * rho t < 1 ->
  attraction n (pair_attraction s1) (x t) <> 0 ->
  outcome (pressure s (rho t :: nil) T (x t)) = Ok (P :: nil) ->
  (forall i, (i < n)%nat -> is_derive (fun u => x u i) t (v i)) -> is_derive rho t r ->
  exists lnphi : R -> nat -> R,
    (forall u i, (i < n)%nat -> exists phi, outcome_at i (fugacity_coefficient s P (rho u) T (x u)) = Ok phi /\ lnphi u i = ln phi) /\
    is_derive (fun u => sumn n (fun i => x t i * lnphi u i)) t 0.
Proof.
  intros beads lib cl s T s1 P x rho t v r n HI HT HTp HP HN Hnn HRho Hb Hbr Ha Hpr Dx Dr.
  destruct (init_symmetric beads lib cl s T s1 HI HT) as [EB Sy]. fold n in Sy.
  pose proof Rgas_pos as HR.
  exists (fun u i => ln_phi s1 n P (rho u) T (x u) i). split.
  - intros u i Hi. exists (exp (ln_phi s1 n P (rho u) T (x u) i)). split; [|now rewrite ln_exp].
    unfold outcome_at, fugacity_coefficient. rewrite HT. cbn [rbind snd]. rewrite EB. reflexivity.
  - assert (Ht : 0 < Rgas * T) by (apply Rmult_lt_0_compat; lra).
    set (w := pair_attraction s1) in *.
    assert (Ws : forall i j, (i < n)%nat -> (j < n)%nat -> w i j = w j i).
    { intros i j Hi Hj. unfold w, pair_attraction. rewrite (Sy i j Hi Hj). f_equal. f_equal. ring. }
    set (a := fun u => mix_a s1 n (x u)). set (b := fun u => mix_b s1 n (x u)).
    set (C := fun u => sumn n (fun i => x t i * row n w (x u) i)).
    set (V := fun u => / rho u).
    set (db := sumn n (fun i => v i * pr_bi s1 i)).
    set (dC := sumn n (fun i => x t i * row n w v i)).
    assert (Db : is_derive b t db).
    { unfold b, mix_b, db. apply (is_derive_sumn n (fun i u => x u i * pr_bi s1 i)). intros i Hi.
      pose proof (is_derive_scal_l (fun u => x u i) t (v i) (pr_bi s1 i) (Dx i Hi)) as D.
      apply (is_derive_ext (fun u => scal (x u i) (pr_bi s1 i))); [reflexivity|exact D]. }
    assert (Drow : forall i, is_derive (fun u => row n w (x u) i) t (row n w v i)).
    { intros i. unfold row. apply (is_derive_sumn n (fun j u => x u j * w i j)). intros j Hj.
      pose proof (is_derive_scal_l (fun u => x u j) t (v j) (w i j) (Dx j Hj)) as D.
      apply (is_derive_ext (fun u => scal (x u j) (w i j))); [reflexivity|exact D]. }
    assert (DC : is_derive C t dC).
    { unfold C, dC. apply (is_derive_sumn n (fun i u => x t i * row n w (x u) i)). intros i Hi.
      apply (is_derive_scal (fun u => row n w (x u) i)). apply Drow. }
    assert (Da : is_derive a t (2 * dC)).
    { apply (is_derive_ext (fun u => sumn n (fun i => x u i * row n w (x u) i))).
      { intros u. unfold a. rewrite mix_a_attraction. fold w. unfold attraction, row. apply sumn_ext. intros i _. rewrite <- sumn_scal.
        apply sumn_ext. intros; ring. }
      replace (2 * dC) with (sumn n (fun i => v i * row n w (x t) i + x t i * row n w v i)).
      - apply (is_derive_sumn n (fun i u => x u i * row n w (x u) i)). intros i Hi.
        apply (is_derive_mult (fun u => x u i) (fun u => row n w (x u) i)); [apply Dx; exact Hi|apply Drow|intros; apply Rmult_comm].
      - rewrite sumn_plus. fold dC. enough (sumn n (fun i => v i * row n w (x t) i) = dC) as -> by ring.
        unfold dC, row.
        rewrite (sumn_ext n _ (fun i => sumn n (fun j => v i * (x t j * w i j)))) by (intros; now rewrite sumn_scal).
        rewrite sumn_swap. apply sumn_ext. intros i Hi. rewrite <- sumn_scal. apply sumn_ext. intros j Hj. rewrite (Ws j i) by assumption. ring. }
    assert (DV : is_derive V t (- r / rho t ^ 2)).
    { unfold V. apply (is_derive_inv rho); [exact Dr|lra]. }
    apply (is_derive_ext (fun u => a u / b u * / (2 * sqrt 2 * (Rgas * T)) * ln ((V u + (1 + sqrt 2) * b u) / (V u + (1 - sqrt 2) * b u)) *
      (covolume n (pr_bi s1) (x t) / b u - 2 * C u / a u) + covolume n (pr_bi s1) (x t) * (P / (Rgas * T) * V u - 1) / b u
      - 1 * ln (P / (Rgas * T) * V u - b u * (P / (Rgas * T))))).
    { intros u. pose proof (weighted_ln_phi s1 n P (rho u) T (x t) (x u) HP HTp Hnn) as W. cbv zeta in W.
      rewrite W. unfold total in HN. rewrite HN. reflexivity. }
    assert (EP : P = pressure_formula (a t) (b t) T (rho t)).
    { unfold pressure, outcome in Hpr. rewrite HT in Hpr. cbn [rbind snd map] in Hpr. rewrite EB in Hpr. fold n in Hpr.
      injection Hpr as <-. reflexivity. }
    assert (Ebt : b t = covolume n (pr_bi s1) (x t)) by reflexivity.
    assert (Eat : a t = attraction n w (x t)) by (unfold a; apply mix_a_attraction).
    set (b0 := covolume n (pr_bi s1) (x t)) in *.
    destruct (denom_pos b0 (rho t) Hb (Rlt_le _ _ HRho) Hbr) as [D1 D2].
    apply (derive_sum (P / (Rgas * T)) (Rgas * T) b0 a b C V t (2 * dC) db (- r / rho t ^ 2)); auto.
    + apply Rdiv_lt_0_compat; assumption.
    + replace (2 * dC / 2) with dC by field. exact DC.
    + rewrite Eat. unfold C, attraction, row. apply sumn_ext. intros i _. rewrite <- sumn_scal. apply sumn_ext. intros; ring.
    + rewrite Eat. exact Ha.
    + unfold V. apply (Rmult_lt_reg_r (rho t)); [exact HRho|]. rewrite Rinv_l by lra. exact Hbr.
    + rewrite EP, Ebt. unfold pressure_formula, V. field. repeat split; try lra; try nra.
Qed.
