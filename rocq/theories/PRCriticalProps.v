(** C123: the critical temperature and pressure given for a component are those of its Peng-Robinson fluid. *)
From Coq Require Import Reals Lra Psatz.
From Coquelicot Require Import Coquelicot.
From Verif Require Import Base BaseFacts EosToolboxModel EosToolboxSpec RSum PRModel PRSpec PRProofs PRProps PRThermo.
Open Scope R_scope.

(** A pure fluid of which the critical temperature, critical pressure and acentric factor are given. *)
Definition fluid (name : string) (Tc Pc w : R) : dict (dict R) :=
  (name, ("Tc"%string, Tc) :: ("Pc"%string, Pc) :: ("omega"%string, w) :: nil) :: nil.

(** The method [pressure] returns [p] at one density, for the pure fluid. *)
Definition pressure_is (s : pr) (T rho p : R) : Prop :=
  outcome (pressure s [rho] T (fun _ => 1)) = Ok [p].

Lemma slope_at a b T rho : 0 < b -> 0 <= rho -> b * rho < 1 ->
  is_derive (pressure_formula a b T) rho
    (Rgas * T / (1 - b * rho) ^ 2
     - 2 * a * rho * (1 + b * rho) / (1 + 2 * (b * rho) - (b * rho) ^ 2) ^ 2).
Proof.
  intros B Rh L. destruct (denom_pos b rho B Rh L) as [D1 D2]. unfold pressure_formula. auto_derive.
  - split; [lra|]. split; [|exact I].
    replace (1 + b * rho + rho * b * (1 + - (b * rho))) with (1 + b * rho + rho * b * (1 - b * rho)) by ring. lra.
  - field. split; [|lra].
    replace (1 + 2 * (b * rho) - (b * rho) ^ 2) with (1 + b * rho + rho * b * (1 - b * rho)) by ring. lra.
Qed.

(** The polynomial whose sign is that of the slope, above and at the critical temperature. *)
Lemma above_poly A x : A <= 5877355 / 1000000 -> 0 <= x < 1 ->
  2 * A * x * (1 + x) * (1 - x) ^ 2 < (1 + 2 * x - x ^ 2) ^ 2.
Proof.
  intros HA Hx. set (A1 := 5877355 / 1000000) in *.
  assert (H0 : 0 <= x * (1 + x) * (1 - x) ^ 2).
  { apply Rmult_le_pos; [apply Rmult_le_pos; lra|apply pow2_ge_0]. }
  assert (H1 : 2 * A * x * (1 + x) * (1 - x) ^ 2 <= 2 * A1 * (x * (1 + x) * (1 - x) ^ 2)).
  { replace (2 * A * x * (1 + x) * (1 - x) ^ 2) with (2 * A * (x * (1 + x) * (1 - x) ^ 2)) by ring.
    apply Rmult_le_compat_r; [exact H0|lra]. }
  set (r := 2530766 / 10000000).
  set (q2 := 1 - 2 * A1). set (q1 := -4 + 2 * A1 + 2 * r * q2). set (q0 := 2 + 2 * A1 + 2 * r * q1 - r ^ 2 * q2).
  assert (E : (1 + 2 * x - x ^ 2) ^ 2 - 2 * A1 * (x * (1 + x) * (1 - x) ^ 2)
    = (x - r) ^ 2 * (q2 * x ^ 2 + q1 * x + q0) + ((4 - 2 * A1 + 2 * r * q0 - r ^ 2 * q1) * x + (1 - r ^ 2 * q0))).
  { unfold q0, q1, q2. ring. }
  assert (Q : 0 < q2 * x ^ 2 + q1 * x + q0).
  { unfold q0, q1, q2, r, A1. nra. }
  assert (C1 : 0 < 4 - 2 * A1 + 2 * r * q0 - r ^ 2 * q1) by (unfold q0, q1, q2, r, A1; lra).
  assert (C0 : 0 < 1 - r ^ 2 * q0) by (unfold q0, q1, q2, r, A1; lra).
  assert (0 <= (x - r) ^ 2 * (q2 * x ^ 2 + q1 * x + q0)) by (apply Rmult_le_pos; [apply pow2_ge_0|lra]).
  assert (0 <= (4 - 2 * A1 + 2 * r * q0 - r ^ 2 * q1) * x) by (apply Rmult_le_pos; lra).
  lra.
Qed.

Lemma below_poly A : 5877366 / 1000000 <= A ->
  let x := 2530766 / 10000000 in
  (1 + 2 * x - x ^ 2) ^ 2 < 2 * A * x * (1 + x) * (1 - x) ^ 2.
Proof.
  intros HA x. assert (H0 : 0 < x * (1 + x) * (1 - x) ^ 2) by (unfold x; lra).
  assert (H1 : 2 * (5877366 / 1000000) * (x * (1 + x) * (1 - x) ^ 2) <= 2 * A * (x * (1 + x) * (1 - x) ^ 2)).
  { apply Rmult_le_compat_r; lra. }
  assert (H2 : (1 + 2 * x - x ^ 2) ^ 2 < 2 * (5877366 / 1000000) * (x * (1 + x) * (1 - x) ^ 2)) by (unfold x; lra).
  lra.
Qed.

Lemma slope_reduced A b T rho : 0 < b -> 0 < T -> 0 <= rho -> b * rho < 1 ->
  Rgas * T / (1 - b * rho) ^ 2 - 2 * (A * b * Rgas * T) * rho * (1 + b * rho) / (1 + 2 * (b * rho) - (b * rho) ^ 2) ^ 2
  = Rgas * T / ((1 - b * rho) ^ 2 * (1 + 2 * (b * rho) - (b * rho) ^ 2) ^ 2)
    * ((1 + 2 * (b * rho) - (b * rho) ^ 2) ^ 2 - 2 * A * (b * rho) * (1 + b * rho) * (1 - b * rho) ^ 2).
Proof.
  intros B HT Rh L. destruct (denom_pos b rho B Rh L) as [D1 D2].
  field. split; [|lra].
  replace (1 + 2 * (b * rho) - (b * rho) ^ 2) with (1 + b * rho + rho * b * (1 - b * rho)) by ring. lra.
Qed.

Lemma scale_pos b T rho : 0 < b -> 0 < T -> 0 <= rho -> b * rho < 1 ->
  0 < Rgas * T / ((1 - b * rho) ^ 2 * (1 + 2 * (b * rho) - (b * rho) ^ 2) ^ 2).
Proof.
  intros B HT Rh L. destruct (denom_pos b rho B Rh L) as [D1 D2]. pose proof Rgas_pos.
  apply Rdiv_lt_0_compat; [nra|]. apply Rmult_lt_0_compat; apply pow_lt; [lra|].
  replace (1 + 2 * (b * rho) - (b * rho) ^ 2) with (1 + b * rho + rho * b * (1 - b * rho)) by ring. lra.
Qed.

Lemma increasing_above A b T : A <= 5877355 / 1000000 -> 0 < b -> 0 < T ->
  forall r1 r2, 0 < r1 < r2 -> b * r2 < 1 -> pressure_formula (A * b * Rgas * T) b T r1 < pressure_formula (A * b * Rgas * T) b T r2.
Proof.
  intros HA B HT r1 r2 [H1 H2] H3.
  assert (In_ : forall x, 0 < x -> x < 1 / b -> b * x < 1).
  { intros x _ Hx. apply (Rmult_lt_compat_l b) in Hx; [|exact B]. replace (b * (1 / b)) with 1 in Hx by (field; lra). exact Hx. }
  apply (incr_function (pressure_formula (A * b * Rgas * T) b T) 0 (1 / b)
    (fun rho => Rgas * T / (1 - b * rho) ^ 2
     - 2 * (A * b * Rgas * T) * rho * (1 + b * rho) / (1 + 2 * (b * rho) - (b * rho) ^ 2) ^ 2)).
  - intros x Hx Hx2. apply slope_at; [exact B|cbn in Hx; lra|]. apply In_; assumption.
  - intros x Hx Hx2. cbn in Hx, Hx2. assert (Hb : b * x < 1) by (apply In_; assumption).
    rewrite slope_reduced by (try assumption; lra). apply Rmult_lt_0_compat; [apply scale_pos; try assumption; lra|].
    assert (0 <= b * x) by (apply Rmult_le_pos; lra).
    pose proof (above_poly A (b * x) HA ltac:(lra)). lra.
  - cbn. lra.
  - exact H2.
  - cbn. apply (Rmult_lt_reg_l b); [exact B|]. replace (b * (1 / b)) with 1 by (field; lra). exact H3.
Qed.

Lemma decreasing_below A b T : 5877366 / 1000000 <= A -> 0 < b -> 0 < T ->
  exists r1 r2, 0 < r1 < r2 /\ b * r2 < 1 /\ pressure_formula (A * b * Rgas * T) b T r2 < pressure_formula (A * b * Rgas * T) b T r1.
Proof.
  intros HA B HT. set (r := 2530766 / 10000000 / b).
  assert (Hr : 0 < r) by (unfold r; apply Rdiv_lt_0_compat; lra).
  assert (Ebr : b * r = 2530766 / 10000000) by (unfold r; field; lra).
  pose proof (slope_at (A * b * Rgas * T) b T r B ltac:(lra) ltac:(lra)) as D.
  rewrite slope_reduced in D by (try assumption; lra).
  pose proof (scale_pos b T r B HT ltac:(lra) ltac:(lra)) as S.
  pose proof (below_poly A HA) as Pn. cbn zeta in Pn. rewrite <- Ebr in Pn.
  set (d := Rgas * T / ((1 - b * r) ^ 2 * (1 + 2 * (b * r) - (b * r) ^ 2) ^ 2)
    * ((1 + 2 * (b * r) - (b * r) ^ 2) ^ 2 - 2 * A * (b * r) * (1 + b * r) * (1 - b * r) ^ 2)) in *.
  assert (Hd : d < 0). { unfold d. nra. }
  apply is_derive_Reals in D. destruct (D (- d / 2) ltac:(lra)) as [delta Hdel].
  set (h := Rmin (delta / 2) (1 / (2 * b))).
  assert (Hdp := cond_pos delta). assert (H2b : 0 < 1 / (2 * b)) by (apply Rdiv_lt_0_compat; lra).
  assert (Hh : 0 < h) by (unfold h; apply Rmin_glb_lt; lra).
  assert (Hh1 : h < delta) by (unfold h; pose proof (Rmin_l (delta / 2) (1 / (2 * b))); lra).
  assert (Hh2 : h <= 1 / (2 * b)) by (unfold h; apply Rmin_r).
  exists r, (r + h). split; [lra|]. split.
  - apply (Rmult_le_compat_l b) in Hh2; [|lra]. replace (b * (1 / (2 * b))) with (1 / 2) in Hh2 by (field; lra).
    rewrite Rmult_plus_distr_l, Ebr. lra.
  - specialize (Hdel h ltac:(lra)). rewrite Rabs_pos_eq in Hdel by lra. specialize (Hdel Hh1).
    apply Rabs_lt_between in Hdel. destruct Hdel as [_ Hdel].
    set (f := pressure_formula (A * b * Rgas * T) b T) in *.
    assert (Hq : (f (r + h) - f r) / h < 0) by lra.
    apply (Rmult_lt_compat_r h) in Hq; [|exact Hh]. unfold Rdiv in Hq. rewrite Rmult_assoc, Rinv_l, Rmult_1_r, Rmult_0_l in Hq by lra. lra.
Qed.

Definition acentric_kappa (w : R) : R := 37464 / 100000 + 154226 / 100000 * w - 26992 / 100000 * w ^ 2.

Lemma fluid_pressure name Tc Pc w s T : 0 < Tc -> 0 < Pc -> 0 < T -> init [name] (fluid name Tc Pc w) [] = Ok s ->
  let b := 7779607 / 100000000 * (Rgas * Tc / Pc) in
  let A := 45723553 / 7779607 * (1 + acentric_kappa w * (1 - sqrt (T / Tc))) ^ 2 * (Tc / T) in
  0 < b /\ forall rho, pressure_is s T rho (pressure_formula (A * b * Rgas * T) b T rho).
Proof.
  intros HTc HPc HT E b A. pose proof Rgas_pos as HR.
  assert (Hb : 0 < b). { unfold b. apply Rmult_lt_0_compat; [lra|]. apply Rdiv_lt_0_compat; nra. }
  split; [exact Hb|]. intros rho.
  unfold fluid, init in E. cbn [mapM] in E. unfold bead_flags, dfetch, dmem in E. cbn [dget] in E. rewrite !String.eqb_refl in E.
  cbn -[IZR Rgas Rdiv Rmult Rplus Rminus pow sqrt parameter_refresh] in E.
  unfold parameter_refresh in E. unfold beads_of, lib_of, cross_of in E. cbn [pr_par ep_beads ep_bead_library derive_beads pr_critical pr_given ep_cross_library pr_T] in E.
  unfold dfetch in E. cbn [dget] in E. rewrite String.eqb_refl in E. cbn -[IZR Rgas Rdiv Rmult Rplus Rminus pow sqrt] in E.
  rewrite String.eqb_refl in E. injection E as E.
  assert (E1 : exists s1, at_temperature s T = Ok s1 /\ beads_of s1 = [name] /\ pr_kij s1 0%nat 0%nat = 0 /\
    pr_bi s1 0%nat = b /\ pr_ai s1 0%nat = 45723553 / 100000000 * (Rgas * Tc) ^ 2 / Pc /\
    pr_alpha s1 0%nat = (1 + acentric_kappa w * (1 - sqrt (T / Tc))) ^ 2).
  { rewrite <- E. unfold at_temperature. cbn [pr_T]. unfold calc_temp_dependent, beads_of, lib_of. cbn [pr_par ep_beads ep_bead_library mapM].
    unfold alpha_entry, dfetch. cbn [dget]. rewrite String.eqb_refl.
    cbn -[IZR Rgas Rdiv Rmult Rplus Rminus pow sqrt]. eexists. split; [reflexivity|]. cbn -[IZR Rgas Rdiv Rmult Rplus Rminus pow sqrt].
    repeat split; reflexivity. }
  destruct E1 as (s1 & E1 & Eb & Ek & Ebi & Eai & Eal).
  assert (Ha : 0 <= pr_ai s1 0%nat * pr_alpha s1 0%nat).
  { rewrite Eai, Eal. apply Rmult_le_pos; [|apply pow2_ge_0].
    apply Rmult_le_pos; [|apply Rlt_le, Rinv_0_lt_compat; exact HPc].
    apply Rmult_le_pos; [lra|apply pow2_ge_0]. }
  unfold pressure_is. rewrite (pressure_one s s1 T rho E1 ltac:(rewrite Eb; reflexivity) Ha Ek).
  do 2 f_equal. rewrite Eai, Eal, Ebi. f_equal. unfold A, b. field. repeat split; lra.
Qed.

Lemma ratio_le a c T : 0 < c -> 0 < T -> a * c <= T -> a / T <= / c.
Proof.
  intros Hc HT H. apply Rle_div_l; [exact HT|]. rewrite Rmult_comm. apply Rle_div_r; [exact Hc|]. exact H.
Qed.
Lemma ratio_ge a c T : 0 < c -> 0 < T -> T <= a * c -> / c <= a / T.
Proof.
  intros Hc HT H. apply Rle_div_r; [exact HT|]. rewrite Rmult_comm. apply Rle_div_l; [exact Hc|]. exact H.
Qed.

(** The fluid is the one the user describes. *)
Section Fluid.
  Variable name : string.
  Variables Tc Pc w : R.
  Hypothesis HTc : 0 < Tc.
  Hypothesis HPc : 0 < Pc.
  Hypothesis Hw : - (2 / 10) <= w <= 1.
  (** the close-packed density *)
  Let packed : R := Pc / (7779607 / 100000000 * 831446261815324 / 10 ^ 14 * Tc).

  Lemma kappa_range : 0 <= acentric_kappa w <= 2.
  Proof. unfold acentric_kappa. nra. Qed.

  Lemma packed_b rho : rho < packed -> 7779607 / 100000000 * (Rgas * Tc / Pc) * rho < 1.
  Proof.
    intros H. pose proof Rgas_pos. assert (Hb : 0 < 7779607 / 100000000 * (Rgas * Tc / Pc)).
    { apply Rmult_lt_0_compat; [lra|]. apply Rdiv_lt_0_compat; nra. }
    apply (Rmult_lt_compat_l _ _ _ Hb) in H.
    replace (7779607 / 100000000 * (Rgas * Tc / Pc) * packed) with 1 in H; [exact H|].
    unfold packed, Rgas. field. repeat split; lra.
  Qed.
  Lemma packed_of rho : 7779607 / 100000000 * (Rgas * Tc / Pc) * rho < 1 -> rho < packed.
  Proof.
    intros H. pose proof Rgas_pos. assert (Hb : 0 < 7779607 / 100000000 * (Rgas * Tc / Pc)).
    { apply Rmult_lt_0_compat; [lra|]. apply Rdiv_lt_0_compat; nra. }
    apply (Rmult_lt_reg_l _ _ _ Hb).
    replace (7779607 / 100000000 * (Rgas * Tc / Pc) * packed) with 1; [exact H|].
    unfold packed, Rgas. field. repeat split; lra.
  Qed.

(** C123: above the given critical temperature (by one part in a million, up to four times it) the pressure
    rises with density all the way to close packing: one phase only. *)
Theorem C123_one_phase_above : forall s T, init [name] (fluid name Tc Pc w) [] = Ok s ->
  Tc * (1 + 1 / 10 ^ 6) <= T <= 4 * Tc ->
  forall r1 r2, 0 < r1 < r2 -> r2 < packed ->
  exists p1 p2, pressure_is s T r1 p1 /\ pressure_is s T r2 p2 /\ p1 < p2.
Proof.
  intros s T E HT r1 r2 H1 H2. assert (HT0 : 0 < T) by nra.
  destruct (fluid_pressure name Tc Pc w s T HTc HPc HT0 E) as [Hb HP].
  eexists _, _. split; [apply HP|]. split; [apply HP|].
  apply increasing_above; [|exact Hb|exact HT0|exact H1|apply packed_b; exact H2].
  pose proof kappa_range as K. set (k := acentric_kappa w) in *.
  assert (Q1 : 1 <= sqrt (T / Tc)).
  { rewrite <- sqrt_1. apply sqrt_le_1_alt. apply (Rmult_le_reg_r Tc); [exact HTc|]. unfold Rdiv. rewrite Rmult_assoc, Rinv_l by lra. nra. }
  assert (Q2 : sqrt (T / Tc) <= 2).
  { replace 2 with (sqrt (2 * 2)) by (apply sqrt_square; lra). apply sqrt_le_1_alt.
    apply (Rmult_le_reg_r Tc); [exact HTc|]. unfold Rdiv. rewrite Rmult_assoc, Rinv_l by lra. lra. }
  set (q := sqrt (T / Tc)) in *.
  assert (A1 : (1 + k * (1 - q)) ^ 2 <= 1).
  { assert (0 <= k * (q - 1) <= 2) by (split; [apply Rmult_le_pos; lra|]; nra). nra. }
  assert (A2 : 0 <= Tc / T <= / (1 + 1 / 10 ^ 6)).
  { split; [apply Rlt_le, Rdiv_lt_0_compat; lra|]. apply ratio_le; lra. }
  assert (A3 : (1 + k * (1 - q)) ^ 2 * (Tc / T) <= 1 * / (1 + 1 / 10 ^ 6)).
  { apply Rmult_le_compat; [apply pow2_ge_0|lra|lra|lra]. }
  rewrite Rmult_assoc. lra.
Qed.

(** C123: below it (by one part in a million) the pressure falls with density somewhere: two phases. *)
Theorem C123_two_phases_below : forall s T, init [name] (fluid name Tc Pc w) [] = Ok s ->
  0 < T <= Tc * (1 - 1 / 10 ^ 6) ->
  exists r1 r2 p1 p2, 0 < r1 < r2 /\ r2 < packed /\ pressure_is s T r1 p1 /\ pressure_is s T r2 p2 /\ p2 < p1.
Proof.
  intros s T E HT.
  destruct (fluid_pressure name Tc Pc w s T HTc HPc ltac:(lra) E) as [Hb HP].
  pose proof kappa_range as K. set (k := acentric_kappa w) in *.
  destruct (decreasing_below (45723553 / 7779607 * (1 + k * (1 - sqrt (T / Tc))) ^ 2 * (Tc / T)) (7779607 / 100000000 * (Rgas * Tc / Pc)) T) as (r1 & r2 & H1 & H2 & H3).
  - assert (Q1 : sqrt (T / Tc) <= 1).
    { rewrite <- sqrt_1. apply sqrt_le_1_alt. apply (Rmult_le_reg_r Tc); [exact HTc|]. unfold Rdiv. rewrite Rmult_assoc, Rinv_l by lra. nra. }
    set (q := sqrt (T / Tc)) in *.
    assert (A1 : 1 <= (1 + k * (1 - q)) ^ 2).
    { assert (0 <= k * (1 - q)) by (apply Rmult_le_pos; lra). nra. }
    assert (A2 : / (1 - 1 / 10 ^ 6) <= Tc / T).
    { apply ratio_ge; lra. }
    assert (A3 : 1 * / (1 - 1 / 10 ^ 6) <= (1 + k * (1 - q)) ^ 2 * (Tc / T)).
    { apply Rmult_le_compat; lra. }
    rewrite Rmult_assoc. lra.
  - exact Hb.
  - lra.
  - exists r1, r2. eexists _, _. split; [exact H1|]. split; [apply packed_of; exact H2|].
    split; [apply HP|]. split; [apply HP|]. exact H3.
Qed.

(** C123: at it, the pressure at the critical density of the equation (compressibility factor 0.3074013) is the
    given critical pressure, to two parts in ten million. *)
Theorem C123_critical_pressure : forall s, init [name] (fluid name Tc Pc w) [] = Ok s ->
  exists p, pressure_is s Tc (Pc / (3074013 / 10 ^ 7 * (831446261815324 / 10 ^ 14) * Tc)) p /\
    Rabs (p - Pc) <= 2 / 10 ^ 7 * Pc.
Proof.
  intros s E. destruct (fluid_pressure name Tc Pc w s Tc HTc HPc HTc E) as [Hb HP]. eexists. split; [apply HP|].
  assert (Q : Tc / Tc = 1) by (field; lra). rewrite Q, sqrt_1. unfold pressure_formula.
  match goal with |- Rabs (?a - Pc) <= _ => replace a with (Pc * (10 ^ 8 / 22960523 - 45723553 * 10 ^ 8 / 1362725568400271)) end.
  - replace (Pc * (10 ^ 8 / 22960523 - 45723553 * 10 ^ 8 / 1362725568400271) - Pc) with (Pc * (10 ^ 8 / 22960523 - 45723553 * 10 ^ 8 / 1362725568400271 - 1)) by ring.
    rewrite Rabs_mult, (Rabs_pos_eq Pc) by lra. rewrite (Rmult_comm _ Pc). apply Rmult_le_compat_l; [lra|].
    apply Rabs_le. lra.
  - unfold Rgas. field. repeat split; lra.
Qed.
  Lemma attraction_at T : 0 < T -> (1 + acentric_kappa w * (1 - sqrt (T / Tc))) ^ 2 * (Tc / T)
    = (acentric_kappa w - (1 + acentric_kappa w) / sqrt (T / Tc)) ^ 2.
  Proof.
    intros HT. assert (HQ : 0 < T / Tc) by (apply Rdiv_lt_0_compat; assumption). assert (HS : 0 < sqrt (T / Tc)) by (apply sqrt_lt_R0; exact HQ).
    assert (ES : sqrt (T / Tc) * sqrt (T / Tc) = T / Tc) by (apply sqrt_sqrt; lra).
    set (q := sqrt (T / Tc)) in *. replace (Tc / T) with (/ (q * q)) by (rewrite ES; field; lra). field. lra.
  Qed.

(** C123: for acentric factors up to 0.43 there is no upper limit: one phase at every temperature above the critical one. *)
Theorem C123_one_phase_all : forall s T, w <= 43 / 100 -> init [name] (fluid name Tc Pc w) [] = Ok s ->
  Tc * (1 + 1 / 10 ^ 6) <= T ->
  forall r1 r2, 0 < r1 < r2 -> r2 < packed ->
  exists p1 p2, pressure_is s T r1 p1 /\ pressure_is s T r2 p2 /\ p1 < p2.
Proof.
  intros s T Hw2 E HT r1 r2 H1 H2. destruct (Rle_dec T (4 * Tc)) as [L|L]; [eapply C123_one_phase_above; eauto|]. apply Rnot_le_lt in L.
  assert (HT0 : 0 < T) by nra. destruct (fluid_pressure name Tc Pc w s T HTc HPc HT0 E) as [Hb HP].
  eexists _, _. split; [apply HP|]. split; [apply HP|].
  apply increasing_above; [|exact Hb|exact HT0|exact H1|apply packed_b; exact H2].
  rewrite Rmult_assoc, (attraction_at T HT0).
  assert (K : 0 <= acentric_kappa w <= 99 / 100) by (unfold acentric_kappa; nra). set (k := acentric_kappa w) in *.
  assert (Q : 2 <= sqrt (T / Tc)).
  { assert (E4 : sqrt 4 = 2) by (replace 4 with (2 ^ 2) by ring; apply sqrt_pow2; lra). rewrite <- E4. apply sqrt_le_1_alt.
    apply (proj1 (Rle_div_r 4 T Tc HTc)). lra. }
  set (q := sqrt (T / Tc)) in *.
  assert (X : 0 <= (1 + k) / q <= (1 + k) / 2).
  { split; [apply Rlt_le, Rdiv_lt_0_compat; lra|]. unfold Rdiv. apply Rmult_le_compat_l; [lra|]. apply Rinv_le_contravar; lra. }
  set (y := (1 + k) / q) in *. assert ((k - y) ^ 2 <= 99 / 100) by nra. lra.
Qed.

(** Beyond that it has one: where the attraction parameter grows faster than the temperature, two phases are back. *)
Theorem C123_two_phases_again : forall s T, 1001 / 1000 < acentric_kappa w -> init [name] (fluid name Tc Pc w) [] = Ok s ->
  Tc * ((1 + acentric_kappa w) / (acentric_kappa w - 1001 / 1000)) ^ 2 <= T ->
  exists r1 r2 p1 p2, 0 < r1 < r2 /\ r2 < packed /\ pressure_is s T r1 p1 /\ pressure_is s T r2 p2 /\ p2 < p1.
Proof.
  intros s T HK E HT. pose proof kappa_range as K.
  assert (Hc : 0 < (1 + acentric_kappa w) / (acentric_kappa w - 1001 / 1000)) by (apply Rdiv_lt_0_compat; lra).
  assert (HT0 : 0 < T). { eapply Rlt_le_trans; [|exact HT]. apply Rmult_lt_0_compat; [exact HTc|]. apply pow_lt. exact Hc. }
  destruct (fluid_pressure name Tc Pc w s T HTc HPc HT0 E) as [Hb HP].
  destruct (decreasing_below (45723553 / 7779607 * (1 + acentric_kappa w * (1 - sqrt (T / Tc))) ^ 2 * (Tc / T)) (7779607 / 100000000 * (Rgas * Tc / Pc)) T) as (r1 & r2 & H1 & H2 & H3).
  - rewrite Rmult_assoc, (attraction_at T HT0). set (k := acentric_kappa w) in *.
    assert (Q : (1 + k) / (k - 1001 / 1000) <= sqrt (T / Tc)).
    { rewrite <- (sqrt_pow2 ((1 + k) / (k - 1001 / 1000))) by lra. apply sqrt_le_1_alt.
      apply (proj1 (Rle_div_r (((1 + k) / (k - 1001 / 1000)) ^ 2) T Tc HTc)). lra. }
    set (q := sqrt (T / Tc)) in *. assert (Hq : 0 < q) by lra.
    assert (X : (1 + k) / q <= k - 1001 / 1000).
    { apply (proj2 (Rle_div_l (1 + k) (k - 1001 / 1000) q Hq)). apply (Rmult_le_compat_r (k - 1001 / 1000)) in Q; [|lra]. unfold Rdiv in Q. rewrite Rmult_assoc, Rinv_l, Rmult_1_r in Q by lra. lra. }
    set (y := (1 + k) / q) in *. assert ((1001 / 1000) ^ 2 <= (k - y) ^ 2) by nra. lra.
  - exact Hb.
  - exact HT0.
  - exists r1, r2. eexists _, _. split; [exact H1|]. split; [apply packed_of; exact H2|]. split; [apply HP|]. split; [apply HP|]. exact H3.
Qed.
End Fluid.

(** C123: corresponding states: fluids with the same acentric factor have the same reduced pressure at the same
    reduced temperature and density. *)
Theorem C123_corresponding_states : forall name name' Tc Pc Tc' Pc' w s s' T rho T' rho',
  0 < Tc -> 0 < Pc -> 0 < Tc' -> 0 < Pc' -> 0 < T -> 0 < T' -> 0 <= rho < Pc / (7779607 / 100000000 * 831446261815324 / 10 ^ 14 * Tc) ->
  init [name] (fluid name Tc Pc w) [] = Ok s -> init [name'] (fluid name' Tc' Pc' w) [] = Ok s' ->
  T / Tc = T' / Tc' -> rho * Tc / Pc = rho' * Tc' / Pc' ->
  exists p p', pressure_is s T rho p /\ pressure_is s' T' rho' p' /\ p / Pc = p' / Pc'.
Proof.
  intros name name' Tc Pc Tc' Pc' w s s' T rho T' rho' HTc HPc HTc' HPc' HT HT' Hr E E' ET Er.
  destruct (fluid_pressure name Tc Pc w s T HTc HPc HT E) as [Hb HP].
  destruct (fluid_pressure name' Tc' Pc' w s' T' HTc' HPc' HT' E') as [Hb' HP'].
  eexists _, _. split; [apply HP|]. split; [apply HP'|].
  assert (L := packed_b Tc Pc HTc HPc rho (proj2 Hr)).
  destruct (denom_pos _ rho Hb (proj1 Hr) L) as [D1 D2].
  assert (F : forall t Pt A (r : R), 0 < t -> 0 < Pt ->
    let b := 7779607 / 100000000 * (Rgas * t / Pt) in
    let x := 7779607 / 100000000 * Rgas * (r * t / Pt) in
    1 - x <> 0 -> 1 + x + x * (1 - x) <> 0 -> forall Tt,
    pressure_formula (A * b * Rgas * Tt) b Tt r / Pt
    = Rgas * (Tt / t) * (r * t / Pt) / (1 - x) - A * 7779607 / 100000000 * Rgas ^ 2 * (Tt / t) * (r * t / Pt) ^ 2 / (1 + x + x * (1 - x))).
  { intros t Pt A r Ht HPt b x N1 N2 Tt. unfold pressure_formula.
    replace (b * r) with x by (unfold b, x; field; lra). replace (r * b) with x by (unfold b, x; field; lra).
    unfold b. field. repeat split; try assumption; lra. }
  assert (Ex : 7779607 / 100000000 * (Rgas * Tc / Pc) * rho = 7779607 / 100000000 * Rgas * (rho * Tc / Pc)) by (field; lra).
  replace (rho * (7779607 / 100000000 * (Rgas * Tc / Pc))) with (7779607 / 100000000 * (Rgas * Tc / Pc) * rho) in D2 by ring.
  rewrite Ex in D1, D2. cbn zeta in F.
  rewrite (F Tc Pc _ rho HTc HPc) by lra. rewrite (F Tc' Pc' _ rho' HTc' HPc') by (rewrite <- Er; lra).
  rewrite <- Er, <- ET. do 3 f_equal.
  replace (Tc' / T') with (/ (T' / Tc')) by (field; lra). replace (Tc / T) with (/ (T / Tc)) by (field; lra). rewrite <- ET. reflexivity.
Qed.

(** Methane is such a fluid. *)
Example C123_methane : exists s, init ["CH4"%string] (fluid "CH4" (19056 / 100) 4599000 (115 / 10000)) [] = Ok s.
Proof. eexists. cbn -[IZR Rgas Rdiv Rmult Rplus Rminus pow sqrt]. reflexivity. Qed.
Example C123_methane_gas : exists s p1 p2, init ["CH4"%string] (fluid "CH4" (19056 / 100) 4599000 (115 / 10000)) [] = Ok s /\
  pressure_is s 300 10 p1 /\ pressure_is s 300 20000 p2 /\ p1 < p2.
Proof.
  destruct C123_methane as [s E]. destruct (C123_one_phase_above "CH4" (19056 / 100) 4599000 (115 / 10000)) with (s := s) (T := 300) (r1 := 10) (r2 := 20000)
    as (p1 & p2 & H); try lra; try exact E. exists s, p1, p2. split; [exact E|exact H].
Qed.
Example C123_methane_two_phases : exists s r1 r2 p1 p2, init ["CH4"%string] (fluid "CH4" (19056 / 100) 4599000 (115 / 10000)) [] = Ok s /\
  0 < r1 < r2 /\ pressure_is s 150 r1 p1 /\ pressure_is s 150 r2 p2 /\ p2 < p1.
Proof.
  destruct C123_methane as [s E]. destruct (C123_two_phases_below "CH4" (19056 / 100) 4599000 (115 / 10000)) with (s := s) (T := 150)
    as (r1 & r2 & p1 & p2 & H1 & _ & H); try lra; try exact E. exists s, r1, r2, p1, p2. split; [exact E|]. split; [exact H1|exact H].
Qed.

(** A heavy hydrocarbon (acentric factor 0.9) has two phases again from 22 times its critical temperature. *)
Example C123_heavy : exists s r1 r2 p1 p2, init ["C20"%string] (fluid "C20" 768 1070000 (9 / 10)) [] = Ok s /\
  0 < r1 < r2 /\ pressure_is s (22 * 768) r1 p1 /\ pressure_is s (22 * 768) r2 p2 /\ p2 < p1.
Proof.
  assert (I : exists s, init ["C20"%string] (fluid "C20" 768 1070000 (9 / 10)) [] = Ok s) by (eexists; cbn -[IZR Rgas Rdiv Rmult Rplus Rminus pow sqrt]; reflexivity).
  destruct I as [s E]. assert (V : acentric_kappa (9 / 10) = 15440388 / 10000000) by (unfold acentric_kappa; lra).
  destruct (C123_two_phases_again "C20" 768 1070000 (9 / 10)) with (s := s) (T := 22 * 768)
    as (r1 & r2 & p1 & p2 & H1 & _ & H); try rewrite V; try lra; try exact E. exists s, r1, r2, p1, p2. split; [exact E|]. split; [exact H1|exact H].
Qed.
Print Assumptions C123_one_phase_all.
Print Assumptions C123_two_phases_again.
Print Assumptions C123_one_phase_above.
Print Assumptions C123_two_phases_below.
Print Assumptions C123_critical_pressure.
Print Assumptions C123_corresponding_states.
