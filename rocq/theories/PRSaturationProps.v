(** C129: the pressure and the fugacity coefficient of a pure Peng-Robinson fluid describe the same fluid: two phases of
    one pressure have equal fugacity coefficients exactly if the isotherm obeys the rule of equal areas. *)
From Coq Require Import Reals Lra Psatz.
From Coquelicot Require Import Coquelicot.
From Verif Require Import Base BaseFacts EosToolboxModel EosToolboxSpec RSum PRModel PRSpec PRProofs PRProps PRThermo PRCriticalProps Maxwell.
Open Scope R_scope.

(** The method [fugacity_coefficient] returns [phi] for the only component of the pure fluid. *)
Definition fugacity_is (s : pr) (T P rho phi : R) : Prop :=
  outcome_at 0 (fugacity_coefficient s P rho T (fun _ => 1)) = Ok phi.

(** The temperature is not the one at which the attraction between the molecules vanishes. *)
Definition attracts (w Tc T : R) : Prop := 1 + acentric_kappa w * (1 - sqrt (T / Tc)) <> 0.

Definition energy (a b T rho : R) : R :=
  Rgas * T * ln (Rgas * T * rho) - Rgas * T * ln (1 - b * rho) + Rgas * T * (b * rho / (1 - b * rho))
  - a / (2 * sqrt 2 * b) * (ln (1 + (1 + sqrt 2) * (b * rho)) - ln (1 + (1 - sqrt 2) * (b * rho)))
  - a * rho / (1 + b * rho + rho * b * (1 - b * rho)).

Lemma fluid_state name Tc Pc w s T : init [name] (fluid name Tc Pc w) [] = Ok s ->
  exists s1, at_temperature s T = Ok s1 /\ beads_of s1 = [name] /\ pr_kij s1 0%nat 0%nat = 0 /\
    pr_bi s1 0%nat = 7779607 / 100000000 * (Rgas * Tc / Pc) /\ pr_ai s1 0%nat = 45723553 / 100000000 * (Rgas * Tc) ^ 2 / Pc /\
    pr_alpha s1 0%nat = (1 + acentric_kappa w * (1 - sqrt (T / Tc))) ^ 2.
Proof.
  intros E.
  unfold fluid, init in E. cbn [mapM] in E. unfold bead_flags, dfetch, dmem in E. cbn [dget] in E. rewrite !String.eqb_refl in E.
  cbn -[IZR Rgas Rdiv Rmult Rplus Rminus pow sqrt parameter_refresh] in E.
  unfold parameter_refresh in E. unfold beads_of, lib_of, cross_of in E. cbn [pr_par ep_beads ep_bead_library derive_beads pr_critical pr_given ep_cross_library pr_T] in E.
  unfold dfetch in E. cbn [dget] in E. rewrite String.eqb_refl in E. cbn -[IZR Rgas Rdiv Rmult Rplus Rminus pow sqrt] in E.
  rewrite String.eqb_refl in E. injection E as E.
  rewrite <- E. unfold at_temperature. cbn [pr_T]. unfold calc_temp_dependent, beads_of, lib_of. cbn [pr_par ep_beads ep_bead_library mapM].
  unfold alpha_entry, dfetch. cbn [dget]. rewrite String.eqb_refl.
  cbn -[IZR Rgas Rdiv Rmult Rplus Rminus pow sqrt]. eexists. split; [reflexivity|]. cbn -[IZR Rgas Rdiv Rmult Rplus Rminus pow sqrt].
  repeat split; reflexivity.
Qed.

(** Both outputs of the pure fluid, in terms of its two constants. *)
Lemma fluid_outputs name Tc Pc w s T : 0 < Tc -> 0 < Pc -> 0 < T -> init [name] (fluid name Tc Pc w) [] = Ok s -> attracts w Tc T ->
  let b := 7779607 / 100000000 * (Rgas * Tc / Pc) in
  exists a, 0 < a /\ 0 < b /\
    (forall rho, pressure_is s T rho (pressure_formula a b T rho)) /\
    (forall rho, 0 < rho -> b * rho < 1 -> 0 < pressure_formula a b T rho ->
       exists phi, fugacity_is s T (pressure_formula a b T rho) rho phi /\ 0 < phi /\
         Rgas * T * ln phi = energy a b T rho - Rgas * T * ln (pressure_formula a b T rho)).
Proof.
  intros HTc HPc HT E HA b. pose proof Rgas_pos as HR. pose proof sqrt2_bounds as [Q1 Q2].
  destruct (fluid_state name Tc Pc w s T E) as (s1 & E1 & Eb & Ek & Ebi & Eai & Eal).
  assert (Hb : 0 < b). { unfold b. apply Rmult_lt_0_compat; [lra|]. apply Rdiv_lt_0_compat; nra. }
  set (a := pr_ai s1 0%nat * pr_alpha s1 0%nat).
  assert (Ha : 0 < a).
  { unfold a. rewrite Eai, Eal. apply Rmult_lt_0_compat.
    - apply Rdiv_lt_0_compat; [|exact HPc]. apply Rmult_lt_0_compat; [lra|]. apply pow_lt. nra.
    - unfold attracts in HA. rewrite <- Rsqr_pow2. apply Rsqr_pos_lt. exact HA. }
  exists a. split; [exact Ha|]. split; [exact Hb|]. split.
  - intros rho. unfold pressure_is. rewrite (pressure_one s s1 T rho E1 ltac:(rewrite Eb; reflexivity) (Rlt_le _ _ Ha) Ek).
    rewrite Ebi. reflexivity.
  - intros rho Hr Hbr HP.
    assert (Ew : pair_attraction s1 0 0 = a).
    { unfold pair_attraction. rewrite Ek. replace (pr_ai s1 0%nat * pr_alpha s1 0%nat * pr_ai s1 0%nat * pr_alpha s1 0%nat) with (a * a) by (unfold a; ring).
      rewrite sqrt_square by lra. ring. }
    assert (Ea : mix_a s1 1 (fun _ => 1) = a).
    { rewrite mix_a_attraction. unfold attraction. cbn [sumn]. rewrite Ew. ring. }
    assert (Eb1 : mix_b s1 1 (fun _ => 1) = b).
    { unfold mix_b. cbn [sumn]. rewrite Ebi. fold b. ring. }
    pose proof (ln_phi_value s1 1 T (fun _ => 1) rho 0) as V. cbn zeta in V. rewrite Ea, Eb1 in V.
    specialize (V ltac:(lia) HT Hr Hb Hbr HP ltac:(lra)).
    assert (V' : forall k, (k < 1)%nat -> 0 <= pr_ai s1 k * pr_alpha s1 k).
    { intros k Hk. assert (k = 0)%nat by lia. subst k. fold a. lra. }
    specialize (V V'). clear V'.
    assert (Er : row 1 (pair_attraction s1) (fun _ => 1) 0 = a) by (unfold row; cbn [sumn]; rewrite Ew; ring).
    rewrite Er, Ebi in V. fold b in V.
    unfold fugacity_is, fugacity_coefficient. rewrite E1. cbn [rbind outcome_at snd]. rewrite Eb. cbn [length].
    eexists. split; [reflexivity|]. split; [apply exp_pos|]. rewrite ln_exp.
    set (P := pressure_formula a b T rho) in *. set (L := ln_phi s1 1 P rho T (fun _ : nat => 1) 0) in *.
    destruct (denom_pos b rho Hb (Rlt_le _ _ Hr) Hbr) as [D1 D2].
    assert (Ht : 0 < Rgas * T) by (apply Rmult_lt_0_compat; lra).
    assert (Htr : 0 < Rgas * T * rho) by (apply Rmult_lt_0_compat; lra).
    rewrite ln_div in V by assumption.
    set (r := sqrt 2) in *.
    assert (P1 : 0 < 1 + (1 + r) * (b * rho)) by nra.
    assert (P2 : 0 < 1 + (1 - r) * (b * rho)) by nra.
    replace ((1 / rho + (1 + r) * b) / (1 / rho + (1 - r) * b)) with ((1 + (1 + r) * (b * rho)) / (1 + (1 - r) * (b * rho))) in V by (field; split; lra).
    rewrite ln_div in V by assumption.
    replace (1 - b / (1 / rho)) with (1 - b * rho) in V by (field; lra).
    unfold energy. fold r.
    assert (EV : L = ln (Rgas * T * rho) - ln P - ln (1 - b * rho) + 1 * b / (1 / rho - b)
      - (2 * a / (2 * r * b * Rgas * T) - a * b / (2 * r * b * b * Rgas * T)) * (ln (1 + (1 + r) * (b * rho)) - ln (1 + (1 - r) * (b * rho)))
      - a / (b * Rgas * T) * b * (1 / rho / (1 / rho * (1 / rho) + 2 * (1 / rho) * b - b * b))) by lra.
    rewrite EV. set (l1 := ln (Rgas * T * rho)). set (l2 := ln P). set (l3 := ln (1 - b * rho)). set (l4 := ln (1 + (1 + r) * (b * rho))). set (l5 := ln (1 + (1 - r) * (b * rho))).
    clearbody l1 l2 l3 l4 l5. clear V EV.
    assert (D3 : 1 + 2 * rho * b - b * b * rho ^ 2 <> 0).
    { replace (1 + 2 * rho * b - b * b * rho ^ 2) with (1 + b * rho + rho * b * (1 - b * rho)) by ring. lra. }
    field. repeat split; try lra.
Qed.

(** The fugacity is the pressure corrected by the coefficient; its logarithm grows with the volume times the pressure. *)
Lemma energy_slope a b T rho : 0 < b -> 0 < T -> 0 < rho -> b * rho < 1 -> exists d,
  is_derive (pressure_formula a b T) rho d /\ is_derive (energy a b T) rho (d / rho).
Proof.
  intros Hb HT Hr Hbr. pose proof Rgas_pos as HR. pose proof sqrt2_bounds as [Q1 Q2]. pose proof sqrt2 as Q.
  destruct (denom_pos b rho Hb (Rlt_le _ _ Hr) Hbr) as [D1 D2].
  eexists. split; [apply slope_at; [exact Hb|lra|exact Hbr]|].
  unfold energy. set (r := sqrt 2) in *. assert (0 < b * rho) by (apply Rmult_lt_0_compat; lra).
  assert (P1 : 0 < 1 + (1 + r) * (b * rho)) by nra.
  assert (P2 : 0 < 1 + (1 - r) * (b * rho)) by nra.
  auto_derive.
  - repeat split; try lra; try (apply Rmult_lt_0_compat; [apply Rmult_lt_0_compat; lra|lra]).
  - assert (M : a / (2 * r * b) * ((1 + r) * (b * 1) * / (1 + (1 + r) * (b * rho)) + - ((1 - r) * (b * 1) * / (1 + (1 - r) * (b * rho))))
      = a / (1 + b * rho + rho * b * (1 - b * rho))).
    { replace (1 + b * rho + rho * b * (1 - b * rho)) with ((1 + (1 + r) * (b * rho)) * (1 + (1 - r) * (b * rho))).
      - field. repeat split; lra.
      - replace ((1 + (1 + r) * (b * rho)) * (1 + (1 - r) * (b * rho))) with (1 + 2 * (b * rho) + (1 - r * r) * (b * rho) ^ 2) by ring. rewrite Q. ring. }
    rewrite M. clear M P1 P2.
    assert (D3 : 1 + 2 * (b * rho) - (b * rho) ^ 2 <> 0).
    { replace (1 + 2 * (b * rho) - (b * rho) ^ 2) with (1 + b * rho + rho * b * (1 - b * rho)) by ring. lra. }
    field. repeat split; try lra.
Qed.

(** The area under the isotherm. *)
Definition work (a b T v : R) : R := v * pressure_formula a b T (1 / v) - energy a b T (1 / v).
Lemma work_slope a b T v : 0 < b -> 0 < T -> b < v -> is_derive (work a b T) v (pressure_formula a b T (1 / v)).
Proof.
  intros Hb HT Hv. assert (H1 : 0 < 1 / v) by (apply Rdiv_lt_0_compat; lra).
  assert (H2 : b * (1 / v) < 1) by (apply (Rmult_lt_reg_r v); [lra|]; replace (b * (1 / v) * v) with b by (field; lra); lra).
  destruct (energy_slope a b T (1 / v) Hb HT H1 H2) as (d & A & B).
  assert (I : is_derive (fun v => 1 / v) v (- 1 / v ^ 2)) by (auto_derive; [lra|field; lra]).
  pose proof (is_derive_comp _ _ _ _ _ A I) as A1. pose proof (is_derive_comp _ _ _ _ _ B I) as B1.
  pose proof (is_derive_mult (fun v => v) _ v 1 _ (is_derive_id v) A1) as M.
  specialize (M ltac:(intros; apply Rmult_comm)). pose proof (is_derive_minus _ _ _ _ _ M B1) as F. cbn beta in F.
  unfold work. match type of F with is_derive _ _ ?l => replace l with (pressure_formula a b T (1 / v)) in F end; [exact F|].
  unfold minus, plus, opp, mult, scal; cbn. unfold mult; cbn. field. lra.
Qed.
Lemma isotherm_continuous a b T v : 0 < b -> 0 < T -> b < v -> continuous (fun v => pressure_formula a b T (1 / v)) v.
Proof.
  intros Hb HT Hv. assert (H1 : 0 < 1 / v) by (apply Rdiv_lt_0_compat; lra).
  assert (H2 : b * (1 / v) < 1) by (apply (Rmult_lt_reg_r v); [lra|]; replace (b * (1 / v) * v) with b by (field; lra); lra).
  apply (@ex_derive_continuous R_AbsRing R_NormedModule).
  assert (I : is_derive (fun v => 1 / v) v (- 1 / v ^ 2)) by (auto_derive; [lra|field; lra]).
  eexists. apply (is_derive_comp _ _ _ _ _ (slope_at a b T (1 / v) Hb ltac:(lra) H2) I).
Qed.

Lemma Rgas_value : Rgas = 831446261815324 / 10 ^ 14.
Proof. unfold Rgas. lra. Qed.

Lemma isotherm_value a b T v : 0 < b -> b < v ->
  pressure_formula a b T (1 / v) = Rgas * T / (v - b) - a / (v ^ 2 + 2 * b * v - b ^ 2) /\ 2 * b ^ 2 <= v ^ 2 + 2 * b * v - b ^ 2.
Proof.
  intros Hb Hv. assert (D : 2 * b ^ 2 <= v ^ 2 + 2 * b * v - b ^ 2) by nra. split; [|exact D].
  assert (0 < b ^ 2) by (apply pow_lt; exact Hb). unfold pressure_formula. field. repeat split; try lra; try nra.
Qed.
Lemma work_value a b T v : 0 < a -> 0 < b -> 0 < T -> b < v ->
  Rgas * T - Rgas * T * ln (Rgas * T) + Rgas * T * ln (v - b) <= work a b T v.
Proof.
  intros Ha Hb HT Hv. pose proof Rgas_pos as HR. pose proof sqrt2_bounds as [Q1 Q2].
  assert (Ht : 0 < Rgas * T) by (apply Rmult_lt_0_compat; lra).
  assert (H1 : 0 < 1 / v) by (apply Rdiv_lt_0_compat; lra).
  assert (H2 : b * (1 / v) < 1) by (apply (Rmult_lt_reg_r v); [lra|]; replace (b * (1 / v) * v) with b by (field; lra); lra).
  assert (H3 : 0 < b * (1 / v)) by (apply Rmult_lt_0_compat; lra).
  unfold work, energy. set (r := sqrt 2) in *.
  assert (P2 : 0 < 1 + (1 - r) * (b * (1 / v))) by nra.
  assert (Lg : ln (1 + (1 - r) * (b * (1 / v))) <= ln (1 + (1 + r) * (b * (1 / v)))) by (left; apply ln_increasing; [exact P2|nra]).
  assert (Kp : 0 < a / (2 * r * b)) by (apply Rdiv_lt_0_compat; [exact Ha|nra]).
  assert (Z : 0 <= a / (2 * r * b) * (ln (1 + (1 + r) * (b * (1 / v))) - ln (1 + (1 - r) * (b * (1 / v))))) by (apply Rmult_le_pos; lra).
  set (Y := a / (2 * r * b) * (ln (1 + (1 + r) * (b * (1 / v))) - ln (1 + (1 - r) * (b * (1 / v))))) in *.
  replace (ln (Rgas * T * (1 / v))) with (ln (Rgas * T) - ln v) by (rewrite <- ln_div by lra; f_equal; field; lra).
  replace (ln (1 - b * (1 / v))) with (ln (v - b) - ln v) by (rewrite <- ln_div by lra; f_equal; field; lra).
  assert (D : 0 < v ^ 2 + 2 * b * v - b ^ 2) by (destruct (isotherm_value a b T v Hb Hv) as [_ D]; assert (0 < b ^ 2) by (apply pow_lt; exact Hb); lra).
  assert (E : v * pressure_formula a b T (1 / v) = Rgas * T + Rgas * T * (b * (1 / v) / (1 - b * (1 / v))) - a * (1 / v) / (1 + b * (1 / v) + 1 / v * b * (1 - b * (1 / v)))).
  { unfold pressure_formula. field. repeat split; try lra; try nra. }
  rewrite E. lra.
Qed.

Section Pure.
  Variables (name : string) (Tc Pc w : R).
  Hypotheses (HTc : 0 < Tc) (HPc : 0 < Pc).
  (** the volume at which the molecules are close packed *)
  Let smallest : R := 7779607 / 100000000 * (831446261815324 / 10 ^ 14 * Tc / Pc).
  Lemma smallest_b : smallest = 7779607 / 100000000 * (Rgas * Tc / Pc).
  Proof. unfold smallest, Rgas. field. lra. Qed.

(** C129, equal areas: let p be the isotherm the method [pressure] draws over the volume.  Of two volumes at which it is P,
    the fugacity coefficients differ by the area between the isotherm and the level P; they are equal if and only if the
    area under the isotherm is that of the rectangle. *)
Theorem C129_equal_areas : forall s T P p v1 v2,
  init [name] (fluid name Tc Pc w) [] = Ok s -> 0 < T -> attracts w Tc T -> 0 < P ->
  (forall v, smallest < v -> pressure_is s T (1 / v) (p v)) ->
  smallest < v1 -> smallest < v2 -> p v1 = P -> p v2 = P ->
  exists area phi1 phi2 : R, is_RInt p v1 v2 area /\
    fugacity_is s T P (1 / v1) phi1 /\ fugacity_is s T P (1 / v2) phi2 /\
    831446261815324 / 10 ^ 14 * T * (ln phi1 - ln phi2) = area - P * (v2 - v1) /\
    (phi1 = phi2 <-> area = P * (v2 - v1)).
Proof.
  intros s T P p v1 v2 E HT HA HP Hp H1 H2 E1 E2. rewrite smallest_b in *.
  destruct (fluid_outputs name Tc Pc w s T HTc HPc HT E HA) as (a & Ha & Hb & Pr & Fu).
  set (b := 7779607 / 100000000 * (Rgas * Tc / Pc)) in *.
  assert (Ep : forall v, b < v -> p v = pressure_formula a b T (1 / v)).
  { intros v Hv. pose proof (Hp v Hv) as X. unfold pressure_is in X. rewrite (Pr (1 / v)) in X. injection X as <-. reflexivity. }
  assert (Hd : forall v, b < v -> 0 < 1 / v /\ b * (1 / v) < 1).
  { intros v Hv. split; [apply Rdiv_lt_0_compat; lra|]. apply (Rmult_lt_reg_r v); [lra|]; replace (b * (1 / v) * v) with b by (field; lra); lra. }
  rewrite (Ep v1 H1) in E1. rewrite (Ep v2 H2) in E2.
  destruct (Hd v1 H1) as [A1 B1]. destruct (Hd v2 H2) as [A2 B2].
  destruct (Fu (1 / v1) A1 B1) as (phi1 & F1 & G1 & L1); [rewrite E1; exact HP|]. rewrite E1 in F1, L1.
  destruct (Fu (1 / v2) A2 B2) as (phi2 & F2 & G2 & L2); [rewrite E2; exact HP|]. rewrite E2 in F2, L2.
  assert (Mn : forall v, Rmin v1 v2 <= v <= Rmax v1 v2 -> b < v).
  { intros v [M _]. apply Rlt_le_trans with (Rmin v1 v2); [apply Rmin_glb_lt; assumption|exact M]. }
  assert (I : is_RInt p v1 v2 (work a b T v2 - work a b T v1)).
  { apply (is_RInt_ext (fun v => pressure_formula a b T (1 / v))).
    - intros v [M1 M2]. symmetry. apply Ep, Mn. lra.
    - apply (is_RInt_derive (work a b T) (fun v => pressure_formula a b T (1 / v))).
      + intros v M. apply work_slope; [exact Hb|exact HT|apply Mn; exact M].
      + intros v M. apply isotherm_continuous; [exact Hb|exact HT|apply Mn; exact M]. }
  exists (work a b T v2 - work a b T v1), phi1, phi2. split; [exact I|]. split; [exact F1|]. split; [exact F2|].
  assert (Ek : 831446261815324 / 10 ^ 14 * T * (ln phi1 - ln phi2) = work a b T v2 - work a b T v1 - P * (v2 - v1)).
  { rewrite <- Rgas_value. unfold work. rewrite E1, E2. lra. }
  split; [exact Ek|]. pose proof Rgas_pos as HR. rewrite <- Rgas_value in Ek.
  split.
  - intros ->. lra.
  - intros X. rewrite X in Ek. assert (Y : Rgas * T * (ln phi1 - ln phi2) = 0) by lra.
    apply Rmult_integral in Y. destruct Y as [Y|Y]; [apply Rmult_integral in Y; lra|].
    apply ln_inv; [exact G1|exact G2|lra].
Qed.

(** C129, along an isotherm: the logarithm of the fugacity grows with density as the pressure does, divided by the density. *)
Theorem C129_fugacity_grows : forall s T f p rho,
  init [name] (fluid name Tc Pc w) [] = Ok s -> 0 < T -> attracts w Tc T -> 0 < rho -> rho < / smallest ->
  (forall r, 0 < r < / smallest -> pressure_is s T r (p r)) ->
  (forall r, 0 < r < / smallest -> 0 < p r -> exists phi, fugacity_is s T (p r) r phi /\ f r = p r * phi) ->
  0 < p rho ->
  exists d, is_derive p rho d /\ is_derive (fun r => 831446261815324 / 10 ^ 14 * T * ln (f r)) rho (d / rho).
Proof.
  intros s T f p rho E HT HA Hr Hr2 Hp Hf HP. rewrite smallest_b in *.
  destruct (fluid_outputs name Tc Pc w s T HTc HPc HT E HA) as (a & Ha & Hb & Pr & Fu).
  set (b := 7779607 / 100000000 * (Rgas * Tc / Pc)) in *.
  assert (Hd : forall r, 0 < r < / b -> b * r < 1).
  { intros r [X Y]. apply (Rmult_lt_compat_l b) in Y; [|exact Hb]. rewrite Rinv_r in Y by lra. exact Y. }
  assert (Ep : forall r, 0 < r < / b -> p r = pressure_formula a b T r).
  { intros r Hv. pose proof (Hp r Hv) as X. unfold pressure_is in X. rewrite (Pr r) in X. injection X as <-. reflexivity. }
  destruct (energy_slope a b T rho Hb HT Hr (Hd rho (conj Hr Hr2))) as (d & A & B). exists d.
  assert (Near : locally rho (fun r => 0 < r < / b)) by (apply (locally_interval _ rho 0 (/ b)); [exact Hr|exact Hr2|cbn; auto]).
  assert (A' : is_derive p rho d).
  { apply (is_derive_ext_loc (pressure_formula a b T)); [|exact A]. apply filter_imp with (2 := Near). intros r H. symmetry. apply Ep, H. }
  split; [exact A'|].
  assert (Pos : locally rho (fun r => 0 < p r)).
  { assert (C : continuous p rho) by (apply (@ex_derive_continuous R_AbsRing R_NormedModule); exists d; exact A').
    apply (C (fun y => 0 < y)). apply (open_gt 0). exact HP. }
  apply (is_derive_ext_loc (energy a b T)); [|exact B].
  generalize (filter_and _ _ Near Pos). apply filter_imp. intros r [H1 H2]. rewrite <- Rgas_value.
  destruct (Hf r H1 H2) as (phi & F1 & F2). rewrite F2.
  rewrite (Ep r H1) in *. destruct (Fu r ltac:(lra) (Hd r H1) H2) as (phi' & F1' & G & L).
  unfold fugacity_is in F1, F1'. rewrite F1 in F1'. injection F1' as ->.
  rewrite ln_mult by assumption. match goal with |- @eq _ ?x ?y => change (@eq R x y) end. rewrite Rmult_plus_distr_l, L. ring.
Qed.

(** C129, saturation: at every temperature at which the pressure falls somewhere as the density rises, two phases have one
    positive pressure and one fugacity coefficient, and no other state of that pressure has a smaller one. *)
Theorem C129_saturation_exists : forall s T r1 r2 p1 p2,
  init [name] (fluid name Tc Pc w) [] = Ok s -> 0 < T -> attracts w Tc T ->
  0 < r1 < r2 -> r2 < / smallest -> pressure_is s T r1 p1 -> pressure_is s T r2 p2 -> p2 < p1 ->
  exists P v1 v2 phi, 0 < P /\ smallest < v1 < v2 /\
    pressure_is s T (1 / v1) P /\ pressure_is s T (1 / v2) P /\
    fugacity_is s T P (1 / v1) phi /\ fugacity_is s T P (1 / v2) phi /\
    forall v phi', smallest < v -> pressure_is s T (1 / v) P -> fugacity_is s T P (1 / v) phi' -> phi <= phi'.
Proof.
  intros s T r1 r2 p1 p2 E HT HA Hr Hr2 Hp1 Hp2 Hlt. rewrite smallest_b in *.
  destruct (fluid_outputs name Tc Pc w s T HTc HPc HT E HA) as (a & Ha & Hb & Pr & Fu).
  set (b := 7779607 / 100000000 * (Rgas * Tc / Pc)) in *. pose proof Rgas_pos as HR.
  assert (Ht : 0 < Rgas * T) by (apply Rmult_lt_0_compat; lra).
  assert (Ep : forall r q, pressure_is s T r q -> q = pressure_formula a b T r).
  { intros r q X. unfold pressure_is in X. rewrite (Pr r) in X. injection X as <-. reflexivity. }
  assert (Hd : forall v, b < v -> 0 < 1 / v /\ b * (1 / v) < 1).
  { intros v Hv. split; [apply Rdiv_lt_0_compat; lra|]. apply (Rmult_lt_reg_r v); [lra|]; replace (b * (1 / v) * v) with b by (field; lra); lra. }
  pose proof (Ep r1 p1 Hp1) as E1. pose proof (Ep r2 p2 Hp2) as E2.
  set (p := fun v => pressure_formula a b T (1 / v)).
  assert (Vb : b < / r2).
  { rewrite <- (Rinv_involutive b) by lra. apply Rinv_lt_contravar; [|exact Hr2]. apply Rmult_lt_0_compat; [lra|]. apply Rinv_0_lt_compat; exact Hb. }
  assert (Vv : / r2 < / r1) by (apply Rinv_lt_contravar; [apply Rmult_lt_0_compat; lra|lra]).
  assert (Dp : forall v, b < v -> is_derive p v (Derive p v)).
  { intros v Hv. destruct (Hd v Hv) as [D1 D2]. apply Derive_correct.
    assert (I : is_derive (fun v => 1 / v) v (- 1 / v ^ 2)) by (auto_derive; [lra|field; lra]).
    eexists. apply (is_derive_comp _ _ _ _ _ (slope_at a b T (1 / v) Hb ltac:(lra) D2) I). }
  destruct (MVT_cor2 p (Derive p) (/ r2) (/ r1) Vv) as (v0 & Em & Hv0).
  { intros c Hc. apply is_derive_Reals, Dp. lra. }
  assert (Ds : 0 < Derive p v0).
  { unfold p in Em at 1 2. replace (1 / / r1) with r1 in Em by (field; lra). replace (1 / / r2) with r2 in Em by (field; lra).
    rewrite <- E1, <- E2 in Em. destruct (Rlt_le_dec 0 (Derive p v0)) as [|N]; [assumption|exfalso].
    assert (0 <= - Derive p v0 * (/ r1 - / r2)) by (apply Rmult_le_pos; lra). lra. }
  assert (B2 : 0 < b ^ 2) by (apply pow_lt; exact Hb).
  destruct (equal_areas_exist b (Rgas * T) (a / (2 * b ^ 2)) p (work a b T) Ht) with (v0 := v0) (d := Derive p v0)
    as (P & u & v & HP & Hu & Hv & Eu & Ev & EF & St).
  - apply Rlt_le, Rdiv_lt_0_compat; lra.
  - intros v Hv. apply work_slope; [exact Hb|exact HT|exact Hv].
  - intros v Hv. unfold p. destruct (isotherm_value a b T v Hb Hv) as [-> D].
    assert (0 < a / (v ^ 2 + 2 * b * v - b ^ 2)) by (apply Rdiv_lt_0_compat; lra). lra.
  - intros v Hv. unfold p. destruct (isotherm_value a b T v Hb Hv) as [-> D].
    assert (a / (v ^ 2 + 2 * b * v - b ^ 2) <= a / (2 * b ^ 2)).
    { apply Rmult_le_compat_l; [lra|]. apply Rinv_le_contravar; lra. } lra.
  - intros M. set (X := (M - Rgas * T + Rgas * T * ln (Rgas * T)) / (Rgas * T)). exists (b + exp X). pose proof (exp_pos X).
    split; [lra|]. intros v Hv. pose proof (work_value a b T v Ha Hb HT ltac:(lra)) as W.
    assert (L : X < ln (v - b)) by (rewrite <- (ln_exp X); apply ln_increasing; lra).
    apply (Rmult_lt_compat_l (Rgas * T)) in L; [|exact Ht].
    replace (Rgas * T * X) with (M - Rgas * T + Rgas * T * ln (Rgas * T)) in L by (unfold X; field; lra). lra.
  - lra.
  - apply Dp. lra.
  - exact Ds.
  - assert (Hub : b < u) by lra. assert (Hvb : b < v) by lra.
    destruct (Hd u Hub) as [A1 A2]. destruct (Hd v Hvb) as [A3 A4]. unfold p in Eu, Ev.
    destruct (Fu (1 / u) A1 A2) as (f1 & F1 & G1 & L1); [rewrite Eu; exact HP|]. rewrite Eu in F1, L1.
    destruct (Fu (1 / v) A3 A4) as (f2 & F2 & G2 & L2); [rewrite Ev; exact HP|]. rewrite Ev in F2, L2.
    assert (Cmp : forall x f, b < x -> p x = P -> 0 < f -> Rgas * T * ln f = energy a b T (1 / x) - Rgas * T * ln P ->
      Rgas * T * (ln f - ln f1) = P * (x - u) - (work a b T x - work a b T u)).
    { intros x f Hx Ex Hf Lf. unfold work. unfold p in Ex. rewrite Ex, Eu. lra. }
    exists P, u, v, f1. split; [exact HP|]. split; [lra|]. split; [rewrite <- Eu; apply Pr|]. split; [rewrite <- Ev; apply Pr|].
    split; [exact F1|]. split.
    + assert (Z : Rgas * T * (ln f2 - ln f1) = 0) by (rewrite (Cmp v f2 Hvb Ev G2 L2); lra).
      apply Rmult_integral in Z. destruct Z as [Z|Z]; [lra|]. replace f1 with f2; [exact F2|]. apply ln_inv; [exact G2|exact G1|lra].
    + intros x f Hx Px Fx. pose proof (Ep _ _ Px) as Ex. destruct (Hd x Hx) as [A5 A6].
      destruct (Fu (1 / x) A5 A6) as (f3 & F3 & G3 & L3); [rewrite <- Ex; exact HP|]. rewrite <- Ex in F3, L3.
      unfold fugacity_is in Fx, F3. rewrite Fx in F3. injection F3 as ->.
      assert (Z : 0 <= Rgas * T * (ln f3 - ln f1)).
      { rewrite (Cmp x f3 Hx (eq_sym Ex) G3 L3). specialize (St x Hx). lra. }
      destruct (Rle_lt_dec f1 f3) as [|N]; [assumption|exfalso]. pose proof (ln_increasing f3 f1 G3 N).
      assert (0 < Rgas * T * (ln f1 - ln f3)) by (apply Rmult_lt_0_compat; lra). lra.
Qed.

(** C129, dilute gas: as the density goes to zero the fugacity coefficient goes to one. *)
Theorem C129_dilute : forall s T, init [name] (fluid name Tc Pc w) [] = Ok s -> 0 < T -> attracts w Tc T ->
  forall eps, 0 < eps -> exists d, 0 < d /\ forall rho, 0 < rho < d -> exists P phi,
    0 < P /\ pressure_is s T rho P /\ fugacity_is s T P rho phi /\ Rabs (phi - 1) < eps.
Proof.
  intros s T E HT HA eps He.
  destruct (fluid_outputs name Tc Pc w s T HTc HPc HT E HA) as (a & Ha & Hb & Pr & Fu).
  set (b := 7779607 / 100000000 * (Rgas * Tc / Pc)) in *. pose proof Rgas_pos as HR.
  assert (Ht : 0 < Rgas * T) by (apply Rmult_lt_0_compat; lra).
  set (Z := fun rho => 1 / (1 - b * rho) - rho * a / (Rgas * T * (1 + b * rho + rho * b * (1 - b * rho)))).
  set (K := fun rho => Rgas * T * (b * rho / (1 - b * rho)) - Rgas * T * ln (1 - b * rho)
    - a / (2 * sqrt 2 * b) * (ln (1 + (1 + sqrt 2) * (b * rho)) - ln (1 + (1 - sqrt 2) * (b * rho)))
    - a * rho / (1 + b * rho + rho * b * (1 - b * rho))).
  set (h := fun rho => exp (K rho / (Rgas * T) - ln (Z rho))).
  assert (Z0 : Z 0 = 1) by (unfold Z; field; lra).
  assert (h0 : h 0 = 1).
  { unfold h. rewrite Z0, ln_1. replace (K 0) with 0; [unfold Rdiv; rewrite Rmult_0_l, Rminus_0_r; apply exp_0|].
    unfold K. replace (b * 0) with 0 by ring. replace (1 - 0) with 1 by ring.
    replace (1 + (1 + sqrt 2) * 0) with 1 by ring. replace (1 + (1 - sqrt 2) * 0) with 1 by ring. rewrite ln_1.
    unfold Rdiv. ring. }
  assert (CZ : continuous Z 0).
  { apply (@ex_derive_continuous R_AbsRing R_NormedModule). unfold Z. auto_derive. repeat split; lra. }
  assert (Ch : continuous h 0).
  { apply (@ex_derive_continuous R_AbsRing R_NormedModule). unfold h, K, Z. auto_derive.
    replace (1 + - (b * 0)) with 1 by ring. replace (b * 0) with 0 by ring. replace (1 + 0 + 0 * b * 1) with 1 by ring.
    rewrite !Rmult_0_r, !Rmult_0_l, Rinv_1. repeat split; lra. }
  assert (NZ : locally 0 (fun r => 0 < Z r)) by (apply (CZ (fun y => 0 < y)); apply (open_gt 0); rewrite Z0; lra).
  assert (Nh : locally 0 (fun r => Rabs (h r - 1) < eps)).
  { apply (Ch (fun y => Rabs (y - 1) < eps)). exists (mkposreal eps He). intros y Hy. rewrite h0 in Hy. exact Hy. }
  destruct (filter_and _ _ NZ Nh) as [d0 Hd0].
  assert (Hib : 0 < / b) by (apply Rinv_0_lt_compat; exact Hb).
  exists (Rmin d0 (/ b)). split; [apply Rmin_glb_lt; [apply cond_pos|exact Hib]|].
  intros rho [R0 R1]. assert (R2 : rho < d0) by (eapply Rlt_le_trans; [exact R1|apply Rmin_l]).
  assert (R3 : rho < / b) by (eapply Rlt_le_trans; [exact R1|apply Rmin_r]).
  assert (Hbr : b * rho < 1) by (apply (Rmult_lt_compat_l b) in R3; [|exact Hb]; rewrite Rinv_r in R3 by lra; exact R3).
  destruct (Hd0 rho) as [PZ Ph].
  { change (Rabs (rho - 0) < d0). rewrite Rminus_0_r, Rabs_pos_eq by lra. exact R2. }
  destruct (denom_pos b rho Hb (Rlt_le _ _ R0) Hbr) as [D1 D2].
  assert (EP : pressure_formula a b T rho = Rgas * T * rho * Z rho).
  { unfold pressure_formula, Z. field. repeat split; lra. }
  assert (Htr : 0 < Rgas * T * rho) by (apply Rmult_lt_0_compat; lra).
  assert (HP : 0 < pressure_formula a b T rho) by (rewrite EP; apply Rmult_lt_0_compat; assumption).
  destruct (Fu rho R0 Hbr HP) as (phi & F & G & L). exists (pressure_formula a b T rho), phi.
  split; [exact HP|]. split; [apply Pr|]. split; [exact F|].
  replace phi with (h rho); [exact Ph|]. unfold h.
  rewrite EP, ln_mult in L by assumption.
  rewrite <- (exp_ln phi G). f_equal.
  apply (Rmult_eq_reg_l (Rgas * T)); [|lra]. rewrite L. unfold energy. fold (K rho).
  replace (Rgas * T * (K rho / (Rgas * T) - ln (Z rho))) with (K rho - Rgas * T * ln (Z rho)) by (field; lra).
  unfold K. ring.
Qed.
End Pure.

(** C129: hence at every temperature below the given critical one a fluid has a saturation pressure. *)
Theorem C129_saturation_below : forall name Tc Pc w s T, 0 < Tc -> 0 < Pc -> - (2 / 10) <= w <= 1 ->
  init [name] (fluid name Tc Pc w) [] = Ok s -> 0 < T <= Tc * (1 - 1 / 10 ^ 6) ->
  exists P v1 v2 phi, 0 < P /\ 0 < v1 < v2 /\
    pressure_is s T (1 / v1) P /\ pressure_is s T (1 / v2) P /\
    fugacity_is s T P (1 / v1) phi /\ fugacity_is s T P (1 / v2) phi.
Proof.
  intros name Tc Pc w s T HTc HPc Hw E HT. pose proof Rgas_pos as HR.
  assert (HA : attracts w Tc T).
  { unfold attracts. pose proof (kappa_range w Hw) as K. assert (Q : sqrt (T / Tc) <= 1).
    { rewrite <- sqrt_1. apply sqrt_le_1_alt. apply (Rmult_le_reg_r Tc); [exact HTc|]. unfold Rdiv. rewrite Rmult_assoc, Rinv_l by lra. nra. }
    assert (0 <= acentric_kappa w * (1 - sqrt (T / Tc))) by (apply Rmult_le_pos; lra). lra. }
  destruct (C123_two_phases_below name Tc Pc w HTc HPc Hw s T E HT) as (r1 & r2 & p1 & p2 & H1 & H2 & H3 & H4 & H5).
  assert (Hs : 0 < 7779607 / 100000000 * (831446261815324 / 10 ^ 14 * Tc / Pc)).
  { apply Rmult_lt_0_compat; [lra|]. apply Rdiv_lt_0_compat; [|exact HPc]. lra. }
  destruct (C129_saturation_exists name Tc Pc w HTc HPc s T r1 r2 p1 p2 E) as (P & v1 & v2 & phi & A1 & A2 & A3 & A4 & A5 & A6 & _); try assumption; try lra.
  - eapply Rlt_le_trans; [exact H2|]. right. field. repeat split; lra.
  - exists P, v1, v2, phi. repeat split; try assumption; lra.
Qed.

(** Non-vacuity: a fluid with acentric factor 0 at a temperature where its vapour at 0.05 of close packing and its
    liquid at 0.6 of it have one positive pressure. *)
Example C129_case : forall Tc Pc, 0 < Tc -> 0 < Pc -> exists s T P p,
  let packed := 7779607 / 100000000 * (831446261815324 / 10 ^ 14 * Tc / Pc) in
  init ["X"%string] (fluid "X" Tc Pc 0) [] = Ok s /\ 0 < T < Tc /\ attracts 0 Tc T /\ 0 < P /\
  (forall v, pressure_is s T (1 / v) (p v)) /\ p (packed / (6 / 10)) = P /\ p (packed / (5 / 100)) = P.
Proof.
  intros Tc Pc HTc HPc. pose proof Rgas_pos as HR.
  assert (I : exists s, init ["X"%string] (fluid "X" Tc Pc 0) [] = Ok s) by (eexists; cbn -[IZR Rgas Rdiv Rmult Rplus Rminus pow sqrt]; reflexivity).
  destruct I as [s E]. set (c := 45723553 / 7779607). set (A0 := (3 / 2 - 1 / 19) / (9 / 46 - 1 / 439)). set (k := 37464 / 100000).
  assert (Hc : 0 < A0 / c) by (unfold A0, c; lra). set (y := sqrt (A0 / c)).
  assert (Hy : 1 < y) by (unfold y; rewrite <- sqrt_1; apply sqrt_lt_1_alt; unfold A0, c; lra).
  assert (Ey : y * y = A0 / c) by (unfold y; apply sqrt_sqrt; lra).
  set (q := (1 + k) / (k + y)).
  assert (Hk : 0 < k) by (unfold k; lra).
  assert (Hq : 0 < q) by (unfold q; apply Rdiv_lt_0_compat; lra).
  assert (Hq1 : q < 1) by (unfold q; apply (Rmult_lt_reg_r (k + y)); [lra|]; unfold Rdiv; rewrite Rmult_assoc, Rinv_l by lra; lra).
  set (T := q * q * Tc). assert (HT : 0 < T) by (unfold T; apply Rmult_lt_0_compat; [nra|lra]).
  assert (Es : sqrt (T / Tc) = q).
  { unfold T. replace (q * q * Tc / Tc) with (q * q) by (field; lra). apply sqrt_square. lra. }
  assert (Ek : acentric_kappa 0 = k) by (unfold acentric_kappa, k; lra).
  destruct (fluid_pressure "X" Tc Pc 0 s T HTc HPc HT E) as [Hb HP]. rewrite Es, Ek in HP. fold c in HP.
  assert (EA : c * (1 + k * (1 - q)) ^ 2 * (Tc / T) = A0).
  { replace (c * (1 + k * (1 - q)) ^ 2 * (Tc / T)) with (c * ((1 + k) / q - k) ^ 2) by (unfold T; field; split; lra).
    replace ((1 + k) / q) with (k + y) by (unfold q; field; lra).
    replace (c * (k + y - k) ^ 2) with (c * (y * y)) by ring. rewrite Ey. field. unfold c. lra. }
  rewrite EA in HP. rewrite <- Rgas_value.
  set (b := 7779607 / 100000000 * (Rgas * Tc / Pc)) in *.
  assert (V : forall x D, 0 < x -> x < 1 -> D = 1 + 2 * x - x ^ 2 -> 0 < D -> pressure_formula (A0 * b * Rgas * T) b T (1 / (b / x)) = Rgas * T / b * (x / (1 - x) - A0 * x ^ 2 / D)).
  { intros x D X0 X1 ED HD. unfold pressure_formula. replace (1 / (b / x)) with (x / b) by (field; split; lra).
    replace (b * (x / b)) with x by (field; lra).
    replace (1 + x + x / b * b * (1 - x)) with D by (rewrite ED; field; lra). field. repeat split; lra. }
  assert (Hrt : 0 < Rgas * T / b) by (apply Rdiv_lt_0_compat; [apply Rmult_lt_0_compat; lra|exact Hb]).
  exists s, T, (Rgas * T / b * (1 / 19 - A0 / 439)), (fun v => pressure_formula (A0 * b * Rgas * T) b T (1 / v)). cbn zeta.
  split; [exact E|]. split; [split; [exact HT|unfold T; assert (q * q < 1) by nra; nra]|].
  split; [unfold attracts; rewrite Es, Ek; nra|].
  split; [apply Rmult_lt_0_compat; [exact Hrt|unfold A0; lra]|]. split; [intros v; apply HP|].
  split.
  - rewrite (V (6 / 10) (184 / 100)) by lra. f_equal. unfold A0. lra.
  - rewrite (V (5 / 100) (439 / 400)) by lra. f_equal. unfold A0. lra.
Qed.
Print Assumptions C129_equal_areas.
Print Assumptions C129_fugacity_grows.
Print Assumptions C129_dilute.
Print Assumptions C129_saturation_exists.
Print Assumptions C129_saturation_below.

