(** Property theorems C12 and C67 (combining rules). *)
From Verif Require Import Base BaseFacts CombiningModel CombiningProofs.
From Coq Require Import Reals Lra.
Open Scope R_scope.

(** C12, symmetry: exchanging the two beads changes nothing, not even the exception;
    for every rule name but the plug-in one. *)
Theorem C12_symmetric : forall mapsci A B p o,
  ro_function o <> "multipole"%string ->
  combining_rules mapsci A B p o = combining_rules mapsci B A p o.
Proof. exact rules_symmetric. Qed.
Print Assumptions C12_symmetric.

(** C12, values: what each rule returns for a bead with value [a] and one with value
    [b] lies between them (for the volumetric rule: at most the larger, and positive),
    and is the common value when the beads agree. *)
Theorem C12_mean : forall A B p a b,
  dget A p = Some a -> dget B p = Some b ->
  exists v, mean A B p = Ok v /\ Rmin a b <= v <= Rmax a b /\ (a = b -> v = a).
Proof.
  intros A B p a b HA HB. exists ((a + b) / 2). unfold mean, dfetch. rewrite HA, HB.
  split; [reflexivity|]. split; [apply mean_between|]. intros ->; lra.
Qed.
Print Assumptions C12_mean.

Theorem C12_geometric_mean : forall A B p a b,
  dget A p = Some a -> dget B p = Some b -> 0 <= a -> 0 <= b ->
  exists v, geometric_mean A B p = Ok v /\ Rmin a b <= v <= Rmax a b /\ v * v = a * b /\ (a = b -> v = a).
Proof.
  intros A B p a b HA HB Pa Pb. exists (sqrt (a * b)). unfold geometric_mean, dfetch. rewrite HA, HB.
  split; [reflexivity|]. split; [apply sqrt_between; assumption|].
  split; [apply sqrt_sqrt; apply Rmult_le_pos; assumption|].
  intros ->. apply sqrt_square; assumption.
Qed.
Print Assumptions C12_geometric_mean.

Theorem C12_weighted_mean : forall A B p q ws a b wa wb,
  dget A p = Some a -> dget B p = Some b -> dget A q = Some wa -> dget B q = Some wb ->
  0 < wa -> 0 < wb ->
  exists v, weighted_mean A B p (q :: ws) = Ok v /\ Rmin a b <= v <= Rmax a b /\ (a = b -> v = a) /\
    v * (wa + wb) = a * wa + b * wb.
Proof.
  intros A B p q ws a b wa wb H1 H2 H3 H4 P1 P2. exists ((a * wa + b * wb) / (wa + wb)).
  unfold weighted_mean, weight_name, dfetch. cbn [nth_error rbind]. rewrite H1, H2, H3, H4.
  split; [reflexivity|]. split; [apply weighted_between; assumption|].
  split; [intros ->; field; lra|field; lra].
Qed.
Print Assumptions C12_weighted_mean.

(** Exponents of a Mie potential are at least 3 (see C12_small_exponent_refuted). *)
Theorem C12_mie_exponent : forall A B p a b,
  dget A p = Some a -> dget B p = Some b -> 3 <= a -> 3 <= b ->
  exists v, mie_exponent A B p = Ok v /\ Rmin a b <= v <= Rmax a b /\ (a = b -> v = a) /\
    (v - 3) * (v - 3) = (a - 3) * (b - 3).
Proof.
  intros A B p a b HA HB Pa Pb. exists (3 + sqrt ((a - 3) * (b - 3))).
  unfold mie_exponent, dfetch. rewrite HA, HB.
  split; [reflexivity|]. split; [apply mie_between; assumption|]. split.
  - intros ->. rewrite sqrt_square by lra. lra.
  - replace (3 + sqrt ((a - 3) * (b - 3)) - 3) with (sqrt ((a - 3) * (b - 3))) by ring.
    apply sqrt_sqrt. apply Rmult_le_pos; lra.
Qed.
Print Assumptions C12_mie_exponent.

(** The volumetric rule lowers the geometric mean of the energies by a factor that is
    1 exactly when the sizes agree. *)
Theorem C12_volumetric_geometric_mean : forall A B p q ws a b sa sb,
  dget A p = Some a -> dget B p = Some b -> dget A q = Some sa -> dget B q = Some sb ->
  0 < a -> 0 < b -> 0 < sa -> 0 < sb ->
  exists v, volumetric_geometric_mean A B p (q :: ws) = Ok v /\
    0 < v <= Rmax a b /\ v * v <= a * b /\
    (sa = sb -> v * v = a * b) /\ (a = b -> sa = sb -> v = a) /\
    (* the English formula: c = sqrt(ab) * sqrt(sa^3 sb^3) / ((sa+sb)/2)^3 *)
    v * v * (((sa + sb) / 2) ^ 3 * ((sa + sb) / 2) ^ 3) = a * b * (sa ^ 3 * sb ^ 3).
Proof.
  intros A B p q ws a b sa sb H1 H2 H3 H4 P1 P2 P3 P4.
  exists (sqrt (a * b) * (sqrt (sa ^ 3 * sb ^ 3) * 8 / (sa + sb) ^ 3)).
  unfold volumetric_geometric_mean, weight_name, dfetch. cbn [nth_error rbind]. rewrite H1, H2, H3, H4.
  split; [reflexivity|].
  assert (Pab : 0 < a * b) by (apply Rmult_lt_0_compat; assumption).
  pose proof (cube_factor sa sb P3 P4) as [F0 F1].
  pose proof (sqrt_lt_R0 _ Pab) as G0.
  destruct (sqrt_between a b) as [_ G1]; try lra.
  pose proof (sqrt_sqrt (a * b)) as G2. specialize (G2 (Rlt_le _ _ Pab)).
  set (g := sqrt (a * b)) in *. set (f := sqrt (sa ^ 3 * sb ^ 3) * 8 / (sa + sb) ^ 3) in *.
  split; [split; [apply Rmult_lt_0_compat; assumption|]|].
  { apply Rle_trans with g; [|exact G1]. rewrite <- (Rmult_1_r g) at 2. apply Rmult_le_compat_l; lra. }
  split.
  { replace (g * f * (g * f)) with (g * g * (f * f)) by ring. rewrite G2.
    rewrite <- (Rmult_1_r (a * b)) at 2. apply Rmult_le_compat_l; [lra|].
    replace 1 with (1 * 1) by ring. apply Rmult_le_compat; lra. }
  split.
  { intros ->. assert (f = 1) as -> by (apply cube_ratio; assumption). rewrite Rmult_1_r. exact G2. }
  split.
  { intros -> ->. assert (f = 1) as -> by (apply cube_ratio; assumption). rewrite Rmult_1_r.
    unfold g. apply sqrt_square; lra. }
  assert (Q : 0 <= sa ^ 3 * sb ^ 3) by (apply Rmult_le_pos; apply pow_le; lra).
  pose proof (sqrt_sqrt _ Q) as Q2.
  replace (g * f * (g * f)) with (g * g * (f * f)) by ring. rewrite G2, <- Q2. unfold f. field. lra.
Qed.
Print Assumptions C12_volumetric_geometric_mean.

Theorem C12_square_well_berthelot : forall A B p q r ws a b sa sb la lb,
  dget A p = Some a -> dget B p = Some b -> dget A q = Some sa -> dget B q = Some sb ->
  dget A r = Some la -> dget B r = Some lb ->
  0 < a -> 0 < b -> 0 < sa -> 0 < sb -> 1 < la -> 1 < lb ->
  exists v, square_well_berthelot A B p (q :: r :: ws) = Ok v /\ 0 < v /\
    (a = b -> sa = sb -> la = lb -> v = a).
Proof.
  intros A B p q r ws a b sa sb la lb H1 H2 H3 H4 H5 H6 P1 P2 P3 P4 P5 P6.
  unfold square_well_berthelot, weight_name, dfetch. cbn [nth_error rbind]. rewrite H1, H2, H3, H4.
  unfold weighted_mean, weight_name, dfetch. cbn [nth_error rbind]. rewrite H3, H4, H5, H6. cbn [rbind].
  set (l12 := (la * sa + lb * sb) / (sa + sb)).
  assert (L : 1 < l12).
  { destruct (weighted_between la lb sa sb P3 P4) as [L _]. fold l12 in L.
    apply Rlt_le_trans with (Rmin la lb); [apply Rmin_glb_lt; assumption|exact L]. }
  assert (C : forall x, 1 < x -> 0 < x ^ 3 - 1).
  { intros x Hx. assert (1 < x ^ 3); [|lra]. replace 1 with (1 ^ 3) by ring.
    cbn. assert (1 < x * x) by (apply Rlt_trans with (1 * x); [lra|apply Rmult_lt_compat_r; lra]).
    assert (x * x < x * x * x) by (rewrite <- (Rmult_1_r (x * x)) at 1; apply Rmult_lt_compat_l; lra). lra. }
  eexists. split; [reflexivity|]. split.
  - destruct (cube_factor sa sb P3 P4) as [F _].
    apply Rmult_lt_0_compat; [apply Rmult_lt_0_compat; [|exact F]|].
    + apply sqrt_lt_R0. apply Rmult_lt_0_compat; assumption.
    + apply Rmult_lt_0_compat; [|apply Rinv_0_lt_compat; apply C; exact L].
      apply sqrt_lt_R0. apply Rmult_lt_0_compat; apply C; assumption.
  - intros -> -> ->. rewrite cube_ratio by assumption. rewrite sqrt_square by lra.
    assert (E : l12 = lb) by (unfold l12; field; lra).
    rewrite E, sqrt_square by (specialize (C lb P6); lra).
    field. specialize (C lb P6). lra.
Qed.
Print Assumptions C12_square_well_berthelot.

(** Non-vacuity: the parameters of two water-like beads. *)
Example C12_case : exists v, mie_exponent [("lambdar", 19)]%string [("lambdar", 12)]%string "lambdar" = Ok v /\ v = 15.
Proof.
  eexists. split; [reflexivity|]. replace ((19 - 3) * (12 - 3)) with (12 * 12) by ring.
  rewrite sqrt_square; lra.
Qed.

(** C12, refuted part: an exponent below 3 is not kept when the beads are identical. *)
Theorem C12_small_exponent_refuted :
  exists A p a, dget A p = Some a /\ 0 < a /\ mie_exponent A A p <> Ok a.
Proof.
  exists [("lambdaa", 2)]%string, "lambdaa"%string, 2. split; [reflexivity|]. split; [lra|].
  cbn. intros H. injection H as H. replace ((2 - 3) * (2 - 3)) with (1 * 1) in H by ring.
  rewrite sqrt_square in H; lra.
Qed.
Print Assumptions C12_small_exponent_refuted.

(** C12: unknown rules are refused, and the rules only ever produce the parameter
    asked for. *)
Theorem C12_single_output : forall mapsci A B p o out,
  ro_function o <> "multipole"%string ->
  combining_rules mapsci A B p o = Ok out ->
  (ro_function o = "None"%string /\ out = []) \/ exists v, out = [(p, v)].
Proof.
  intros mapsci A B p o out Hn. unfold combining_rules.
  destruct (String.eqb_spec (ro_function o) "None") as [->|_].
  { intros H; injection H as <-. left; split; reflexivity. }
  assert (One : forall r : result R, (let* v := r in Ok [(p, v)]) = Ok out -> exists v, out = [(p, v)]).
  { intros [v|e]; cbn [rbind]; intros H; [|discriminate]. injection H as <-. eauto. }
  intros H. right. revert H.
  destruct (String.eqb (ro_function o) "mean"); [apply One|].
  destruct (String.eqb (ro_function o) "geometric_mean"); [apply One|].
  destruct (String.eqb (ro_function o) "volumetric_geometric_mean"); [apply One|].
  destruct (String.eqb (ro_function o) "weighted_mean"); [apply One|].
  destruct (String.eqb (ro_function o) "mie_exponent"); [apply One|].
  destruct (String.eqb (ro_function o) "square_well_berthelot"); [apply One|].
  destruct (String.eqb_spec (ro_function o) "multipole"); [contradiction|discriminate].
Qed.
Print Assumptions C12_single_output.

(** C67, refuted: as soon as a temperature is supplied, the multipole rule ignores
    the plug-in and the temperature and returns the plain geometric mean; without one,
    the plug-in is called with no temperature. *)
Theorem C67_multipole_temperature_refuted :
  (exists (fit : bead -> bead -> option R -> result (dict R)) A B p T1 T2,
     fit A B (Some T1) <> fit A B (Some T2) /\
     multipole (Some fit) A B p (Some T1) = multipole (Some fit) A B p (Some T2) /\
     multipole (Some fit) A B p (Some T1) <> fit A B (Some T1)) /\
  (forall fit A B p T,
     multipole (Some fit) A B p T = fit A B None \/
     multipole (Some fit) A B p T = (let* v := geometric_mean A B p in Ok [(p, v)])).
Proof.
  split.
  - exists (fun _ _ T => match T with Some t => Ok [("epsilon"%string, t)] | None => Ok [] end),
      [("epsilon", 100)]%string, [("epsilon", 100)]%string, "epsilon"%string, 300, 400.
    split; [intros H; injection H as H; lra|]. split; [reflexivity|].
    cbn. rewrite sqrt_square by lra. intros H; injection H as H; lra.
  - intros fit A B p [T|]; [right|left]; reflexivity.
Qed.
Print Assumptions C67_multipole_temperature_refuted.
