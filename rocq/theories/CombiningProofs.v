(** Proofs about the combining rules. *)
From Verif Require Import Base BaseFacts CombiningModel.
From Coq Require Import Reals Lra Psatz.
Open Scope R_scope.

Lemma dfetch_some {A} (d : dict A) k v : dget d k = Some v -> dfetch d k = Ok v.
Proof. unfold dfetch. intros ->. reflexivity. Qed.

Lemma wm_sym A B p w : weighted_mean A B p w = weighted_mean B A p w.
Proof.
  unfold weighted_mean, dfetch. destruct (weight_name w 0) as [p2|]; cbn [rbind]; [|reflexivity].
  destruct (dget A p), (dget A p2), (dget B p), (dget B p2); cbn [rbind]; try reflexivity.
  do 2 f_equal; lra.
Qed.

Lemma wm_err A B p w e : weighted_mean A B p w = Err e -> e = KeyError \/ e = IndexError.
Proof.
  unfold weighted_mean, weight_name, dfetch. destruct (nth_error w 0); cbn [rbind].
  - destruct (dget A p), (dget A s), (dget B p), (dget B s); cbn [rbind]; intros H; inversion H; auto.
  - intros H; inversion H; auto.
Qed.

Lemma rules_symmetric mapsci A B p o :
  ro_function o <> "multipole"%string ->
  combining_rules mapsci A B p o = combining_rules mapsci B A p o.
Proof.
  intros Hn. unfold combining_rules.
  destruct (String.eqb (ro_function o) "None"); [reflexivity|].
  assert (Hmean : mean A B p = mean B A p).
  { unfold mean, dfetch. destruct (dget A p), (dget B p); cbn [rbind]; try reflexivity. do 2 f_equal; lra. }
  assert (Hgeo : geometric_mean A B p = geometric_mean B A p).
  { unfold geometric_mean, dfetch. destruct (dget A p), (dget B p); cbn [rbind]; try reflexivity.
    do 2 f_equal; lra. }
  assert (Hmie : mie_exponent A B p = mie_exponent B A p).
  { unfold mie_exponent, dfetch. destruct (dget A p), (dget B p); cbn [rbind]; try reflexivity.
    do 3 f_equal; lra. }
  assert (Hvol : volumetric_geometric_mean A B p (ro_weights o) = volumetric_geometric_mean B A p (ro_weights o)).
  { unfold volumetric_geometric_mean, dfetch. destruct (weight_name _ 0) as [p2|]; cbn [rbind]; [|reflexivity].
    destruct (dget A p), (dget B p), (dget A p2), (dget B p2); cbn [rbind]; try reflexivity.
    rewrite (Rmult_comm r0 r), (Rmult_comm (r2 ^ 3) (r1 ^ 3)), (Rplus_comm r2 r1). reflexivity. }
  assert (Hsw : square_well_berthelot A B p (ro_weights o) = square_well_berthelot B A p (ro_weights o)).
  { unfold square_well_berthelot. destruct (weight_name _ 0) as [p2|]; cbn [rbind]; [|reflexivity].
    destruct (weight_name _ 1) as [p3|]; cbn [rbind]; [|reflexivity].
    unfold dfetch, weighted_mean, weight_name, nth_error, dfetch. cbn [rbind].
    destruct (dget A p), (dget B p), (dget A p2), (dget B p2), (dget A p3), (dget B p3); cbn [rbind]; try reflexivity.
    rewrite (Rmult_comm r0 r), (Rmult_comm (r2 ^ 3) (r1 ^ 3)), (Rplus_comm r2 r1),
      (Rmult_comm (r4 ^ 3 - 1) (r3 ^ 3 - 1)), (Rplus_comm (r4 * r2) (r3 * r1)). reflexivity. }
  rewrite Hmean, Hgeo, Hmie, Hvol, Hsw, wm_sym.
  destruct (String.eqb (ro_function o) "mean"); [reflexivity|].
  destruct (String.eqb (ro_function o) "geometric_mean"); [reflexivity|].
  destruct (String.eqb (ro_function o) "volumetric_geometric_mean"); [reflexivity|].
  destruct (String.eqb (ro_function o) "weighted_mean"); [reflexivity|].
  destruct (String.eqb (ro_function o) "mie_exponent"); [reflexivity|].
  destruct (String.eqb (ro_function o) "square_well_berthelot"); [reflexivity|].
  destruct (String.eqb_spec (ro_function o) "multipole"); [contradiction|reflexivity].
Qed.

Lemma cube_ratio s : 0 < s -> sqrt (s ^ 3 * s ^ 3) * 8 / (s + s) ^ 3 = 1.
Proof. intros H. rewrite sqrt_square by (apply pow_le; lra). field. lra. Qed.

Lemma sqrt_between a b : 0 <= a -> 0 <= b -> Rmin a b <= sqrt (a * b) <= Rmax a b.
Proof.
  intros Ha Hb. split.
  - destruct (Rle_dec a b).
    + rewrite Rmin_left by lra. rewrite <- (sqrt_square a) at 1 by lra. apply sqrt_le_1_alt. nra.
    + rewrite Rmin_right by lra. rewrite <- (sqrt_square b) at 1 by lra. apply sqrt_le_1_alt. nra.
  - destruct (Rle_dec a b).
    + rewrite Rmax_right by lra. rewrite <- (sqrt_square b) at 2 by lra. apply sqrt_le_1_alt. nra.
    + rewrite Rmax_left by lra. rewrite <- (sqrt_square a) at 2 by lra. apply sqrt_le_1_alt. nra.
Qed.

(** the volumetric factor is at most 1 *)
Lemma cube_factor s t : 0 < s -> 0 < t ->
  0 < sqrt (s ^ 3 * t ^ 3) * 8 / (s + t) ^ 3 <= 1.
Proof.
  intros Hs Ht.
  assert (P : 0 < (s + t) ^ 3) by (apply pow_lt; lra).
  assert (Q : 0 < s ^ 3 * t ^ 3) by (apply Rmult_lt_0_compat; apply pow_lt; lra).
  split.
  - apply Rmult_lt_0_compat; [|apply Rinv_0_lt_compat; lra].
    apply Rmult_lt_0_compat; [apply sqrt_lt_R0; exact Q|lra].
  - apply (Rmult_le_reg_r ((s + t) ^ 3)); [exact P|].
    unfold Rdiv. rewrite Rmult_assoc, Rinv_l by lra. rewrite Rmult_1_r, Rmult_1_l.
    assert (E : sqrt (s ^ 3 * t ^ 3) <= ((s + t) / 2) ^ 3).
    { rewrite <- (sqrt_square (((s + t) / 2) ^ 3)) by (apply pow_le; lra).
      apply sqrt_le_1_alt.
      replace (s ^ 3 * t ^ 3) with ((s * t) ^ 3) by ring.
      replace (((s + t) / 2) ^ 3 * ((s + t) / 2) ^ 3) with ((((s + t) / 2) ^ 2) ^ 3) by ring.
      apply pow_incr. split; [apply Rmult_le_pos; lra|]. pose proof (pow2_ge_0 (s - t)). nra. }
    replace ((s + t) ^ 3) with (((s + t) / 2) ^ 3 * 8) by field. lra.
Qed.

Lemma weighted_between a b wa wb : 0 < wa -> 0 < wb ->
  Rmin a b <= (a * wa + b * wb) / (wa + wb) <= Rmax a b.
Proof.
  intros Ha Hb. assert (P : 0 < wa + wb) by lra.
  pose proof (Rmin_l a b); pose proof (Rmin_r a b); pose proof (Rmax_l a b); pose proof (Rmax_r a b).
  split.
  - apply (Rmult_le_reg_r (wa + wb)); [exact P|]. unfold Rdiv. rewrite Rmult_assoc, Rinv_l by lra. nra.
  - apply (Rmult_le_reg_r (wa + wb)); [exact P|]. unfold Rdiv. rewrite Rmult_assoc, Rinv_l by lra. nra.
Qed.

Lemma mean_between a b : Rmin a b <= (a + b) / 2 <= Rmax a b.
Proof.
  pose proof (Rmin_l a b); pose proof (Rmin_r a b); pose proof (Rmax_l a b); pose proof (Rmax_r a b). lra.
Qed.

Lemma mie_between a b : 3 <= a -> 3 <= b -> Rmin a b <= 3 + sqrt ((a - 3) * (b - 3)) <= Rmax a b.
Proof.
  intros Ha Hb. destruct (sqrt_between (a - 3) (b - 3)) as [L U]; try lra.
  split.
  - destruct (Rle_dec a b); [rewrite Rmin_left in * by lra|rewrite Rmin_right in * by lra]; lra.
  - destruct (Rle_dec a b); [rewrite Rmax_right in * by lra|rewrite Rmax_left in * by lra]; lra.
Qed.
