(** C120: the bonding volume of two molecules depends on the sizes of those two only. *)
From Coq Require Import Reals Lra Lia.
From Verif Require Import Base RSum BondingModel.
Open Scope R_scope.

(** C120 for the Mie variant: the volume is that of two spheres of the mean diameter, so
    other components do not enter. *)
Theorem C120_mie : forall dii rc rd ratio i j k l a b d,
  dii i + dii j = d + d ->
  Kijklab_mie dii rc rd ratio i j k l a b = calc_bonding_volume rc (fun _ _ => d) rd ratio i j k l a b.
Proof.
  intros dii rc rd ratio i j k l a b d H. unfold Kijklab_mie, calc_bonding_volume. replace (dij_mie dii i j) with d by (unfold dij_mie; lra). reflexivity.
Qed.
Print Assumptions C120_mie.

(** C120 for the square-well variant, if all molecules and all their pairs have one size *)
Theorem C120_square_well_partial : forall n sigma rc rd ratio i j k l a b d,
  (0 < n)%nat -> (forall h, (h < n)%nat -> sigma i h = d /\ sigma j h = d) ->
  Kijklab_sw n sigma rc rd ratio i j k l a b = calc_bonding_volume rc (fun _ _ => d) rd ratio i j k l a b.
Proof.
  intros n sigma rc rd ratio i j k l a b d Hn H. unfold Kijklab_sw, calc_bonding_volume.
  replace (dij_sw n sigma i j) with d; [reflexivity|]. unfold dij_sw.
  assert (S : forall h, (forall q, (q < n)%nat -> sigma h q = d) -> sumn n (sigma h) = INR n * d).
  { intros h Hh. rewrite (sumn_ext n _ (fun _ => d)) by exact Hh. clear. induction n as [|n IH]; [cbn; ring|].
    rewrite S_INR. cbn [sumn]. rewrite IH. ring. }
  rewrite (S i), (S j) by (intros q Hq; apply H; exact Hq). rewrite mult_INR. change (INR 2) with 2.
  field. apply not_0_INR. lia.
Qed.
Print Assumptions C120_square_well_partial.
Example C120_square_well_case : (0 < 2)%nat /\ forall h, (h < 2)%nat -> (fun _ _ : nat => 3 / 10) 0%nat h = 3 / 10 /\ (fun _ _ : nat => 3 / 10) 1%nat h = 3 / 10.
Proof. split; [lia|]. intros; split; reflexivity. Qed.

(** C120, refuted for the square-well variant: the mean goes over whole rows of the matrix
    of molecular diameters, so listing a second component, even at mole fraction zero,
    changes the bonding volume of the first component with itself. *)
Theorem C120_square_well_refuted : exists sigma rc rd ratio,
  (forall i j, sigma i j = sigma j i) /\ (forall i j, 2 * sigma i j = sigma i i + sigma j j) /\ (forall i, 0 < sigma i i) /\
  Kijklab_sw 2 sigma rc rd ratio 0 0 0 0 0 0 <> Kijklab_sw 1 sigma rc rd ratio 0 0 0 0 0 0.
Proof.
  exists (fun i j => (INR (1 + 2 * i) + INR (1 + 2 * j)) / 2), (fun _ _ _ _ => 1), (Some (fun _ _ _ _ => 1)), 0.
  split; [intros; lra|]. split; [intros; lra|]. split.
  { intros i. assert (0 < INR (1 + 2 * i)) by (apply lt_0_INR; lia). lra. }
  unfold Kijklab_sw, calc_bonding_volume, site_position, dij_sw. cbn [sumn Nat.add Nat.mul INR]. cbv zeta.
  destruct (Req_EM_T 1 0); [lra|].
  match goal with |- context [ln ((1 + 2 * 1) / ?d)] => set (L1 := ln ((1 + 2 * 1) / d)) end.
  match goal with |- context [ln ((1 + 2 * 1) / ?d)] => set (L2 := ln ((1 + 2 * 1) / d)) end.
  pose proof PI_RGT_0. intros E. ring_simplify in E || idtac.
  match type of E with ?a = ?b => assert (F : a - b = 0) by lra end. field_simplify in F. nra.
Qed.
Print Assumptions C120_square_well_refuted.
