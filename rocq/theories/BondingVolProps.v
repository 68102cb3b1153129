(** Property theorem C95: the bonding volume of two sites is the orientation average of
    their square-well overlap, integrated over the distance of the segments. *)
From Coq Require Import Reals Lra Lia.
From Coquelicot Require Import Coquelicot.
From Verif Require Import Base RSum BondingModel.
Open Scope R_scope.

(** ** Specification *)

(** Two segments at distance [x], each with a site at distance [rd] from its centre: the
    fraction of orientations in which the sites are within [rc] of each other, for
    [2 rd - rc <= x <= 2 rd + rc] (Jackson, Chapman and Gubbins 1988). *)
Definition bonded_orientations (rc rd x : R) : R :=
  (rc + 2 * rd - x) ^ 2 * (2 * rc - 2 * rd + x) / (24 * rd ^ 2 * x).
(** the site distance in use: the given one unless there is none or it is zero *)
Definition given_or_default (rd : option (nat -> nat -> nat -> nat -> R)) (default : R) (k l a b : nat) (r : R) : Prop :=
  match rd with
  | Some f => (f k l a b <> 0 -> r = f k l a b) /\ (f k l a b = 0 -> r = default)
  | None => r = default
  end.

(** C95.  The volume is 4 pi d^2 times the integral of that fraction from the contact
    distance to the largest bonding distance; a pair of sites without a cutoff has none.
    It is positive whenever sites in contact can bond. *)
Theorem C95_bonding_volume : forall rc dij rd ratio i j k l a b r I,
  let c := rc k l a b in let d := dij i j in
  0 < d -> r <> 0 -> 0 < c + 2 * r -> given_or_default rd (ratio * d) k l a b r ->
  is_RInt (bonded_orientations c r) d (c + 2 * r) I ->
  (c <> 0 -> calc_bonding_volume rc dij rd ratio i j k l a b = 4 * PI * d ^ 2 * I) /\
  (c = 0 -> calc_bonding_volume rc dij rd ratio i j k l a b = 0) /\
  (0 < c -> d < c + 2 * r -> 2 * r - 2 * c < d -> 0 < calc_bonding_volume rc dij rd ratio i j k l a b).
Proof.
  intros rc dij rd ratio i j k l a b r I c d Hd Hr Hs Gd HI.
  assert (SR : site_position rd ratio d k l a b = r).
  { unfold site_position, given_or_default in *. destruct rd as [f|]; [|symmetry; exact Gd].
    destruct Gd as [G1 G2]. destruct (Req_EM_T (f k l a b) 0); symmetry; auto. }
  set (A := c + 2 * r) in *. set (B := 2 * c - 2 * r).
  assert (POS : forall x, Rmin d A <= x <= Rmax d A -> 0 < x).
  { intros x [H _]. unfold Rmin in H. destruct (Rle_dec d A); lra. }
  assert (E : I = (A ^ 2 * B * (ln A - ln d) + (A ^ 2 - 2 * A * B) * (A - d) + (B - 2 * A) * (A ^ 2 - d ^ 2) / 2 + (A ^ 3 - d ^ 3) / 3) / (24 * r ^ 2)).
  { rewrite <- (is_RInt_unique (V := R_CompleteNormedModule) _ _ _ _ HI). apply (is_RInt_unique (V := R_CompleteNormedModule)).
    refine (eq_rect _ (fun v => is_RInt _ _ _ v) (is_RInt_derive (V := R_CompleteNormedModule)
      (fun x => (A ^ 2 * B * ln x + (A ^ 2 - 2 * A * B) * x + (B - 2 * A) * x ^ 2 / 2 + x ^ 3 / 3) / (24 * r ^ 2)) (bonded_orientations c r) d A _ _) _ _).
    - intros x Hx. specialize (POS x Hx). unfold bonded_orientations. fold A B. auto_derive; [exact POS|]. field. split; lra.
    - intros x Hx. specialize (POS x Hx). apply (ex_derive_continuous (bonded_orientations c r)). unfold bonded_orientations. fold A B.
      auto_derive. repeat apply Rmult_integral_contrapositive_currified; lra.
    - unfold minus, plus, opp. cbn. match goal with |- ?x = ?y => change (@eq R x y) end. field. exact Hr. }
  assert (V : c <> 0 -> calc_bonding_volume rc dij rd ratio i j k l a b = 4 * PI * d ^ 2 * I).
  { intros Hc. unfold calc_bonding_volume. fold c d. destruct (Req_EM_T c 0) as [F|_]; [contradiction|]. rewrite SR, E. fold A.
    unfold Rdiv at 2. rewrite ln_mult by (try apply Rinv_0_lt_compat; assumption). rewrite ln_Rinv by exact Hd.
    generalize (ln A) (ln d). intros u v. unfold B, A. field. exact Hr. }
  split; [exact V|]. split.
  - intros Hc. unfold calc_bonding_volume. fold c. destruct (Req_EM_T c 0) as [_|F]; [reflexivity|contradiction].
  - intros Hc Hb Hn. rewrite V by lra. pose proof PI_RGT_0 as PP.
    assert (IP : 0 < I).
    { rewrite <- (is_RInt_unique (V := R_CompleteNormedModule) _ _ _ _ HI). apply RInt_gt_0; [exact Hb| |].
      - intros x [X1 X2]. unfold bonded_orientations. fold A B. apply Rdiv_lt_0_compat.
        + apply Rmult_lt_0_compat; [apply pow_lt; lra|unfold B; lra].
        + apply Rmult_lt_0_compat; [|lra]. assert (0 < r ^ 2) by (apply pow2_gt_0; exact Hr). lra.
      - intros x Hx. apply (ex_derive_continuous (bonded_orientations c r)). unfold bonded_orientations. fold A B.
        auto_derive. repeat apply Rmult_integral_contrapositive_currified; lra. }
    assert (0 < d ^ 2) by (apply pow_lt; exact Hd). repeat (assumption || lra || apply Rmult_lt_0_compat).
Qed.
Print Assumptions C95_bonding_volume.

(** water-like sites: diameter 0.3 nm, sites at 0.4 diameters, cutoff 0.2 nm *)
Example C95_case : exists I,
  is_RInt (bonded_orientations (1 / 5) (2 / 5 * (3 / 10))) (3 / 10) (1 / 5 + 2 * (2 / 5 * (3 / 10))) I /\
  calc_bonding_volume (fun _ _ _ _ => 1 / 5) (fun _ _ => 3 / 10) None (2 / 5) 0 0 0 0 0 1 = 4 * PI * (3 / 10) ^ 2 * I /\
  0 < calc_bonding_volume (fun _ _ _ _ => 1 / 5) (fun _ _ => 3 / 10) None (2 / 5) 0 0 0 0 0 1.
Proof.
  assert (X : ex_RInt (bonded_orientations (1 / 5) (2 / 5 * (3 / 10))) (3 / 10) (1 / 5 + 2 * (2 / 5 * (3 / 10)))).
  { apply (ex_RInt_continuous (V := R_CompleteNormedModule)). intros x [Hx _]. rewrite Rmin_left in Hx by lra.
    apply (ex_derive_continuous (bonded_orientations (1 / 5) (2 / 5 * (3 / 10)))). unfold bonded_orientations. auto_derive.
    repeat apply Rmult_integral_contrapositive_currified; lra. }
  destruct X as [I HI]. exists I. split; [exact HI|].
  assert (V := fun h1 h2 h3 => C95_bonding_volume (fun _ _ _ _ => 1 / 5) (fun _ _ => 3 / 10) None (2 / 5) 0 0 0 0 0 1 (2 / 5 * (3 / 10)) I h1 h2 h3 eq_refl HI).
  cbv beta in V. specialize (V ltac:(lra) ltac:(lra) ltac:(lra)). split; [apply (proj1 V)|apply (proj2 (proj2 V))]; lra.
Qed.
