(** Property theorems C27, C30, C37, C71. *)
From Coq Require Import Reals Lra.
From Verif Require Import Base BaseFacts Num NumFacts RSum SaftToolboxModel.
Open Scope R_scope.

(** * C27 *)

(** Specification: number of segments of kind [k] per mole of mixture, and the fraction
    of all segments that are of this kind. *)
Definition segments (n : nat) (xi : nat -> R) (nu : nat -> nat -> R) (V Sk : nat -> R) (k : nat) : R :=
  sumn n (fun i => xi i * nu i k * (V k * Sk k)).
Definition fraction (n m : nat) xi nu V Sk (k : nat) : R :=
  segments n xi nu V Sk k / sumn m (segments n xi nu V Sk).

Lemma Cmol2seg_total n m xi nu V Sk : Cmol2seg n m xi nu V Sk = sumn m (segments n xi nu V Sk).
Proof.
  unfold Cmol2seg, segments. rewrite sumn_swap. apply sumn_ext. intros j _. apply sumn_ext. intros i _. ring.
Qed.
Lemma xsk_fraction n m xi nu V Sk k : xsk n m xi nu V Sk k = fraction n m xi nu V Sk k.
Proof.
  unfold xsk, fraction. rewrite Cmol2seg_total. unfold segments at 2. rewrite sumn_scal_r.
  unfold Rdiv. f_equal. ring.
Qed.

Theorem C27_segment_fractions : forall n m xi nu V Sk,
  (forall i, (i < n)%nat -> 0 <= xi i) ->
  (forall i k, (i < n)%nat -> (k < m)%nat -> 0 <= nu i k) ->
  (forall k, (k < m)%nat -> 0 < V k /\ 0 < Sk k) ->
  (exists i k, (i < n)%nat /\ (k < m)%nat /\ 0 < xi i /\ 0 < nu i k) ->
  0 < Cmol2seg n m xi nu V Sk /\
  Cmol2seg n m xi nu V Sk = sumn m (segments n xi nu V Sk) /\
  (forall k l, (k < m)%nat -> (l < m)%nat ->
     0 <= xskl n m xi nu V Sk k l /\ xskl n m xi nu V Sk k l = xskl n m xi nu V Sk l k) /\
  sumn m (fun k => sumn m (fun l => xskl n m xi nu V Sk k l)) = 1 /\
  (forall k, (k < m)%nat ->
     xskl n m xi nu V Sk k k = (fraction n m xi nu V Sk k) ^ 2 /\
     sqrt (xskl n m xi nu V Sk k k) = fraction n m xi nu V Sk k /\
     0 <= fraction n m xi nu V Sk k <= 1).
Proof.
  intros n m xi nu V Sk Hx Hn HV [i0 [k0 [Hi [Hk [P1 P2]]]]].
  assert (SN : forall k, (k < m)%nat -> 0 <= segments n xi nu V Sk k).
  { intros k Hk'. apply sumn_nonneg. intros i Hi'. destruct (HV k Hk').
    apply Rmult_le_pos; [apply Rmult_le_pos; [apply Hx|apply Hn]; assumption|]. apply Rmult_le_pos; lra. }
  assert (SP : 0 < segments n xi nu V Sk k0).
  { apply (sumn_pos n _ i0); [|exact Hi|].
    - intros i Hi'. destruct (HV k0 Hk).
      apply Rmult_le_pos; [apply Rmult_le_pos; [apply Hx|apply Hn]; assumption|]. apply Rmult_le_pos; lra.
    - destruct (HV k0 Hk). repeat apply Rmult_lt_0_compat; assumption. }
  assert (CP : 0 < Cmol2seg n m xi nu V Sk).
  { rewrite Cmol2seg_total. apply (sumn_pos m _ k0); assumption. }
  assert (FN : forall k, (k < m)%nat -> 0 <= fraction n m xi nu V Sk k).
  { intros k Hk'. unfold fraction. rewrite <- Cmol2seg_total. apply Rmult_le_pos; [apply SN; exact Hk'|].
    left. apply Rinv_0_lt_compat; exact CP. }
  assert (FS : sumn m (fraction n m xi nu V Sk) = 1).
  { unfold fraction, Rdiv. rewrite sumn_scal_r. rewrite <- Cmol2seg_total. apply Rinv_r. lra. }
  split; [exact CP|]. split; [apply Cmol2seg_total|]. split; [|split].
  - intros k l Hk' Hl. unfold xskl. rewrite !xsk_fraction. split; [apply Rmult_le_pos; apply FN; assumption|ring].
  - unfold xskl. rewrite <- sumn_prod. rewrite (sumn_ext m _ (fraction n m xi nu V Sk)) by (intros; apply xsk_fraction).
    rewrite FS. ring.
  - intros k Hk'. unfold xskl. rewrite !xsk_fraction. split; [ring|]. split.
    + apply sqrt_square. apply FN; exact Hk'.
    + split; [apply FN; exact Hk'|]. rewrite <- FS. apply sumn_term_le; [exact FN|exact Hk'].
Qed.
Print Assumptions C27_segment_fractions.

(** an equimolar mixture of a dimer A-B and a monomer B: two thirds of the segments are B *)
Example C27_case :
  let xi (i : nat) := 1 / 2 in
  let nu (i k : nat) := match i, k with O, _ => 1 | _, S _ => 1 | _, _ => 0 end in
  let one (_ : nat) := 1 in
  xskl 2 2 xi nu one one 0 1 = 2 / 9 /\ xskl 2 2 xi nu one one 1 1 = 4 / 9 /\ Cmol2seg 2 2 xi nu one one = 3 / 2.
Proof. unfold xskl, xsk, Cmol2seg. cbn [sumn]. repeat split; field. Qed.

(** * C30 *)
Lemma KHS_den z : 0 <= z -> z < 1 -> 0 < 1 + 4 * z + 4 * z ^ 2 - 4 * z ^ 3 + z ^ 4.
Proof.
  intros H0 H1. replace (1 + 4 * z + 4 * z ^ 2 - 4 * z ^ 3 + z ^ 4) with (1 + 4 * z + 4 * z ^ 2 * (1 - z) + z ^ 4) by ring.
  assert (0 <= z ^ 2 * (1 - z)) by (apply Rmult_le_pos; [apply pow_le; exact H0|lra]).
  assert (0 <= z ^ 4) by (apply pow_le; exact H0). lra.
Qed.

(** for every pair of packing fractions in [0, 1) *)
Theorem C30_compressibility : 
  KHS 0 = 1 /\
  (forall z, 0 < z < 1 -> 0 < KHS z < 1) /\
  (forall z1 z2, 0 <= z1 -> z1 < z2 -> z2 < 1 -> KHS z2 < KHS z1).
Proof.
  assert (Dec : forall z1 z2, 0 <= z1 -> z1 < z2 -> z2 < 1 -> KHS z2 < KHS z1).
  { intros z1 z2 H1 H2 H3. unfold KHS.
    assert (D1 := KHS_den z1 H1 ltac:(lra)). assert (D2 := KHS_den z2 ltac:(lra) H3).
    assert (N : (1 - z2) ^ 4 < (1 - z1) ^ 4).
    { assert (A : forall a b, 0 <= a -> a < b -> a ^ 4 < b ^ 4).
      { intros a b Ha Hb. assert (a ^ 2 < b ^ 2) by (cbn; nra).
        replace (a ^ 4) with (a ^ 2 * a ^ 2) by ring. replace (b ^ 4) with (b ^ 2 * b ^ 2) by ring.
        assert (0 <= a ^ 2) by (apply pow_le; exact Ha). nra. }
      apply A; lra. }
    assert (D : 1 + 4 * z1 + 4 * z1 ^ 2 - 4 * z1 ^ 3 + z1 ^ 4 <= 1 + 4 * z2 + 4 * z2 ^ 2 - 4 * z2 ^ 3 + z2 ^ 4).
    { assert (E : 1 + 4 * z2 + 4 * z2 ^ 2 - 4 * z2 ^ 3 + z2 ^ 4 - (1 + 4 * z1 + 4 * z1 ^ 2 - 4 * z1 ^ 3 + z1 ^ 4)
          = (z2 - z1) * (4 + 4 * (z1 + z2) - 4 * (z1 ^ 2 + z1 * z2 + z2 ^ 2) + (z1 + z2) * (z1 ^ 2 + z2 ^ 2))) by ring.
      assert (0 <= 4 + 4 * (z1 + z2) - 4 * (z1 ^ 2 + z1 * z2 + z2 ^ 2) + (z1 + z2) * (z1 ^ 2 + z2 ^ 2)).
      { assert (z1 ^ 2 <= z1) by (cbn; nra). assert (z2 ^ 2 <= z2) by (cbn; nra). assert (z1 * z2 <= 1) by nra.
        assert (0 <= z1 ^ 2) by (apply pow_le; lra). assert (0 <= z2 ^ 2) by (apply pow_le; lra).
        assert (0 <= (z1 + z2) * (z1 ^ 2 + z2 ^ 2)) by (apply Rmult_le_pos; lra). lra. }
      assert (0 <= (z2 - z1) * (4 + 4 * (z1 + z2) - 4 * (z1 ^ 2 + z1 * z2 + z2 ^ 2) + (z1 + z2) * (z1 ^ 2 + z2 ^ 2)))
        by (apply Rmult_le_pos; lra). lra. }
    assert (0 <= (1 - z2) ^ 4) by (apply pow_le; lra).
    apply Rle_lt_trans with ((1 - z2) ^ 4 / (1 + 4 * z1 + 4 * z1 ^ 2 - 4 * z1 ^ 3 + z1 ^ 4)).
    - apply Rmult_le_compat_l; [assumption|]. apply Rinv_le_contravar; assumption.
    - apply Rmult_lt_compat_r; [apply Rinv_0_lt_compat; exact D1|exact N]. }
  assert (Z : KHS 0 = 1) by (unfold KHS; field).
  split; [exact Z|]. split; [|exact Dec].
  intros z [H0 H1]. split.
  - unfold KHS. apply Rdiv_lt_0_compat; [apply pow_lt; lra|apply KHS_den; lra].
  - rewrite <- Z. apply Dec; lra.
Qed.
Print Assumptions C30_compressibility.
Example C30_case : KHS (1 / 2) = 1 / 57.
Proof. unfold KHS. field. Qed.

(** * C37 *)
Definition good (l : list num) : Prop := l <> nil /\ forall x, In x l -> x <> NaN /\ nle (Fin 0) x = true.

Lemma finish_spec l :
  let f := if existsb is_nan l then Err ValueError
           else match l with
                | nil => Err ValueError
                | _ => if existsb (fun x => nlt x (Fin 0)) l then Err ValueError else Ok l
                end in
  (good l /\ f = Ok l) \/ (~ good l /\ f = Err ValueError).
Proof.
  cbn zeta. destruct (existsb is_nan l) eqn:E1.
  - right. split; [|reflexivity]. intros [_ G]. apply existsb_exists in E1. destruct E1 as [x [Hx E]].
    destruct (G x Hx) as [N _]. destruct x; try discriminate. congruence.
  - destruct l as [|x0 l0]; [right; split; [intros [G _]; congruence|reflexivity]|].
    assert (NN : forall x, In x (x0 :: l0) -> x <> NaN).
    { intros x Hx ->. assert (existsb is_nan (x0 :: l0) = true) by (apply existsb_exists; exists NaN; split; [exact Hx|reflexivity]).
      congruence. }
    destruct (existsb (fun x => nlt x (Fin 0)) (x0 :: l0)) eqn:E2.
    + right. split; [|reflexivity]. intros [_ G]. apply existsb_exists in E2. destruct E2 as [x [Hx E]].
      destruct (G x Hx) as [N L]. destruct x; cbn in *; try discriminate; try congruence.
      rewrite L in E. discriminate.
    + left. split; [|reflexivity]. split; [discriminate|]. intros x Hx. split; [apply NN; exact Hx|].
      destruct (nlt x (Fin 0)) eqn:E.
      * assert (existsb (fun x => nlt x (Fin 0)) (x0 :: l0) = true) by (apply existsb_exists; exists x; split; assumption). congruence.
      * pose proof (NN x Hx). destruct x; cbn in *; try discriminate; try congruence; try reflexivity.
        apply negb_false_iff in E. exact E.
Qed.

(** A density is accepted exactly if there is one, none is NaN and none is negative. *)
Theorem C37_density_checked :
  (forall x, check_density (RScalar x) = check_density (RList (x :: nil))) /\
  (forall l, (good l /\ check_density (RList l) = Ok l) \/ (~ good l /\ check_density (RList l) = Err ValueError)).
Proof. split; [reflexivity|]. intros l. apply finish_spec. Qed.
Print Assumptions C37_density_checked.

Example C37_case : check_density (RList (Fin 1 :: Fin 0 :: nil)) = Ok (Fin 1 :: Fin 0 :: nil)
  /\ check_density (RScalar NaN) = Err ValueError /\ check_density (RList nil) = Err ValueError
  /\ check_density (RList (Fin 1 :: NInf :: nil)) = Err ValueError.
Proof. repeat split; reflexivity. Qed.

(** Of a two-dimensional array only the first row is looked at: rows with NaN or negative
    densities, or rows the caller wanted evaluated, are dropped without a word. *)
Theorem C37_rows_dropped_refuted : exists rows l,
  check_density (RRows rows) = Ok l /\ exists r, In r rows /\ ~ good r.
Proof.
  exists ((Fin 1 :: nil) :: (NaN :: nil) :: nil), (Fin 1 :: nil). split; [reflexivity|].
  exists (NaN :: nil). split; [right; left; reflexivity|]. intros [_ G]. destruct (G NaN (or_introl eq_refl)). congruence.
Qed.
Print Assumptions C37_rows_dropped_refuted.

(** * C71 *)
Lemma quad_nodes : Forall (fun wx => (0 < fst wx /\ -1000000000 < snd wx < 1000000000)%Z) quadrature.
Proof. repeat constructor. Qed.
Lemma quad_total : (fold_right Z.add 0 (map fst quadrature) < 2000000000)%Z.
Proof. reflexivity. Qed.

(** the quadrature sum, with the size parameter cancelled *)
Definition node_power (x a : R) : R := Rpower (2 / (x + 1)) a.
Definition node_term (CekT lr la x : R) : R := 1 - exp (- CekT * (node_power x lr - node_power x la)).
Definition quad_sum (CekT lr la : R) (q : list (Z * Z)) : R :=
  fold_right (fun wx acc => nano (fst wx) * node_term CekT lr la (nano (snd wx)) + acc) 0 q.

Lemma nano_node x : (-1000000000 < x < 1000000000)%Z -> -1 < nano x < 1.
Proof. intros [H1 H2]. apply IZR_lt in H1, H2. unfold nano. split; lra. Qed.

Lemma calc_dkk_eq epsilon sigma T C lr la : sigma <> 0 ->
  calc_dkk epsilon sigma T C lr la = 1 / 2 * sigma * quad_sum (C * epsilon / T) lr la quadrature.
Proof.
  intros Hs. unfold calc_dkk, quad_sum. f_equal. pose proof quad_nodes as Q.
  induction quadrature as [|[w x] q IH]; [reflexivity|]. inversion Q as [|? ? [_ Hx] Q']; subst. cbn [fold_right fst snd] in *.
  rewrite (IH Q'). f_equal. f_equal. unfold dkk_int, node_term, node_power. apply nano_node in Hx.
  replace (sigma / (1 / 2 * sigma * (nano x + 1))) with (2 / (nano x + 1)) by (field; lra). reflexivity.
Qed.

Lemma node_gap x lr la : -1 < x < 1 -> la < lr -> 0 < node_power x lr - node_power x la.
Proof.
  intros Hx Hl. unfold node_power. assert (1 < 2 / (x + 1)).
  { apply Rmult_lt_reg_r with (x + 1); [lra|]. unfold Rdiv. rewrite Rmult_assoc, Rinv_l by lra. lra. }
  pose proof (Rpower_lt (2 / (x + 1)) la lr H Hl). lra.
Qed.
Lemma node_term_bounds K lr la x : 0 < K -> la < lr -> -1 < x < 1 -> 0 < node_term K lr la x < 1.
Proof.
  intros HK Hl Hx. pose proof (node_gap x lr la Hx Hl) as G. unfold node_term.
  assert (- K * (node_power x lr - node_power x la) < 0) by nra.
  pose proof (exp_pos (- K * (node_power x lr - node_power x la))).
  assert (exp (- K * (node_power x lr - node_power x la)) < 1) by (rewrite <- exp_0; apply exp_increasing; assumption). lra.
Qed.
Lemma node_term_mono K1 K2 lr la x : la < lr -> -1 < x < 1 -> K1 < K2 -> node_term K1 lr la x < node_term K2 lr la x.
Proof.
  intros Hl Hx HK. pose proof (node_gap x lr la Hx Hl) as G. unfold node_term.
  assert (exp (- K2 * (node_power x lr - node_power x la)) < exp (- K1 * (node_power x lr - node_power x la)))
    by (apply exp_increasing; nra). lra.
Qed.

Lemma quad_sum_bounds K lr la q : 0 < K -> la < lr ->
  Forall (fun wx => (0 < fst wx /\ -1000000000 < snd wx < 1000000000)%Z) q ->
  0 <= quad_sum K lr la q <= nano (fold_right Z.add 0 (map fst q))%Z /\ (q <> nil -> 0 < quad_sum K lr la q).
Proof.
  intros HK Hl. induction 1 as [|[w x] q [Hw Hx] _ [[IH1 IH2] _]]; cbn [quad_sum fold_right map fst snd].
  - unfold nano. split; [split; lra|congruence].
  - cbn [fst snd] in Hw, Hx. pose proof (node_term_bounds K lr la (nano x) HK Hl (nano_node _ Hx)) as B. fold (quad_sum K lr la q).
    apply IZR_lt in Hw. assert (0 < nano w) by (unfold nano; lra).
    assert (nano (w + fold_right Z.add 0 (map fst q))%Z = nano w + nano (fold_right Z.add 0 (map fst q))%Z)
      by (unfold nano; rewrite plus_IZR; field).
    assert (0 < nano w * node_term K lr la (nano x) < nano w) by (destruct B; split; nra).
    split; [split; [lra|]|intros _; lra].
    eapply Rle_trans; [|apply Req_le; symmetry; exact H0]. lra.
Qed.

Lemma quad_sum_mono K1 K2 lr la q : la < lr -> K1 < K2 -> q <> nil ->
  Forall (fun wx => (0 < fst wx /\ -1000000000 < snd wx < 1000000000)%Z) q ->
  quad_sum K1 lr la q < quad_sum K2 lr la q.
Proof.
  intros Hl HK Hn F. destruct q as [|[w x] q]; [congruence|]. clear Hn. revert w x F.
  induction q as [|[w' x'] q IH]; intros w x F; inversion F as [|? ? [Hw Hx] F']; subst; cbn [fst snd] in *.
  - cbn [quad_sum fold_right fst snd]. pose proof (node_term_mono K1 K2 lr la (nano x) Hl (nano_node _ Hx) HK).
    apply IZR_lt in Hw. assert (0 < nano w) by (unfold nano; lra). nra.
  - specialize (IH w' x' F'). remember ((w', x') :: q) as q'. cbn [quad_sum fold_right fst snd].
    fold (quad_sum K1 lr la q'). fold (quad_sum K2 lr la q').
    pose proof (node_term_mono K1 K2 lr la (nano x) Hl (nano_node _ Hx) HK).
    apply IZR_lt in Hw. assert (0 < nano w) by (unfold nano; lra). nra.
Qed.

(** C71: the hard-sphere diameter of a bead, for every prefactor, well depth, size and
    temperature above zero and exponents in order. *)
Theorem C71_diameter : forall epsilon sigma T C lr la,
  0 < epsilon -> 0 < sigma -> 0 < T -> 0 < C -> la < lr ->
  0 < calc_dkk epsilon sigma T C lr la < sigma /\
  (forall c, 0 < c -> calc_dkk epsilon (c * sigma) T C lr la = c * calc_dkk epsilon sigma T C lr la) /\
  (forall T', T < T' -> calc_dkk epsilon sigma T' C lr la < calc_dkk epsilon sigma T C lr la) /\
  (forall epsilon', epsilon < epsilon' -> calc_dkk epsilon sigma T C lr la < calc_dkk epsilon' sigma T C lr la).
Proof.
  intros epsilon sigma T C lr la He Hs HT HC Hl.
  assert (K : forall e t, 0 < e -> 0 < t -> 0 < C * e / t) by (intros; apply Rdiv_lt_0_compat; [apply Rmult_lt_0_compat|]; assumption).
  assert (Q := quad_nodes). assert (NQ : quadrature <> nil) by discriminate.
  split; [|split; [|split]].
  - rewrite calc_dkk_eq by lra.
    destruct (quad_sum_bounds _ lr la quadrature (K _ _ He HT) Hl Q) as [[_ B] P]. specialize (P NQ).
    assert (nano (fold_right Z.add 0 (map fst quadrature))%Z < 2).
    { pose proof quad_total as U. apply IZR_lt in U. unfold nano. lra. }
    split; nra.
  - intros c Hc. rewrite !calc_dkk_eq by nra. ring.
  - intros T' HT'. rewrite !calc_dkk_eq by lra. apply Rmult_lt_compat_l; [lra|].
    apply quad_sum_mono; try assumption. unfold Rdiv. apply Rmult_lt_compat_l; [apply Rmult_lt_0_compat; assumption|].
    apply Rinv_lt_contravar; [apply Rmult_lt_0_compat; lra|exact HT'].
  - intros e' He'. rewrite !calc_dkk_eq by lra. apply Rmult_lt_compat_l; [lra|].
    apply quad_sum_mono; try assumption. unfold Rdiv. apply Rmult_lt_compat_r; [apply Rinv_0_lt_compat; exact HT|].
    apply Rmult_lt_compat_l; assumption.
Qed.
Print Assumptions C71_diameter.
Example C71_case : 0 < calc_dkk 300 (3 / 10) 250 4 12 6 < 3 / 10.
Proof. apply C71_diameter; lra. Qed.
