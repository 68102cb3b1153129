(** Existence of the equal-area construction: if a pressure isotherm rises with the volume somewhere, diverges at close
    packing and falls below that of an ideal gas, two volumes share one positive pressure and obey the equal-area rule. *)
From Coq Require Import Reals Lra Psatz.
From Coquelicot Require Import Coquelicot.
Open Scope R_scope.

Lemma min_right f x d e : is_derive f x d -> 0 < e -> (forall y, x < y < x + e -> f x <= f y) -> 0 <= d.
Proof.
  intros D He H. destruct (Rle_lt_dec 0 d) as [|N]; [assumption|exfalso].
  apply is_derive_Reals in D. destruct (D (- d) ltac:(lra)) as [del Hd].
  pose proof (cond_pos del) as Pd. set (h := Rmin (del / 2) (e / 2)).
  assert (0 < h) by (apply Rmin_glb_lt; lra). assert (h <= del / 2) by apply Rmin_l. assert (h <= e / 2) by apply Rmin_r.
  specialize (Hd h ltac:(lra)). rewrite Rabs_pos_eq in Hd by lra. specialize (Hd ltac:(lra)).
  apply Rabs_lt_between in Hd. destruct Hd as [_ Hd]. pose proof (H (x + h) ltac:(lra)) as G.
  assert (0 <= (f (x + h) - f x) / h) by (apply Rdiv_le_0_compat; lra). lra.
Qed.
Lemma min_left f x d e : is_derive f x d -> 0 < e -> (forall y, x - e < y < x -> f x <= f y) -> d <= 0.
Proof.
  intros D He H. destruct (Rle_lt_dec d 0) as [|N]; [assumption|exfalso].
  apply is_derive_Reals in D. destruct (D d ltac:(lra)) as [del Hd].
  pose proof (cond_pos del) as Pd. set (h := Rmin (del / 2) (e / 2)).
  assert (0 < h) by (apply Rmin_glb_lt; lra). assert (h <= del / 2) by apply Rmin_l. assert (h <= e / 2) by apply Rmin_r.
  specialize (Hd (- h) ltac:(lra)). rewrite Rabs_Ropp, Rabs_pos_eq in Hd by lra. specialize (Hd ltac:(lra)).
  apply Rabs_lt_between in Hd. destruct Hd as [Hd _]. pose proof (H (x - h) ltac:(lra)) as G.
  assert (E : (f (x + - h) - f x) / - h = - ((f (x - h) - f x) / h)) by (replace (x + - h) with (x - h) by ring; field; lra).
  rewrite E in Hd. assert (0 <= (f (x - h) - f x) / h) by (apply Rdiv_le_0_compat; lra). lra.
Qed.

(** The least value of [f v + P v] over an interval, as a function of P. *)
Section Least.
  Variables (f : R -> R) (l h : R).
  Hypothesis Hlh : l <= h.
  Hypothesis Cont : forall c, l <= c <= h -> continuity_pt f c.
  Definition least (P : R) : R := real (Glb_Rbar (fun y => exists u, l <= u <= h /\ y = f u + P * u)).
  Lemma least_at P : exists u, l <= u <= h /\ least P = f u + P * u /\ forall c, l <= c <= h -> f u + P * u <= f c + P * c.
  Proof.
    destruct (continuity_ab_min (fun v => f v + P * v) l h Hlh) as (u & H1 & H2).
    { intros c Hc. apply continuity_pt_plus; [apply Cont; exact Hc|]. apply continuity_pt_mult; [apply continuity_pt_const; intros ? ?; reflexivity|].
      apply derivable_continuous_pt, derivable_pt_id. }
    exists u. split; [exact H2|]. split; [|exact H1].
    unfold least. assert (G : is_glb_Rbar (fun y => exists u, l <= u <= h /\ y = f u + P * u) (f u + P * u)).
    { split.
      - intros y (c & Hc & ->). exact (H1 c Hc).
      - intros m Hm. apply Hm. exists u. split; [exact H2|reflexivity]. }
    rewrite (is_glb_Rbar_unique _ _ G). reflexivity.
  Qed.
  Lemma least_lip B P Q : Rabs l <= B -> Rabs h <= B -> least P <= least Q + Rabs (P - Q) * B.
  Proof.
    intros Bl Bh. destruct (least_at P) as (u & _ & E & M). destruct (least_at Q) as (v & Hv & F & _).
    rewrite E, F. specialize (M v Hv). apply Rle_trans with (1 := M).
    assert (Bv : Rabs v <= B).
    { apply Rabs_le. apply Rabs_le_between in Bl. apply Rabs_le_between in Bh. lra. }
    assert ((P - Q) * v <= Rabs (P - Q) * B).
    { apply Rle_trans with (Rabs ((P - Q) * v)); [apply Rle_abs|]. rewrite Rabs_mult. apply Rmult_le_compat_l; [apply Rabs_pos|exact Bv]. }
    lra.
  Qed.
  Lemma least_continuous : continuity least.
  Proof.
    set (B := Rabs l + Rabs h + 1). assert (B1 : 0 < B) by (unfold B; pose proof (Rabs_pos l); pose proof (Rabs_pos h); lra).
    assert (Bl : Rabs l <= B) by (unfold B; pose proof (Rabs_pos h); lra). assert (Bh : Rabs h <= B) by (unfold B; pose proof (Rabs_pos l); lra).
    intros P e He. exists (e / (2 * B)). split; [apply Rdiv_lt_0_compat; lra|].
    intros Q [_ HQ]. unfold dist in *. cbn in *. unfold R_dist in *.
    pose proof (least_lip B P Q Bl Bh) as H1. pose proof (least_lip B Q P Bl Bh) as H2. rewrite (Rabs_minus_sym P Q) in H1.
    assert (Rabs (Q - P) * B < e).
    { apply Rlt_le_trans with (e / (2 * B) * B); [apply Rmult_lt_compat_r; assumption|].
      replace (e / (2 * B) * B) with (e / 2) by (field; lra). lra. }
    apply Rabs_lt_between. lra.
  Qed.
End Least.

Section Construction.
  Variables (b K C : R) (p F : R -> R).
  Hypothesis HK : 0 < K.
  Hypothesis HC : 0 <= C.
  Hypothesis DF : forall v, b < v -> is_derive F v (p v).
  Hypothesis upper : forall v, b < v -> p v < K / (v - b).
  Hypothesis lower : forall v, b < v -> K / (v - b) - C <= p v.
  Hypothesis HF : forall M, exists w, b < w /\ forall v, w < v -> M < F v.
  Variables (v0 d : R).
  Hypothesis Hv0 : b < v0.
  Hypothesis rises : is_derive p v0 d.
  Hypothesis Hd : 0 < d.

  Let G (P v : R) : R := - F v + P * v.
  Lemma G_slope P v : b < v -> is_derive (G P) v (P - p v).
  Proof.
    intros Hv. unfold G. replace (P - p v) with (- p v + P) by ring.
    apply (is_derive_plus (fun v => - F v) (fun v => P * v)); [apply (is_derive_opp F), DF; exact Hv|].
    auto_derive; [exact I|ring].
  Qed.
  Lemma F_cont v : b < v -> continuity_pt (fun v => - F v) v.
  Proof.
    intros Hv. apply continuity_pt_opp. apply derivable_continuous_pt. exists (p v). apply is_derive_Reals, DF, Hv.
  Qed.
  (** where the pressure is below P the tilted energy grows *)
  Lemma G_mono P x y : b < x -> x < y -> (forall v, x < v < y -> p v < P) -> G P x < G P y.
  Proof.
    intros Hx Hxy H. destruct (MVT_cor2 (G P) (fun v => P - p v) x y Hxy) as (c & E & Hc).
    { intros c Hc. apply is_derive_Reals, G_slope. lra. }
    specialize (H c Hc). assert (0 < (P - p c) * (y - x)) by (apply Rmult_lt_0_compat; lra). lra.
  Qed.
  Lemma G_anti P x y : b < x -> x < y -> (forall v, x < v < y -> P < p v) -> G P y < G P x.
  Proof.
    intros Hx Hxy H. destruct (MVT_cor2 (G P) (fun v => P - p v) x y Hxy) as (c & E & Hc).
    { intros c Hc. apply is_derive_Reals, G_slope. lra. }
    specialize (H c Hc). assert (0 < (p c - P) * (y - x)) by (apply Rmult_lt_0_compat; lra). lra.
  Qed.
  (** the pressure right of v0 is higher *)
  Lemma rises_right : exists e, 0 < e /\ forall v, v0 < v < v0 + e -> p v0 < p v.
  Proof.
    pose proof rises as D. apply is_derive_Reals in D. destruct (D d Hd) as [del H]. exists del. split; [apply cond_pos|].
    intros v Hv. specialize (H (v - v0) ltac:(lra)). rewrite Rabs_pos_eq in H by lra. specialize (H ltac:(lra)).
    apply Rabs_lt_between in H. destruct H as [H _]. replace (v0 + (v - v0)) with v in H by ring.
    assert (Q : 0 < (p v - p v0) / (v - v0)) by lra.
    apply (Rmult_lt_compat_r (v - v0)) in Q; [|lra]. unfold Rdiv in Q. rewrite Rmult_assoc, Rinv_l, Rmult_1_r, Rmult_0_l in Q by lra. lra.
  Qed.

  Theorem equal_areas_exist : exists P u w, 0 < P /\ b < u < v0 /\ v0 < w /\ p u = P /\ p w = P /\
    F w - F u = P * (w - u) /\ forall v, b < v -> F v - F u <= P * (v - u).
  Proof.
    (* the upper level and the left end *)
    assert (K0 : 0 < K / (v0 - b)) by (apply Rdiv_lt_0_compat; lra).
    set (P2 := K / (v0 - b) + 1).
    set (q := P2 + C + 1). assert (Hq : 0 < q) by (unfold q, P2; lra).
    set (u0 := b + K / q).
    assert (Hu0 : b < u0) by (unfold u0; assert (0 < K / q) by (apply Rdiv_lt_0_compat; lra); lra).
    assert (inv_lt : forall x y, 0 < x -> x < y -> K / y < K / x).
    { intros x y X Y. apply Rmult_lt_compat_l; [exact HK|]. apply Rinv_lt_contravar; [apply Rmult_lt_0_compat; lra|exact Y]. }
    assert (inv_le : forall x y, 0 < x -> x <= y -> K / y <= K / x).
    { intros x y X [Y| ->]; [left; apply inv_lt; assumption|lra]. }
    assert (Hu0v : u0 < v0).
    { unfold u0. assert (Z : K / q < K / (K / (v0 - b))) by (apply inv_lt; [exact K0|unfold q, P2; lra]).
      replace (K / (K / (v0 - b))) with (v0 - b) in Z by (field; lra). lra. }
    assert (Left : forall v, b < v -> v <= u0 -> P2 < p v).
    { intros v Hv Hv2. pose proof (lower v Hv) as L. assert (Z : K / (K / q) <= K / (v - b)) by (apply inv_le; [lra|unfold u0 in Hv2; lra]).
      replace (K / (K / q)) with q in Z by (field; lra). unfold q in Z. lra. }
    (* the lower level and the right end *)
    destruct (continuity_ab_min (fun v => - F v) u0 v0 ltac:(lra)) as (um & Mu & _).
    { intros c Hc. apply F_cont. lra. }
    destruct (HF (F um + K + 1 + K * Rabs b)) as (w1 & Hw1 & HF1).
    set (w2 := Rmax (Rmax w1 v0) 1 + 1).
    assert (W1 : w1 < w2) by (unfold w2; pose proof (Rmax_l (Rmax w1 v0) 1); pose proof (Rmax_l w1 v0); lra).
    assert (W2 : v0 < w2) by (unfold w2; pose proof (Rmax_l (Rmax w1 v0) 1); pose proof (Rmax_r w1 v0); lra).
    assert (W3 : 1 < w2) by (unfold w2; pose proof (Rmax_r (Rmax w1 v0) 1); lra).
    set (P1 := Rmin (K / w2) (Rmin K P2)).
    assert (HP2 : 0 < P2) by (unfold P2; lra).
    assert (HP1 : 0 < P1).
    { unfold P1. apply Rmin_glb_lt; [apply Rdiv_lt_0_compat; lra|apply Rmin_glb_lt; lra]. }
    assert (P12 : P1 <= P2) by (unfold P1; eapply Rle_trans; [apply Rmin_r|apply Rmin_r]).
    assert (P1K : P1 <= K) by (unfold P1; eapply Rle_trans; [apply Rmin_r|apply Rmin_l]).
    assert (P1w : P1 * w2 <= K).
    { assert (Z : P1 <= K / w2) by (unfold P1; apply Rmin_l). apply (Rmult_le_compat_r w2) in Z; [|lra].
      unfold Rdiv in Z. rewrite Rmult_assoc, Rinv_l, Rmult_1_r in Z by lra. exact Z. }
    set (w0 := Rmax w2 (b + K / P1)).
    assert (W4 : w2 <= w0) by apply Rmax_l. assert (W5 : b + K / P1 <= w0) by apply Rmax_r.
    assert (Right : forall v, w0 <= v -> p v < P1).
    { intros v Hv. assert (Hb : b < v) by lra. pose proof (upper v Hb) as U. assert (0 < K / P1) by (apply Rdiv_lt_0_compat; lra).
      assert (Z : K / (v - b) <= K / (K / P1)) by (apply inv_le; lra).
      replace (K / (K / P1)) with P1 in Z by (field; lra). lra. }
    (* the level at which the least values left and right agree *)
    set (L := least (fun v => - F v) u0 v0). set (R := least (fun v => - F v) v0 w0).
    assert (CL : forall c, u0 <= c <= v0 -> continuity_pt (fun v => - F v) c) by (intros c Hc; apply F_cont; lra).
    assert (CR : forall c, v0 <= c <= w0 -> continuity_pt (fun v => - F v) c) by (intros c Hc; apply F_cont; lra).
    destruct (IVT_cor (fun P => L P - R P) P1 P2) as (P & HP & E).
    { apply continuity_minus; apply least_continuous; try assumption; lra. }
    { exact P12. }
    { assert (A1 : R P1 < L P1).
      { destruct (least_at (fun v => - F v) v0 w0 ltac:(lra) CR P1) as (w & _ & Ew & Mw).
        destruct (least_at (fun v => - F v) u0 v0 ltac:(lra) CL P1) as (u & Hu & Eu & _).
        unfold R, L. rewrite Ew, Eu. specialize (Mw w2 ltac:(lra)). specialize (Mu u Hu). cbn beta in *.
        specialize (HF1 w2 W1). assert (Hub : P1 * b <= P1 * u) by (apply Rmult_le_compat_l; lra).
        assert (Hbb : - (K * Rabs b) <= P1 * b).
        { assert (Z : - Rabs b <= b) by (pose proof (Rle_abs (- b)); rewrite Rabs_Ropp in H; lra).
          pose proof (Rabs_pos b). assert (P1 * - Rabs b <= P1 * b) by (apply Rmult_le_compat_l; lra).
          assert (P1 * Rabs b <= K * Rabs b) by (apply Rmult_le_compat_r; lra). lra. }
        lra. }
      assert (A2 : L P2 < R P2).
      { destruct (least_at (fun v => - F v) v0 w0 ltac:(lra) CR P2) as (w & Hw & Ew & _).
        destruct (least_at (fun v => - F v) u0 v0 ltac:(lra) CL P2) as (u & Hu & Eu & Mu2).
        unfold R, L. rewrite Ew, Eu. cbn beta.
        assert (B1 : G P2 v0 <= G P2 w).
        { destruct (proj1 Hw) as [X| <-]; [|lra]. left. apply G_mono; [lra|exact X|]. intros v Hv. pose proof (upper v ltac:(lra)) as U.
          assert (K / (v - b) < K / (v0 - b)) by (apply inv_lt; lra). unfold P2. lra. }
        assert (B2 : G P2 u < G P2 v0).
        { destruct (Rlt_le_dec (G P2 u) (G P2 v0)) as [|N]; [assumption|exfalso].
          assert (Z : P2 - p v0 <= 0).
          { apply (min_left (G P2) v0 _ (v0 - u0) (G_slope P2 v0 Hv0) ltac:(lra)). intros y Hy.
            apply Rle_trans with (1 := N). apply (Mu2 y). lra. }
          pose proof (upper v0 Hv0). unfold P2 in Z. lra. }
        unfold G in B1, B2. lra. }
      assert (0 < (L P1 - R P1) * (R P2 - L P2)) by (apply Rmult_lt_0_compat; lra). lra. }
    destruct (least_at (fun v => - F v) v0 w0 ltac:(lra) CR P) as (w & Hw & Ew & Mw).
    destruct (least_at (fun v => - F v) u0 v0 ltac:(lra) CL P) as (u & Hu & Eu & Mu2). cbn beta in *.
    assert (EG : G P u = G P w) by (unfold G; fold L in Eu; fold R in Ew; lra).
    assert (Min : forall v, u0 <= v <= w0 -> G P u <= G P v).
    { intros v Hv. destruct (Rle_dec v v0) as [X|X]; [apply (Mu2 v); lra|]. rewrite EG. apply (Mw v). lra. }
    assert (Pu : p u = P).
    { assert (A : 0 <= P - p u) by (apply (min_right (G P) u _ (w0 - v0) (G_slope P u ltac:(lra)) ltac:(lra)); intros y Hy; apply Min; lra).
      assert (Nu : u0 < u).
      { destruct (proj1 Hu) as [X| <-]; [exact X|exfalso]. pose proof (Left u0 Hu0 ltac:(lra)). lra. }
      assert (B : P - p u <= 0) by (apply (min_left (G P) u _ (u - u0) (G_slope P u ltac:(lra)) ltac:(lra)); intros y Hy; apply Min; lra).
      lra. }
    assert (Pw : p w = P).
    { assert (A : P - p w <= 0) by (apply (min_left (G P) w _ (v0 - u0) (G_slope P w ltac:(lra)) ltac:(lra)); intros y Hy; rewrite <- EG; apply Min; lra).
      assert (Nw : w < w0).
      { destruct (proj2 Hw) as [X|X]; [exact X|exfalso]. pose proof (Right w ltac:(lra)). lra. }
      assert (B : 0 <= P - p w) by (apply (min_right (G P) w _ (w0 - w) (G_slope P w ltac:(lra)) ltac:(lra)); intros y Hy; rewrite <- EG; apply Min; lra).
      lra. }
    assert (Nv : P = p v0 -> ~ (forall v, u0 <= v <= w0 -> G P v0 <= G P v)).
    { intros EP M. destruct rises_right as (e & He & Hr). set (y := v0 + Rmin (e / 2) ((w0 - v0) / 2)).
      assert (0 < Rmin (e / 2) ((w0 - v0) / 2)) by (apply Rmin_glb_lt; lra).
      pose proof (Rmin_l (e / 2) ((w0 - v0) / 2)). pose proof (Rmin_r (e / 2) ((w0 - v0) / 2)).
      assert (G P y < G P v0).
      { apply G_anti; [exact Hv0|unfold y; lra|]. intros v Hv. rewrite EP. apply Hr. unfold y in Hv. lra. }
      specialize (M y ltac:(unfold y; lra)). lra. }
    assert (Nu : u < v0).
    { destruct (proj2 Hu) as [X|X]; [exact X|exfalso]. subst u. apply Nv; [symmetry; exact Pu|exact Min]. }
    assert (Nw : v0 < w).
    { destruct (proj1 Hw) as [X|X]; [exact X|exfalso]. subst w. apply Nv; [symmetry; exact Pw|]. intros v Hv. rewrite <- EG. apply Min; exact Hv. }
    exists P, u, w. split; [lra|]. split; [lra|]. split; [exact Nw|]. split; [exact Pu|]. split; [exact Pw|].
    split; [unfold G in EG; lra|]. intros v Hv.
    assert (M : G P u <= G P v).
    { destruct (Rlt_le_dec v u0) as [X|X].
      - apply Rle_trans with (G P u0); [apply Min; lra|]. left. apply G_anti; [exact Hv|exact X|]. intros z Hz. pose proof (Left z ltac:(lra) ltac:(lra)). lra.
      - destruct (Rle_lt_dec v w0) as [Y|Y]; [apply Min; lra|].
        apply Rle_trans with (G P w0); [apply Min; lra|]. left. apply G_mono; [lra|exact Y|]. intros z Hz. pose proof (Right z ltac:(lra)). lra. }
    unfold G in M. lra.
  Qed.
End Construction.
Print Assumptions equal_areas_exist.
