(** C129, continued: a pure Peng-Robinson fluid has at most one saturation pressure at each temperature. *)
From Coq Require Import Reals Ranalysis5 Lra Psatz.
From Coquelicot Require Import Coquelicot.
From Verif Require Import Base BaseFacts EosToolboxModel EosToolboxSpec RSum PRModel PRSpec PRProofs PRProps PRThermo PRCriticalProps Maxwell PRSaturationProps.
Open Scope R_scope.

Lemma cancel d x : d <> 0 -> d * x = 0 -> x = 0.
Proof. intros H E. apply Rmult_integral in E. destruct E; [contradiction|assumption]. Qed.

(** A polynomial of degree four has no five roots. *)
Lemma five_roots c4 c3 c2 c1 c0 x1 x2 x3 x4 x5 :
  let q := fun x => c4 * x ^ 4 + c3 * x ^ 3 + c2 * x ^ 2 + c1 * x + c0 in
  x1 < x2 -> x2 < x3 -> x3 < x4 -> x4 < x5 -> q x1 = 0 -> q x2 = 0 -> q x3 = 0 -> q x4 = 0 -> q x5 = 0 -> c4 = 0.
Proof.
  intros q L1 L2 L3 L4 E1 E2 E3 E4 E5. unfold q in *.
  set (d2 := fun x y => c4 * (x ^ 3 + x ^ 2 * y + x * y ^ 2 + y ^ 3) + c3 * (x ^ 2 + x * y + y ^ 2) + c2 * (x + y) + c1).
  set (d3 := fun x y z => c4 * (x ^ 2 + x * y + y ^ 2 + x * z + y * z + z ^ 2) + c3 * (x + y + z) + c2).
  set (d4 := fun x y z w => c4 * (x + y + z + w) + c3).
  assert (A : forall y, x1 < y -> c4 * y ^ 4 + c3 * y ^ 3 + c2 * y ^ 2 + c1 * y + c0 = 0 -> d2 x1 y = 0).
  { intros y Hy Ey. apply (cancel (x1 - y)); [lra|]. unfold d2.
    replace 0 with (c4 * x1 ^ 4 + c3 * x1 ^ 3 + c2 * x1 ^ 2 + c1 * x1 + c0 - (c4 * y ^ 4 + c3 * y ^ 3 + c2 * y ^ 2 + c1 * y + c0)) by lra. ring. }
  assert (B : forall y, x2 < y -> c4 * y ^ 4 + c3 * y ^ 3 + c2 * y ^ 2 + c1 * y + c0 = 0 -> d3 x1 x2 y = 0).
  { intros y Hy Ey. apply (cancel (x2 - y)); [lra|].
    replace 0 with (d2 x1 x2 - d2 x1 y) by (rewrite !A by (assumption || lra); ring). unfold d2, d3. ring. }
  assert (C : forall y, x3 < y -> c4 * y ^ 4 + c3 * y ^ 3 + c2 * y ^ 2 + c1 * y + c0 = 0 -> d4 x1 x2 x3 y = 0).
  { intros y Hy Ey. apply (cancel (x3 - y)); [lra|].
    replace 0 with (d3 x1 x2 x3 - d3 x1 x2 y) by (rewrite !B by (assumption || lra); ring). unfold d3, d4. ring. }
  apply (cancel (x4 - x5)); [lra|].
  replace 0 with (d4 x1 x2 x3 x4 - d4 x1 x2 x3 x5) by (rewrite !C by (assumption || lra); ring). unfold d4. ring.
Qed.

(** A cubic with three roots is the product of its linear factors. *)
Lemma three_roots n3 n2 n1 n0 x y z : x < y -> y < z ->
  (forall r, r = x \/ r = y \/ r = z -> n3 * r ^ 3 + n2 * r ^ 2 + n1 * r + n0 = 0) ->
  forall v, n3 * v ^ 3 + n2 * v ^ 2 + n1 * v + n0 = n3 * (v - x) * (v - y) * (v - z).
Proof.
  intros Lx Ly H v. pose proof (H x ltac:(tauto)) as Ex. pose proof (H y ltac:(tauto)) as Ey. pose proof (H z ltac:(tauto)) as Ez.
  set (d2 := fun r => n3 * (x ^ 2 + x * r + r ^ 2) + n2 * (x + r) + n1).
  assert (A : forall r, x < r -> n3 * r ^ 3 + n2 * r ^ 2 + n1 * r + n0 = 0 -> d2 r = 0).
  { intros r Hr Er. apply (cancel (x - r)); [lra|]. unfold d2.
    replace 0 with (n3 * x ^ 3 + n2 * x ^ 2 + n1 * x + n0 - (n3 * r ^ 3 + n2 * r ^ 2 + n1 * r + n0)) by lra. ring. }
  pose proof (A y Lx Ey) as Ay. pose proof (A z ltac:(lra) Ez) as Az.
  assert (B : n3 * (x + y + z) + n2 = 0).
  { apply (cancel (y - z)); [lra|]. replace 0 with (d2 y - d2 z) by lra. unfold d2. ring. }
  unfold d2 in Ay.
  assert (N2 : n2 = - n3 * (x + y + z)) by lra.
  assert (N1 : n1 = - (n3 * (x ^ 2 + x * y + y ^ 2) + n2 * (x + y))) by lra.
  assert (N0 : n0 = - (n3 * x ^ 3 + n2 * x ^ 2 + n1 * x)) by lra.
  rewrite N0, N1, N2. ring.
Qed.

Section Isotherm.
  Variables t a b : R.
  Hypothesis Ht : 0 < t. Hypothesis Ha : 0 < a. Hypothesis Hb : 0 < b.
  Let D (v : R) : R := v ^ 2 + 2 * b * v - b ^ 2.
  Let p (v : R) : R := t / (v - b) - a / D v.
  Let q (v : R) : R := t * D v ^ 2 - 2 * a * (v + b) * (v - b) ^ 2.
  Variable F : R -> R.
  Hypothesis HF : forall v, b < v -> is_derive F v (p v).

  Lemma D_pos v : b < v -> 0 < D v.
  Proof. intros H. unfold D. nra. Qed.

  Lemma slope v : b < v -> is_derive p v (- q v / ((v - b) ^ 2 * D v ^ 2)).
  Proof.
    intros H. pose proof (D_pos v H) as HD. unfold p, q, D in *. auto_derive.
    - repeat split; [lra|]. intros Z. nra.
    - field. split; [|lra]. intros Z. nra.
  Qed.

  Lemma turn u v : b < u -> u < v -> p u = p v -> exists c, u < c < v /\ q c = 0.
  Proof.
    intros Hu Huv E. destruct (MVT_cor2 p (fun v => - q v / ((v - b) ^ 2 * D v ^ 2)) u v Huv) as (c & Ec & Hc).
    { intros c Hc. apply is_derive_Reals, slope. lra. }
    exists c. split; [exact Hc|]. pose proof (D_pos c ltac:(lra)) as HD.
    assert (Z : (v - u) * (- q c / ((c - b) ^ 2 * D c ^ 2)) = 0) by lra. apply cancel in Z; [|lra].
    assert (P1 : 0 < (c - b) ^ 2 * D c ^ 2) by (apply Rmult_lt_0_compat; apply pow_lt; lra).
    replace (q c) with (- (- q c / ((c - b) ^ 2 * D c ^ 2)) * ((c - b) ^ 2 * D c ^ 2)) by (field; split; lra). rewrite Z. ring.
  Qed.

  (** The slope has two zeros at volumes below close packing, so at most two above. *)
  Lemma two_turns x y z : b < x -> x < y -> y < z -> q x = 0 -> q y = 0 -> q z = 0 -> False.
  Proof.
    intros Hx Hy Hz Ex Ey Ez. assert (S2 : sqrt 2 * sqrt 2 = 2) by (apply sqrt_sqrt; lra).
    pose proof sqrt2_bounds as [Q1 Q2].
    set (m := (sqrt 2 - 1) * b).
    assert (Dm : D m = 0). { unfold D, m. replace (((sqrt 2 - 1) * b) ^ 2 + 2 * b * ((sqrt 2 - 1) * b) - b ^ 2) with ((sqrt 2 * sqrt 2 - 2) * b ^ 2) by ring. rewrite S2. ring. }
    assert (Hm : - b < m < b) by (unfold m; nra).
    assert (B4 : 0 < b ^ 4) by (apply pow_lt; exact Hb). assert (T4 : 0 < t * b ^ 4) by (apply Rmult_lt_0_compat; assumption).
    assert (qm : q m < 0).
    { unfold q. rewrite Dm. assert (0 < 2 * a * (m + b) * (m - b) ^ 2); [|lra]. apply Rmult_lt_0_compat; [apply Rmult_lt_0_compat; lra|]. nra. }
    assert (ql : 0 < q (- b)) by (unfold q, D; replace (t * ((- b) ^ 2 + 2 * b * - b - b ^ 2) ^ 2 - 2 * a * (- b + b) * (- b - b) ^ 2) with (4 * (t * b ^ 4)) by ring; lra).
    assert (qb : 0 < q b) by (unfold q, D; replace (t * (b ^ 2 + 2 * b * b - b ^ 2) ^ 2 - 2 * a * (b + b) * (b - b) ^ 2) with (4 * (t * b ^ 4)) by ring; lra).
    assert (Cq : continuity q) by (unfold q, D; reg).
    destruct (IVT q m b Cq ltac:(lra) qm qb) as (u & Hu & Eu).
    destruct (IVT (fun v => - q v) (- b) m ltac:(apply (continuity_opp q Cq)) ltac:(lra) ltac:(lra) ltac:(lra)) as (w & Hw & Ew).
    assert (u <> m) by (intros ->; lra). assert (w <> m) by (intros ->; lra). assert (u <> b) by (intros ->; lra).
    assert (K : t = 0); [|lra].
    refine (five_roots t (4 * b * t - 2 * a) (2 * t * b ^ 2 + 2 * a * b) (- (4 * t * b ^ 3) + 2 * a * b ^ 2) (t * b ^ 4 - 2 * a * b ^ 3) w u x y z _ _ _ _ _ _ _ _ _); try lra.
    - transitivity (q w); [unfold q, D; ring|lra].
    - transitivity (q u); [unfold q, D; ring|lra].
    - transitivity (q x); [unfold q, D; ring|lra].
    - transitivity (q y); [unfold q, D; ring|lra].
    - transitivity (q z); [unfold q, D; ring|lra].
  Qed.

  Definition loop (P l m g : R) : Prop := b < l < m /\ m < g /\ p l = P /\ p m = P /\ p g = P.
  Definition excess (P l g : R) : R := F g - F l - P * (g - l).
  Lemma middle P l g : b < l < g -> p l = P -> p g = P -> excess P l g = 0 -> exists m, loop P l m g.
  Proof.
    intros Hl El Eg EF. unfold excess in EF.
    destruct (MVT_cor2 F p l g ltac:(lra)) as (m & Em & Hm). { intros c Hc. apply is_derive_Reals, HF. lra. }
    assert (Pm : p m = P). { assert (Z : (g - l) * (p m - P) = 0) by lra. apply cancel in Z; lra. }
    exists m. unfold loop. repeat split; lra.
  Qed.
  Lemma shape P l m g : loop P l m g -> 0 < P /\
    (forall v, b < v < l -> P < p v) /\ (forall v, l < v < m -> p v < P) /\ (forall v, m < v < g -> P < p v) /\ (forall v, g < v -> p v < P).
  Proof.
    intros (Hl & Hm & El & Pm & Eg).
    set (N := fun v => - P * v ^ 3 + (t - P * b) * v ^ 2 + (2 * b * t - a + 3 * P * b ^ 2) * v + (a * b - t * b ^ 2 - P * b ^ 3)).
    assert (EN : forall v, b < v -> p v - P = N v / ((v - b) * D v)).
    { intros v Hv. pose proof (D_pos v Hv) as HD. unfold p. replace (N v) with (t * D v - a * (v - b) - P * ((v - b) * D v)) by (unfold N, D; ring). field. lra. }
    assert (Z : forall v, b < v -> p v = P -> N v = 0).
    { intros v Hv Ev. pose proof (D_pos v Hv) as HD. specialize (EN v Hv). assert (0 < (v - b) * D v) by (apply Rmult_lt_0_compat; lra).
      replace (N v) with (N v / ((v - b) * D v) * ((v - b) * D v)) by (field; lra). rewrite <- EN. rewrite Ev. ring. }
    assert (FN : forall v, N v = - P * (v - l) * (v - m) * (v - g)).
    { intros v. apply (three_roots (- P) (t - P * b) (2 * b * t - a + 3 * P * b ^ 2) (a * b - t * b ^ 2 - P * b ^ 3) l m g); [lra|lra|].
      intros r Hr. apply Z; [|destruct Hr as [->|[->| ->]]; assumption]. destruct Hr as [->|[->| ->]]; lra. }
    assert (HP : 0 < P).
    { pose proof (FN b) as X. replace (N b) with (2 * t * b ^ 2) in X by (unfold N; ring).
      assert (0 < 2 * t * b ^ 2) by (apply Rmult_lt_0_compat; [lra|apply pow_lt; exact Hb]).
      assert (0 < (l - b) * (m - b) * (g - b)) by (repeat apply Rmult_lt_0_compat; lra).
      destruct (Rlt_le_dec 0 P) as [|NP]; [assumption|exfalso].
      assert (P * ((l - b) * (m - b) * (g - b)) <= 0) by nra. lra. }
    assert (K : forall v, b < v -> 0 < (v - b) * D v) by (intros v Hv; pose proof (D_pos v Hv); apply Rmult_lt_0_compat; lra).
    assert (Up : forall v, b < v -> 0 < N v -> P < p v).
    { intros v Hv HN. specialize (EN v Hv). assert (0 < N v / ((v - b) * D v)) by (apply Rdiv_lt_0_compat; auto). lra. }
    assert (Dn : forall v, b < v -> 0 < - N v -> p v < P).
    { intros v Hv HN. specialize (EN v Hv). assert (0 < (- N v) / ((v - b) * D v)) by (apply Rdiv_lt_0_compat; auto).
      replace (- N v / ((v - b) * D v)) with (- (N v / ((v - b) * D v))) in H by (field; pose proof (K v Hv); pose proof (D_pos v Hv); lra). lra. }
    split; [exact HP|]. split; [|split; [|split]]; intros v Hv.
    - apply Up; [lra|]. rewrite FN. replace (- P * (v - l) * (v - m) * (v - g)) with (P * (l - v) * (m - v) * (g - v)) by ring. repeat apply Rmult_lt_0_compat; lra.
    - apply Dn; [lra|]. rewrite FN. replace (- (- P * (v - l) * (v - m) * (v - g))) with (P * (v - l) * (m - v) * (g - v)) by ring. repeat apply Rmult_lt_0_compat; lra.
    - apply Up; [lra|]. rewrite FN. replace (- P * (v - l) * (v - m) * (v - g)) with (P * (v - l) * (v - m) * (g - v)) by ring. repeat apply Rmult_lt_0_compat; lra.
    - apply Dn; [lra|]. rewrite FN. replace (- (- P * (v - l) * (v - m) * (v - g))) with (P * (v - l) * (v - m) * (v - g)) by ring. repeat apply Rmult_lt_0_compat; lra.
  Qed.

  (** The area between the isotherm and the level falls as the level rises. *)
  Lemma excess_falls P l m g P' l' m' g' : loop P l m g -> loop P' l' m' g' -> P < P' -> excess P' l' g' < excess P l g.
  Proof.
    intros H H' L. destruct (shape P l m g H) as (_ & A1 & A2 & A3 & A4). destruct (shape P' l' m' g' H') as (_ & B1 & B2 & B3 & B4).
    destruct H as (Hl & Hm & El & Em & Eg). destruct H' as (Hl' & Hm' & El' & Em' & Eg').
    assert (X1 : l' < l).
    { destruct (Rlt_le_dec l' l) as [|X]; [assumption|exfalso]. destruct X as [X|X]; [pose proof (B1 l ltac:(lra)); lra|subst; lra]. }
    assert (X2 : l < m').
    { destruct (Rlt_le_dec l m') as [|[X|X]]; [assumption|exfalso|exfalso; subst; lra].
      destruct (Rtotal_order l g') as [Y|[Y|Y]]; [pose proof (B3 l ltac:(lra)); lra|subst; lra|].
      destruct (turn l' m') as (c1 & C1 & Q1); [lra|lra|lra|]. destruct (turn m' g') as (c2 & C2 & Q2); [lra|lra|lra|].
      destruct (turn l m) as (c3 & C3 & Q3); [lra|lra|lra|]. apply (two_turns c1 c2 c3); lra. }
    assert (Y1 : g' < g).
    { destruct (Rlt_le_dec g' g) as [|[X|X]]; [assumption|exfalso; pose proof (A4 g' X); lra|subst; lra]. }
    assert (Y2 : m < g').
    { destruct (Rlt_le_dec m g') as [|[X|X]]; [assumption|exfalso; pose proof (A2 g' ltac:(lra)); lra|exfalso; subst; lra]. }
    destruct (MVT_cor2 F p l' l X1) as (c & Ec & Hc). { intros c Hc. apply is_derive_Reals, HF. lra. }
    destruct (MVT_cor2 F p g' g Y1) as (e & Ee & He). { intros e He. apply is_derive_Reals, HF. lra. }
    pose proof (B2 c ltac:(lra)) as Pc. pose proof (A3 e ltac:(lra)) as Pe.
    assert (p c * (l - l') <= P' * (l - l')) by (apply Rmult_le_compat_r; lra).
    assert (P * (g - g') <= p e * (g - g')) by (apply Rmult_le_compat_r; lra).
    assert (0 < (P' - P) * (g' - l)) by (apply Rmult_lt_0_compat; lra). unfold excess. lra.
  Qed.

  Lemma same_loop P l m g l' m' g' : loop P l m g -> loop P l' m' g' -> l = l' /\ g = g'.
  Proof.
    intros H H'. destruct (shape P l m g H) as (_ & A1 & A2 & A3 & A4). destruct (shape P l' m' g' H') as (_ & B1 & B2 & B3 & B4).
    destruct H as (Hl & Hm & El & Em & Eg). destruct H' as (Hl' & Hm' & El' & Em' & Eg'). split.
    - destruct (Rtotal_order l l') as [X|[X|X]]; [pose proof (B1 l ltac:(lra)); lra|exact X|pose proof (A1 l' ltac:(lra)); lra].
    - destruct (Rtotal_order g g') as [X|[X|X]]; [pose proof (A4 g' X); lra|exact X|pose proof (B4 g X); lra].
  Qed.

  Lemma crossing (P x y : R) : b < x -> x < y -> (p x < P /\ P < p y \/ P < p x /\ p y < P) -> exists z, x < z < y /\ p z = P.
  Proof.
    intros Hx Hxy H.
    assert (C : forall v, x <= v <= y -> continuity_pt p v).
    { intros v Hv. apply continuity_pt_filterlim. apply (ex_derive_continuous (V := R_NormedModule)). eexists. apply slope. lra. }
    destruct H as [H|H].
    - destruct (IVT_interv (fun v => p v - P) x y) as (z & Hz & Ez); [intros v Hv; apply continuity_pt_minus; [apply C; exact Hv|apply continuity_pt_const; intros ? ?; reflexivity]|lra|lra|lra|].
      exists z. split; [|lra]. split; [destruct (proj1 Hz)|destruct (proj2 Hz)]; try assumption; subst; lra.
    - destruct (IVT_interv (fun v => P - p v) x y) as (z & Hz & Ez); [intros v Hv; apply continuity_pt_minus; [apply continuity_pt_const; intros ? ?; reflexivity|apply C; exact Hv]|lra|lra|lra|].
      exists z. split; [|lra]. split; [destruct (proj1 Hz)|destruct (proj2 Hz)]; try assumption; subst; lra.
  Qed.
  (** A loop is crossed at a higher pressure too. *)
  Lemma higher_loop P l m g : loop P l m g -> exists P' l' m' g', P < P' /\ loop P' l' m' g'.
  Proof.
    intros H. destruct (shape P l m g H) as (HP & A1 & A2 & A3 & A4). destruct H as (Hl & Hm & El & Em & Eg).
    set (x := (m + g) / 2). pose proof (A3 x ltac:(unfold x; lra)) as Px. set (P' := (P + p x) / 2).
    assert (B2 : 0 < b ^ 2) by (apply pow_lt; exact Hb).
    assert (Ka : 0 < a / (2 * b ^ 2)) by (apply Rdiv_lt_0_compat; lra).
    set (K := P' + a / (2 * b ^ 2) + 1). assert (HK : 0 < K) by (unfold K, P'; lra).
    set (e := Rmin (t / K) ((l - b) / 2)).
    assert (He : 0 < e) by (unfold e; apply Rmin_glb_lt; [apply Rdiv_lt_0_compat; assumption|lra]).
    assert (He1 : e <= t / K) by apply Rmin_l. assert (He2 : e <= (l - b) / 2) by apply Rmin_r.
    assert (Pu : P' < p (b + e)).
    { unfold p. replace (b + e - b) with e by ring.
      assert (K <= t / e). { apply (Rmult_le_reg_r e); [exact He|]. replace (t / e * e) with t by (field; lra).
        apply (Rmult_le_compat_l K) in He1; [|lra]. replace (K * (t / K)) with t in He1 by (field; lra). exact He1. }
      assert (D2 : 2 * b ^ 2 <= D (b + e)) by (unfold D; nra).
      assert (a / D (b + e) <= a / (2 * b ^ 2)) by (apply Rmult_le_compat_l; [lra|apply Rinv_le_contravar; lra]).
      unfold K in *. lra. }
    destruct (crossing P' (b + e) l) as (l' & Hl' & El'); [lra|lra|right; unfold P' in *; lra|].
    destruct (crossing P' m x) as (m' & Hm' & Em'); [lra|unfold x; lra|left; unfold P'; lra|].
    destruct (crossing P' x g) as (g' & Hg' & Eg'); [unfold x; lra|unfold x; lra|right; unfold P'; lra|].
    exists P', l', m', g'. split; [unfold P'; lra|]. unfold loop. repeat split; try assumption; lra.
  Qed.
End Isotherm.

(** The two states of density [liq] and [vap] are saturated liquid and vapor of the pressure [P] at the temperature [T]:
    the pressure and the fugacity coefficient the methods return are the same in both. *)
Definition saturated (s : pr) (T P liq vap : R) : Prop :=
  0 < vap < liq /\ 0 < P /\ pressure_is s T liq P /\ pressure_is s T vap P /\
  exists phi, fugacity_is s T P liq phi /\ fugacity_is s T P vap phi.

Section Fluid.
  Variables (name : string) (Tc Pc w : R).
  Hypothesis HTc : 0 < Tc. Hypothesis HPc : 0 < Pc.
  (** the density at which the molecules are close packed *)
  Let densest : R := / (7779607 / 100000000 * (831446261815324 / 10 ^ 14 * Tc / Pc)).

  (** What the outputs say about the isotherm over the volume. *)
  Lemma isotherm_facts s T : init [name] (fluid name Tc Pc w) [] = Ok s -> 0 < T -> attracts w Tc T ->
    exists t a b F, 0 < t /\ 0 < a /\ 0 < b /\ densest = / b /\
      (forall v, b < v -> is_derive F v (t / (v - b) - a / (v ^ 2 + 2 * b * v - b ^ 2))) /\
      (forall r, 0 < r < densest -> b < / r) /\
      (forall r P, 0 < r < densest -> pressure_is s T r P -> t / (/ r - b) - a / ((/ r) ^ 2 + 2 * b * / r - b ^ 2) = P) /\
      (forall r r' P phi phi', 0 < P -> 0 < r < densest -> 0 < r' < densest -> pressure_is s T r P -> pressure_is s T r' P ->
         fugacity_is s T P r phi -> fugacity_is s T P r' phi' ->
         0 < phi /\ 0 < phi' /\ t * (ln phi - ln phi') = excess F P (/ r) (/ r')).
  Proof.
    intros E HT HA. destruct (fluid_outputs name Tc Pc w s T HTc HPc HT E HA) as (a & Ha & Hb & Pr & Fu).
    unfold densest. rewrite <- Rgas_value. clear densest.
    set (b := 7779607 / 100000000 * (Rgas * Tc / Pc)) in *. pose proof Rgas_pos as HR.
    assert (Ht : 0 < Rgas * T) by (apply Rmult_lt_0_compat; lra).
    assert (Vb : forall r, 0 < r < / b -> b < / r).
    { intros r Hr. rewrite <- (Rinv_involutive b) by lra. apply Rinv_lt_contravar; [|lra]. apply Rmult_lt_0_compat; [lra|]. apply Rinv_0_lt_compat; exact Hb. }
    assert (Bv : forall r, 0 < r < / b -> b * r < 1).
    { intros r Hr. pose proof (Vb r Hr) as Hv. apply (Rmult_lt_compat_r r) in Hv; [|lra]. rewrite Rinv_l in Hv by lra. exact Hv. }
    assert (Ep : forall r P, pressure_is s T r P -> pressure_formula a b T r = P).
    { intros r P X. unfold pressure_is in X. rewrite (Pr r) in X. injection X as <-. reflexivity. }
    exists (Rgas * T), a, b, (work a b T). split; [exact Ht|]. split; [exact Ha|]. split; [exact Hb|]. split; [reflexivity|].
    split; [|split; [exact Vb|split]].
    - intros v Hv. destruct (isotherm_value a b T v Hb Hv) as [<- _]. apply work_slope; assumption.
    - intros r P Hr X. rewrite <- (Ep r P X). destruct (isotherm_value a b T (/ r) Hb (Vb r Hr)) as [I _]. rewrite <- I. f_equal. field. lra.
    - intros r r' P f f' HP Hr Hr' X X' Y Y'. apply Ep in X. apply Ep in X'.
      destruct (Fu r ltac:(lra) (Bv r Hr)) as (f1 & F1 & G1 & L1); [lra|]. rewrite X in F1, L1.
      destruct (Fu r' ltac:(lra) (Bv r' Hr')) as (f2 & F2 & G2 & L2); [lra|]. rewrite X' in F2, L2.
      unfold fugacity_is in *. rewrite Y in F1. injection F1 as <-. rewrite Y' in F2. injection F2 as <-.
      split; [exact G1|]. split; [exact G2|]. unfold excess, work.
      replace (1 / / r) with r by (field; lra). replace (1 / / r') with r' by (field; lra). rewrite X, X'.
      match goal with |- @eq _ ?x ?y => change (@eq R x y) end. lra.
  Qed.

(** C129, approach to saturation: as long as three densities have the pressure, the logarithm of the fugacity coefficient
    of the densest, less that of the least dense, falls as the pressure rises.  So the difference the calculation of the
    saturation pressure brings to zero changes sign at most once: below the saturation pressure the vapor has the smaller
    fugacity, above it the liquid. *)
Theorem C129_difference_falls : forall s T P vap mid liq phil phiv P' vap' mid' liq' phil' phiv',
  init [name] (fluid name Tc Pc w) [] = Ok s -> 0 < T -> attracts w Tc T ->
  0 < vap < mid -> mid < liq < densest -> pressure_is s T vap P -> pressure_is s T mid P -> pressure_is s T liq P ->
  0 < vap' < mid' -> mid' < liq' < densest -> pressure_is s T vap' P' -> pressure_is s T mid' P' -> pressure_is s T liq' P' ->
  fugacity_is s T P liq phil -> fugacity_is s T P vap phiv ->
  fugacity_is s T P' liq' phil' -> fugacity_is s T P' vap' phiv' ->
  P < P' -> ln phil' - ln phiv' < ln phil - ln phiv.
Proof.
  intros s T P v m l fl fv P' v' m' l' fl' fv' E HT HA O1 O2 A1 A2 A3 O3 O4 B1 B2 B3 C1 C2 D1 D2 L.
  destruct (isotherm_facts s T E HT HA) as (t & a & b & F & Ht & Ha & Hb & Ed & HF & Vb & Pv & Ex).
  assert (Iv : forall x y, 0 < x < y -> / y < / x) by (intros x y Hxy; apply Rinv_lt_contravar; [apply Rmult_lt_0_compat; lra|lra]).
  assert (K : loop t a b P (/ l) (/ m) (/ v)).
  { unfold loop. pose proof (Vb l ltac:(lra)). pose proof (Iv m l ltac:(lra)). pose proof (Iv v m ltac:(lra)).
    split; [lra|]. split; [lra|]. split; [|split]; apply Pv; assumption || lra. }
  assert (K' : loop t a b P' (/ l') (/ m') (/ v')).
  { unfold loop. pose proof (Vb l' ltac:(lra)). pose proof (Iv m' l' ltac:(lra)). pose proof (Iv v' m' ltac:(lra)).
    split; [lra|]. split; [lra|]. split; [|split]; apply Pv; assumption || lra. }
  pose proof (excess_falls t a b Ht Ha Hb F HF _ _ _ _ _ _ _ _ K K' L) as X.
  destruct (shape t a b Ht Hb _ _ _ _ K) as [HP _]. destruct (shape t a b Ht Hb _ _ _ _ K') as [HP' _].
  destruct (Ex l v P fl fv) as (_ & _ & X1); try assumption; try lra.
  destruct (Ex l' v' P' fl' fv') as (_ & _ & X2); try assumption; try lra.
  rewrite <- X1, <- X2 in X. apply Rmult_lt_reg_l in X; assumption.
Qed.

(** C129, one saturation pressure: at each temperature two phases of a pure fluid have one positive pressure and one
    fugacity coefficient at one pressure only, and there at one pair of densities only. *)
Theorem C129_saturation_unique : forall s T P liq vap P' liq' vap',
  init [name] (fluid name Tc Pc w) [] = Ok s -> 0 < T -> attracts w Tc T ->
  saturated s T P liq vap -> liq < densest -> saturated s T P' liq' vap' -> liq' < densest ->
  P = P' /\ liq = liq' /\ vap = vap'.
Proof.
  intros s T P l g P' l' g' E HT HA (O1 & HP & A1 & A2 & phi & A3 & A4) O2 (O3 & HP' & B1 & B2 & phi' & B3 & B4) O4.
  destruct (isotherm_facts s T E HT HA) as (t & a & b & F & Ht & Ha & Hb & Ed & HF & Vb & Pv & Ex).
  assert (Iv : forall x y, 0 < x < y -> / y < / x) by (intros x y Hxy; apply Rinv_lt_contravar; [apply Rmult_lt_0_compat; lra|lra]).
  assert (K : forall P l g phi, 0 < g < l -> 0 < P -> pressure_is s T l P -> pressure_is s T g P -> fugacity_is s T P l phi ->
    fugacity_is s T P g phi -> l < densest -> excess F P (/ l) (/ g) = 0 /\ exists m, loop t a b P (/ l) m (/ g)).
  { clear - Ht Ha Hb HF Vb Pv Ex Iv. intros P l g f O HP A1 A2 A3 A4 Hl.
    destruct (Ex l g P f f) as (_ & _ & X); try assumption; try lra.
    assert (Z : excess F P (/ l) (/ g) = 0) by lra. split; [exact Z|].
    apply (middle t a b F HF); [|apply Pv; assumption || lra|apply Pv; assumption || lra|exact Z].
    pose proof (Vb l ltac:(lra)). pose proof (Iv g l ltac:(lra)). lra. }
  destruct (K P l g phi O1 HP A1 A2 A3 A4 O2) as (Z & m & L). destruct (K P' l' g' phi' O3 HP' B1 B2 B3 B4 O4) as (Z' & m' & L').
  assert (EP : P = P').
  { destruct (Rtotal_order P P') as [X|[X|X]]; [|exact X|]; exfalso.
    - pose proof (excess_falls t a b Ht Ha Hb F HF _ _ _ _ _ _ _ _ L L' X). lra.
    - pose proof (excess_falls t a b Ht Ha Hb F HF _ _ _ _ _ _ _ _ L' L X). lra. }
  subst P'. destruct (same_loop t a b Ht Hb _ _ _ _ _ _ _ L L') as [E1 E2].
  assert (I : forall x y, 0 < x -> 0 < y -> / x = / y -> x = y) by (intros x y Hx Hy Exy; rewrite <- (Rinv_involutive x), <- (Rinv_involutive y), Exy by lra; reflexivity).
  split; [reflexivity|]. split; apply I; assumption || lra.
Qed.

(** C129, the stable phase: below the saturation pressure the vapor has the smaller fugacity coefficient, above it the
    liquid, at every pressure that three densities have. *)
Theorem C129_stable_phase : forall s T P0 liq0 vap0 P vap mid liq phil phiv,
  init [name] (fluid name Tc Pc w) [] = Ok s -> 0 < T -> attracts w Tc T ->
  saturated s T P0 liq0 vap0 -> liq0 < densest ->
  0 < vap < mid -> mid < liq < densest -> pressure_is s T vap P -> pressure_is s T mid P -> pressure_is s T liq P ->
  fugacity_is s T P liq phil -> fugacity_is s T P vap phiv ->
  (P < P0 <-> phiv < phil) /\ (P0 < P <-> phil < phiv).
Proof.
  intros s T P0 l0 g0 P v m l fl fv E HT HA (O1 & HP0 & A1 & A2 & phi & A3 & A4) Hl0 O2 O3 B1 B2 B3 C1 C2.
  destruct (isotherm_facts s T E HT HA) as (t & a & b & F & Ht & Ha & Hb & Ed & HF & Vb & Pv & Ex).
  assert (Iv : forall x y, 0 < x < y -> / y < / x) by (intros x y Hxy; apply Rinv_lt_contravar; [apply Rmult_lt_0_compat; lra|lra]).
  assert (K : loop t a b P (/ l) (/ m) (/ v)).
  { unfold loop. pose proof (Vb l ltac:(lra)). pose proof (Iv m l ltac:(lra)). pose proof (Iv v m ltac:(lra)).
    split; [lra|]. split; [lra|]. split; [|split]; apply Pv; assumption || lra. }
  destruct (Ex l0 g0 P0 phi phi) as (_ & _ & X0); try assumption; try lra.
  assert (Z : excess F P0 (/ l0) (/ g0) = 0) by lra.
  destruct (middle t a b F HF P0 (/ l0) (/ g0)) as (m0 & K0); [|apply Pv; assumption || lra|apply Pv; assumption || lra|exact Z|].
  { pose proof (Vb l0 ltac:(lra)). pose proof (Iv g0 l0 ltac:(lra)). lra. }
  destruct (shape t a b Ht Hb _ _ _ _ K) as [HP _].
  destruct (Ex l v P fl fv) as (G1 & G2 & X); try assumption; try lra.
  assert (Lo : P < P0 -> fv < fl).
  { intros L. pose proof (excess_falls t a b Ht Ha Hb F HF _ _ _ _ _ _ _ _ K K0 L) as Y. apply ln_lt_inv; [exact G2|exact G1|].
    apply (Rmult_lt_reg_l t); [exact Ht|]. lra. }
  assert (Hi : P0 < P -> fl < fv).
  { intros L. pose proof (excess_falls t a b Ht Ha Hb F HF _ _ _ _ _ _ _ _ K0 K L) as Y. apply ln_lt_inv; [exact G1|exact G2|].
    apply (Rmult_lt_reg_l t); [exact Ht|]. lra. }
  assert (Eq : P = P0 -> fl = fv).
  { intros ->. destruct (same_loop t a b Ht Hb _ _ _ _ _ _ _ K K0) as [E1 E2]. rewrite E1, E2, Z in X.
    apply cancel in X; [|lra]. apply ln_inv; [exact G1|exact G2|lra]. }
  split; split; [exact Lo| |exact Hi|]; intros Q; destruct (Rtotal_order P P0) as [L|[L|L]];
    try (specialize (Lo L)); try (specialize (Hi L)); try (specialize (Eq L)); lra.
Qed.
End Fluid.

(** C129: so below the given critical temperature a fluid has exactly one saturation pressure. *)
Theorem C129_one_saturation : forall name Tc Pc w s T, 0 < Tc -> 0 < Pc -> - (2 / 10) <= w <= 1 ->
  init [name] (fluid name Tc Pc w) [] = Ok s -> 0 < T <= Tc * (1 - 1 / 10 ^ 6) ->
  let densest := / (7779607 / 100000000 * (831446261815324 / 10 ^ 14 * Tc / Pc)) in
  exists P liq vap, saturated s T P liq vap /\ liq < densest /\
    forall P' liq' vap', saturated s T P' liq' vap' -> liq' < densest -> P' = P /\ liq' = liq /\ vap' = vap.
Proof.
  intros name Tc Pc w s T HTc HPc Hw E HT densest. pose proof Rgas_pos as HR.
  assert (HA : attracts w Tc T).
  { unfold attracts. pose proof (kappa_range w Hw) as K. assert (Q : sqrt (T / Tc) <= 1).
    { rewrite <- sqrt_1. apply sqrt_le_1_alt. apply (Rmult_le_reg_r Tc); [exact HTc|]. unfold Rdiv. rewrite Rmult_assoc, Rinv_l by lra. nra. }
    assert (0 <= acentric_kappa w * (1 - sqrt (T / Tc))) by (apply Rmult_le_pos; lra). lra. }
  destruct (C123_two_phases_below name Tc Pc w HTc HPc Hw s T E HT) as (r1 & r2 & p1 & p2 & H1 & H2 & H3 & H4 & H5).
  assert (Hs : 0 < 7779607 / 100000000 * (831446261815324 / 10 ^ 14 * Tc / Pc)).
  { apply Rmult_lt_0_compat; [lra|]. apply Rdiv_lt_0_compat; [|exact HPc]. lra. }
  destruct (C129_saturation_exists name Tc Pc w HTc HPc s T r1 r2 p1 p2 E) as (P & v1 & v2 & phi & A1 & A2 & A3 & A4 & A5 & A6 & _); try assumption; try lra.
  - eapply Rlt_le_trans; [exact H2|]. right. field. repeat split; lra.
  - assert (S : saturated s T P (1 / v1) (1 / v2)).
    { unfold saturated. split; [|eauto 10]. split; [apply Rdiv_lt_0_compat; lra|]. unfold Rdiv. rewrite !Rmult_1_l.
      apply Rinv_lt_contravar; [apply Rmult_lt_0_compat; lra|lra]. }
    assert (L : 1 / v1 < densest).
    { unfold densest, Rdiv at 1. rewrite Rmult_1_l. apply Rinv_lt_contravar; [apply Rmult_lt_0_compat; lra|lra]. }
    exists P, (1 / v1), (1 / v2). split; [exact S|]. split; [exact L|]. intros P' l' g' S' L'.
    apply (C129_saturation_unique name Tc Pc w HTc HPc s T P' l' g' P (1 / v1) (1 / v2)); try assumption. lra.
Qed.

(** Non-vacuity of C129_difference_falls: every fluid below its critical temperature has two pressures with three
    densities each. *)
Example C129_difference_case : forall name Tc Pc w s T, 0 < Tc -> 0 < Pc -> - (2 / 10) <= w <= 1 ->
  init [name] (fluid name Tc Pc w) [] = Ok s -> 0 < T <= Tc * (1 - 1 / 10 ^ 6) ->
  let densest := / (7779607 / 100000000 * (831446261815324 / 10 ^ 14 * Tc / Pc)) in
  let three P vap mid liq phil phiv := 0 < vap < mid /\ mid < liq < densest /\ pressure_is s T vap P /\ pressure_is s T mid P /\
    pressure_is s T liq P /\ fugacity_is s T P liq phil /\ fugacity_is s T P vap phiv in
  attracts w Tc T /\ exists P vap mid liq phil phiv P' vap' mid' liq' phil' phiv', P < P' /\
    three P vap mid liq phil phiv /\ three P' vap' mid' liq' phil' phiv'.
Proof.
  intros name Tc Pc w s T HTc HPc Hw E HT densest three. pose proof Rgas_pos as HR.
  assert (HA : attracts w Tc T).
  { unfold attracts. pose proof (kappa_range w Hw) as K. assert (Q : sqrt (T / Tc) <= 1).
    { rewrite <- sqrt_1. apply sqrt_le_1_alt. apply (Rmult_le_reg_r Tc); [exact HTc|]. unfold Rdiv. rewrite Rmult_assoc, Rinv_l by lra. nra. }
    assert (0 <= acentric_kappa w * (1 - sqrt (T / Tc))) by (apply Rmult_le_pos; lra). lra. }
  split; [exact HA|].
  destruct (C129_one_saturation name Tc Pc w s T HTc HPc Hw E HT) as (P & l & g & (Hg & HP & Pl & Pg & phi & Fl & Fg) & Hl & _).
  destruct (fluid_outputs name Tc Pc w s T HTc HPc (proj1 HT) E HA) as (a & Ha & Hb & Pr & Fu).
  unfold three, densest in *. clear three densest. rewrite <- Rgas_value in *.
  set (b := 7779607 / 100000000 * (Rgas * Tc / Pc)) in *.
  assert (Ht : 0 < Rgas * T) by (apply Rmult_lt_0_compat; lra).
  assert (Vb : forall r, 0 < r < / b -> b < / r).
  { intros r Hr. rewrite <- (Rinv_involutive b) by lra. apply Rinv_lt_contravar; [|lra]. apply Rmult_lt_0_compat; [lra|]. apply Rinv_0_lt_compat; exact Hb. }
  assert (Iv : forall x y, 0 < x < y -> / y < / x) by (intros x y Hxy; apply Rinv_lt_contravar; [apply Rmult_lt_0_compat; lra|lra]).
  assert (HF : forall v, b < v -> is_derive (work a b T) v (Rgas * T / (v - b) - a / (v ^ 2 + 2 * b * v - b ^ 2))).
  { intros v Hv. destruct (isotherm_value a b T v Hb Hv) as [<- _]. apply work_slope; lra. }
  assert (Ep : forall r q, pressure_is s T r q -> pressure_formula a b T r = q).
  { intros r q X. unfold pressure_is in X. rewrite (Pr r) in X. injection X as <-. reflexivity. }
  assert (Bv : forall r, 0 < r < / b -> b * r < 1).
  { intros r Hr. pose proof (Vb r Hr) as Hv. apply (Rmult_lt_compat_r r) in Hv; [|lra]. rewrite Rinv_l in Hv by lra. exact Hv. }
  assert (Back : forall Q l m g, loop (Rgas * T) a b Q l m g -> exists vap mid liq phil phiv, 0 < vap < mid /\ mid < liq < / b /\
    pressure_is s T vap Q /\ pressure_is s T mid Q /\ pressure_is s T liq Q /\ fugacity_is s T Q liq phil /\ fugacity_is s T Q vap phiv).
  { clear P l g phi Hg HP Pl Pg Fl Fg Hl. intros Q l m g L. destruct (shape (Rgas * T) a b Ht Hb Q l m g L) as [HQ _].
    destruct L as (Hl & Hm & El & Em & Eg).
    assert (W : forall v, b < v -> Rgas * T / (v - b) - a / (v ^ 2 + 2 * b * v - b ^ 2) = Q -> pressure_formula a b T (/ v) = Q).
    { intros v Hv X. destruct (isotherm_value a b T v Hb Hv) as [I _]. replace (1 / v) with (/ v) in I by (field; lra). lra. }
    pose proof (W l ltac:(lra) El) as W1. pose proof (W m ltac:(lra) Em) as W2. pose proof (W g ltac:(lra) Eg) as W3.
    pose proof (Iv l m ltac:(lra)). pose proof (Iv m g ltac:(lra)). pose proof (Iv b l ltac:(lra)).
    assert (0 < / g) by (apply Rinv_0_lt_compat; lra).
    destruct (Fu (/ l)) as (f1 & F1 & _); [lra|apply Bv; lra|lra|]. destruct (Fu (/ g)) as (f2 & F2 & _); [lra|apply Bv; lra|lra|].
    rewrite W1 in F1. rewrite W3 in F2.
    exists (/ g), (/ m), (/ l), f1, f2. split; [lra|]. split; [lra|].
    split; [rewrite <- W3; apply Pr|]. split; [rewrite <- W2; apply Pr|]. split; [rewrite <- W1; apply Pr|]. split; assumption. }
  assert (Z : exists m, loop (Rgas * T) a b P (/ l) m (/ g)).
  { apply Ep in Pl. apply Ep in Pg. pose proof (Vb l ltac:(lra)) as V1. pose proof (Iv g l ltac:(lra)) as V2.
    destruct (isotherm_value a b T (/ l) Hb V1) as [I1 _]. destruct (isotherm_value a b T (/ g) Hb ltac:(lra)) as [I2 _].
    replace (1 / / l) with l in I1 by (field; lra). replace (1 / / g) with g in I2 by (field; lra).
    apply (middle (Rgas * T) a b (work a b T) HF); [lra|lra|lra|].
    destruct (Fu l) as (f1 & F1 & _ & L1); [lra|apply Bv; lra|lra|]. destruct (Fu g) as (f2 & F2 & _ & L2); [lra|apply Bv; lra|lra|].
    rewrite Pl in F1, L1. rewrite Pg in F2, L2. unfold fugacity_is in *. rewrite Fl in F1. injection F1 as <-. rewrite Fg in F2. injection F2 as <-.
    unfold excess, work. replace (1 / / l) with l by (field; lra). replace (1 / / g) with g by (field; lra). rewrite Pl, Pg. lra. }
  destruct Z as [m L]. destruct (higher_loop (Rgas * T) a b Ht Ha Hb P (/ l) m (/ g) L) as (P' & l' & m' & g' & Lt & L').
  destruct (Back _ _ _ _ L) as (v0 & m0 & l0 & f0 & h0 & A). destruct (Back _ _ _ _ L') as (v1 & m1 & l1 & f1 & h1 & B).
  exists P, v0, m0, l0, f0, h0, P', v1, m1, l1, f1, h1. split; [exact Lt|]. split; [exact A|exact B].
Qed.

Print Assumptions C129_difference_falls.
Print Assumptions C129_stable_phase.
Print Assumptions C129_saturation_unique.
Print Assumptions C129_one_saturation.
