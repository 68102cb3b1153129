(** Property theorems C20 and C23: thermodynamics of the Peng-Robinson equations. *)
From Verif Require Import Base BaseFacts EosToolboxModel EosToolboxSpec RSum PRModel PRSpec PRProofs PRProps.
From Coq Require Import Reals Lra Psatz.
From Coquelicot Require Import Coquelicot.
Open Scope R_scope.

Lemma Rgas_pos : 0 < Rgas.
Proof. unfold Rgas. lra. Qed.

Lemma denom_pos b rho : 0 < b -> 0 <= rho -> b * rho < 1 ->
  0 < 1 - b * rho /\ 0 < (1 + b * rho) + rho * b * (1 - b * rho).
Proof.
  intros B Rh L. split; [lra|]. assert (0 <= b * rho) by (apply Rmult_le_pos; lra).
  assert (0 <= b * rho * (1 - b * rho)) by (apply Rmult_le_pos; lra). lra.
Qed.

Lemma pressure_continuous a b T rho : 0 < b -> 0 <= rho -> b * rho < 1 ->
  continuous (pressure_formula a b T) rho.
Proof.
  intros B Rh L. destruct (denom_pos b rho B Rh L) as [D1 D2].
  apply (ex_derive_continuous (pressure_formula a b T) rho). unfold pressure_formula. auto_derive.
  split; [lra|]. split; [|exact I]. replace (1 + b * rho + rho * b * (1 + - (b * rho))) with (1 + b * rho + rho * b * (1 - b * rho)) by ring. lra.
Qed.

Lemma pressure_zero a b T : pressure_formula a b T 0 = 0.
Proof. unfold pressure_formula. unfold Rdiv. ring. Qed.

Lemma pressure_slope a b T : is_derive (pressure_formula a b T) 0 (Rgas * T).
Proof.
  unfold pressure_formula. auto_derive.
  - rewrite !Rmult_0_r, !Rmult_0_l. repeat split; lra.
  - field.
Qed.

Lemma pressure_low_density a b T :
  is_lim (fun rho => pressure_formula a b T rho / rho) 0 (Rgas * T).
Proof.
  pose proof (pressure_slope a b T) as D. apply is_derive_Reals in D.
  apply is_lim_spec. intros eps. destruct (D eps (cond_pos eps)) as [delta Hd]. exists delta. intros y Hy Ny.
  specialize (Hd y Ny). rewrite Rplus_0_l, pressure_zero, Rminus_0_r in Hd. apply Hd.
  apply Rabs_lt_between. apply Rabs_lt_between in Hy. unfold minus, plus, opp in Hy; cbn in Hy. lra.
Qed.

Lemma pressure_diverges a b T M : 0 < b -> 0 < T ->
  exists delta, 0 < delta /\ forall rho, 1 / b - delta < rho < 1 / b -> M < pressure_formula a b T rho.
Proof.
  intros B HT. pose proof Rgas_pos as HR.
  (* near close packing the repulsion exceeds (R T / (2 b)) / (1 - b rho), the attraction is bounded *)
  set (K := Rabs a / (b * b)). assert (HK : 0 <= K).
  { unfold K. apply Rmult_le_pos; [apply Rabs_pos|]. left. apply Rinv_0_lt_compat. nra. }
  set (q := Rgas * T / (2 * b)). assert (Hq : 0 < q) by (unfold q; apply Rdiv_lt_0_compat; nra).
  set (m := Rmax 1 (M + K)). assert (Hm : 0 < m) by (unfold m; pose proof (Rmax_l 1 (M + K)); lra).
  set (d := Rmin (1 / 2) (q / m)). assert (Hd : 0 < d).
  { unfold d. apply Rmin_glb_lt; [lra|apply Rdiv_lt_0_compat; lra]. }
  exists (d / b). split; [apply Rdiv_lt_0_compat; lra|]. intros rho [L1 L2].
  set (y := 1 - b * rho).
  assert (Y1 : 0 < y).
  { unfold y. apply (Rmult_lt_compat_l b) in L2; [|lra]. replace (b * (1 / b)) with 1 in L2 by (field; lra). lra. }
  assert (Y2 : y < d).
  { unfold y. apply (Rmult_lt_compat_l b) in L1; [|lra].
    replace (b * (1 / b - d / b)) with (1 - d) in L1 by (field; lra). lra. }
  assert (Yh : y < 1 / 2) by (eapply Rlt_le_trans; [exact Y2|apply Rmin_l]).
  assert (Rh : 0 < rho).
  { assert (0 < b * rho) by (unfold y in *; lra). apply (Rmult_lt_reg_l b); lra. }
  assert (Ebr : b * rho = 1 - y) by (unfold y; ring).
  unfold pressure_formula. fold y.
  replace (rho * b * y) with (b * rho * y) by ring.
  set (D := 1 + b * rho + b * rho * y). assert (HD : 1 < D) by (unfold D; rewrite Ebr; nra).
  assert (Rep : m < Rgas * T * rho / y).
  { assert (X1 : q / y <= Rgas * T * rho / y).
    { apply Rmult_le_compat_r; [left; apply Rinv_0_lt_compat; lra|]. unfold q.
      apply (Rmult_le_reg_r (2 * b)); [lra|]. replace (Rgas * T / (2 * b) * (2 * b)) with (Rgas * T) by (field; lra).
      replace (Rgas * T * rho * (2 * b)) with (Rgas * T * (2 * (b * rho))) by ring. rewrite Ebr.
      assert (0 < Rgas * T) by (apply Rmult_lt_0_compat; lra). nra. }
    assert (X2 : m < q / y).
    { apply (Rmult_lt_reg_r y); [exact Y1|]. replace (q / y * y) with q by (field; lra).
      assert (y < q / m) by (eapply Rlt_le_trans; [exact Y2|apply Rmin_r]).
      apply (Rmult_lt_compat_r m) in H; [|exact Hm]. replace (q / m * m) with q in H by (field; lra). lra. }
    lra. }
  assert (Att : rho ^ 2 * a / D <= K).
  { apply Rle_trans with (rho ^ 2 * Rabs a).
    - unfold Rdiv. rewrite Rmult_assoc. apply Rmult_le_compat_l; [apply pow2_ge_0|].
      apply Rle_trans with (Rabs a * / D).
      + apply Rmult_le_compat_r; [left; apply Rinv_0_lt_compat; lra|apply Rle_abs].
      + rewrite <- (Rmult_1_r (Rabs a)) at 2. apply Rmult_le_compat_l; [apply Rabs_pos|].
        rewrite <- Rinv_1. apply Rinv_le_contravar; lra.
    - unfold K. unfold Rdiv. rewrite Rmult_comm. apply Rmult_le_compat_l; [apply Rabs_pos|].
      apply (Rmult_le_reg_r (b * b)); [nra|]. rewrite Rinv_l by nra.
      replace (rho ^ 2 * (b * b)) with ((b * rho) * (b * rho)) by ring. rewrite Ebr. nra. }
  assert (M + K <= m) by apply Rmax_r. lra.
Qed.

(** C20.  The close-packing density [rc] is what the maximum density would be for a
    packing fraction of 1 (the default is 0.9). *)
Theorem C20_pressure_limits : forall s T xi rc,
  0 < T -> outcome (density_max s xi T 1) = Ok rc -> 0 < rc ->
  exists f : R -> R,
    (forall rho, outcome (pressure s rho T xi) = Ok (map f rho)) /\
    (forall maxpack, outcome (density_max s xi T maxpack) = Ok (maxpack * rc)) /\
    f 0 = 0 /\ is_lim (fun rho => f rho / rho) 0 (Rgas * T) /\
    (forall rho, 0 <= rho < rc -> continuous f rho) /\
    (forall M, exists delta, 0 < delta /\ forall rho, rc - delta < rho < rc -> M < f rho).
Proof.
  intros s T xi rc HT HD Hrc. unfold density_max, pressure, outcome in *.
  destruct (at_temperature s T) as [s1|]; cbn [rbind snd] in *; [|discriminate]. injection HD as HD.
  set (n := length (beads_of s1)) in *. set (b := mix_b s1 n xi) in *. set (a := mix_a s1 n xi).
  assert (Nb : b <> 0).
  { intros E. rewrite E in HD. unfold Rdiv in HD. rewrite Rinv_0 in HD. lra. }
  assert (Hb : 0 < b).
  { rewrite <- HD in Hrc. destruct (Rlt_dec 0 b) as [L|L]; [exact L|]. exfalso.
    assert (b < 0) by lra. assert (/ b < 0) by (apply Rinv_lt_0_compat; assumption). unfold Rdiv in Hrc. lra. }
  exists (pressure_formula a b T). split; [reflexivity|]. split.
  { intros mp. f_equal. rewrite <- HD. field. exact Nb. }
  split; [apply pressure_zero|]. split; [apply pressure_low_density|]. split.
  - intros rho [R1 R2]. apply pressure_continuous; [exact Hb|exact R1|].
    rewrite <- HD in R2. apply (Rmult_lt_compat_l b) in R2; [|exact Hb]. replace (b * (1 / b)) with 1 in R2 by (field; exact Nb). exact R2.
  - intros M. rewrite <- HD. apply pressure_diverges; assumption.
Qed.
Print Assumptions C20_pressure_limits.

(** Non-vacuity: one component with b = 1/10000, equal parts of itself *)
Example C20_case : exists s, init ("X"%string :: nil) (("X", ("ai", 3) :: ("bi", 1/10000) :: nil) :: nil)%string nil = Ok s /\
  outcome (density_max s (fun _ => 1) 300 1) = Ok 10000.
Proof.
  eexists. split; [cbn -[IZR Rgas Rdiv Rmult Rplus Rminus pow sqrt]; reflexivity|].
  unfold density_max, outcome. cbn -[IZR Rgas Rdiv Rmult Rplus Rminus pow sqrt]. f_equal. field.
Qed.

(** ** C23 *)
Definition pair_attraction (s : pr) (i j : nat) : R :=
  sqrt (pr_ai s i * pr_alpha s i * pr_ai s j * pr_alpha s j) * (1 - pr_kij s i j).

Lemma mix_a_attraction s n x : mix_a s n x = attraction n (pair_attraction s) x.
Proof.
  unfold mix_a, attraction, pair_attraction. apply sumn_ext; intros i _. apply sumn_ext; intros j _. ring.
Qed.
Lemma mix_b_covolume s n x : mix_b s n x = covolume n (pr_bi s) x.
Proof. reflexivity. Qed.

Lemma covolume_upd n b x i t : (i < n)%nat -> covolume n b (upd x i t) = covolume n b x + (t - x i) * b i.
Proof. intros Hi. unfold covolume. apply sumn_upd. exact Hi. Qed.
Lemma total_upd n x i t : (i < n)%nat -> total n (upd x i t) = total n x + (t - x i).
Proof.
  intros Hi. unfold total. pose proof (sumn_upd n x i t (fun _ => 1) Hi) as H.
  rewrite (sumn_ext n (upd x i t) (fun k => upd x i t k * 1)) by (intros; ring). rewrite H.
  rewrite (sumn_ext n (fun k => x k * 1) x) by (intros; ring). ring.
Qed.
Definition row (n : nat) (w : nat -> nat -> R) (x : nat -> R) (i : nat) : R := sumn n (fun j => x j * w i j).
Lemma attraction_upd n w x i t : (i < n)%nat -> (forall a b, (a < n)%nat -> (b < n)%nat -> w a b = w b a) ->
  attraction n w (upd x i t) = attraction n w x + 2 * (t - x i) * row n w x i + (t - x i) ^ 2 * w i i.
Proof.
  intros Hi Sy. unfold attraction, row.
  rewrite (sumn_ext n _ (fun a => upd x i t a * (sumn n (fun b => x b * w a b) + (t - x i) * w a i))).
  2: { intros a Ha. rewrite <- (sumn_upd n x i t (w a) Hi). rewrite <- sumn_scal. apply sumn_ext. intros; ring. }
  rewrite (sumn_upd n x i t _ Hi).
  rewrite (sumn_ext n (fun a => x a * (sumn n (fun b => x b * w a b) + (t - x i) * w a i))
             (fun a => sumn n (fun b => x a * x b * w a b) + (t - x i) * (x a * w i a))).
  2: { intros a Ha. rewrite Rmult_plus_distr_l, <- sumn_scal. rewrite (Sy a i Ha Hi).
       replace (x a * ((t - x i) * w i a)) with ((t - x i) * (x a * w i a)) by ring. f_equal. apply sumn_ext; intros; ring. }
  rewrite sumn_plus, sumn_scal. ring.
Qed.

Lemma sqrt2 : sqrt 2 * sqrt 2 = 2.
Proof. apply sqrt_sqrt. lra. Qed.
Lemma sqrt2_bounds : 1 < sqrt 2 < 2.
Proof. pose proof sqrt2. pose proof (sqrt_pos 2). split; nra. Qed.

(** derivative of the two logarithms in the amount: the amounts enter through linear N
    and B and quadratic D *)
Lemma derive_amount Rg T V N B D bi S w x :
  0 < Rg -> 0 < T -> 0 < V -> 0 < B -> B < V ->
  is_derive (fun t => - (N + (t - x)) * ln (1 - (B + (t - x) * bi) / V) -
      (D + 2 * (t - x) * S + (t - x) ^ 2 * w) / (2 * sqrt 2 * (B + (t - x) * bi) * Rg * T) *
      ln ((V + (1 + sqrt 2) * (B + (t - x) * bi)) / (V + (1 - sqrt 2) * (B + (t - x) * bi)))) x
    (- ln (1 - B / V) + N * bi / (V - B)
     - (2 * S / (2 * sqrt 2 * B * Rg * T) - D * bi / (2 * sqrt 2 * B * B * Rg * T)) * ln ((V + (1 + sqrt 2) * B) / (V + (1 - sqrt 2) * B))
     - D / (B * Rg * T) * bi * (V / (V * V + 2 * V * B - B * B))).
Proof.
  intros HR HT HV HB HBV. pose proof sqrt2 as Q. pose proof sqrt2_bounds as [Q1 Q2].
  set (r := sqrt 2) in *.
  assert (L1 : 0 < 1 - B / V).
  { apply (Rmult_lt_reg_r V); [lra|]. unfold Rdiv. rewrite Rmult_minus_distr_r, Rmult_assoc, Rinv_l by lra. lra. }
  assert (P1 : 0 < V + (1 + r) * B) by nra.
  assert (P2 : 0 < V + (1 - r) * B) by nra.
  assert (P3 : 0 < V * V + 2 * V * B - B * B) by nra.
  assert (L2 : 0 < (V + (1 + r) * B) / (V + (1 - r) * B)) by (apply Rdiv_lt_0_compat; assumption).
  auto_derive.
  - replace (x + - x) with 0 by ring. rewrite Rmult_0_l, Rplus_0_r.
    split; [exact L1|]. split.
    { repeat apply Rmult_integral_contrapositive_currified; lra. }
    split; [change (1 + - r) with (1 - r); lra|]. split; [exact L2|exact I].
  - replace (x + - x) with 0 by ring. rewrite !Rmult_0_l, !Rplus_0_r, !Rmult_0_r, ?Rplus_0_r.
    change (1 + - r) with (1 - r). change (1 + - (B * / V)) with (1 - B / V).
    set (LA := ln (1 - B / V)). set (LB := ln ((V + (1 + r) * B) * / (V + (1 - r) * B))).
    change (ln ((V + (1 + r) * B) / (V + (1 - r) * B))) with LB.
    apply Rminus_diag_uniq.
    field_simplify_eq; [|repeat split; try lra; nra].
    replace (r ^ 4) with 4 by (replace 4 with (2 * 2) by ring; rewrite <- Q; ring).
    ring [Q].
Qed.

Lemma derive_volume Rg T V N B D :
  0 < Rg -> 0 < T -> 0 < V -> 0 < B -> B < V ->
  is_derive (fun V => - N * ln (1 - B / V) -
      D / (2 * sqrt 2 * B * Rg * T) * ln ((V + (1 + sqrt 2) * B) / (V + (1 - sqrt 2) * B))) V
    (- N * B / (V * (V - B)) + D / (Rg * T) / (V * V + 2 * V * B - B * B)).
Proof.
  intros HR HT HV HB HBV. pose proof sqrt2 as Q. pose proof sqrt2_bounds as [Q1 Q2].
  set (r := sqrt 2) in *.
  assert (L1 : 0 < 1 - B / V).
  { apply (Rmult_lt_reg_r V); [lra|]. unfold Rdiv. rewrite Rmult_minus_distr_r, Rmult_assoc, Rinv_l by lra. lra. }
  assert (P1 : 0 < V + (1 + r) * B) by nra.
  assert (P2 : 0 < V + (1 - r) * B) by nra.
  assert (P3 : 0 < V * V + 2 * V * B - B * B) by nra.
  assert (L2 : 0 < (V + (1 + r) * B) / (V + (1 - r) * B)) by (apply Rdiv_lt_0_compat; assumption).
  auto_derive.
  - change (1 + - r) with (1 - r). change (1 + - (B * / V)) with (1 - B / V).
    split; [lra|]. split; [exact L1|]. split; [lra|]. split; [exact L2|exact I].
  - change (1 + - r) with (1 - r). apply Rminus_diag_uniq.
    field_simplify_eq; [|repeat split; try lra; nra].
    replace (r ^ 4) with 4 by (replace 4 with (2 * 2) by ring; rewrite <- Q; ring).
    ring [Q].
Qed.

(** objects built and refreshed by the code have a symmetric interaction matrix *)
Lemma init_symmetric beads lib cl s T s1 : init beads lib cl = Ok s -> at_temperature s T = Ok s1 ->
  beads_of s1 = beads /\
  forall i j, (i < length beads)%nat -> (j < length beads)%nat -> pr_kij s1 i j = pr_kij s1 j i.
Proof.
  intros HI HT. pose proof (init_spec beads lib cl) as S. rewrite HI in S. destruct S as [F _].
  pose proof (fresh_at s _ T F) as A. destruct (mapM _ _); [|congruence].
  destruct A as [s2 [E [_ [B [_ [K _]]]]]]. rewrite HT in E. injection E as <-. split; [exact B|].
  intros i j Hi Hj. rewrite !K by assumption. unfold kij_refresh. apply kij_fold_sym. reflexivity.
Qed.

Lemma ln_phi_value s n T xi rho i :
  let b := mix_b s n xi in let a := mix_a s n xi in
  let P := pressure_formula a b T rho in
  let V := 1 / rho in
  (i < n)%nat -> 0 < T -> 0 < rho -> 0 < b -> b * rho < 1 -> 0 < P -> a <> 0 ->
  (forall k, (k < n)%nat -> 0 <= pr_ai s k * pr_alpha s k) ->
  ln_phi s n P rho T xi i + ln (P / (Rgas * T * rho)) =
    - ln (1 - b / V) + 1 * pr_bi s i / (V - b)
     - (2 * row n (pair_attraction s) xi i / (2 * sqrt 2 * b * Rgas * T) - a * pr_bi s i / (2 * sqrt 2 * b * b * Rgas * T))
       * ln ((V + (1 + sqrt 2) * b) / (V + (1 - sqrt 2) * b))
     - a / (b * Rgas * T) * pr_bi s i * (V / (V * V + 2 * V * b - b * b)).
Proof.
  intros b a P V Hi HT HRho Hb Hbr HP Ha Hnn. pose proof Rgas_pos as HR. pose proof sqrt2 as Q. pose proof sqrt2_bounds as [Q1 Q2].
  destruct (denom_pos b rho Hb (Rlt_le _ _ HRho) Hbr) as [D1 D2].
  unfold ln_phi. fold a b.
  assert (Ht : 0 < Rgas * T) by (apply Rmult_lt_0_compat; lra).
  set (RT := Rgas * T) in *. set (Z := P / (RT * rho)).
  assert (HZ : 0 < Z) by (unfold Z; apply Rdiv_lt_0_compat; [exact HP|apply Rmult_lt_0_compat; assumption]).
  assert (EB : b * P / RT = b * rho * Z) by (unfold Z; field; split; lra).
  rewrite EB.
  assert (EZB : Z - b * rho * Z = Z * (1 - b * rho)) by ring. rewrite EZB.
  rewrite (ln_mult Z (1 - b * rho)) by lra.
  assert (EV : 1 - b / V = 1 - b * rho) by (unfold V; field; lra). rewrite EV.
  set (r := sqrt 2) in *.
  assert (P1 : 0 < 1 + (1 + r) * (b * rho)) by nra.
  assert (P2 : 0 < 1 + (1 - r) * (b * rho)) by nra.
  assert (EL1 : (Z + (1 + r) * (b * rho * Z)) / (Z + (1 - r) * (b * rho * Z)) = (1 + (1 + r) * (b * rho)) / (1 + (1 - r) * (b * rho))).
  { field. split; [lra|]. replace (Z + (1 - r) * (b * rho * Z)) with (Z * (1 + (1 - r) * (b * rho))) by ring.
    apply Rmult_integral_contrapositive_currified; lra. }
  rewrite EL1.
  assert (EL2 : (V + (1 + r) * b) / (V + (1 - r) * b) = (1 + (1 + r) * (b * rho)) / (1 + (1 - r) * (b * rho))).
  { unfold V. field. split; lra. }
  rewrite EL2. set (LG := ln ((1 + (1 + r) * (b * rho)) / (1 + (1 - r) * (b * rho)))).
  set (L1 := ln (1 - b * rho)). set (LZ := ln Z).
  (* the pair terms *)
  assert (ES : sumn n (fun j => xi j * (sqrt (pr_ai s i * pr_alpha s i * P / RT ^ 2 * (pr_ai s j * pr_alpha s j * P / RT ^ 2)) * (1 - pr_kij s i j)))
     = P / RT ^ 2 * row n (pair_attraction s) xi i).
  { unfold row, pair_attraction. rewrite <- sumn_scal. apply sumn_ext. intros j Hj.
    assert (Hc : 0 <= P / RT ^ 2) by (left; apply Rdiv_lt_0_compat; [exact HP|apply pow_lt; exact Ht]).
    replace (pr_ai s i * pr_alpha s i * P / RT ^ 2 * (pr_ai s j * pr_alpha s j * P / RT ^ 2))
      with ((P / RT ^ 2) * (P / RT ^ 2) * (pr_ai s i * pr_alpha s i * pr_ai s j * pr_alpha s j)) by (field; lra).
    rewrite sqrt_mult.
    - rewrite sqrt_square by exact Hc. ring.
    - apply Rmult_le_pos; exact Hc.
    - replace (pr_ai s i * pr_alpha s i * pr_ai s j * pr_alpha s j) with ((pr_ai s i * pr_alpha s i) * (pr_ai s j * pr_alpha s j)) by ring.
      apply Rmult_le_pos; apply Hnn; assumption. }
  rewrite ES. set (S := row n (pair_attraction s) xi i).
  assert (EZ : Z = 1 / (1 - b * rho) - rho * a / (RT * ((1 + b * rho) + rho * b * (1 - b * rho)))).
  { unfold Z, P, pressure_formula. fold RT. field. repeat split; try lra. }
  fold Z. fold LZ.
  assert (EZP : P = Z * (RT * rho)) by (unfold Z; field; split; lra).
  clearbody L1 LG LZ S. 
  assert (P3 : 0 < V * V + 2 * V * b - b * b).
  { replace (V * V + 2 * V * b - b * b) with (((1 + b * rho) + rho * b * (1 - b * rho)) * (V * V)) by (unfold V; field; lra).
    assert (0 < V) by (unfold V; apply Rdiv_lt_0_compat; lra). apply Rmult_lt_0_compat; [exact D2|nra]. }
  assert (EK : forall z, z = 1 / (1 - b * rho) - rho * a / (RT * ((1 + b * rho) + rho * b * (1 - b * rho))) ->
     pr_bi s i * (z - 1) / b = 1 * pr_bi s i / (V - b) - a / (b * Rgas * T) * pr_bi s i * (V / (V * V + 2 * V * b - b * b))).
  { intros z ->. unfold V, RT. field. repeat split; try lra; try nra. }
  assert (E1 : pr_bi s i * P / RT * (Z - 1) / (b * rho * Z) = pr_bi s i * (Z - 1) / b).
  { rewrite EZP. field. repeat split; lra. }
  rewrite E1, (EK Z EZ).
  assert (E2 : a * P / RT ^ 2 / (2 * r * (b * rho * Z)) * LG * (pr_bi s i * P / RT / (b * rho * Z) - 2 * (P / RT ^ 2 * S) / (a * P / RT ^ 2))
     = - ((2 * S / (2 * r * b * Rgas * T) - a * pr_bi s i / (2 * r * b * b * Rgas * T)) * LG)).
  { rewrite EZP. unfold RT. field. repeat split; lra. }
  rewrite E2. ring.
Qed.

(** C23.  One helmholtz energy generates both outputs: the pressure is minus its volume
    derivative (plus the ideal gas term), and the logarithm of each component's fugacity
    coefficient is its derivative in the amount of that component minus ln Z; and it
    vanishes at infinite dilution. *)
Theorem C23_consistent : forall beads lib cl s T xi rho s1 P,
  let n := length beads in
  init beads lib cl = Ok s -> at_temperature s T = Ok s1 ->
  0 < T -> total n xi = 1 ->
  (forall k, (k < n)%nat -> 0 <= pr_ai s1 k * pr_alpha s1 k) ->
  0 < rho -> 0 < covolume n (pr_bi s1) xi -> covolume n (pr_bi s1) xi * rho < 1 ->
  outcome (pressure s (rho :: nil) T xi) = Ok (P :: nil) ->
  let F := helmholtz Rgas n (pr_bi s1) (pair_attraction s1) T in
  is_lim (F xi) p_infty 0 /\
  (exists dV, is_derive (F xi) (1 / rho) dV /\ P = rho * Rgas * T - Rgas * T * dV) /\
  (0 < P -> attraction n (pair_attraction s1) xi <> 0 ->
   forall i, (i < n)%nat -> exists dn phi,
     is_derive (fun t => F (upd xi i t) (1 / rho)) (xi i) dn /\
     outcome_at i (fugacity_coefficient s P rho T xi) = Ok phi /\
     ln phi = dn - ln (P / (Rgas * T * rho))).
Proof.
  intros beads lib cl s T xi rho s1 P n HI HT HTp HN Hnn HRho Hb Hbr HP F.
  destruct (init_symmetric beads lib cl s T s1 HI HT) as [EB Sy].
  pose proof Rgas_pos as HR. pose proof sqrt2_bounds as [Q1 Q2].
  set (b := covolume n (pr_bi s1) xi) in *. set (w := pair_attraction s1) in *. set (a := attraction n w xi).
  assert (HV : 0 < 1 / rho) by (apply Rdiv_lt_0_compat; lra).
  assert (HbV : b < 1 / rho).
  { apply (Rmult_lt_reg_r rho); [exact HRho|]. replace (1 / rho * rho) with 1 by (field; lra). exact Hbr. }
  assert (EP : P = pressure_formula a b T rho).
  { unfold pressure, outcome in HP. rewrite HT in HP. cbn [rbind snd map] in HP. rewrite EB in HP.
    rewrite mix_a_attraction, mix_b_covolume in HP. injection HP as <-. reflexivity. }
  split; [|split].
  - (* infinite dilution *)
    unfold F, helmholtz. fold b. fold w. fold a. rewrite HN.
    assert (I0 : forall c, is_lim (fun V => c / V) p_infty 0).
    { intros c. apply (is_lim_ext (fun V => c * / V)); [reflexivity|].
      replace (Finite 0) with (Rbar_mult c 0) by (cbn; f_equal; ring).
      apply is_lim_scal_l. apply (is_lim_inv (fun y => y) p_infty p_infty); [apply is_lim_id|discriminate]. }
    assert (LN : forall f, is_lim f p_infty 1 -> is_lim (fun V => ln (f V)) p_infty 0).
    { intros f Hf. rewrite <- ln_1. apply (is_lim_comp_continuous f ln p_infty 1 Hf).
      apply continuous_ln. lra. }
    assert (A1 : is_lim (fun V => ln (1 - b / V)) p_infty 0).
    { apply LN. replace (Finite 1) with (Rbar_minus 1 0) by (cbn; f_equal; ring).
      apply is_lim_minus'; [apply is_lim_const|apply I0]. }
    assert (A2 : is_lim (fun V => ln ((V + (1 + sqrt 2) * b) / (V + (1 - sqrt 2) * b))) p_infty 0).
    { apply LN.
      apply (is_lim_ext_loc (fun V => (1 + ((1 + sqrt 2) * b) / V) / (1 + ((1 - sqrt 2) * b) / V))).
      - exists b. intros V HVb. field. assert (0 < V + (1 - sqrt 2) * b) by nra. repeat split; lra.
      - replace (Finite 1) with (Rbar_div 1 1) by (cbn; f_equal; field).
        apply is_lim_div; try (cbn; auto); try (intros X; injection X; lra).
        + replace (Finite 1) with (Rbar_plus 1 0) by (cbn; f_equal; ring).
          apply is_lim_plus'; [apply is_lim_const|apply I0].
        + replace (Finite 1) with (Rbar_plus 1 0) by (cbn; f_equal; ring).
          apply is_lim_plus'; [apply is_lim_const|apply I0]. }
    replace (Finite 0) with (Rbar_minus (Rbar_mult (-1) 0) (Rbar_mult (a / (2 * sqrt 2 * b * Rgas * T)) 0)) by (cbn; f_equal; ring).
    apply is_lim_minus'.
    + apply (is_lim_scal_l (fun V => ln (1 - b / V)) (-1) p_infty 0). exact A1.
    + apply (is_lim_scal_l (fun V => ln ((V + (1 + sqrt 2) * b) / (V + (1 - sqrt 2) * b))) _ p_infty 0). exact A2.
  - eexists. split.
    + unfold F, helmholtz. fold b. fold w. fold a. apply derive_volume; assumption.
    + rewrite HN, EP. unfold pressure_formula.
      destruct (denom_pos b rho Hb (Rlt_le _ _ HRho) Hbr) as [D1 D2]. field. repeat split; try lra; nra.
  - intros PP Na i Hi.
    exists (- ln (1 - b / (1 / rho)) + 1 * pr_bi s1 i / (1 / rho - b)
     - (2 * row n w xi i / (2 * sqrt 2 * b * Rgas * T) - a * pr_bi s1 i / (2 * sqrt 2 * b * b * Rgas * T))
       * ln ((1 / rho + (1 + sqrt 2) * b) / (1 / rho + (1 - sqrt 2) * b))
     - a / (b * Rgas * T) * pr_bi s1 i * (1 / rho / (1 / rho * (1 / rho) + 2 * (1 / rho) * b - b * b))).
    exists (exp (ln_phi s1 n P rho T xi i)). split; [|split].
    + unfold F. assert (Sw : forall x y, (x < n)%nat -> (y < n)%nat -> w x y = w y x).
      { intros x y Hx Hy. unfold w, pair_attraction. rewrite (Sy x y Hx Hy). f_equal. f_equal. ring. }
      apply (is_derive_ext (fun t => - (1 + (t - xi i)) * ln (1 - (b + (t - xi i) * pr_bi s1 i) / (1 / rho)) -
        (a + 2 * (t - xi i) * row n w xi i + (t - xi i) ^ 2 * w i i) / (2 * sqrt 2 * (b + (t - xi i) * pr_bi s1 i) * Rgas * T) *
        ln ((1 / rho + (1 + sqrt 2) * (b + (t - xi i) * pr_bi s1 i)) / (1 / rho + (1 - sqrt 2) * (b + (t - xi i) * pr_bi s1 i))))).
      * intros t. unfold helmholtz. rewrite total_upd, covolume_upd, attraction_upd by assumption. rewrite HN. reflexivity.
      * apply derive_amount; assumption.
    + unfold fugacity_coefficient, outcome_at. rewrite HT. cbn [rbind snd]. rewrite EB. reflexivity.
    + rewrite ln_exp.
      pose proof (ln_phi_value s1 n T xi rho i) as X. cbv zeta in X.
      rewrite mix_a_attraction, mix_b_covolume in X. fold w in X. fold a b in X. rewrite <- EP in X.
      specialize (X Hi HTp HRho Hb Hbr PP Na Hnn). lra.
Qed.
Print Assumptions C23_consistent.

Example C23_case : exists s s1 P,
  init ("X"%string :: nil) (("X", ("ai", 1) :: ("bi", 1/10000) :: nil) :: nil)%string nil = Ok s /\
  at_temperature s 300 = Ok s1 /\ total 1 (fun _ => 1) = 1 /\
  (forall k, (k < 1)%nat -> 0 <= pr_ai s1 k * pr_alpha s1 k) /\
  0 < covolume 1 (pr_bi s1) (fun _ => 1) /\ covolume 1 (pr_bi s1) (fun _ => 1) * 1 < 1 /\
  outcome (pressure s (1 :: nil) 300 (fun _ => 1)) = Ok (P :: nil) /\
  0 < P /\ attraction 1 (pair_attraction s1) (fun _ => 1) <> 0.
Proof.
  do 3 eexists. split; [cbn -[IZR Rgas Rdiv Rmult Rplus Rminus pow sqrt]; reflexivity|].
  split; [cbn -[IZR Rgas Rdiv Rmult Rplus Rminus pow sqrt]; reflexivity|].
  split; [unfold total; cbn; ring|]. split.
  { intros [|k] Hk; [|lia]. cbn. lra. }
  unfold covolume. cbn [sumn pr_bi fst snd nth]. split; [lra|]. split; [lra|].
  split; [cbn -[IZR Rgas Rdiv Rmult Rplus Rminus pow sqrt pressure_formula mix_a mix_b]; reflexivity|].
  unfold attraction, pair_attraction, mix_a, mix_b. cbn [sumn pr_bi pr_ai pr_alpha pr_kij fst snd nth].
  rewrite !Rmult_1_r, sqrt_1. change (kij_refresh _ _ _ 0%nat 0%nat) with 0. split; [|lra].
  unfold pressure_formula, Rgas. cbn [pow]. lra.
Qed.
