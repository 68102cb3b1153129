(** Property theorems C92 (the van der Waals constant of the Mie potential), C93 (second
    virial coefficients of the hard-sphere, first and second order terms of both SAFT
    variants) and C94 (density dependence of the hard-sphere distribution function). *)
From Coq Require Import Reals Lra Lia.
From Coquelicot Require Import Coquelicot.
From Verif Require Import Base BaseFacts RSum CombiningModel EosToolboxModel SaftToolboxModel SaftToolboxProps
  SwModel SwProps MieExtModel MieExtProps MieModel MieProofs MieProps SaftLimitsProps.
Open Scope R_scope.

(** ** Specification *)

(** the integral of [f] from [a] to infinity *)
Definition tail_integral (f : R -> R) (a I : R) : Prop :=
  exists F, (forall b, a <= b -> is_RInt f a b (F b)) /\ is_lim F p_infty I.
(** the Mie potential itself (the prefactor makes the well depth [eps], see C32) *)
Definition mie_u (lr la eps sigma r : R) : R :=
  lr / (lr - la) * Rpower (lr / la) (la / (lr - la)) * eps * (Rpower (sigma / r) lr - Rpower (sigma / r) la).
(** the square well outside its core *)
Definition well_u (lambda eps sigma r : R) : R := if Rlt_dec r (lambda * sigma) then - eps else 0.

(** ** Tail integrals *)
Lemma tail_ext f g a I : (forall r, a < r -> f r = g r) -> tail_integral f a I -> tail_integral g a I.
Proof.
  intros E [F [H L]]. exists F. split; [|exact L]. intros b Hb. apply (is_RInt_ext f); [|apply H; exact Hb].
  intros x [Hx _]. rewrite Rmin_left in Hx by exact Hb. apply E. exact Hx.
Qed.
Lemma tail_scal c f a I : tail_integral f a I -> tail_integral (fun r => c * f r) a (c * I).
Proof.
  intros [F [H L]]. exists (fun b => c * F b). split.
  - intros b Hb. exact (is_RInt_scal (V := R_NormedModule) f a b c _ (H b Hb)).
  - exact (is_lim_scal_l F c p_infty I L).
Qed.
Lemma tail_plus f g a I J : tail_integral f a I -> tail_integral g a J -> tail_integral (fun r => f r + g r) a (I + J).
Proof.
  intros [F [H L]] [G [H' L']]. exists (fun b => F b + G b). split.
  - intros b Hb. exact (is_RInt_plus (V := R_NormedModule) f g a b _ _ (H b Hb) (H' b Hb)).
  - exact (is_lim_plus' F G p_infty I J L L').
Qed.
Lemma tail_eq f a I J : I = J -> tail_integral f a I -> tail_integral f a J.
Proof. intros ->. exact (fun H => H). Qed.

Lemma power_vanishes sigma p : 0 < sigma -> 0 < p -> is_lim (fun b => Rpower (sigma / b) p) p_infty 0.
Proof.
  intros Hs Hp. apply is_lim_spec. intros eps. unfold Rbar_locally.
  exists (Rmax sigma (sigma / Rpower eps (/ p))). intros b Hb.
  assert (B1 : sigma < b) by (eapply Rle_lt_trans; [apply Rmax_l|exact Hb]).
  assert (B2 : sigma / Rpower eps (/ p) < b) by (eapply Rle_lt_trans; [apply Rmax_r|exact Hb]).
  assert (PE : 0 < Rpower eps (/ p)) by apply exp_pos.
  assert (Q : sigma / b < Rpower eps (/ p)).
  { apply Rmult_lt_reg_r with b; [lra|]. unfold Rdiv. rewrite Rmult_assoc, Rinv_l, Rmult_1_r by lra.
    apply Rmult_lt_compat_r with (r := Rpower eps (/ p)) in B2; [|exact PE]. unfold Rdiv in B2.
    rewrite Rmult_assoc, Rinv_l in B2 by lra. lra. }
  assert (P0 : 0 < sigma / b) by (apply Rdiv_lt_0_compat; lra).
  assert (L : Rpower (sigma / b) p < Rpower (Rpower eps (/ p)) p).
  { unfold Rpower at 1 2. apply exp_increasing. apply Rmult_lt_compat_l; [exact Hp|]. apply ln_increasing; assumption. }
  rewrite Rpower_mult, Rinv_l, Rpower_1 in L by (try apply cond_pos; lra).
  rewrite Rminus_0_r, Rabs_right; [exact L|]. left. apply exp_pos.
Qed.
Lemma power_tail sigma l : 0 < sigma -> 3 < l -> tail_integral (fun r => Rpower (sigma / r) l * r ^ 2) sigma (sigma ^ 3 / (l - 3)).
Proof.
  intros Hs Hl. set (G := fun r => - (sigma ^ 3 / (l - 3)) * Rpower (sigma / r) (l - 3)).
  exists (fun b => G b - G sigma). split.
  - intros b Hb. assert (POS : forall x, Rmin sigma b <= x <= Rmax sigma b -> 0 < x).
    { intros x [H _]. eapply Rlt_le_trans; [|exact H]. apply Rmin_glb_lt; lra. }
    apply (is_RInt_derive G (fun r => Rpower (sigma / r) l * r ^ 2)).
    + intros x Hx. specialize (POS x Hx). unfold G, Rpower.
      assert (D0 : 0 < sigma / x) by (apply Rdiv_lt_0_compat; lra).
      auto_derive; [split; [lra|]; split; [exact D0|exact I]|].
      replace (exp (l * ln (sigma / x))) with (exp ((l - 3) * ln (sigma / x)) * (sigma / x) ^ 3).
      * unfold Rdiv. field. split; lra.
      * replace (l * ln (sigma / x)) with ((l - 3) * ln (sigma / x) + 3 * ln (sigma / x)) by ring. rewrite exp_plus. f_equal.
        change (exp (3 * ln (sigma / x))) with (Rpower (sigma / x) 3). replace 3 with (INR 3) by (cbn; ring). rewrite Rpower_pow by exact D0. reflexivity.
    + intros x Hx. specialize (POS x Hx). apply (ex_derive_continuous (fun r => Rpower (sigma / r) l * r ^ 2)). unfold Rpower.
      assert (D0 : 0 < sigma / x) by (apply Rdiv_lt_0_compat; lra). auto_derive. split; [lra|]. split; [exact D0|exact I].
  - replace (sigma ^ 3 / (l - 3)) with (- (sigma ^ 3 / (l - 3)) * 0 - G sigma).
    + apply (is_lim_minus' G (fun _ => G sigma)); [|apply is_lim_const].
      exact (is_lim_scal_l (fun b => Rpower (sigma / b) (l - 3)) (- (sigma ^ 3 / (l - 3))) p_infty 0 (power_vanishes sigma (l - 3) Hs ltac:(lra))).
    + unfold G. replace (sigma / sigma) with 1 by (field; lra). replace (Rpower 1 (l - 3)) with 1; [field; lra|].
      unfold Rpower. rewrite ln_1, Rmult_0_r, exp_0. reflexivity.
Qed.

Lemma mie_u_tail lr la eps sigma : 0 < sigma -> 3 < la -> la < lr ->
  tail_integral (fun r => mie_u lr la eps sigma r * r ^ 2) sigma
    (- eps * sigma ^ 3 * (prefactor_value lr la * (1 / (la - 3) - 1 / (lr - 3)))).
Proof.
  intros Hs Ha Hr. apply (tail_ext (fun r => prefactor_value lr la * eps * (Rpower (sigma / r) lr * r ^ 2) + - (prefactor_value lr la * eps) * (Rpower (sigma / r) la * r ^ 2))).
  - intros r _. unfold mie_u, prefactor_value. ring.
  - apply (tail_eq _ _ (prefactor_value lr la * eps * (sigma ^ 3 / (lr - 3)) + - (prefactor_value lr la * eps) * (sigma ^ 3 / (la - 3)))).
    + generalize (prefactor_value lr la). intros c. field. split; lra.
    + apply tail_plus; apply tail_scal; apply power_tail; lra.
Qed.
Lemma mie_u2_tail lr la eps sigma : 0 < sigma -> 3 < la -> la < lr ->
  tail_integral (fun r => mie_u lr la eps sigma r ^ 2 * r ^ 2) sigma
    (eps ^ 2 * sigma ^ 3 * (prefactor_value lr la ^ 2 * (1 / (2 * la - 3) - 2 / (la + lr - 3) + 1 / (2 * lr - 3)))).
Proof.
  intros Hs Ha Hr. set (c := prefactor_value lr la ^ 2 * eps ^ 2).
  apply (tail_ext (fun r => c * (Rpower (sigma / r) (2 * lr) * r ^ 2) + (- 2 * c * (Rpower (sigma / r) (la + lr) * r ^ 2) + c * (Rpower (sigma / r) (2 * la) * r ^ 2)))).
  - intros r _. unfold mie_u, c, prefactor_value.
    replace (2 * lr) with (lr + lr) by ring. replace (2 * la) with (la + la) by ring. rewrite !Rpower_plus. ring.
  - apply (tail_eq _ _ (c * (sigma ^ 3 / (2 * lr - 3)) + (- 2 * c * (sigma ^ 3 / (la + lr - 3)) + c * (sigma ^ 3 / (2 * la - 3))))).
    + unfold c. generalize (prefactor_value lr la). intros q. field. repeat split; lra.
    + apply tail_plus; [|apply tail_plus]; apply tail_scal; apply power_tail; lra.
Qed.

Lemma well_tail (h : R -> R) lambda eps sigma : h 0 = 0 -> 0 < sigma -> 1 <= lambda ->
  tail_integral (fun r => h (well_u lambda eps sigma r) * r ^ 2) sigma (h (- eps) * (sigma ^ 3 * (lambda ^ 3 - 1) / 3)).
Proof.
  intros H0 Hs Hl. set (f := fun r => h (well_u lambda eps sigma r) * r ^ 2). set (w := lambda * sigma).
  assert (SW : sigma <= w) by (unfold w; nra).
  assert (A : forall b, sigma <= b -> b <= w -> is_RInt f sigma b (h (- eps) * ((b ^ 3 - sigma ^ 3) / 3))).
  { intros b B1 B2. apply (is_RInt_ext (fun r => h (- eps) * r ^ 2)).
    - intros x [_ Hx]. rewrite Rmax_right in Hx by exact B1. unfold f, well_u. fold w. destruct (Rlt_dec x w); [reflexivity|lra].
    - apply (is_RInt_scal (V := R_NormedModule) (fun r => r ^ 2) sigma b (h (- eps))).
      refine (eq_rect _ (fun v => is_RInt (fun r : R => r ^ 2) sigma b v) _ _ (_ : minus (b ^ 3 / 3) (sigma ^ 3 / 3) = _)); [|unfold minus, plus, opp; cbn; field].
      apply (is_RInt_derive (fun r => r ^ 3 / 3) (fun r => r ^ 2)).
      + intros x _. auto_derive; [exact I|field].
      + intros x _. apply (ex_derive_continuous (fun r => r ^ 2)). auto_derive. exact I. }
  exists (fun b => h (- eps) * ((Rmin b w ^ 3 - sigma ^ 3) / 3)). split.
  - intros b Hb. destruct (Rle_dec b w) as [L|L].
    + rewrite Rmin_left by exact L. apply A; assumption.
    + rewrite Rmin_right by lra.
      refine (eq_rect _ (fun v => is_RInt f sigma b v) (is_RInt_Chasles (V := R_NormedModule) f sigma w b _ 0 (A w SW (Rle_refl w)) _) _ _).
      * apply (is_RInt_ext (fun _ => 0)).
        -- intros x [Hx _]. rewrite Rmin_left in Hx by lra. unfold f, well_u. fold w. destruct (Rlt_dec x w); [lra|]. rewrite H0. symmetry. apply Rmult_0_l.
        -- refine (eq_rect _ (fun v => is_RInt (fun _ : R => 0) w b v) (is_RInt_const (V := R_NormedModule) w b 0) _ _).
           unfold scal; cbn; unfold mult; cbn; ring.
      * unfold plus; cbn. ring.
  - apply (is_lim_ext_loc (fun _ => h (- eps) * ((w ^ 3 - sigma ^ 3) / 3))).
    + exists w. intros b Hb. rewrite Rmin_right by lra. reflexivity.
    + replace (h (- eps) * (sigma ^ 3 * (lambda ^ 3 - 1) / 3)) with (h (- eps) * ((w ^ 3 - sigma ^ 3) / 3)) by (unfold w; field).
      apply is_lim_const.
Qed.

Lemma tail_unique f a I J : tail_integral f a I -> tail_integral f a J -> I = J.
Proof.
  intros [F [H L]] [G [H' L']].
  assert (L2 : is_lim F p_infty J).
  { apply (is_lim_ext_loc G); [|exact L']. exists a. intros b Hb.
    transitivity (RInt (V := R_CompleteNormedModule) f a b); [symmetry|]; apply is_RInt_unique; [apply H'|apply H]; lra. }
  apply is_lim_unique in L. apply is_lim_unique in L2. rewrite L in L2. congruence.
Qed.

(** * C92 *)

(** The constant alpha of a pair is minus the integral of its potential beyond sigma, in
    units of the well depth and of sigma cubed. *)
Theorem C92_alpha : forall mapsci rules beads lib cl n nu rings s k l,
  mie_init mapsci rules beads lib cl n nu rings = Ok s -> (k < length beads)%nat -> (l < length beads)%nat ->
  let sigma := mi_mats s "sigma"%string k l in let eps := mi_mats s "epsilon"%string k l in
  let lr := mi_mats s "lambdar"%string k l in let la := mi_mats s "lambdaa"%string k l in
  0 < sigma -> 3 < la -> la < lr ->
  tail_integral (fun r => mie_u lr la eps sigma r * r ^ 2) sigma (- eps * sigma ^ 3 * mi_alpha s k l).
Proof.
  intros mapsci rules beads lib cl n nu rings s k l I Hk Hl sigma eps lr la Hs Ha Hr.
  assert (E : mi_alpha s k l = prefactor_value lr la * (1 / (la - 3) - 1 / (lr - 3))).
  { unfold mie_init in I. destruct (snd (check_bead_parameters R lib mie_defaults)); cbn [rbind] in I; [|discriminate].
    do 2 (match type of I with rbind ?Y _ = _ => destruct Y; cbn [rbind] in I; [|discriminate] end).
    destruct (mie_matrices mapsci rules beads a cl) as [mats|]; cbn [rbind] in I; [|discriminate].
    unfold prefactor_matrix in I. destruct (existsb _ _); cbn [rbind] in I; [discriminate|]. injection I as <-. reflexivity. }
  rewrite E. apply mie_u_tail; assumption.
Qed.
Print Assumptions C92_alpha.
(** Lennard-Jones: alpha is 8/9 *)
Example C92_lennard_jones : forall e sg, exists s,
  mie_init None mie_default_rules ["A"%string] (mie_bead e 12 6 sg) [] 1 (fun _ _ => 2) (fun _ => 0) = Ok s /\
  mi_mats s "lambdar"%string 0%nat 0%nat = 12 /\ mi_mats s "lambdaa"%string 0%nat 0%nat = 6 /\
  mi_mats s "sigma"%string 0%nat 0%nat = sg /\ mi_alpha s 0%nat 0%nat = 8 / 9.
Proof.
  intros e sg. assert (Z12 : (12 : R) <> 0) by lra.
  destruct (mie_dimer_matrices e 12 6 sg) as [m [Em [M1 [M2 [M3 M4]]]]].
  destruct (mie_one_prefactor m) as [c Ec]; [rewrite M1; exact Z12|].
  assert (Ec' : c 0%nat 0%nat = prefactor_value 12 6).
  { unfold prefactor_matrix in Ec. destruct (existsb _ _); [discriminate|]. injection Ec as <-. rewrite M1, M2. reflexivity. }
  unfold mie_init. change (snd (check_bead_parameters R (mie_bead e 12 6 sg) mie_defaults)) with (Ok (mie_full e 12 6 sg)). cbn [rbind].
  change (extract_property R "Vks" (mie_full e 12 6 sg) ["A"%string] (Some 1)) with (Ok [1]).
  change (extract_property R "Sk" (mie_full e 12 6 sg) ["A"%string] (Some 1)) with (Ok [1]). cbn [rbind].
  rewrite Em. cbn [rbind length]. rewrite Ec. cbn [rbind]. eexists. split; [reflexivity|]. cbn [mi_mats mi_alpha].
  rewrite M1, M2, M4. repeat split; try reflexivity. unfold mie_alpha. rewrite M1, M2, Ec'.
  pose proof C32_lennard_jones as LJ. rewrite (prefactor_ok 12 6 Z12) in LJ. injection LJ as ->. lra.
Qed.

(** * C93 *)

(** ** Limits of quotients *)
Lemma to0_quot (g : R -> R) d : is_derive g 0 d -> g 0 = 0 -> to0 (fun x => g x / x) d.
Proof.
  intros D G0. apply is_derive_Reals in D. unfold to0. apply filterlim_locally. intros eps.
  destruct (D eps (cond_pos eps)) as [delta Hd]. exists delta. intros y By Hy.
  unfold ball in By |- *; cbn in By |- *. unfold AbsRing_ball, abs, minus, plus, opp in *; cbn in *.
  rewrite Ropp_0, Rplus_0_r in By. specialize (Hd y ltac:(lra) By). rewrite Rplus_0_l, G0, Rminus_0_r in Hd. exact Hd.
Qed.
Lemma to0_near f g l r : 0 < r -> (forall x, 0 < x < r -> f x = g x) -> to0 f l -> to0 g l.
Proof.
  intros Hr E L. refine (filterlim_ext_loc f g _ L). exists (mkposreal r Hr). intros y By Hy. apply E.
  unfold ball in By; cbn in By. unfold AbsRing_ball, abs, minus, plus, opp in By; cbn in By. apply Rabs_def2 in By. lra.
Qed.

(** ** Hard spheres *)
Lemma hard_virial (a0 a1 a2 a3 : R) : 0 < a3 ->
  to0 (fun rho => 6 / (PI * rho * molecule_per_nm3) *
       (ln (1 - rho * a3) * ((rho * a2) ^ 3 / (rho * a3) ^ 2 - rho * a0) +
        3 * (rho * a2) / (1 - rho * a3) * (rho * a1) + (rho * a2) ^ 3 / (rho * a3 * (1 - rho * a3) ^ 2)) / rho)
      (6 / (PI * molecule_per_nm3) * (a0 * a3 + 3 * a1 * a2)).
Proof.
  intros H3. pose proof PI_RGT_0 as PP. assert (M : 0 < molecule_per_nm3) by (unfold molecule_per_nm3; lra).
  set (h := fun rho => 6 / (PI * molecule_per_nm3) *
     (ln (1 - rho * a3) * (a2 ^ 3 / a3 ^ 2 - a0) + rho * (3 * a2 * a1 / (1 - rho * a3) + a2 ^ 3 / (a3 * (1 - rho * a3) ^ 2)))).
  assert (P : 0 < / a3) by (apply Rinv_0_lt_compat; exact H3).
  apply (to0_near (fun x => h x / x) _ _ (/ a3) P).
  - intros y [Y0 Y1]. assert (y * a3 < 1). { apply Rmult_lt_reg_r with (/ a3); [exact P|]. rewrite Rmult_assoc, Rinv_r by lra. lra. }
    unfold h. field. repeat split; lra.
  - apply to0_quot; [|unfold h; rewrite !Rmult_0_l, Rminus_0_r, ln_1; ring].
    unfold h. auto_derive.
    + rewrite !Rmult_0_l, Ropp_0, Rplus_0_r. repeat split; try lra; apply Rgt_not_eq; repeat (lra || apply Rmult_lt_0_compat).
    + rewrite !Rmult_0_l, Ropp_0, Rplus_0_r. field. repeat split; lra.
Qed.

(** ** The two variants *)
Lemma pair_moments m (x d : nat -> R) : 
  sumn m (fun k => sumn m (fun l => x k * x l * ((d k + d l) / 2) ^ 3))
  = 1 / 4 * (sumn m x * sumn m (fun k => x k * d k ^ 3) + 3 * (sumn m (fun k => x k * d k) * sumn m (fun k => x k * d k ^ 2))).
Proof.
  set (m0 := sumn m x). set (m1 := sumn m (fun k => x k * d k)). set (m2 := sumn m (fun k => x k * d k ^ 2)). set (m3 := sumn m (fun k => x k * d k ^ 3)).
  transitivity (sumn m (fun k => x k * d k ^ 3 * (m0 / 8) + x k * d k ^ 2 * (3 * m1 / 8) + x k * d k * (3 * m2 / 8) + x k * (m3 / 8))).
  - apply sumn_ext. intros k _. unfold m0, m1, m2, m3.
    transitivity (sumn m (fun l => x k * d k ^ 3 / 8 * x l + 3 * x k * d k ^ 2 / 8 * (x l * d l) + 3 * x k * d k / 8 * (x l * d l ^ 2) + x k / 8 * (x l * d l ^ 3))).
    + apply sumn_ext. intros l _. field.
    + rewrite !sumn_plus, !sumn_scal. field.
  - rewrite !sumn_plus, !sumn_scal_r. fold m0 m1 m2 m3. field.
Qed.
Lemma sqrt_frac (x : nat -> R) (X : nat -> nat -> R) k : (forall k l, X k l = x k * x l) -> (forall k, 0 <= x k) -> sqrt (X k k) = x k.
Proof. intros H P. rewrite H. apply sqrt_square. apply P. Qed.

Lemma scaled_quot K a b rho : 0 < rho -> a * rho = b -> K * a = K * b / rho.
Proof. intros H <-. field. lra. Qed.

(** C93, square well.  [x] are the segment fractions, [C] the segments per molecule; the
    limits are the second virial coefficient of hard spheres and the integrals of the
    potential and of its square beyond contact. *)
Theorem C93_square_well : forall mapsci rules beads lib cl n nu rings s xi T C X x U1 U2,
  sw_init mapsci rules beads lib cl n nu rings = Ok s -> composition s xi = Ok (C, X) ->
  (forall k l, X k l = x k * x l) -> (forall k, 0 <= x k) ->
  let m := length beads in
  let sigma := sw_mats s "sigma"%string in let eps := sw_mats s "epsilon"%string in let lambda := sw_mats s "lambda"%string in
  0 < C -> 0 < sumn m (fun k => x k * sigma k k ^ 3) ->
  (forall k l, (k < m)%nat -> (l < m)%nat -> 0 < sigma k l /\ 1 <= lambda k l) ->
  (forall k l, (k < m)%nat -> (l < m)%nat ->
     tail_integral (fun r => well_u (lambda k l) (eps k l) (sigma k l) r * r ^ 2) (sigma k l) (U1 k l) /\
     tail_integral (fun r => well_u (lambda k l) (eps k l) (sigma k l) r ^ 2 * r ^ 2) (sigma k l) (U2 k l)) ->
  let per_nm3 := 602214086 / 10 ^ 12 in
  to0 (fun rho => Ahard_sphere m (sw_mats s) C X rho / rho)
      (2 * PI * per_nm3 * C ^ 2 * sumn m (fun k => sumn m (fun l => x k * x l * (((sigma k k + sigma l l) / 2) ^ 3 / 3)))) /\
  to0 (fun rho => Afirst_order m (sw_mats s) (sw_alpha s) C X rho T / rho)
      (2 * PI * per_nm3 * C ^ 2 / T * sumn m (fun k => sumn m (fun l => x k * x l * U1 k l))) /\
  to0 (fun rho => Asecond_order m (sw_mats s) (sw_alpha s) C X rho T / rho)
      (- (PI * per_nm3 * C ^ 2 / T ^ 2) * sumn m (fun k => sumn m (fun l => x k * x l * U2 k l))).
Proof.
  intros mapsci rules beads lib cl n nu rings s xi T C X x U1 U2 I CO HX Hx m sigma eps lambda HC H3 Hg HU per_nm3.
  assert (AL : sw_alpha s = alpha_kl (sw_mats s)).
  { unfold sw_init in I. repeat match type of I with rbind ?Y _ = _ => destruct Y; cbn [rbind] in I; [|discriminate] end. injection I as <-. reflexivity. }
  assert (N : per_nm3 = molecule_per_nm3) by (unfold per_nm3, molecule_per_nm3; field). clearbody per_nm3. subst per_nm3.
  assert (MP : 0 < molecule_per_nm3) by (unfold molecule_per_nm3; lra). pose proof PI_RGT_0 as PP.
  assert (MOM : forall p, mom m (sw_mats s) C X p = molecule_per_nm3 * C * (sumn m (fun k => x k * sigma k k ^ p) * (PI / 6))).
  { intros p. unfold mom. f_equal. f_equal. apply sumn_ext. intros k _. rewrite (sqrt_frac x X k HX Hx). reflexivity. }
  split; [|split].
  - set (a := mom m (sw_mats s) C X) in *.
    assert (A3 : 0 < a 3%nat). { rewrite MOM. repeat (lra || assumption || apply Rmult_lt_0_compat). }
    apply (to0_ext (fun rho => 6 / (PI * rho * molecule_per_nm3) *
       (ln (1 - rho * a 3%nat) * ((rho * a 2%nat) ^ 3 / (rho * a 3%nat) ^ 2 - rho * a 0%nat) +
        3 * (rho * a 2%nat) / (1 - rho * a 3%nat) * (rho * a 1%nat) + (rho * a 2%nat) ^ 3 / (rho * a 3%nat * (1 - rho * a 3%nat) ^ 2)) / rho)).
    { intros rho _. unfold Ahard_sphere. rewrite !zeta_mom. reflexivity. }
    refine (to0_eq _ _ _ _ (hard_virial (a 0%nat) (a 1%nat) (a 2%nat) (a 3%nat) A3)).
    rewrite !MOM. transitivity (2 * PI * molecule_per_nm3 * C ^ 2 * (1 / 3 * sumn m (fun k => sumn m (fun l => x k * x l * ((sigma k k + sigma l l) / 2) ^ 3)))).
    + rewrite (pair_moments m x (fun k => sigma k k)).
      replace (sumn m (fun k => x k * sigma k k ^ 0)) with (sumn m x) by (apply sumn_ext; intros; cbn; ring).
      replace (sumn m (fun k => x k * sigma k k ^ 1)) with (sumn m (fun k => x k * sigma k k)) by (apply sumn_ext; intros; cbn; ring).
      field. lra.
    + f_equal. rewrite <- sumn_scal. apply sumn_ext. intros k _. rewrite <- sumn_scal. apply sumn_ext. intros l _. field.
  - apply (to0_ext (fun rho => - (C ^ 2 / T) * sumn m (fun k => sumn m (fun l => molecule_per_nm3 * (X k l * sw_alpha s k l) * g0HS (zeta_eff (lambda k l) (rho * mom m (sw_mats s) C X 3)))))).
    { intros rho Hp. unfold Afirst_order. rewrite zeta_mom. apply scaled_quot; [exact Hp|]. rewrite <- sumn_scal_r. apply sumn_ext. intros k _. rewrite <- sumn_scal_r. apply sumn_ext. intros l _.
      unfold lambda, lambda_kl. field. }
    apply (to0_eq _ (- (C ^ 2 / T) * sumn m (fun k => sumn m (fun l => molecule_per_nm3 * (X k l * sw_alpha s k l) * 1)))).
    + replace (2 * PI * molecule_per_nm3 * C ^ 2 / T * sumn m (fun k => sumn m (fun l => x k * x l * U1 k l)))
        with (- (C ^ 2 / T) * (- (2 * PI * molecule_per_nm3) * sumn m (fun k => sumn m (fun l => x k * x l * U1 k l)))) by (unfold Rdiv; ring).
      f_equal. rewrite <- sumn_scal. apply sumn_ext. intros k Hk. rewrite <- sumn_scal. apply sumn_ext. intros l Hl.
      destruct (Hg k l Hk Hl) as [G1 G2]. rewrite <- (tail_unique _ _ _ _ (well_tail (fun u => u) (lambda k l) (eps k l) (sigma k l) eq_refl G1 G2) (proj1 (HU k l Hk Hl))).
      rewrite AL, HX. unfold alpha_kl. fold sigma eps lambda. field.
    + apply to0_scal. apply to0_sumn. intros k _. apply to0_sumn. intros l _. apply to0_scal.
      apply (to0_eq _ (g0HS (zeta_eff (lambda k l) (0 * mom m (sw_mats s) C X 3)))); [rewrite zeta_eff_0; unfold g0HS; field|].
      apply (to0_smooth (fun rho => g0HS (zeta_eff (lambda k l) (rho * mom m (sw_mats s) C X 3)))). apply zeta_eff_smooth. exact g0HS_smooth.
  - set (h := fun k l rho => KHS (rho * mom m (sw_mats s) C X 3) *
       (g0HS (zeta_eff (lambda k l) (rho * mom m (sw_mats s) C X 3)) + rho * mom m (sw_mats s) C X 3 * dzeta_eff (lambda k l) (rho * mom m (sw_mats s) C X 3) * dg0HS (zeta_eff (lambda k l) (rho * mom m (sw_mats s) C X 3)))).
    apply (to0_ext (fun rho => - (C / T ^ 2) * sumn m (fun k => sumn m (fun l => C * molecule_per_nm3 / 2 * (eps k l * sw_alpha s k l * X k l) * h k l rho)))).
    { intros rho Hp. unfold Asecond_order. cbv zeta. rewrite zeta_mom. apply scaled_quot; [exact Hp|]. rewrite <- sumn_scal_r. apply sumn_ext. intros k _. rewrite <- sumn_scal_r. apply sumn_ext. intros l _.
      unfold h, dg0HS, lambda, lambda_kl, eps, epsilon_kl. unfold Rdiv. generalize (/ (1 - zeta_eff (sw_mats s "lambda"%string k l) (rho * mom m (sw_mats s) C X 3)) ^ 4). intros q. field. }
    apply (to0_eq _ (- (C / T ^ 2) * sumn m (fun k => sumn m (fun l => C * molecule_per_nm3 / 2 * (eps k l * sw_alpha s k l * X k l) * 1)))).
    + replace (- (PI * molecule_per_nm3 * C ^ 2 / T ^ 2) * sumn m (fun k => sumn m (fun l => x k * x l * U2 k l)))
        with (- (C / T ^ 2) * (PI * molecule_per_nm3 * C * sumn m (fun k => sumn m (fun l => x k * x l * U2 k l)))) by (unfold Rdiv; ring).
      f_equal. rewrite <- sumn_scal. apply sumn_ext. intros k Hk. rewrite <- sumn_scal. apply sumn_ext. intros l Hl.
      destruct (Hg k l Hk Hl) as [G1 G2]. rewrite <- (tail_unique _ _ _ _ (well_tail (fun u => u ^ 2) (lambda k l) (eps k l) (sigma k l) ltac:(cbn; ring) G1 G2) (proj2 (HU k l Hk Hl))).
      rewrite AL, HX. unfold alpha_kl. fold sigma eps lambda. field.
    + apply to0_scal. apply to0_sumn. intros k _. apply to0_sumn. intros l _. apply to0_scal.
      apply (to0_eq _ (h k l 0)); [unfold h; rewrite zeta_eff_0, Rmult_0_l; unfold KHS, g0HS; field|]. apply to0_smooth. unfold h.
      apply (ex_derive_mult (fun rho => KHS (rho * mom m (sw_mats s) C X 3))); [apply KHS_smooth|].
      apply (ex_derive_plus (fun rho => g0HS (zeta_eff (lambda k l) (rho * mom m (sw_mats s) C X 3)))); [apply zeta_eff_smooth; exact g0HS_smooth|].
      apply (ex_derive_mult (fun rho => rho * mom m (sw_mats s) C X 3 * dzeta_eff (lambda k l) (rho * mom m (sw_mats s) C X 3))).
      * unfold dzeta_eff. destruct (Req_EM_T (lambda k l) 0); auto_derive; exact Logic.I.
      * apply zeta_eff_smooth. unfold dg0HS. auto_derive. rewrite ?Ropp_0, ?Rplus_0_r. lra.
Qed.
Print Assumptions C93_square_well.

(** C93, Mie.  The hard-sphere diameters are those of the temperature, the integrals start
    at sigma.  For n = 1 the code leaves out a term of the hard-sphere energy that is zero
    for segments of one size (see C29). *)
Theorem C93_mie : forall mapsci rules beads lib cl n nu rings s xi T t C X x U1 U2,
  mie_init mapsci rules beads lib cl n nu rings = Ok s -> mie_tables_at s T = Ok t -> mie_composition s xi = Ok (C, X) ->
  (forall k l, X k l = x k * x l) -> (forall k, 0 <= x k) ->
  let m := length beads in let d k := t_dkl t k k in
  let sigma := mi_mats s "sigma"%string in let eps := mi_mats s "epsilon"%string in
  let lr := mi_mats s "lambdar"%string in let la := mi_mats s "lambdaa"%string in
  0 < C -> 0 < sumn m (fun k => x k * d k ^ 3) ->
  (forall k l, (k < m)%nat -> (l < m)%nat -> 0 < sigma k l /\ 0 < t_dkl t k l /\ 3 < la k l < lr k l) ->
  (forall k l, (k < m)%nat -> (l < m)%nat ->
     tail_integral (fun r => mie_u (lr k l) (la k l) (eps k l) (sigma k l) r * r ^ 2) (sigma k l) (U1 k l) /\
     tail_integral (fun r => mie_u (lr k l) (la k l) (eps k l) (sigma k l) r ^ 2 * r ^ 2) (sigma k l) (U2 k l)) ->
  let per_nm3 := 602214086 / 10 ^ 12 in
  (n <> 1%nat -> to0 (fun rho => mie_hard_sphere n m t C X rho / rho)
      (2 * PI * per_nm3 * C ^ 2 * sumn m (fun k => sumn m (fun l => x k * x l * (((d k + d l) / 2) ^ 3 / 3))))) /\
  to0 (fun rho => mie_first_order m (mi_mats s) t C X rho T / rho)
      (2 * PI * per_nm3 * C ^ 2 / T * sumn m (fun k => sumn m (fun l => x k * x l * U1 k l))) /\
  to0 (fun rho => mie_second_order m (mi_mats s) (mi_Ckl s) (mi_alpha s) t C X rho T / rho)
      (- (PI * per_nm3 * C ^ 2 / T ^ 2) * sumn m (fun k => sumn m (fun l => x k * x l * U2 k l))).
Proof.
  intros mapsci rules beads lib cl n nu rings s xi T t C X x U1 U2 I Ht CO HX Hx m d sigma eps lr la HC H3 Hg HU per_nm3.
  assert (CK : forall k l, mi_Ckl s k l = prefactor_value (lr k l) (la k l)).
  { unfold mie_init in I. destruct (snd (check_bead_parameters R lib mie_defaults)) as [lib'|]; cbn [rbind] in I; [|discriminate].
    do 2 (match type of I with rbind ?Y _ = _ => destruct Y; cbn [rbind] in I; [|discriminate] end).
    destruct (mie_matrices mapsci rules beads lib' cl) as [mats|]; cbn [rbind] in I; [|discriminate].
    unfold prefactor_matrix in I. destruct (existsb _ _); cbn [rbind] in I; [discriminate|]. injection I as <-. reflexivity. }
  assert (X0 : forall k l, t_x0kl t k l = sigma k l / t_dkl t k l).
  { unfold mie_tables_at in Ht. destruct (mapM _ _) as [dkk|]; cbn [rbind] in Ht; [|discriminate]. injection Ht as <-. reflexivity. }
  assert (N : per_nm3 = molecule_per_nm3) by (unfold per_nm3, molecule_per_nm3; field). clearbody per_nm3. subst per_nm3.
  assert (MP : 0 < molecule_per_nm3) by (unfold molecule_per_nm3; lra). pose proof PI_RGT_0 as PP.
  set (P := px m t C X). set (Q := ps m (mi_mats s) C X).
  (* the kernels at zero density *)
  assert (K0 : forall k l p, (k < m)%nat -> (l < m)%nat -> 3 < p ->
     Rpower (t_x0kl t k l) p * S_of (t_dkl t k l) (eps k l) (t_x0kl t k l) p 0 = - 2 * PI * eps k l * molecule_per_nm3 ^ 2 * sigma k l ^ 3 / (p - 3)).
  { intros k l p Hk Hl Hp. destruct (Hg k l Hk Hl) as [G1 [G2 G3]].
    assert (XP : 0 < t_x0kl t k l) by (rewrite X0; apply Rdiv_lt_0_compat; assumption).
    rewrite S_contact by (try lra; exact XP).
    replace (Rpower (t_x0kl t k l) 3) with (t_x0kl t k l ^ 3) by (rewrite <- Rpower_pow by exact XP; f_equal; cbn; ring).
    rewrite X0. field. split; lra. }
  split; [|split].
  - intros Hn.
    assert (MOM : forall p, mmom m t C X p = molecule_per_nm3 * C * (sumn m (fun k => x k * d k ^ p) * (PI / 6))).
    { intros p. unfold mmom. f_equal. f_equal. apply sumn_ext. intros k _. rewrite (sqrt_frac x X k HX Hx). reflexivity. }
    set (a := mmom m t C X) in *.
    assert (A3 : 0 < a 3%nat). { rewrite MOM. repeat (lra || assumption || apply Rmult_lt_0_compat). }
    apply (to0_ext (fun rho => 6 / (PI * rho * molecule_per_nm3) *
       (ln (1 - rho * a 3%nat) * ((rho * a 2%nat) ^ 3 / (rho * a 3%nat) ^ 2 - rho * a 0%nat) +
        3 * (rho * a 2%nat) / (1 - rho * a 3%nat) * (rho * a 1%nat) + (rho * a 2%nat) ^ 3 / (rho * a 3%nat * (1 - rho * a 3%nat) ^ 2)) / rho)).
    { intros rho _. unfold mie_hard_sphere. rewrite !eta_mmom. apply Nat.eqb_neq in Hn. rewrite Hn. reflexivity. }
    refine (to0_eq _ _ _ _ (hard_virial (a 0%nat) (a 1%nat) (a 2%nat) (a 3%nat) A3)).
    rewrite !MOM. transitivity (2 * PI * molecule_per_nm3 * C ^ 2 * (1 / 3 * sumn m (fun k => sumn m (fun l => x k * x l * ((d k + d l) / 2) ^ 3)))).
    + rewrite (pair_moments m x d).
      replace (sumn m (fun k => x k * d k ^ 0)) with (sumn m x) by (apply sumn_ext; intros; cbn; ring).
      replace (sumn m (fun k => x k * d k ^ 1)) with (sumn m (fun k => x k * d k)) by (apply sumn_ext; intros; cbn; ring).
      field. lra.
    + f_equal. rewrite <- sumn_scal. apply sumn_ext. intros k _. rewrite <- sumn_scal. apply sumn_ext. intros l _. field.
  - set (h := fun k l rho => prefactor_value (lr k l) (la k l) / molecule_per_nm3 *
        (Rpower (t_x0kl t k l) (la k l) * S_of (t_dkl t k l) (eps k l) (t_x0kl t k l) (la k l) (rho * P)
         - Rpower (t_x0kl t k l) (lr k l) * S_of (t_dkl t k l) (eps k l) (t_x0kl t k l) (lr k l) (rho * P))).
    apply (to0_ext (fun rho => C / T * sumn m (fun k => sumn m (fun l => C * X k l * h k l rho)))).
    { intros rho Hp. unfold mie_first_order. apply scaled_quot; [exact Hp|]. rewrite <- sumn_scal_r. apply sumn_ext. intros k _. rewrite <- sumn_scal_r. apply sumn_ext. intros l _.
      unfold a1ii. rewrite zetax_px. fold P. rewrite !a1s_A, !Bkl_B. unfold h, S_of, m_la, m_lr, m_eps. fold la lr eps. unfold Rdiv. ring. }
    apply (to0_eq _ (C / T * sumn m (fun k => sumn m (fun l => C * X k l * (2 * PI * molecule_per_nm3 * U1 k l))))).
    + replace (2 * PI * molecule_per_nm3 * C ^ 2 / T * sumn m (fun k => sumn m (fun l => x k * x l * U1 k l)))
        with (C / T * (2 * PI * molecule_per_nm3 * C * sumn m (fun k => sumn m (fun l => x k * x l * U1 k l)))) by (unfold Rdiv; ring).
      f_equal. rewrite <- sumn_scal. apply sumn_ext. intros k Hk. rewrite <- sumn_scal. apply sumn_ext. intros l Hl. rewrite HX. ring.
    + apply to0_scal. apply to0_sumn. intros k Hk. apply to0_sumn. intros l Hl. apply to0_scal.
      destruct (Hg k l Hk Hl) as [G1 [G2 [G3 G4]]].
      apply (to0_eq _ (h k l 0)).
      * unfold h. rewrite Rmult_0_l. rewrite !K0 by (assumption || lra).
        rewrite <- (tail_unique _ _ _ _ (mie_u_tail (lr k l) (la k l) (eps k l) (sigma k l) G1 G3 G4) (proj1 (HU k l Hk Hl))).
        generalize (prefactor_value (lr k l) (la k l)). intros c. field. repeat split; lra.
      * apply to0_smooth. unfold h. apply const_mult_smooth.
        apply (ex_derive_minus (fun rho => Rpower (t_x0kl t k l) (la k l) * S_of (t_dkl t k l) (eps k l) (t_x0kl t k l) (la k l) (rho * P)));
          apply const_mult_smooth; apply line_smooth; apply S_smooth.
  - set (br := fun k l rho => Rpower (t_x0kl t k l) (2 * la k l) * S_of (t_dkl t k l) (eps k l) (t_x0kl t k l) (2 * la k l) (rho * P)
        - 2 * Rpower (t_x0kl t k l) (la k l + lr k l) * S_of (t_dkl t k l) (eps k l) (t_x0kl t k l) (la k l + lr k l) (rho * P)
        + Rpower (t_x0kl t k l) (2 * lr k l) * S_of (t_dkl t k l) (eps k l) (t_x0kl t k l) (2 * lr k l) (rho * P)).
    set (ch := fun k l z => z * fm1 (mi_alpha s k l) + z ^ 5 * fm2 (mi_alpha s k l) + z ^ 8 * fm3 (mi_alpha s k l)).
    set (h := fun k l rho => 1 / 2 / molecule_per_nm3 * eps k l * mi_Ckl s k l ^ 2 * (KHS (rho * P) * (br k l rho * (1 + ch k l (rho * Q))))).
    apply (to0_ext (fun rho => C / T ^ 2 * sumn m (fun k => sumn m (fun l => C * X k l * h k l rho)))).
    { intros rho Hp. unfold mie_second_order. apply scaled_quot; [exact Hp|]. rewrite <- sumn_scal_r. apply sumn_ext. intros k _. rewrite <- sumn_scal_r. apply sumn_ext. intros l _.
      unfold a2kl, chi. rewrite zetax_px, zetas_ps. fold P Q. rewrite !a1s_A, !Bkl_B. unfold h, br, ch, S_of, m_la, m_lr, m_eps. fold la lr eps. unfold Rdiv. ring. }
    apply (to0_eq _ (C / T ^ 2 * sumn m (fun k => sumn m (fun l => C * X k l * (- PI * molecule_per_nm3 * U2 k l))))).
    + replace (- (PI * molecule_per_nm3 * C ^ 2 / T ^ 2) * sumn m (fun k => sumn m (fun l => x k * x l * U2 k l)))
        with (C / T ^ 2 * (- PI * molecule_per_nm3 * C * sumn m (fun k => sumn m (fun l => x k * x l * U2 k l)))) by (unfold Rdiv; ring).
      f_equal. rewrite <- sumn_scal. apply sumn_ext. intros k Hk. rewrite <- sumn_scal. apply sumn_ext. intros l Hl. rewrite HX. ring.
    + apply to0_scal. apply to0_sumn. intros k Hk. apply to0_sumn. intros l Hl. apply to0_scal.
      destruct (Hg k l Hk Hl) as [G1 [G2 [G3 G4]]].
      apply (to0_eq _ (h k l 0)).
      * unfold h, br, ch. rewrite !Rmult_0_l, (Rmult_assoc 2). rewrite !K0 by (assumption || lra). rewrite CK.
        rewrite <- (tail_unique _ _ _ _ (mie_u2_tail (lr k l) (la k l) (eps k l) (sigma k l) G1 G3 G4) (proj2 (HU k l Hk Hl))).
        replace (KHS 0) with 1 by (unfold KHS; field).
        generalize (prefactor_value (lr k l) (la k l)), (fm1 (mi_alpha s k l)), (fm2 (mi_alpha s k l)), (fm3 (mi_alpha s k l)). intros c f1 f2 f3. field. repeat split; lra.
      * apply to0_smooth. unfold h. apply const_mult_smooth.
        apply (ex_derive_mult (fun rho => KHS (rho * P))); [apply KHS_smooth|].
        apply (ex_derive_mult (br k l)).
        -- unfold br. apply (ex_derive_plus (fun rho => Rpower (t_x0kl t k l) (2 * la k l) * S_of (t_dkl t k l) (eps k l) (t_x0kl t k l) (2 * la k l) (rho * P)
              - 2 * Rpower (t_x0kl t k l) (la k l + lr k l) * S_of (t_dkl t k l) (eps k l) (t_x0kl t k l) (la k l + lr k l) (rho * P)));
             [apply (ex_derive_minus (fun rho => Rpower (t_x0kl t k l) (2 * la k l) * S_of (t_dkl t k l) (eps k l) (t_x0kl t k l) (2 * la k l) (rho * P)))|];
             apply const_mult_smooth; apply line_smooth; apply S_smooth.
        -- unfold ch. auto_derive. exact Logic.I.
Qed.
Print Assumptions C93_mie.

(** a dimer of square-well beads, and one of Lennard-Jones beads *)
Lemma dimer_fractions : Cmol2seg 1 1 (arr [1]) (fun _ _ => 2) (arr [1]) (arr [1]) = 2 /\
  xsk 1 1 (arr [1]) (fun _ _ => 2) (arr [1]) (arr [1]) 0 = 1 /\ forall k, 0 <= xsk 1 1 (arr [1]) (fun _ _ => 2) (arr [1]) (arr [1]) k.
Proof.
  assert (E : Cmol2seg 1 1 (arr [1]) (fun _ _ => 2) (arr [1]) (arr [1]) = 2) by (unfold Cmol2seg, arr; cbn [sumn nth]; ring).
  split; [exact E|]. split; [unfold xsk; rewrite E; unfold arr; cbn [sumn nth]; field|].
  intros k. unfold xsk. rewrite E. unfold arr. destruct k as [|[|k]]; cbn [sumn nth]; lra.
Qed.
Example C93_square_well_dimer : forall e l sg T, 0 < sg -> 1 <= l -> exists s C X,
  sw_init None sw_default_rules ["A"%string] (one_bead e l sg) [] 1 (fun _ _ => 2) (fun _ => 0) = Ok s /\ composition s [1] = Ok (C, X) /\
  to0 (fun rho => Afirst_order 1 (sw_mats s) (sw_alpha s) C X rho T / rho)
      (2 * PI * (602214086 / 10 ^ 12) * 2 ^ 2 / T * (- e * (sg ^ 3 * (l ^ 3 - 1) / 3))).
Proof.
  intros e l sg T Hs Hl. destruct dimer_fractions as [EC [EX NX]].
  assert (D : exists s, sw_init None sw_default_rules ["A"%string] (one_bead e l sg) [] 1 (fun _ _ => 2) (fun _ => 0) = Ok s /\
    composition s [1] = Ok (Cmol2seg 1 1 (arr [1]) (fun _ _ => 2) (arr [1]) (arr [1]), xskl 1 1 (arr [1]) (fun _ _ => 2) (arr [1]) (arr [1])) /\
    sw_mats s "sigma"%string 0%nat 0%nat = sg /\ sw_mats s "epsilon"%string 0%nat 0%nat = e /\ sw_mats s "lambda"%string 0%nat 0%nat = l)
    by (eexists; repeat split; reflexivity).
  destruct D as [s [I [CO [S1 [S2 S3]]]]]. do 3 eexists. split; [exact I|]. split; [exact CO|].
  pose proof (C93_square_well None sw_default_rules ["A"%string] _ _ _ _ _ s [1] T _ _ (xsk 1 1 (arr [1]) (fun _ _ => 2) (arr [1]) (arr [1]))
    (fun _ _ => - e * (sg ^ 3 * (l ^ 3 - 1) / 3)) (fun _ _ => (- e) ^ 2 * (sg ^ 3 * (l ^ 3 - 1) / 3)) I CO (fun _ _ => eq_refl) NX) as V.
  cbv zeta in V. cbn [length sumn] in V. rewrite !EX, !EC, !S1 in V. rewrite EC.
  assert (P3 : 0 < sg ^ 3) by (apply pow_lt; exact Hs).
  refine (to0_eq _ _ _ _ (proj1 (proj2 (V _ _ _ _)))).
  - ring.
  - lra.
  - lra.
  - intros [|k] [|j] Hk Hj; try lia. rewrite S1, S3. split; assumption.
  - intros [|k] [|j] Hk Hj; try lia. rewrite S1, S2, S3. 
    split; [exact (well_tail (fun u => u) l e sg eq_refl Hs Hl)|exact (well_tail (fun u => u ^ 2) l e sg (pow_i 2 ltac:(lia)) Hs Hl)].
Qed.
Example C93_mie_dimer : forall e sg T, 0 < e -> 0 < sg -> 0 < T -> exists s t C X,
  mie_init None mie_default_rules ["A"%string] (mie_bead e 12 6 sg) [] 1 (fun _ _ => 2) (fun _ => 0) = Ok s /\
  mie_tables_at s T = Ok t /\ mie_composition s [1] = Ok (C, X) /\
  to0 (fun rho => mie_first_order 1 (mi_mats s) t C X rho T / rho) (- (64 / 9) * PI * (602214086 / 10 ^ 12) * e * sg ^ 3 / T).
Proof.
  intros e sg T He Hs HT. destruct dimer_fractions as [EC [EX NX]].
  assert (Z12 : (12 : R) <> 0) by lra.
  destruct (mie_dimer_matrices e 12 6 sg) as [m [Em [M1 [M2 [M3 M4]]]]].
  destruct (mie_one_prefactor m) as [c Ec]; [rewrite M1; exact Z12|].
  assert (I : exists s, mie_init None mie_default_rules ["A"%string] (mie_bead e 12 6 sg) [] 1 (fun _ _ => 2) (fun _ => 0) = Ok s /\
     mi_mats s = m /\ mlib s = mie_full e 12 6 sg /\ mbeads s = ["A"%string] /\ mi_n s = 1%nat /\ mi_nu s = (fun _ _ => 2)).
  { unfold mie_init.
    change (snd (check_bead_parameters R (mie_bead e 12 6 sg) mie_defaults)) with (Ok (mie_full e 12 6 sg)). cbn [rbind].
    change (extract_property R "Vks" (mie_full e 12 6 sg) ["A"%string] (Some 1)) with (Ok [1]).
    change (extract_property R "Sk" (mie_full e 12 6 sg) ["A"%string] (Some 1)) with (Ok [1]). cbn [rbind].
    rewrite Em. cbn [rbind length]. rewrite Ec. cbn [rbind]. eexists. split; [reflexivity|]. repeat split. }
  destruct I as [s [I [MS [FL [FB [FN FU]]]]]].
  destruct (mie_one_tables s T e 12 6 sg Z12 FL FB) as [t [Et Dt]].
  assert (PF : 0 < prefactor_value 12 6).
  { unfold prefactor_value. apply Rmult_lt_0_compat; [lra|apply exp_pos]. }
  destruct (C71_diameter e sg T (prefactor_value 12 6) 12 6 He Hs HT PF ltac:(lra)) as [[Dpos _] _]. rewrite <- Dt in Dpos.
  assert (CO : mie_composition s [1] = Ok (Cmol2seg 1 1 (arr [1]) (fun _ _ => 2) (arr [1]) (arr [1]), xskl 1 1 (arr [1]) (fun _ _ => 2) (arr [1]) (arr [1]))).
  { unfold mie_composition, mm. rewrite FL, FB, FN, FU. reflexivity. }
  exists s, t. do 2 eexists. split; [exact I|]. split; [exact Et|]. split; [exact CO|].
  pose proof (C93_mie None mie_default_rules ["A"%string] _ _ _ _ _ s [1] T t _ _ (xsk 1 1 (arr [1]) (fun _ _ => 2) (arr [1]) (arr [1]))
    (fun _ _ => - e * sg ^ 3 * (prefactor_value 12 6 * (1 / (6 - 3) - 1 / (12 - 3))))
    (fun _ _ => e ^ 2 * sg ^ 3 * (prefactor_value 12 6 ^ 2 * (1 / (2 * 6 - 3) - 2 / (6 + 12 - 3) + 1 / (2 * 12 - 3)))) I Et CO (fun _ _ => eq_refl) NX) as V.
  cbv zeta in V. cbn [length sumn] in V. rewrite MS in V. rewrite !EX, !EC in V. rewrite MS, EC.
  assert (P3 : 0 < t_dkl t 0%nat 0%nat ^ 3) by (apply pow_lt; exact Dpos).
  refine (to0_eq _ _ _ _ (proj1 (proj2 (V _ _ _ _)))).
  5: { intros [|k] [|j] Hk Hj; try lia. rewrite M1, M2, M3, M4.
       split; [apply (mie_u_tail 12 6 e sg); lra|apply (mie_u2_tail 12 6 e sg); lra]. }
  - assert (LJ : prefactor_value 12 6 = 4) by (pose proof C32_lennard_jones as LJ; rewrite prefactor_ok in LJ by lra; congruence).
    rewrite LJ. field. lra.
  - lra.
  - lra.
  - intros [|k] [|j] Hk Hj; try lia. rewrite M1, M2, M4. repeat split; try lra; assumption.
Qed.


(** C94.  The hard-sphere distribution function that the Mie chain term uses is 1 at zero
    packing, and to first order in the packing fraction it grows with the number of spheres
    that fit in the lens common to the two excluded spheres (radius d, centres r apart): two
    caps, each the integral of the discs of area pi (d^2 - y^2) from r/2 to d.  Here r is
    [t_x0ii t i] diameters. *)
Theorem C94_distribution_function : forall t i d V, 0 < d ->
  is_RInt (fun y => 2 * (PI * (d ^ 2 - y ^ 2))) (t_x0ii t i * d / 2) d V ->
  mie_gdHS t 0 i = 1 /\ is_derive (fun z => mie_gdHS t z i) 0 (V / (PI * d ^ 3 / 6)).
Proof.
  intros t i d V Hd HV. split; [apply gdHS_zero|]. pose proof PI_RGT_0 as PP.
  set (r := t_x0ii t i * d / 2) in *.
  assert (E : V = 2 * PI * ((d ^ 2 * d - d ^ 3 / 3) - (d ^ 2 * r - r ^ 3 / 3))).
  { rewrite <- (is_RInt_unique (V := R_CompleteNormedModule) _ _ _ _ HV). apply (is_RInt_unique (V := R_CompleteNormedModule)).
    refine (eq_rect _ (fun v => is_RInt _ _ _ v) (is_RInt_derive (V := R_CompleteNormedModule) (fun y => 2 * PI * (d ^ 2 * y - y ^ 3 / 3)) (fun y => 2 * (PI * (d ^ 2 - y ^ 2))) r d _ _) _ _).
    - intros y _. auto_derive; [exact Logic.I|]. field.
    - intros y _. apply (ex_derive_continuous (fun y => 2 * (PI * (d ^ 2 - y ^ 2)))). auto_derive. exact Logic.I.
    - unfold minus, plus, opp. cbn. match goal with |- ?a = ?b => change (@eq R a b) end. ring. }
  unfold mie_gdHS. set (x0 := t_x0ii t i) in *.
  auto_derive.
  - repeat split; rewrite ?Ropp_0, ?Rplus_0_r; lra.
  - rewrite E. unfold r.
    match goal with |- ?a * exp ?b = _ => replace (exp b) with 1 end.
    + field. lra.
    + symmetry. etransitivity; [|apply exp_0]. f_equal. rewrite ?Ropp_0, ?Rplus_0_r, ln_1. field.
Qed.
Print Assumptions C94_distribution_function.
(** at contact (r = d) the slope is 5/2 *)
Example C94_contact : forall t i, t_x0ii t i = 1 -> is_derive (fun z => mie_gdHS t z i) 0 (5 / 2).
Proof.
  intros t i H. pose proof PI_RGT_0 as PP.
  refine (eq_rect _ (fun v => is_derive _ _ v) (proj2 (C94_distribution_function t i 1 (5 * PI / 12) Rlt_0_1 _)) _ _).
  - rewrite H. refine (eq_rect _ (fun v => is_RInt _ _ _ v) (is_RInt_derive (V := R_CompleteNormedModule) (fun y => 2 * PI * (y - y ^ 3 / 3)) (fun y => 2 * (PI * (1 ^ 2 - y ^ 2))) (1 * 1 / 2) 1 _ _) _ _).
    + intros y _. auto_derive; [exact Logic.I|]. field.
    + intros y _. apply (ex_derive_continuous (fun y => 2 * (PI * (1 ^ 2 - y ^ 2)))). auto_derive. exact Logic.I.
    + unfold minus, plus, opp. cbn. match goal with |- ?a = ?b => change (@eq R a b) end. field.
  - match goal with |- ?a = ?b => change (@eq R a b) end. field. lra.
Qed.
