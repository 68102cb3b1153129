(** Property theorems C82 (the quadrature behind the hard-sphere diameter) and C84 (the
    integrals I and J of the Mie kernels). *)
From Coq Require Import Reals Lra Lia.
From Coquelicot Require Import Coquelicot.
From Verif Require Import Base BaseFacts Num RSum SaftToolboxModel SaftToolboxProps MieExtModel.
Open Scope R_scope.

(** * C82 *)

(** Specification: a polynomial of degree below [n] with the coefficients [c]. *)
Definition polyn (n : nat) (c : nat -> R) (x : R) : R := sumn n (fun k => c k * x ^ k).
(** the value of the rule on a function of the node *)
Definition rule (q : list (Z * Z)) (f : R -> R) : R :=
  fold_right (fun wx acc => nano (fst wx) * f (nano (snd wx)) + acc) 0 q.

(** moments of the rule, in integers *)
Definition zmoment (q : list (Z * Z)) (k : nat) : Z :=
  fold_right (fun wx acc => fst wx * snd wx ^ Z.of_nat k + acc)%Z 0%Z q.
Definition zexact (k : nat) : Z := if Nat.even k then 2%Z else 0%Z.
(** The rule is symmetric: the odd moments vanish, and the even ones are checked one after
    the other from rounded products of the half rule ([scale] units per unit of weight). *)
Definition half_rule : list (Z * Z) := filter (fun wx => (0 <? snd wx)%Z) quadrature.
Definition mirrored (q : list (Z * Z)) : list (Z * Z) := flat_map (fun wx => [(fst wx, (- snd wx)%Z); wx]) q.
Lemma quadrature_symmetric : quadrature = mirrored half_rule.
Proof. vm_compute. reflexivity. Qed.
Definition zsum (l : list Z) : Z := fold_right Z.add 0%Z l.
Definition scale : Z := 1000000%Z.
Definition step (sv : Z * Z) : Z := (fst sv * snd sv / 1000000000000000000)%Z.
Fixpoint even_moments_ok (fuel : nat) (odd slack : Z) (sq v : list Z) : bool :=
  match fuel with
  | O => true
  | S fuel => (Z.abs (odd * zsum v - 1000000000 * scale) * 2 + 2 * odd * slack <=? 5 * odd * scale)%Z
              && even_moments_ok fuel (odd + 2)%Z (slack + 20)%Z sq (map step (combine sq v))
  end.
Lemma moments_ok : even_moments_ok 40 1 0 (map (fun wx => snd wx * snd wx)%Z half_rule) (map (fun wx => fst wx * scale)%Z half_rule) = true.
Proof. vm_compute. reflexivity. Qed.

Lemma zmoment_cons w x q k : zmoment ((w, x) :: q) k = (w * x ^ Z.of_nat k + zmoment q k)%Z.
Proof. reflexivity. Qed.
Lemma mirrored_cons w x q : mirrored ((w, x) :: q) = (w, (- x)%Z) :: (w, x) :: mirrored q.
Proof. reflexivity. Qed.
Lemma zmoment_mirrored q k : zmoment (mirrored q) k = if Nat.even k then (2 * zmoment q k)%Z else 0%Z.
Proof.
  destruct (Nat.even k) eqn:E.
  - apply Nat.even_spec in E. destruct E as [j ->]. induction q as [|[w x] q IH]; [reflexivity|].
    rewrite mirrored_cons, !zmoment_cons, IH, Z.pow_opp_even by (exists (Z.of_nat j); lia). ring.
  - assert (O : Nat.odd k = true) by (rewrite <- Nat.negb_even, E; reflexivity). apply Nat.odd_spec in O. destruct O as [j ->].
    induction q as [|[w x] q IH]; [reflexivity|].
    rewrite mirrored_cons, !zmoment_cons, IH, Z.pow_opp_odd by (exists (Z.of_nat j); lia). ring.
Qed.
(** the rounded products of step [j] are below the exact ones by at most [j] units *)
Definition rounded (j : nat) (wx : Z * Z) (v : Z) : Prop :=
  (0 <= snd wx <= 1000000000 /\
   v * 1000000000000000000 ^ Z.of_nat j <= scale * (fst wx * snd wx ^ Z.of_nat (2 * j))
     <= (v + Z.of_nat j) * 1000000000000000000 ^ Z.of_nat j)%Z.
Lemma rounded_step j wx v : rounded j wx v -> rounded (S j) wx (step (snd wx * snd wx, v)%Z).
Proof.
  intros [X [A B]]. split; [exact X|]. unfold step. cbn [fst snd].
  replace (Z.of_nat (2 * S j)) with (Z.of_nat (2 * j) + 2)%Z by lia. rewrite Z.pow_add_r by lia.
  rewrite (Nat2Z.inj_succ j), Z.pow_succ_r by lia.
  set (G := 1000000000000000000%Z) in *. set (P := (G ^ Z.of_nat j)%Z) in *.
  assert (HG : (0 < G)%Z) by reflexivity.
  assert (HP : (0 < P)%Z) by (apply Z.pow_pos_nonneg; lia).
  set (s := (snd wx * snd wx)%Z) in *. set (t := (scale * (fst wx * snd wx ^ Z.of_nat (2 * j)))%Z) in *.
  replace (scale * (fst wx * (snd wx ^ Z.of_nat (2 * j) * snd wx ^ 2)))%Z with (s * t)%Z by (unfold s, t; ring).
  assert (S0 : (0 <= s <= G)%Z) by (unfold s, G; nia).
  pose proof (Z.div_mod (s * v) G ltac:(lia)) as D. pose proof (Z.mod_pos_bound (s * v) G HG) as M.
  set (d := (s * v / G)%Z) in *. split.
  - apply Z.le_trans with (s * v * P)%Z; [|nia]. nia.
  - apply Z.le_trans with (s * ((v + Z.of_nat j) * P))%Z; [nia|].
    replace (s * ((v + Z.of_nat j) * P))%Z with ((s * v + s * Z.of_nat j) * P)%Z by ring.
    replace ((d + Z.succ (Z.of_nat j)) * (G * P))%Z with (((d + 1) * G + Z.of_nat j * G) * P)%Z by (unfold Z.succ; ring).
    apply Z.mul_le_mono_nonneg_r; [lia|]. nia.
Qed.
Lemma rounded_sum j q v : Forall2 (rounded j) q v ->
  (zsum v * 1000000000000000000 ^ Z.of_nat j <= scale * zmoment q (2 * j)
   <= (zsum v + Z.of_nat (length q) * Z.of_nat j) * 1000000000000000000 ^ Z.of_nat j)%Z.
Proof.
  induction 1 as [|[w x] v1 q v [X [A B]] F IH]; [cbn; lia|].
  rewrite zmoment_cons. change (zsum (v1 :: v)) with (v1 + zsum v)%Z. cbn [length fst snd] in *. rewrite Nat2Z.inj_succ. nia.
Qed.
Lemma rounded_steps j q v : Forall2 (rounded j) q v -> Forall2 (rounded (S j)) q (map step (combine (map (fun wx => snd wx * snd wx)%Z q) v)).
Proof. induction 1; constructor; [apply rounded_step; assumption|assumption]. Qed.
Lemma even_moments_spec q fuel : length q = 20%nat -> forall j0 v, Forall2 (rounded j0) q v ->
  even_moments_ok fuel (Z.of_nat (2 * j0 + 1)) (20 * Z.of_nat j0) (map (fun wx => snd wx * snd wx)%Z q) v = true ->
  forall j, (j0 <= j < j0 + fuel)%nat ->
  (Z.abs (Z.of_nat (2 * j + 1) * (2 * zmoment q (2 * j)) - 2 * (1000000000 * 1000000000 ^ Z.of_nat (2 * j)))
   <= 5 * Z.of_nat (2 * j + 1) * 1000000000 ^ Z.of_nat (2 * j))%Z.
Proof.
  intros L. induction fuel as [|fuel IH]; intros j0 v F H j Hj; [lia|]. cbn [even_moments_ok] in H. apply andb_prop in H. destruct H as [H1 H2].
  destruct (Nat.eq_dec j j0) as [->|N].
  - apply Z.leb_le in H1. apply rounded_sum in F. rewrite L in F.
    replace (1000000000 ^ Z.of_nat (2 * j0))%Z with (1000000000000000000 ^ Z.of_nat j0)%Z.
    2:{ rewrite Nat2Z.inj_mul, Z.pow_mul_r by lia. reflexivity. }
    assert (HP : (0 < 1000000000000000000 ^ Z.of_nat j0)%Z) by (apply Z.pow_pos_nonneg; lia).
    revert F H1 HP. generalize (1000000000000000000 ^ Z.of_nat j0)%Z as P, (zmoment q (2 * j0)) as t, (zsum v) as z. unfold scale.
    assert (HO : (0 <= Z.of_nat (2 * j0 + 1))%Z) by lia. revert HO. generalize (Z.of_nat (2 * j0 + 1)) as o.
    change (Z.of_nat 20) with 20%Z. assert (HJ : (0 <= Z.of_nat j0)%Z) by lia. revert HJ. generalize (Z.of_nat j0) as i.
    intros i Hi o Ho P t z [A B] H1 HP.
    apply Z.abs_le.
    assert (U : (o * z - 1000000000 * 1000000 <= Z.abs (o * z - 1000000000 * 1000000))%Z) by lia.
    assert (V : (- Z.abs (o * z - 1000000000 * 1000000) <= o * z - 1000000000 * 1000000)%Z) by lia.
    set (e := Z.abs (o * z - 1000000000 * 1000000)) in *. clearbody e.
    assert (E1 : (o * z * P <= 1000000 * (o * t))%Z) by nia.
    assert (E2 : (1000000 * (o * t) <= (o * z + o * (20 * i)) * P)%Z) by nia.
    assert (E3 : ((o * z - 1000000000 * 1000000) * P <= e * P)%Z) by (apply Z.mul_le_mono_nonneg_r; lia).
    assert (E4 : (- e * P <= (o * z - 1000000000 * 1000000) * P)%Z) by (apply Z.mul_le_mono_nonneg_r; lia).
    assert (E5 : ((e * 2 + 2 * o * (20 * i)) * P <= 5 * o * 1000000 * P)%Z) by (apply Z.mul_le_mono_nonneg_r; lia).
    assert (E6 : (0 <= o * (20 * i) * P)%Z) by (apply Z.mul_nonneg_nonneg; [apply Z.mul_nonneg_nonneg|]; lia).
    split; lia.
  - apply (IH (S j0) (map step (combine (map (fun wx => snd wx * snd wx)%Z q) v))); [apply rounded_steps; exact F| |lia].
    replace (Z.of_nat (2 * S j0 + 1)) with (Z.of_nat (2 * j0 + 1) + 2)%Z by lia.
    replace (20 * Z.of_nat (S j0))%Z with (20 * Z.of_nat j0 + 20)%Z by lia. exact H2.
Qed.
Lemma half_rule_start : Forall2 (rounded 0) half_rule (map (fun wx => fst wx * scale)%Z half_rule).
Proof.
  assert (B : forallb (fun wx => (0 <=? snd wx) && (snd wx <=? 1000000000))%Z half_rule = true) by (vm_compute; reflexivity).
  induction half_rule as [|wx q IH]; [constructor|]. cbn [forallb] in B. apply andb_prop in B. destruct B as [B1 B2].
  constructor; [|apply IH; exact B2]. apply andb_prop in B1. destruct B1 as [B3 B4]. apply Z.leb_le in B3, B4.
  split; [lia|]. change (Z.of_nat (2 * 0)) with 0%Z. change (Z.of_nat 0) with 0%Z. rewrite !Z.pow_0_r. lia.
Qed.
Lemma moment_bound k : (k < 80)%nat ->
  (Z.abs (Z.of_nat (S k) * zmoment quadrature k - zexact k * 1000000000 ^ Z.of_nat (S k)) <=
   5 * Z.of_nat (S k) * 1000000000 ^ Z.of_nat k)%Z.
Proof.
  intros Hk. rewrite quadrature_symmetric, zmoment_mirrored. unfold zexact. destruct (Nat.even k) eqn:E.
  - apply Nat.even_spec in E. destruct E as [j ->].
    replace (1000000000 ^ Z.of_nat (S (2 * j)))%Z with (1000000000 * 1000000000 ^ Z.of_nat (2 * j))%Z
      by (rewrite (Nat2Z.inj_succ (2 * j)), Z.pow_succ_r by lia; reflexivity).
    replace (S (2 * j)) with (2 * j + 1)%nat by lia.
    apply (even_moments_spec half_rule 40 ltac:(vm_compute; reflexivity) 0 _ half_rule_start moments_ok); lia.
  - rewrite Z.mul_0_r, Z.mul_0_l. apply Z.mul_nonneg_nonneg; [lia|apply Z.pow_nonneg; lia].
Qed.

Lemma giga_pow k : IZR (1000000000 ^ Z.of_nat k) = 1000000000 ^ k.
Proof. rewrite <- pow_IZR. reflexivity. Qed.
Lemma rule_moment q k : rule q (fun x => x ^ k) = IZR (zmoment q k) / 1000000000 ^ S k.
Proof.
  assert (P : 0 < 1000000000 ^ k) by (apply pow_lt; lra).
  unfold rule, zmoment. induction q as [|[w x] q IH]; cbn [fold_right fst snd].
  - unfold Rdiv. ring.
  - rewrite IH, plus_IZR, mult_IZR. unfold nano. rewrite <- pow_IZR.
    unfold Rdiv at 2. rewrite Rpow_mult_distr, <- Rinv_pow by lra. change (1000000000 ^ S k) with (1000000000 * 1000000000 ^ k). field. lra.
Qed.
Lemma exact_moment k : is_RInt (fun x : R => x ^ k) (-1) 1 (IZR (zexact k) / INR (S k)).
Proof.
  assert (NZ : INR (S k) <> 0) by (apply not_0_INR; discriminate).
  replace (IZR (zexact k) / INR (S k)) with (minus (1 ^ S k / INR (S k)) ((-1) ^ S k / INR (S k))).
  - apply (is_RInt_derive (fun x => x ^ S k / INR (S k)) (fun x => x ^ k)).
    + intros x _. set (N := INR (S k)) in *. replace (x ^ k) with (INR (S k) * x ^ k * / N) by (unfold N; field; exact NZ).
      unfold Rdiv. apply (is_derive_scal_l (V := R_NormedModule) (fun x => x ^ S k) x (INR (S k) * x ^ k) (/ N)).
      replace (INR (S k) * x ^ k) with (INR (S k) * 1 * x ^ pred (S k)) by (cbn [pred]; ring).
      apply (is_derive_pow (fun x => x) (S k) x 1). apply (is_derive_id (K := R_AbsRing)).
    + intros x _. apply (ex_derive_continuous (fun x => x ^ k)). auto_derive. exact I.
  - unfold minus, plus, opp; cbn -[pow INR]. rewrite pow1. unfold zexact.
    destruct (Nat.even k) eqn:E.
    + apply Nat.even_spec in E. destruct E as [j ->]. replace (S (2 * j))%nat with (S (2 * j)) by reflexivity. rewrite pow_1_odd. field. exact NZ.
    + assert (O : Nat.odd k = true) by (rewrite <- Nat.negb_even, E; reflexivity). apply Nat.odd_spec in O. destruct O as [j ->].
      replace (S (2 * j + 1))%nat with (2 * S j)%nat by lia. rewrite pow_1_even. field. rewrite pow_1_even || idtac. replace (2 * S j)%nat with (S (2 * j + 1)) by lia. exact NZ.
Qed.
Lemma moment_error k : (k < 80)%nat ->
  Rabs (rule quadrature (fun x => x ^ k) - IZR (zexact k) / INR (S k)) <= 5 / 1000000000.
Proof.
  intros Hk. pose proof (moment_bound k Hk) as M. apply IZR_le in M. rewrite abs_IZR, minus_IZR, !mult_IZR, !giga_pow in M.
  rewrite <- INR_IZR_INZ in M. rewrite rule_moment.
  assert (P : 0 < 1000000000 ^ k) by (apply pow_lt; lra). assert (NZ : 0 < INR (S k)) by (apply lt_0_INR; lia).
  change (1000000000 ^ S k) with (1000000000 * 1000000000 ^ k) in *.
  replace (IZR (zmoment quadrature k) / (1000000000 * 1000000000 ^ k) - IZR (zexact k) / INR (S k))
    with ((INR (S k) * IZR (zmoment quadrature k) - IZR (zexact k) * (1000000000 * 1000000000 ^ k))
          / (INR (S k) * (1000000000 * 1000000000 ^ k))) by (field; lra).
  assert (D : 0 < INR (S k) * (1000000000 * 1000000000 ^ k)) by (apply Rmult_lt_0_compat; lra).
  unfold Rdiv at 1. rewrite Rabs_mult, (Rabs_right (/ _)) by (left; apply Rinv_0_lt_compat; exact D).
  apply Rmult_le_reg_r with (INR (S k) * (1000000000 * 1000000000 ^ k)); [exact D|].
  rewrite Rmult_assoc, Rinv_l by lra. lra.
Qed.

Lemma rule_sumn q n (c : nat -> R) :
  rule q (polyn n c) = sumn n (fun k => c k * rule q (fun x => x ^ k)).
Proof.
  unfold rule. induction q as [|[w x] q IH]; cbn [fold_right fst snd].
  - symmetry. apply sumn_zero. intros; ring.
  - rewrite IH. unfold polyn. rewrite <- sumn_scal, <- sumn_plus. apply sumn_ext. intros k _. ring.
Qed.
Lemma is_RInt_sumn n (f : nat -> R -> R) (I : nat -> R) a b :
  (forall k, (k < n)%nat -> is_RInt (f k) a b (I k)) -> is_RInt (fun x => sumn n (fun k => f k x)) a b (sumn n I).
Proof.
  induction n as [|n IH]; intros H; cbn [sumn].
  - refine (eq_rect _ (fun l => is_RInt (fun _ : R => 0) a b l) (is_RInt_const (V := R_NormedModule) a b 0) _ _).
    unfold scal; cbn; unfold mult; cbn; ring.
  - apply (is_RInt_plus (V := R_NormedModule)); [apply IH; intros; apply H; lia|apply H; lia].
Qed.
Lemma poly_integral n c : is_RInt (polyn n c) (-1) 1 (sumn n (fun k => c k * (IZR (zexact k) / INR (S k)))).
Proof. apply (is_RInt_sumn n (fun k x => c k * x ^ k)). intros k _. apply (is_RInt_scal (V := R_NormedModule) (fun x => x ^ k) (-1) 1 (c k)). apply exact_moment. Qed.

(** The rule integrates every polynomial of degree below 80. *)
Theorem C82_polynomials : forall n c, (n <= 80)%nat -> exists I,
  is_RInt (polyn n c) (-1) 1 I /\
  Rabs (rule quadrature (polyn n c) - I) <= 5 / 1000000000 * sumn n (fun k => Rabs (c k)).
Proof.
  intros n c Hn. eexists. split; [apply poly_integral|].
  rewrite rule_sumn, <- sumn_minus, <- sumn_scal. eapply Rle_trans; [apply sumn_abs|]. apply sumn_le. intros k Hk.
  rewrite <- Rmult_minus_distr_l, Rabs_mult, Rmult_comm. apply Rmult_le_compat_r; [apply Rabs_pos|]. apply moment_error. lia.
Qed.
Print Assumptions C82_polynomials.

(** The diameter approximates the integral of Barker and Henderson from 0 to sigma: if a
    polynomial of degree below 80 in the distance is within [e] of the integrand, the
    error is at most 2 e plus the rounding of the printed weights. *)
Definition bh_integrand (K sigma lr la r : R) : R := 1 - exp (- K * (Rpower (sigma / r) lr - Rpower (sigma / r) la)).

Lemma bh_near_zero K sigma lr la : 0 < K -> 0 < sigma -> 0 < la -> la < lr -> forall delta, 0 < delta ->
  exists eta, 0 < eta /\ forall r, 0 < r < eta -> Rabs (bh_integrand K sigma lr la r - 1) < delta.
Proof.
  intros HK Hs Ha Hl delta Hd.
  set (u0 := Rmax 1 (Rmax (Rpower 2 (/ (lr - la))) (Rpower (/ (K * delta)) (/ la)))).
  assert (U0 : 1 <= u0) by apply Rmax_l.
  assert (U1 : Rpower 2 (/ (lr - la)) <= u0) by (eapply Rle_trans; [apply Rmax_l|apply Rmax_r]).
  assert (U2 : Rpower (/ (K * delta)) (/ la) <= u0) by (eapply Rle_trans; [apply Rmax_r|apply Rmax_r]).
  exists (sigma / u0). split; [apply Rdiv_lt_0_compat; lra|]. intros r [R0 R1].
  set (u := sigma / r).
  assert (U : u0 <= u).
  { unfold u. apply Rmult_le_reg_r with r; [exact R0|]. unfold Rdiv. rewrite Rmult_assoc, Rinv_l by lra.
    apply Rmult_lt_compat_r with (r := u0) in R1; [|lra]. unfold Rdiv in R1. rewrite Rmult_assoc, Rinv_l in R1 by lra. lra. }
  assert (A : / (K * delta) <= Rpower u la).
  { assert (P : 0 < / (K * delta)) by (apply Rinv_0_lt_compat; apply Rmult_lt_0_compat; assumption).
    replace (/ (K * delta)) with (Rpower (Rpower (/ (K * delta)) (/ la)) la).
    - apply Rle_Rpower_l; [lra|]. split; [apply exp_pos|lra].
    - rewrite Rpower_mult, Rinv_l, Rpower_1 by lra. reflexivity. }
  assert (B : 2 <= Rpower u (lr - la)).
  { replace 2 with (Rpower (Rpower 2 (/ (lr - la))) (lr - la)) at 1.
    - apply Rle_Rpower_l; [lra|]. split; [apply exp_pos|lra].
    - rewrite Rpower_mult, Rinv_l, Rpower_1 by lra. reflexivity. }
  unfold bh_integrand. fold u.
  replace (Rpower u lr) with (Rpower u la * Rpower u (lr - la)) by (rewrite <- Rpower_plus; f_equal; lra).
  set (y := K * (Rpower u la * Rpower u (lr - la) - Rpower u la)).
  replace (- K * (Rpower u la * Rpower u (lr - la) - Rpower u la)) with (- y) by (unfold y; ring).
  assert (Y : / delta <= y).
  { unfold y. replace (/ delta) with (K * / (K * delta)) by (field; lra). apply Rmult_le_compat_l; [lra|].
    assert (0 < Rpower u la) by apply exp_pos. nra. }
  replace (1 - exp (- y) - 1) with (- exp (- y)) by ring. rewrite Rabs_Ropp, Rabs_right by (left; apply exp_pos).
  assert (D : 0 < / delta) by (apply Rinv_0_lt_compat; exact Hd).
  rewrite exp_Ropp. assert (E : / delta < exp y). { pose proof (exp_ineq1 y ltac:(lra)). lra. }
  rewrite <- (Rinv_inv delta). apply Rinv_lt_contravar; [apply Rmult_lt_0_compat; [exact D|apply exp_pos]|exact E].
Qed.

Lemma bh_continuous K sigma lr la r : 0 < sigma -> 0 < r -> continuous (bh_integrand K sigma lr la) r.
Proof.
  intros Hs Hr. apply (ex_derive_continuous (bh_integrand K sigma lr la)). unfold bh_integrand, Rpower. auto_derive.
  repeat split; try lra; apply Rdiv_lt_0_compat; assumption.
Qed.

Lemma bh_integrable K sigma lr la : 0 < K -> 0 < sigma -> 0 < la -> la < lr ->
  ex_RInt (bh_integrand K sigma lr la) 0 sigma.
Proof.
  intros HK Hs Ha Hl.
  set (g := fun r => if Rlt_dec 0 r then bh_integrand K sigma lr la r else 1).
  assert (E : ex_RInt g 0 sigma).
  { apply (ex_RInt_continuous (V := R_CompleteNormedModule)). intros z [Z0 _]. rewrite Rmin_left in Z0 by lra.
    destruct (Rle_lt_or_eq_dec 0 z Z0) as [Z1| <-].
    - apply (continuous_ext_loc g (bh_integrand K sigma lr la) z).
      + exists (mkposreal z Z1). intros y By. unfold g. destruct (Rlt_dec 0 y) as [|N]; [reflexivity|]; exfalso.
        unfold ball in By; cbn in By. unfold AbsRing_ball, abs, minus, plus, opp in By; cbn in By. apply Rabs_def2 in By. lra.
      + apply bh_continuous; assumption.
    - apply filterlim_locally. intros [delta Hd]. destruct (bh_near_zero K sigma lr la HK Hs Ha Hl delta Hd) as [eta [He P]].
      exists (mkposreal eta He). intros y By. unfold ball in By |- *; cbn in By |- *.
      unfold AbsRing_ball, abs, minus, plus, opp in By |- *; cbn in By |- *. apply Rabs_def2 in By.
      unfold g. destruct (Rlt_dec 0 0) as [|_]; [lra|]. destruct (Rlt_dec 0 y) as [Y|Y].
      + apply P. lra.
      + replace (1 + - (1)) with 0 by ring. rewrite Rabs_R0. exact Hd. }
  apply (ex_RInt_ext g); [|exact E]. intros x Hx. rewrite Rmin_left, Rmax_right in Hx by lra. unfold g.
  destruct (Rlt_dec 0 x); [reflexivity|lra].
Qed.

Lemma rule_bound q (f : R -> R) e : 
  Forall (fun wx => (0 < fst wx /\ -1000000000 < snd wx < 1000000000)%Z) q ->
  (forall x, -1 < x < 1 -> Rabs (f x) <= e) -> Rabs (rule q f) <= nano (fold_right Z.add 0 (map fst q))%Z * e.
Proof.
  intros Q F. unfold rule. induction Q as [|[w x] q [Hw Hx] _ IH]; cbn [fold_right map fst snd].
  - unfold nano. rewrite Rabs_R0. lra.
  - cbn [fst snd] in Hw, Hx. specialize (F (nano x) (nano_node _ Hx)).
    eapply Rle_trans; [apply Rabs_triang|]. rewrite Rabs_mult.
    apply IZR_lt in Hw. assert (0 < nano w) by (unfold nano; lra). rewrite (Rabs_right (nano w)) by lra.
    replace (nano (w + fold_right Z.add 0 (map fst q))%Z) with (nano w + nano (fold_right Z.add 0 (map fst q))%Z)
      by (unfold nano; rewrite plus_IZR; field).
    rewrite Rmult_plus_distr_r. apply Rplus_le_compat; [|exact IH]. apply Rmult_le_compat_l; lra.
Qed.
Lemma rule_minus q f g : rule q (fun x => f x - g x) = rule q f - rule q g.
Proof. unfold rule. induction q as [|[w x] q IH]; cbn [fold_right fst snd]; [ring|]. rewrite IH. ring. Qed.

Theorem C82_diameter : forall epsilon sigma T C lr la,
  0 < epsilon -> 0 < sigma -> 0 < T -> 0 < C -> 0 < la -> la < lr -> exists I,
  is_RInt (bh_integrand (C * epsilon / T) sigma lr la) 0 sigma I /\
  forall n c e, (n <= 80)%nat ->
    (forall r, 0 < r < sigma -> Rabs (bh_integrand (C * epsilon / T) sigma lr la r - polyn n c (2 * r / sigma - 1)) <= e) ->
    Rabs (calc_dkk epsilon sigma T C lr la - I) <= sigma * (2 * e + 25 / 10000000000 * sumn n (fun k => Rabs (c k))).
Proof.
  intros epsilon sigma T C lr la He Hs HT HC Ha Hl.
  assert (HK : 0 < C * epsilon / T) by (apply Rdiv_lt_0_compat; [apply Rmult_lt_0_compat|]; assumption).
  destruct (bh_integrable (C * epsilon / T) sigma lr la HK Hs Ha Hl) as [I HI]. exists I. split; [exact HI|].
  intros n c e Hn F. set (K := C * epsilon / T) in *.
  assert (E0 : 0 <= e). { specialize (F (sigma / 2) ltac:(lra)). eapply Rle_trans; [apply Rabs_pos|exact F]. }
  destruct (C82_polynomials n c Hn) as [J [HJ PJ]].
  (* the polynomial over the distance *)
  assert (HP : is_RInt (fun r => polyn n c (2 * r / sigma - 1)) 0 sigma (sigma / 2 * J)).
  { assert (HJ' : is_RInt (polyn n c) (2 / sigma * 0 + -1) (2 / sigma * sigma + -1) J).
    { replace (2 / sigma * 0 + -1) with (-1) by ring. replace (2 / sigma * sigma + -1) with 1 by (field; lra). exact HJ. }
    pose proof (is_RInt_comp_lin (V := R_NormedModule) (polyn n c) (2 / sigma) (-1) 0 sigma J HJ') as L.
    pose proof (is_RInt_scal (V := R_NormedModule) _ 0 sigma (sigma / 2) _ L) as L2.
    replace (scal (sigma / 2) J) with (sigma / 2 * J) in L2 by reflexivity.
    eapply is_RInt_ext; [|exact L2]. intros x _. unfold scal; cbn; unfold mult; cbn.
    replace (2 / sigma * x + -1) with (2 * x / sigma - 1) by (field; lra). field. lra. }
  assert (D1 : Rabs (I - sigma / 2 * J) <= sigma * e).
  { pose proof (is_RInt_minus (V := R_NormedModule) _ _ 0 sigma _ _ HI HP) as M.
    pose proof (norm_RInt_le_const_abs (V := R_NormedModule)) as _. 
    assert (M2 : norm (minus I (sigma / 2 * J)) <= (sigma - 0) * e).
    { set (d := fun r => if Rlt_dec 0 r then (if Rlt_dec r sigma then minus (bh_integrand K sigma lr la r) (polyn n c (2 * r / sigma - 1)) else 0) else 0).
      apply (norm_RInt_le_const (V := R_NormedModule) d 0 sigma).
      - lra.
      - intros x [X0 X1]. unfold d. destruct (Rlt_dec 0 x) as [Y|Y]; [|unfold norm; cbn; unfold abs; cbn; rewrite Rabs_R0; exact E0].
        destruct (Rlt_dec x sigma) as [W|W]; [|unfold norm; cbn; unfold abs; cbn; rewrite Rabs_R0; exact E0].
        apply F. lra.
      - eapply is_RInt_ext; [|exact M]. intros x Hx. rewrite Rmin_left, Rmax_right in Hx by lra. unfold d.
        destruct (Rlt_dec 0 x); [|lra]. destruct (Rlt_dec x sigma); [reflexivity|lra]. }
    rewrite Rminus_0_r in M2. exact M2. }
  set (f := fun x => bh_integrand K sigma lr la (1 / 2 * sigma * (x + 1))).
  assert (D2 : calc_dkk epsilon sigma T C lr la = 1 / 2 * sigma * rule quadrature f) by reflexivity.
  assert (D3 : Rabs (rule quadrature f - rule quadrature (polyn n c)) <= 2 * e).
  { rewrite <- rule_minus. eapply Rle_trans; [apply (rule_bound _ _ e quad_nodes)|].
    - intros x Hx. unfold f. replace (polyn n c x) with (polyn n c (2 * (1 / 2 * sigma * (x + 1)) / sigma - 1)) by (f_equal; field; lra).
      apply F. split; nra.
    - apply Rmult_le_compat_r; [exact E0|]. pose proof quad_total as U. apply IZR_lt in U. unfold nano. lra. }
  rewrite D2.
  replace (1 / 2 * sigma * rule quadrature f - I)
    with (1 / 2 * sigma * (rule quadrature f - rule quadrature (polyn n c)) + 1 / 2 * sigma * (rule quadrature (polyn n c) - J) - (I - sigma / 2 * J)) by field.
  eapply Rle_trans; [apply Rabs_triang|]. rewrite Rabs_Ropp.
  eapply Rle_trans; [apply Rplus_le_compat_r; apply Rabs_triang|].
  rewrite !Rabs_mult, (Rabs_right (1 / 2)), (Rabs_right sigma) by lra. nra.
Qed.
Print Assumptions C82_diameter.
(** hypotheses are met: the cubic 1 - 3/2 x^2 + 1/4 x^3, for instance, is integrated *)
Definition some_coefs (k : nat) : R := match k with O => 1 | 2%nat => - 3 / 2 | 3%nat => 1 / 4 | _ => 0 end.
Example C82_case : exists I,
  is_RInt (polyn 4 some_coefs) (-1) 1 I /\
  Rabs (rule quadrature (polyn 4 some_coefs) - I) <= 2 / 100000000.
Proof.
  destruct (C82_polynomials 4 some_coefs ltac:(lia)) as [I [H B]].
  exists I. split; [exact H|]. eapply Rle_trans; [exact B|]. cbn [sumn some_coefs].
  rewrite Rabs_R1, Rabs_R0, Rabs_left, Rabs_right by lra. lra.
Qed.

(** * C84 *)
Lemma is_RInt_power p x0 : 0 < x0 -> p <> -1 -> is_RInt (fun x => Rpower x p) 1 x0 ((Rpower x0 (p + 1) - 1) / (p + 1)).
Proof.
  intros Hx Hp. assert (NZ : p + 1 <> 0) by lra.
  assert (POS : forall x, Rmin 1 x0 <= x <= Rmax 1 x0 -> 0 < x).
  { intros x [H _]. eapply Rlt_le_trans; [|exact H]. apply Rmin_glb_lt; lra. }
  assert (P1 : Rpower 1 (p + 1) = 1) by (unfold Rpower; rewrite ln_1, Rmult_0_r; apply exp_0).
  replace ((Rpower x0 (p + 1) - 1) / (p + 1)) with (minus (Rpower x0 (p + 1) / (p + 1)) (Rpower 1 (p + 1) / (p + 1)))
    by (rewrite P1; unfold minus, plus, opp; cbn; field; exact NZ).
  apply (is_RInt_derive (fun x => Rpower x (p + 1) / (p + 1)) (fun x => Rpower x p)).
  - intros x Hx'. specialize (POS x Hx'). unfold Rpower. auto_derive; [exact POS|].
    replace (exp ((p + 1) * ln x)) with (exp (p * ln x) * x) by (rewrite Rmult_plus_distr_r, Rmult_1_l, exp_plus, exp_ln by exact POS; reflexivity). field. lra.
  - intros x Hx'. specialize (POS x Hx'). apply (ex_derive_continuous (fun x => Rpower x p)). unfold Rpower. auto_derive. exact POS.
Qed.
(** I and J are the integrals of x^2 x^-l and of (x - 1) x^2 x^-l from contact to x0, for
    every exponent other than 3 and 4. *)
Theorem C84_integrals : forall x0 l, 0 < x0 -> l <> 3 -> l <> 4 ->
  is_RInt (fun x => Rpower x (2 - l)) 1 x0 (Ikl x0 l) /\
  is_RInt (fun x => (x - 1) * Rpower x (2 - l)) 1 x0 (Jkl x0 l).
Proof.
  intros x0 l Hx H3 H4.
  assert (A : is_RInt (fun x => Rpower x (2 - l)) 1 x0 (Ikl x0 l)).
  { replace (Ikl x0 l) with ((Rpower x0 (2 - l + 1) - 1) / (2 - l + 1)).
    - apply is_RInt_power; lra.
    - unfold Ikl. replace (2 - l + 1) with (3 - l) by ring. field. lra. }
  split; [exact A|].
  assert (B : is_RInt (fun x => Rpower x (3 - l)) 1 x0 ((Rpower x0 (4 - l) - 1) / (4 - l))).
  { replace (4 - l) with (3 - l + 1) by ring. apply is_RInt_power; lra. }
  pose proof (is_RInt_minus (V := R_NormedModule) _ _ 1 x0 _ _ B A) as M.
  refine (eq_rect _ (fun v => is_RInt (fun x => (x - 1) * Rpower x (2 - l)) 1 x0 v) _ _ _);
    [|instantiate (1 := minus ((Rpower x0 (4 - l) - 1) / (4 - l)) (Ikl x0 l)); unfold minus, plus, opp, Ikl, Jkl; cbn; field; lra].
  eapply is_RInt_ext; [|exact M]. intros x Hx'. cbn.
  assert (0 < x). { destruct Hx' as [H _]. eapply Rlt_trans; [|exact H]. apply Rmin_glb_lt; lra. }
  unfold minus, plus, opp; cbn. replace (3 - l) with (1 + (2 - l)) by ring. rewrite Rpower_plus, Rpower_1 by assumption. ring.
Qed.
Print Assumptions C84_integrals.
Example C84_case : Ikl 2 6 = 7 / 24.
Proof.
  unfold Ikl. replace (3 - 6) with (- (3)) by ring. rewrite Rpower_Ropp. replace 3 with (INR 3) at 1 by (cbn; ring).
  rewrite Rpower_pow by lra. field.
Qed.

(** A repulsive exponent of zero is refused wherever the prefactor is needed. *)
Theorem C84_zero_exponent : forall la,
  prefactor 0 la = Err ValueError /\
  (forall d x0 e z, da1ii_drhos d la 0 x0 e z = Err ValueError) /\
  (forall rho C d x0 e z, da2_1pchi_drhos rho C d la 0 x0 e z = Err ValueError).
Proof.
  intros la. assert (P : prefactor 0 la = Err ValueError) by (unfold prefactor; destruct (Req_EM_T 0 0); [reflexivity|lra]).
  split; [exact P|]. split; intros; [unfold da1ii_drhos|unfold da2_1pchi_drhos]; rewrite P; reflexivity.
Qed.
Print Assumptions C84_zero_exponent.
