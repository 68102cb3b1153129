(** C115-C116: the pair correlation of association and the association energy built on it. *)
From Coq Require Import Reals Lra.
From Verif Require Import Base RSum XikaModel XikaProps AssocIntModel.
Open Scope R_scope.

(** * Specification *)
(** Strength of the bond between site a of bead k in molecule i and site b of bead l in molecule j: the Mayer
    function of the bonding energy times the bonding volume times the pair correlation.  The bonding volume is
    that of the pair of beads, or with cut-off distances that of the pair of beads in their molecules. *)
Definition bond_strength (epsHB : nat -> nat -> nat -> nat -> R) (T : R) (cutoff : bool)
    (K4v : nat -> nat -> nat -> nat -> R) (K6v : nat -> nat -> nat -> nat -> nat -> nat -> R) (g : nat -> nat -> R) (s t : site) : R :=
  let '(i, k, a) := s in let '(j, l, b) := t in
  (exp (epsHB k l a b / T) - 1) * (if cutoff then K6v i j k l a b else K4v k l a b) * g i j.
(** The combining rule of the well depths (Lafitte et al.): sqrt(eps_i eps_j) sqrt(s_i^3 s_j^3) / s_ij^3
    with the mean diameter s_ij *)
Definition mixed_depth (ei ej si sj : R) : R :=
  sqrt (si * sj) ^ 3 * sqrt (ei * ej) / ((si + sj) / 2) ^ 3.
(** sum over p, q >= 0 with p + q <= 10 of c p q x^p y^q *)
Definition poly10 (c : nat -> nat -> R) (x y : R) : R :=
  sumn 11 (fun p => sumn (11 - p) (fun q => c p q * x ^ p * y ^ q)).
(** Reduced density of the beads' averaged volume: molecules per nm^3 times the sum of xs_k xs_l sigma_kl^3 *)
Definition reduced_density (m : nat) (sigma xs : nat -> nat -> R) (rho : R) : R :=
  (602214086 / 10 ^ 12 * rho) * sumn m (fun k => sumn m (fun l => xs k l * sigma k l ^ 3)).

(** * Lemmas *)
Lemma fold_sumn (f : nat -> R) n : forall acc, fold_left (fun a q => a + f q) (seq 0 n) acc = acc + sumn n f.
Proof.
  induction n as [|n IH]; intros acc; [cbn; ring|]. rewrite seq_S, fold_left_app, IH. cbn [fold_left Nat.add sumn]. ring.
Qed.
Lemma fold_ext {A} (f g : A -> nat -> A) l : (forall a x, In x l -> f a x = g a x) -> forall acc, fold_left f l acc = fold_left g l acc.
Proof.
  induction l as [|x l IH]; intros H acc; [reflexivity|]. cbn. rewrite H by (left; reflexivity). apply IH. intros a y Hy. apply H. right. exact Hy.
Qed.

Section Props.
  Variables (m : nat) (eps_avg sigma_avg : nat -> R) (sigma xskl : nat -> nat -> R).
  Notation I := (calc_Iij m eps_avg sigma_avg sigma xskl).

Lemma eps_sym i j : eps_entry eps_avg sigma_avg i j = eps_entry eps_avg sigma_avg j i.
Proof. unfold eps_entry. rewrite (Rmult_comm (sigma_avg i)), (Rmult_comm (eps_avg i)), (Rplus_comm (sigma_avg i)). reflexivity. Qed.
Lemma epsilonij_spec i j : epsilonij eps_avg sigma_avg i j = mixed_depth (eps_avg i) (eps_avg j) (sigma_avg i) (sigma_avg j).
Proof. unfold epsilonij. destruct (Nat.leb i j); [reflexivity|]. rewrite eps_sym. reflexivity. Qed.
Lemma sigmax3_spec rho : sigmax3 m sigma xskl * rho = reduced_density m sigma xskl rho.
Proof.
  unfold sigmax3, reduced_density, per_nm3. rewrite <- sumn_scal, <- sumn_scal_r.
  apply sumn_ext. intros k Hk. rewrite <- sumn_scal, <- sumn_scal_r. apply sumn_ext. intros l Hl. ring.
Qed.
Lemma term_spec rho T i j p q : (p <= 10)%nat ->
  Iij_term m eps_avg sigma_avg sigma xskl rho T i j p q
  = cij p q * (sigmax3 m sigma xskl * rho) ^ p * (T / epsilonij eps_avg sigma_avg i j) ^ q.
Proof.
  intros Hp. unfold Iij_term. cbv zeta. do 11 (destruct p as [|p]; [ring|]). lia.
Qed.

(** ** C115 *)
(** The association integral is the polynomial of its documentation in the reduced density and the
    temperature over the well depth of the pair *)
Theorem C115_polynomial : forall rho T i j,
  I rho T i j = poly10 cij (reduced_density m sigma xskl rho) (T / mixed_depth (eps_avg i) (eps_avg j) (sigma_avg i) (sigma_avg j)).
Proof.
  intros rho T i j. unfold calc_Iij, poly10.
  rewrite <- (Rplus_0_l (sumn 11 _)). rewrite <- fold_sumn. apply fold_ext. intros a p Hp. apply in_seq in Hp.
  rewrite fold_sumn. f_equal. apply sumn_ext. intros q Hq. rewrite term_spec by lia. rewrite epsilonij_spec, sigmax3_spec. reflexivity.
Qed.
(** symmetric in the two molecules *)
Theorem C115_symmetric : forall rho T i j, I rho T i j = I rho T j i.
Proof.
  intros rho T i j. rewrite !C115_polynomial. unfold mixed_depth.
  rewrite (Rmult_comm (sigma_avg i)), (Rmult_comm (eps_avg i)), (Rplus_comm (sigma_avg i)). reflexivity.
Qed.
(** for two molecules of a kind the depth is that molecule's *)
Theorem C115_same_kind : forall rho T i, 0 < sigma_avg i -> 0 <= eps_avg i ->
  I rho T i i = poly10 cij (reduced_density m sigma xskl rho) (T / eps_avg i).
Proof.
  intros rho T i Hs He. rewrite C115_polynomial. do 2 f_equal. unfold mixed_depth.
  rewrite !sqrt_square by lra. field. lra.
Qed.
(** at vanishing density only the temperature matters, as the first row of coefficients *)
Theorem C115_dilute : forall T i j,
  I 0 T i j = sumn 11 (fun q => cij 0 q * (T / mixed_depth (eps_avg i) (eps_avg j) (sigma_avg i) (sigma_avg j)) ^ q).
Proof.
  intros T i j. rewrite C115_polynomial. unfold poly10.
  replace (reduced_density m sigma xskl 0) with 0 by (unfold reduced_density; ring).
  set (y := T / _).
  rewrite (sumn_ext 11 _ (fun p => if Nat.eqb p 0 then sumn 11 (fun q => cij 0 q * y ^ q) else 0)).
  - cbn [sumn Nat.eqb]. ring.
  - intros p Hp. destruct p as [|p].
    + cbn [Nat.eqb]. apply sumn_ext. intros q Hq. change (0 ^ 0) with 1. ring.
    + cbn [Nat.eqb]. apply sumn_zero. intros q Hq. rewrite pow_i by lia. ring.
Qed.
(** the whole system scaled: energies and temperature by one factor, volumes and density by another
    that leaves the reduced density as it was *)
Theorem C115_scaling : forall rho T i j k s, 0 < k -> 0 < s -> 0 <= eps_avg i -> 0 <= eps_avg j -> 0 < sigma_avg i -> 0 < sigma_avg j ->
  calc_Iij m (fun a => k * eps_avg a) (fun a => s * sigma_avg a) (fun a b => s * sigma a b) xskl (rho / s ^ 3) (k * T) i j = I rho T i j.
Proof.
  intros rho T i j k s Hk Hs Ei Ej Si Sj.
  assert (A : forall e a s' x r t i j, calc_Iij m e a s' x r t i j
    = poly10 cij (reduced_density m s' x r) (t / mixed_depth (e i) (e j) (a i) (a j))).
  { intros e a s' x r t i0 j0. unfold calc_Iij, poly10. rewrite <- (Rplus_0_l (sumn 11 _)). rewrite <- fold_sumn. apply fold_ext. intros a0 p Hp. apply in_seq in Hp.
    rewrite fold_sumn. f_equal. apply sumn_ext. intros q Hq. unfold Iij_term. cbv zeta.
    assert (Ed : epsilonij e a i0 j0 = mixed_depth (e i0) (e j0) (a i0) (a j0)).
    { unfold epsilonij. destruct (Nat.leb i0 j0); [reflexivity|]. unfold eps_entry, mixed_depth.
      rewrite (Rmult_comm (a j0)), (Rmult_comm (e j0)), (Rplus_comm (a j0)). reflexivity. }
    assert (Er : sigmax3 m s' x * r = reduced_density m s' x r).
    { unfold sigmax3, reduced_density, per_nm3. rewrite <- sumn_scal, <- sumn_scal_r.
      apply sumn_ext. intros k0 Hk0. rewrite <- sumn_scal, <- sumn_scal_r. apply sumn_ext. intros l Hl. ring. }
    rewrite <- Ed, <- Er. assert (Hp10 : (p <= 10)%nat) by lia. clear - Hp10. do 11 (destruct p as [|p]; [ring|]). lia. }
  rewrite !A. f_equal.
  - unfold reduced_density. rewrite (sumn_ext m (fun k0 => sumn m (fun l => xskl k0 l * (s * sigma k0 l) ^ 3)) (fun k0 => s ^ 3 * sumn m (fun l => xskl k0 l * sigma k0 l ^ 3))).
    + rewrite sumn_scal. field. lra.
    + intros k0 Hk0. rewrite <- sumn_scal. apply sumn_ext. intros l Hl. ring.
  - assert (D : mixed_depth (k * eps_avg i) (k * eps_avg j) (s * sigma_avg i) (s * sigma_avg j) = k * mixed_depth (eps_avg i) (eps_avg j) (sigma_avg i) (sigma_avg j)).
    { unfold mixed_depth. replace (s * sigma_avg i * (s * sigma_avg j)) with ((s * s) * (sigma_avg i * sigma_avg j)) by ring.
      replace (k * eps_avg i * (k * eps_avg j)) with ((k * k) * (eps_avg i * eps_avg j)) by ring.
      assert (0 <= sigma_avg i * sigma_avg j) by (apply Rmult_le_pos; lra). assert (0 <= eps_avg i * eps_avg j) by (apply Rmult_le_pos; lra).
      rewrite (sqrt_mult (s * s)), (sqrt_mult (k * k)) by (try apply Rmult_le_pos; lra). rewrite !sqrt_square by lra.
      assert (0 < s * sigma_avg i) by (apply Rmult_lt_0_compat; lra). assert (0 < s * sigma_avg j) by (apply Rmult_lt_0_compat; lra).
      field. split; lra. }
    rewrite D. set (d := mixed_depth _ _ _ _). unfold Rdiv. rewrite Rinv_mult.
    replace (k * T * (/ k * / d)) with (k * / k * (T * / d)) by ring. rewrite Rinv_r by lra. ring.
Qed.
End Props.

(** no coefficient of the table is left out by the loop: those with p + q > 10 are zero *)
Theorem C115_whole_table : forall p q, (10 < p + q)%nat -> cij p q = 0.
Proof.
  intros p q H. unfold cij, decimal.
  destruct (Nat.ltb p 11) eqn:Ep; [apply Nat.ltb_lt in Ep|apply Nat.ltb_ge in Ep].
  - destruct (Nat.ltb q 11) eqn:Eq; [apply Nat.ltb_lt in Eq|apply Nat.ltb_ge in Eq].
    + replace (nth q (nth p cij_table []) (0%Z, 0%nat)) with (0%Z, 0%nat).
      * cbn [fst snd]. unfold Rdiv. change (IZR 0) with 0. ring.
      * do 11 (destruct p as [|p]; [do 11 (destruct q as [|q]; [first [reflexivity | cbn in H; lia]|]); lia|]). lia.
    + assert (L : (length (nth p cij_table []) <= 11)%nat) by (do 11 (destruct p as [|p]; [cbn; lia|]); lia).
      rewrite nth_overflow by lia. cbn [fst snd]. unfold Rdiv. change (IZR 0) with 0. ring.
  - rewrite (nth_overflow cij_table) by (cbn; lia). destruct q; cbn [nth fst snd]; unfold Rdiv; change (IZR 0) with 0; ring.
Qed.

(** The coefficients themselves: the polynomial at two points, worked out from the printed table in exact
    arithmetic apart from the model.  A changed digit or two exchanged entries change the second value. *)
Definition scaled (c : Z * nat) : Z := (fst c * 10 ^ (23 - Z.of_nat (snd c)))%Z.
Fixpoint sumz (n : nat) (f : nat -> Z) : Z := match n with O => 0 | S n' => sumz n' f + f n' end.
Definition zpoly (x y : Z) (d : nat) : Z :=
  sumz 11 (fun p => sumz (11 - p) (fun q => scaled (nth q (nth p cij_table []) (0%Z, 0%nat)) * x ^ Z.of_nat p * Z.of_nat d ^ Z.of_nat (10 - p) * y ^ Z.of_nat q)%Z).
Lemma sumn_sumz n (f : nat -> R) (g : nat -> Z) k : (forall i, (i < n)%nat -> f i = IZR (g i) * k) -> sumn n f = IZR (sumz n g) * k.
Proof.
  induction n as [|n IH]; intros H; cbn [sumn sumz]; [ring|]. rewrite IH by (intros; apply H; lia). rewrite H by lia. rewrite plus_IZR. ring.
Qed.
Lemma pow_Z z n : IZR z ^ n = IZR (z ^ Z.of_nat n).
Proof. induction n as [|n IH]; [reflexivity|]. rewrite Nat2Z.inj_succ, Z.pow_succ_r by lia. cbn [pow]. rewrite mult_IZR, IH. reflexivity. Qed.
Lemma poly_at x y d : (0 < d)%nat -> poly10 cij (IZR x / IZR (Z.of_nat d)) (IZR y) = IZR (zpoly x y d) * / (10 ^ 23 * IZR (Z.of_nat d) ^ 10).
Proof.
  intros Hd. assert (D0 : IZR (Z.of_nat d) <> 0) by (apply not_0_IZR; lia).
  assert (Sm : forall p q, (p < 11)%nat -> (q < 11)%nat -> (snd (nth q (nth p cij_table []) (0%Z, 0%nat)) <= 23)%nat).
  { intros p q Hp Hq. do 11 (destruct p as [|p]; [do 11 (destruct q as [|q]; [cbn [nth cij_table snd]; lia|]); lia|]). lia. }
  unfold poly10, zpoly. apply sumn_sumz. intros p Hp. apply sumn_sumz. intros q Hq.
  specialize (Sm p q Hp ltac:(lia)). unfold cij, decimal, scaled. set (c := nth q (nth p cij_table []) (0%Z, 0%nat)) in *.
  rewrite !mult_IZR. rewrite <- !pow_Z. replace (23 - Z.of_nat (snd c))%Z with (Z.of_nat (23 - snd c)) by lia. rewrite <- pow_Z.
  set (D := IZR (Z.of_nat d)) in *. unfold Rdiv. rewrite Rpow_mult_distr, pow_inv.
  replace (10 ^ 23) with (10 ^ (23 - snd c) * 10 ^ snd c) by (rewrite <- pow_add; f_equal; lia).
  replace (D ^ 10) with (D ^ (10 - p) * D ^ p) by (rewrite <- pow_add; f_equal; lia).
  assert (10 ^ (23 - snd c) <> 0) by (apply pow_nonzero; lra). assert (10 ^ snd c <> 0) by (apply pow_nonzero; lra).
  assert (D ^ (10 - p) <> 0) by (apply pow_nonzero, D0). assert (D ^ p <> 0) by (apply pow_nonzero, D0).
  field. repeat split; assumption.
Qed.
Theorem C115_table_values :
  poly10 cij 1 1 = 4236754075773078353387520 / (10 ^ 23 * 2 ^ 10) /\
  poly10 cij (1 / 2) 3 = 2985634465171096061578880 / (10 ^ 23 * 2 ^ 10).
Proof.
  split.
  - assert (H := poly_at 2 1 2 ltac:(lia)). replace (IZR 2 / IZR (Z.of_nat 2)) with 1 in H by (cbn; lra). cbn [Z.of_nat Pos.of_succ_nat Pos.succ] in H.
    rewrite H. replace (zpoly 2 1 2) with 4236754075773078353387520%Z by (vm_compute; reflexivity). reflexivity.
  - assert (H := poly_at 1 3 2 ltac:(lia)). cbn [Z.of_nat Pos.of_succ_nat Pos.succ] in H.
    rewrite H. replace (zpoly 1 3 2) with 2985634465171096061578880%Z by (vm_compute; reflexivity). reflexivity.
Qed.
Print Assumptions C115_table_values.

(** * C116 *)
(** With beads described by cut-off distances the Mie variant raises IndexError at every density,
    temperature and composition: no association energy can be computed. *)
Theorem C116_mie_cutoff_refuted : forall sites xi nu nk epsHB m d dkl xskl C eps sig sigma K4v K6v rho T,
  Aassoc sites xi nu nk epsHB (calc_gr_assoc_mie m d dkl xskl C eps sig sigma rho T) true K4v K6v rho T = Err IndexError.
Proof. reflexivity. Qed.

(** With bonding volumes from the library it is computed, one value per density, from the
    association integral *)
Theorem C116_library : forall sites xi nu nk epsHB m d dkl xskl C eps sig sigma K4v K6v rho T,
  let g := fun r i j => calc_Iij m eps sig sigma xskl (nth r rho 0) T i j in
  exists A, Aassoc sites xi nu nk epsHB (calc_gr_assoc_mie m d dkl xskl C eps sig sigma rho T) false K4v K6v rho T = Ok A /\
    A = map (fun X => assoc_energy sites xi nu nk (fst X)) (calc_Xika sites xi nu nk (fun k l a b => exp (epsHB k l a b / T) - 1) g (K4 K4v) rho) /\
    length A = length rho.
Proof.
  intros. unfold Aassoc, calc_gr_assoc_mie. cbn [ktype String.eqb rbind]. eexists. split; [reflexivity|]. split; [reflexivity|].
  rewrite map_length. unfold calc_Xika, py_calc_Xika.
  assert (D : forall stp tol damp mx l r old, length (densities stp tol damp mx r l old) = length l)
    by (intros stp tol damp mx l; induction l as [|x l IHl]; intros r old; [reflexivity|]; cbn [densities length]; f_equal; apply IHl).
  apply D.
Qed.
(** The energy at each density is that of fractions in (0, 1] which satisfy the law of mass action with these
    strengths up to the error the loop ended with, when that is below its tolerance *)
Theorem C116_energy : forall sites xi nu nk epsHB gr rc K4v K6v rho T A g,
  Aassoc sites xi nu nk epsHB gr rc K4v K6v rho T = Ok A -> gr (if rc then "ijklab" else "klab")%string = Ok g ->
  (forall i, 0 <= xi i) -> (forall i k, 0 <= nu i k) -> (forall k a, 0 <= nk k a) ->
  (forall p, In p rho -> 0 <= p) -> 0 < T -> (forall k l a b, 0 <= epsHB k l a b) ->
  (forall k l a b, 0 <= K4v k l a b) -> (forall i j k l a b, 0 <= K6v i j k l a b) -> (forall r i j, 0 <= g r i j) ->
  length A = length rho /\
  forall r p a, nth_error rho r = Some p -> nth_error A r = Some a ->
    exists X err,
      nth_error (calc_Xika sites xi nu nk (fun k l a b => exp (epsHB k l a b / T) - 1) g (if rc then K6 K6v else K4 K4v) rho) r = Some (X, err) /\
      length X = length sites /\ (forall x, In x X -> 0 < x <= 1) /\
      a = tot (map (fun q => let '(i, k, b) := fst q in xi i * nu i k * nk k b * (ln (snd q) + (1 - snd q) / 2)) (combine sites X)) /\
      (err < 1 / 10 ^ 12 -> mass_balance_error sites xi nu nk (bond_strength epsHB T rc K4v K6v (g r)) p X = err).
Proof.
  intros sites xi nu nk epsHB gr rc K4v K6v rho T A g E G Hx Hn Hk Hr HT He HK4 HK6 Hg.
  unfold Aassoc in E. replace (gr (ktype rc)) with (@Ok (nat -> nat -> nat -> R) g) in E by (rewrite <- G; destruct rc; reflexivity). cbn [rbind] in E. injection E as <-.
  set (F := fun k l a b => exp (epsHB k l a b / T) - 1) in *.
  assert (HF : forall k l x y, 0 <= F k l x y).
  { intros k l x y. unfold F. assert (0 <= epsHB k l x y / T) by (apply Rmult_le_pos; [apply He|left; apply Rinv_0_lt_compat; exact HT]).
    pose proof (exp_ineq1_le (epsHB k l x y / T)). lra. }
  set (K := if rc then K6 K6v else K4 K4v) in *.
  destruct (C34_fractions sites xi nu nk F g K rho Hx Hn Hk) as (L & P).
  { intros r p Hp. apply Hr. apply nth_error_In in Hp. exact Hp. }
  { intros r s t _ _. unfold K, py_delta. destruct rc; repeat apply Rmult_le_pos; auto. }
  split; [rewrite map_length; exact L|]. intros r p a Hp Ha.
  rewrite nth_error_map in Ha. destruct (nth_error (calc_Xika sites xi nu nk F g K rho) r) as [[X err]|] eqn:EX; [|discriminate].
  cbn in Ha. injection Ha as <-. exists X, err. split; [reflexivity|].
  destruct (P r p X err Hp EX) as (LX & FX & ME). split; [exact LX|]. split; [exact FX|].
  split; [apply (C76_energy sites xi nu nk X Hx Hn Hk LX FX)|]. intros Herr. rewrite <- (ME Herr).
  assert (S : forall s t, bond_strength epsHB T rc K4v K6v (g r) s t = py_delta F g K r s t).
  { intros [[i k] c] [[j l] b]. unfold bond_strength, py_delta, K, F, comp_of, bead_of, type_of. destruct rc; reflexivity. }
  unfold mass_balance_error, partners. f_equal. apply map_ext. intros q. do 5 f_equal. apply map_ext. intros u.
  destruct (fst u) as [[j l] b]. rewrite S. reflexivity.
Qed.
Print Assumptions C116_energy.
(** Where the strengths and the correlation are not negative, association lowers the energy,
    whatever the source of the correlation *)
Theorem C116_lowers : forall sites xi nu nk epsHB gr rc K4v K6v rho T A g,
  Aassoc sites xi nu nk epsHB gr rc K4v K6v rho T = Ok A -> gr (ktype rc) = Ok g ->
  (forall i, 0 <= xi i) -> (forall i k, 0 <= nu i k) -> (forall k a, 0 <= nk k a) ->
  (forall p, In p rho -> 0 <= p) -> 0 < T -> (forall k l a b, 0 <= epsHB k l a b) ->
  (forall k l a b, 0 <= K4v k l a b) -> (forall i j k l a b, 0 <= K6v i j k l a b) -> (forall r i j, 0 <= g r i j) ->
  forall a, In a A -> a <= 0.
Proof.
  intros sites xi nu nk epsHB gr rc K4v K6v rho T A g E G Hx Hn Hk Hr HT He HK4 HK6 Hg a Ha.
  unfold Aassoc in E. rewrite G in E. cbn [rbind] in E. injection E as <-.
  set (F := fun k l a b => exp (epsHB k l a b / T) - 1) in *.
  assert (HF : forall k l x y, 0 <= F k l x y).
  { intros k l x y. unfold F. assert (0 <= epsHB k l x y / T) by (apply Rmult_le_pos; [apply He|left; apply Rinv_0_lt_compat; exact HT]).
    pose proof (exp_ineq1_le (epsHB k l x y / T)). lra. }
  apply in_map_iff in Ha. destruct Ha as ([X err] & <- & HX). cbn [fst].
  set (K := if rc then K6 K6v else K4 K4v) in *.
  destruct (C34_fractions sites xi nu nk F g K rho Hx Hn Hk) as (L & P).
  - intros r p Hp. apply Hr. apply nth_error_In in Hp. exact Hp.
  - intros r s t _ _. unfold K, py_delta. destruct rc; repeat apply Rmult_le_pos; auto.
  - apply In_nth_error in HX. destruct HX as (r & HX).
    destruct (nth_error rho r) as [p|] eqn:Ep.
    + destruct (P r p X err Ep HX) as (LX & FX & _). apply (C76_energy sites xi nu nk X Hx Hn Hk LX FX).
    + exfalso. apply nth_error_None in Ep. assert (nth_error (calc_Xika sites xi nu nk F g K rho) r <> None) by congruence.
      apply nth_error_Some in H. lia.
Qed.
(** The square-well variant answers for both kinds, with one and the same correlation; the Mie
    variant refuses an unknown kind, the square-well variant does not *)
Theorem C116_kinds : forall m d dkl xskl C eps sig sigma gSW rho T kt,
  (exists g, calc_gr_assoc_sw gSW rho T kt = Ok g /\ calc_gr_assoc_sw gSW rho T "ijklab" = Ok g) /\
  (kt <> "klab" -> kt <> "ijklab" -> calc_gr_assoc_mie m d dkl xskl C eps sig sigma rho T kt = Err ValueError)%string.
Proof.
  intros. split; [eexists; split; reflexivity|]. intros N1 N2. unfold calc_gr_assoc_mie.
  destruct (String.eqb_spec kt "klab"); [contradiction|]. destruct (String.eqb_spec kt "ijklab"); [contradiction|reflexivity].
Qed.

(** * Cases *)
(** two sites that bond, one component, one density: the hypotheses of C116_lowers hold *)
Example C116_case :
  let sites := [(0, 0, 0); (0, 0, 1)]%nat in
  exists A, Aassoc sites (fun _ => 1) (fun _ _ => 1) (fun _ _ => 1) (fun _ _ _ _ => 2000) (calc_gr_assoc_sw (fun _ _ _ _ => 1) [100] 300) true
    (fun _ _ _ _ => 1 / 10) (fun _ _ _ _ _ _ => 1 / 10) [100] 300 = Ok A /\ length A = 1%nat /\ forall a, In a A -> a <= 0.
Proof.
  eexists. split; [reflexivity|]. split.
  - rewrite map_length. reflexivity.
  - eapply (C116_lowers [(0, 0, 0); (0, 0, 1)]%nat (fun _ => 1) (fun _ _ => 1) (fun _ _ => 1) (fun _ _ _ _ => 2000)
      (calc_gr_assoc_sw (fun _ _ _ _ => 1) [100] 300) true (fun _ _ _ _ => 1 / 10) (fun _ _ _ _ _ _ => 1 / 10) [100] 300 _ (fun _ _ _ => 1));
      try reflexivity; intros; try lra.
    cbn in H. destruct H as [<-|[]]. lra.
Qed.
(** the integral of a pure fluid at vanishing density and T = eps is the sum of the first row: about 0.0235 *)
Example C115_case : forall m sigma xskl, let I0 := calc_Iij m (fun _ => 300) (fun _ => 1 / 2) sigma xskl 0 300 0 0 in 234 / 10000 < I0 < 236 / 10000.
Proof.
  intros m sigma xskl. cbv zeta. rewrite C115_dilute.
  assert (D : 300 / mixed_depth 300 300 (1 / 2) (1 / 2) = 1).
  { unfold mixed_depth. rewrite !sqrt_square by lra. field. }
  rewrite D. cbn [sumn]. rewrite !pow1. unfold cij, decimal, cij_table. cbn [nth fst snd]. lra.
Qed.

Print Assumptions C115_polynomial.
Print Assumptions C115_symmetric.
Print Assumptions C115_same_kind.
Print Assumptions C115_dilute.
Print Assumptions C115_scaling.
Print Assumptions C115_whole_table.
Print Assumptions C116_mie_cutoff_refuted.
Print Assumptions C116_library.
Print Assumptions C116_lowers.
Print Assumptions C116_kinds.
