(** Properties C85-C89: the energies, pressure and fugacity coefficients of a SAFT object, the factory, and
    association through an object's life. *)
From Coq Require Import Reals Lra Psatz Ascii.
From Coquelicot Require Import Coquelicot.
From Verif Require Import Base BaseFacts ToolboxModel ToolboxProofs PartialDensityModel PartialDensityProps SaftToolboxModel AssocModel SaftEosModel.
Open Scope R_scope.

Definition positive (l : list R) : Prop := Forall (fun r => 0 < r) l.
Definition total (l : list R) : R := fold_right Rplus 0 l.

Lemma check_rho_pos l : l <> [] -> positive l -> check_rho l = Ok l.
Proof.
  intros Hn Hp. unfold check_rho. destruct l as [|r l]; [congruence|].
  assert (existsb (fun r => if Rlt_dec r 0 then true else false) (r :: l) = false) as ->; [|reflexivity].
  apply Bool.not_true_iff_false. intros E. apply existsb_exists in E. destruct E as (x & Hx & E).
  unfold positive in Hp. rewrite Forall_forall in Hp. specialize (Hp x Hx). destruct (Rlt_dec x 0); [lra|discriminate].
Qed.
Lemma nonneg_test l : Forall (fun x => 0 <= x) l -> existsb (fun x => if Rlt_dec x 0 then true else false) l = false.
Proof.
  intros Hp. apply Bool.not_true_iff_false. intros E. apply existsb_exists in E. destruct E as (x & Hx & E).
  rewrite Forall_forall in Hp. specialize (Hp x Hx). destruct (Rlt_dec x 0); [lra|discriminate].
Qed.
Lemma combine_self_map {A B} (f : A -> B) l : combine (map f l) l = map (fun x => (f x, x)) l.
Proof. induction l as [|x l IH]; cbn; [reflexivity|]. f_equal; exact IH. Qed.

  Lemma significant_all eps xi ms : Forall (fun x => eps <= x) xi -> length xi = length ms -> significant eps xi ms = Ok (combine xi ms).
  Proof.
    revert ms. induction xi as [|x xi IH]; intros ms Hx Hl; [reflexivity|]. destruct ms as [|m ms]; [discriminate|]. inversion Hx; subst.
    injection Hl as Hl. cbn [significant combine]. destruct (Rlt_dec x eps) as [L|L]; [exfalso; exact (Rlt_not_le _ _ L H1)|]. rewrite IH; [reflexivity|assumption|exact Hl].
  Qed.
  Lemma wavelength_pos T m : 0 < T -> 0 < m -> 0 < wavelength T m.
  Proof.
    intros HT Hm. unfold wavelength. apply sqrt_lt_R0. pose proof PI_RGT_0.
    assert (0 < c_h) by (unfold c_h; apply Rdiv_lt_0_compat; [lra|apply pow_lt; lra]).
    assert (0 < c_Nav) by (unfold c_Nav; apply Rmult_lt_0_compat; [lra|apply pow_lt; lra]).
    assert (0 < c_kb) by (unfold c_kb; apply Rdiv_lt_0_compat; [lra|apply pow_lt; lra]).
    assert (0 < c_m2nm) by (unfold c_m2nm; apply pow_lt; lra).
    generalize dependent c_h. generalize dependent c_Nav. generalize dependent c_kb. generalize dependent c_m2nm. intros a Ha b Hb c Hc d Hd.
    apply Rdiv_lt_0_compat; [apply Rmult_lt_0_compat; [|apply Rmult_lt_0_compat; [apply Rdiv_lt_0_compat|]]|]; repeat (assumption || lra || apply Rmult_lt_0_compat).
  Qed.
  Lemma ideal_split T xi ms : 0 < T -> positive ms -> Forall (fun x => 0 < x) xi -> length xi = length ms ->
    exists c, forall r, 0 < r ->
      fold_right (fun xm acc => fst xm * ln (wavelength T (snd xm) ^ 3 * (r * molecule_per_nm3 * fst xm)) + acc) 0 (combine xi ms)
      = total xi * ln r + c.
  Proof.
    intros HT. revert ms. induction xi as [|x xi IH]; intros ms Hm Hx Hl; [exists 0; intros; cbn; ring|].
    destruct ms as [|m ms]; [discriminate|]. inversion Hm; inversion Hx; subst. destruct (IH ms) as [c Hc]; [assumption|assumption|injection Hl as Hl; exact Hl|].
    exists (x * ln (wavelength T m ^ 3 * (molecule_per_nm3 * x)) + c). intros r Hr. cbn [combine fold_right fst snd]. rewrite (Hc r Hr).
    assert (0 < molecule_per_nm3) by (unfold molecule_per_nm3; lra).
    replace (wavelength T m ^ 3 * (r * molecule_per_nm3 * x)) with (r * (wavelength T m ^ 3 * (molecule_per_nm3 * x))) by ring.
    rewrite ln_mult; [cbn [total fold_right]; fold (total xi); ring|exact Hr|].
    apply Rmult_lt_0_compat; [apply pow_lt, wavelength_pos; assumption|apply Rmult_lt_0_compat; assumption].
  Qed.
  Lemma atanh_bounds h : 0 < h < 1 -> 2 * h <= ln (1 + h) - ln (1 - h) <= 2 * h / (1 - h ^ 2).
  Proof.
    intros Hh. destruct (MVT_gen (fun t => ln (1 + t) - ln (1 - t)) 0 h (fun t => 2 / (1 - t ^ 2))) as (c & Hc & E).
    - intros t Ht. rewrite Rmin_left, Rmax_right in Ht by lra. auto_derive; [lra|]. field. nra.
    - intros t Ht. rewrite Rmin_left, Rmax_right in Ht by lra. apply continuity_pt_minus.
      + apply derivable_continuous_pt. exists (/ (1 + t)). apply is_derive_Reals. auto_derive; [lra|]. field. lra.
      + apply derivable_continuous_pt. exists (- / (1 - t)). apply is_derive_Reals. auto_derive; [lra|]. field. lra.
    - rewrite Rmin_left, Rmax_right in Hc by lra. rewrite Rplus_0_r, !Rminus_0_r, ln_1 in E.
      replace (ln (1 + h) - ln (1 - h)) with (2 / (1 - c ^ 2) * h) by lra.
      assert (0 <= c ^ 2 <= h ^ 2) by nra. assert (h ^ 2 < 1) by nra. split.
      + assert (1 <= / (1 - c ^ 2)). { rewrite <- Rinv_1 at 1. apply Rinv_le_contravar; lra. } unfold Rdiv. nra.
      + assert (/ (1 - c ^ 2) <= / (1 - h ^ 2)) by (apply Rinv_le_contravar; lra). unfold Rdiv. nra.
  Qed.

Section Eos.
  Variables (eps : R) (ncomp : nat) (massi : list R) (method : string) (terms : list R -> R -> list R -> result (list R)).
  Hypothesis eps_pos : 0 < eps.
  Let energy := helmholtz_energy eps ncomp massi method terms.
  Let press := pressure eps ncomp massi method terms.

  (** [A] is the energy at temperature [T] and composition [xi]: what the object returns at each density of a list. *)
  Definition energy_is (T : R) (xi : list R) (A : R -> R) : Prop :=
    length xi = ncomp /\ forall l, l <> [] -> positive l -> energy l T xi = Ok (map A l).

  Lemma step_at h r : 0 < h < 1 -> eps <= r * h -> cd_step eps true h r = r * h /\ 0 < r * h < r.
  Proof.
    intros Hh Hr. unfold cd_step. destruct (Rlt_dec (r * h) eps); [lra|]. split; [reflexivity|]. split; [lra|]. nra.
  Qed.

  (** C86: the pressure at each density is the difference quotient of the energy about that density, times
      R T rho^2; the half-width of the difference is step_size * rho. *)
Theorem C86_difference_quotient : forall T xi A rho h,
    energy_is T xi A -> 0 < h < 1 -> rho <> [] -> Forall (fun r => eps <= r * h) rho ->
    press rho T xi h = Ok (map (fun r => (A (r + r * h) - A (r - r * h)) / (2 * (r * h)) * T * c_R * r ^ 2) rho).
  Proof.
    intros T xi A rho h [Hx HA] Hh Hn Hr. unfold press, pressure. rewrite Hx, Nat.eqb_refl. cbn [negb].
    assert (Hs : forall r, In r rho -> cd_step eps true h r = r * h /\ 0 < r * h < r).
    { intros r Hin. apply step_at; [exact Hh|]. rewrite Forall_forall in Hr. apply Hr, Hin. }
    assert (Hp : positive rho) by (apply Forall_forall; intros r Hin; destruct (Hs r Hin); lra).
    rewrite (check_rho_pos rho Hn Hp). cbn [rbind]. fold energy. rewrite HA.
    - cbn [rbind]. f_equal. transitivity (map (fun p => fst p * T * c_R * snd p ^ 2) (combine (central_difference eps (map A) true h rho) rho)).
      + f_equal. f_equal. unfold central_difference, cd_points. rewrite combine_map_self, !map_map. reflexivity.
      + rewrite central_difference_pointwise, combine_self_map, map_map. apply map_ext_in. intros r Hin. destruct (Hs r Hin) as [-> _]. reflexivity.
    - unfold cd_points. destruct rho; [congruence|discriminate].
    - unfold cd_points, positive. apply Forall_app. split; apply Forall_forall; intros y Hy; apply in_map_iff in Hy; destruct Hy as (r & <- & Hin);
        destruct (Hs r Hin) as [-> ?]; lra.
  Qed.

  (** C86: it differs from R T rho^2 dA/drho by at most the third derivative's bound. *)
Theorem C86_error_bound : forall T xi A r h H M,
    energy_is T xi A -> 0 < T -> 0 < h < 1 -> eps <= r * h -> r * h < H ->
    (forall t, r - H < t < r + H -> forall k, (k <= 3)%nat -> ex_derive_n A k t) ->
    (forall t, r - r * h <= t <= r + r * h -> Rabs (Derive_n A 3 t) <= M) ->
    exists P, press [r] T xi h = Ok [P] /\ Rabs (P - c_R * T * r ^ 2 * Derive A r) <= c_R * T * r ^ 2 * (M * (r * h) ^ 2 / 6).
  Proof.
    intros T xi A r h H M HA HT Hh Hr HH HD HM. eexists. split.
    - rewrite (C86_difference_quotient T xi A [r] h HA Hh); [reflexivity|discriminate|constructor; [exact Hr|constructor]].
    - destruct (step_at h r Hh Hr) as [_ Hs].
      pose proof (central_error A r (r * h) H M ltac:(lra) HD HM) as B.
      set (Q := (A (r + r * h) - A (r - r * h)) / (2 * (r * h))) in *.
      replace (Q * T * c_R * r ^ 2 - c_R * T * r ^ 2 * Derive A r) with (c_R * T * r ^ 2 * (Q - Derive A r)) by ring.
      assert (0 < c_R * T * r ^ 2). { assert (0 < c_R) by (unfold c_R; lra). assert (0 < r ^ 2) by (apply pow_lt; lra). repeat apply Rmult_lt_0_compat; lra. }
      rewrite Rabs_mult, (Rabs_pos_eq (c_R * T * r ^ 2)) by lra. apply Rmult_le_compat_l; lra.
  Qed.

  (** *** The ideal part *)
  Hypothesis broglie : method = "Abroglie"%string.

  (** the masses belonging to the components that are present *)
  Definition ideal_energy (T : R) (xi : list R) (r : R) : R :=
    fold_right (fun xm acc => fst xm * ln (wavelength T (snd xm) ^ 3 * (r * molecule_per_nm3 * fst xm)) + acc) 0 (combine xi massi) - 1.


  (** the total energy of an object whose residual terms are [a] *)
  Lemma energy_value T xi a : length xi = ncomp -> length massi = ncomp -> Forall (fun x => eps <= x) xi ->
    (forall l, positive l -> terms l T xi = Ok (map a l)) -> energy_is T xi (fun r => a r + ideal_energy T xi r).
  Proof.
    intros Hx Hm Hs Ht. split; [exact Hx|]. intros l Hn Hl. unfold energy, helmholtz_energy. rewrite Hx, Nat.eqb_refl. cbn [negb].
    rewrite (check_rho_pos l Hn Hl). cbn [rbind]. unfold residual_helmholtz_energy. rewrite Hx, Nat.eqb_refl. cbn [negb].
    rewrite (check_rho_pos l Hn Hl). cbn [rbind]. rewrite nonneg_test by (eapply Forall_impl; [|exact Hs]; cbn; intros; lra).
    rewrite (Ht l Hl). cbn [rbind]. unfold Aideal. rewrite Hx, Nat.eqb_refl. cbn [negb]. rewrite (check_rho_pos l Hn Hl). cbn [rbind].
    unfold Aideal_contribution. rewrite broglie, String.eqb_refl. unfold Abroglie. rewrite significant_all by (rewrite ?Hx, ?Hm; auto).
    cbn [rbind]. rewrite combine_map2, map_map. reflexivity.
  Qed.

  Definition ideal_terms := forall l T xi, terms l T xi = Ok (map (fun _ => 0) l).


  (** the ideal energy as a function of the density: sum(x) ln rho plus a constant *)


  (** C86: without residual terms the pressure is that of an ideal gas, to a relative error of twice the
      square of the step size (2e-12 for the default step 1e-6), and never below it. *)
Theorem C86_ideal_gas : forall T xi r h,
    ideal_terms -> length xi = ncomp -> length massi = ncomp -> positive massi -> Forall (fun x => eps <= x) xi -> total xi = 1 ->
    0 < T -> 0 < h <= 1 / 2 -> eps <= r * h ->
    exists P, press [r] T xi h = Ok [P] /\ r * c_R * T <= P <= r * c_R * T * (1 + 2 * h ^ 2).
  Proof.
    intros T xi r h Hid Hx Hm Hpm Hs H1 HT Hh Hr.
    assert (HA := energy_value T xi (fun _ => 0) Hx Hm Hs (fun l _ => Hid l T xi)).
    destruct (step_at h r ltac:(lra) Hr) as [_ Hst].
    destruct (ideal_split T xi massi HT Hpm) as [c Hc]; [eapply Forall_impl; [|exact Hs]; cbn; intros; lra|congruence|].
    eexists. split.
    - rewrite (C86_difference_quotient T xi _ [r] h HA ltac:(lra)); [reflexivity|discriminate|constructor; [exact Hr|constructor]].
    - unfold ideal_energy. rewrite !Hc by lra. rewrite H1.
      replace (r + r * h) with (r * (1 + h)) by ring. replace (r - r * h) with (r * (1 - h)) by ring.
      rewrite !ln_mult by lra.
      replace (0 + (1 * (ln r + ln (1 + h)) + c - 1) - (0 + (1 * (ln r + ln (1 - h)) + c - 1))) with (ln (1 + h) - ln (1 - h)) by ring.
      pose proof (atanh_bounds h ltac:(lra)) as [L U]. set (D := ln (1 + h) - ln (1 - h)) in *.
      replace (D / (2 * (r * h)) * T * c_R * r ^ 2) with (r * c_R * T * (D / (2 * h))) by (field; lra).
      assert (HR : 0 < r * c_R * T). { assert (0 < c_R) by (unfold c_R; lra). repeat apply Rmult_lt_0_compat; lra. }
      assert (L' : 1 <= D / (2 * h)) by (apply Rmult_le_reg_r with (2 * h); [lra|]; unfold Rdiv; rewrite Rmult_assoc, Rinv_l by lra; lra).
      assert (U' : D / (2 * h) <= 1 + 2 * h ^ 2).
      { apply Rle_trans with (/ (1 - h ^ 2)).
        - apply Rmult_le_reg_r with (2 * h); [lra|]. unfold Rdiv in *. rewrite Rmult_assoc, Rinv_l by lra. lra.
        - assert (h ^ 2 <= 1 / 4) by nra. apply Rmult_le_reg_r with (1 - h ^ 2); [lra|]. rewrite Rinv_l by lra. nra. }
      split; [rewrite <- (Rmult_1_r (r * c_R * T)) at 1|]; apply Rmult_le_compat_l; lra.
  Qed.

  (** C86: the pressure is the ideal one plus the residual part of the difference quotient. *)
Theorem C86_residual_part : forall T xi a r h,
    (forall l, positive l -> terms l T xi = Ok (map a l)) ->
    length xi = ncomp -> length massi = ncomp -> positive massi -> Forall (fun x => eps <= x) xi -> total xi = 1 ->
    0 < T -> 0 < h < 1 -> eps <= r * h ->
    exists P0, press [r] T xi h = Ok [P0 + (a (r + r * h) - a (r - r * h)) / (2 * (r * h)) * T * c_R * r ^ 2] /\
      P0 = r * c_R * T * ((ln (1 + h) - ln (1 - h)) / (2 * h)).
  Proof.
    intros T xi a r h Ht Hx Hm Hpm Hs H1 HT Hh Hr.
    assert (HA := energy_value T xi a Hx Hm Hs Ht).
    destruct (step_at h r Hh Hr) as [_ Hst].
    destruct (ideal_split T xi massi HT Hpm) as [c Hc]; [eapply Forall_impl; [|exact Hs]; cbn; intros; lra|congruence|].
    eexists. split; [|reflexivity].
    rewrite (C86_difference_quotient T xi _ [r] h HA Hh); [|discriminate|constructor; [exact Hr|constructor]].
    cbn [map]. do 2 f_equal. unfold ideal_energy. rewrite !Hc by lra. rewrite H1.
    replace (ln (r + r * h)) with (ln r + ln (1 + h)) by (rewrite <- ln_mult by lra; f_equal; ring).
    replace (ln (r - r * h)) with (ln r + ln (1 - h)) by (rewrite <- ln_mult by lra; f_equal; ring).
    field. lra.
  Qed.

  (** C86 fails near density zero: a list with a density below twice the machine epsilon is refused with
      ValueError as a whole, although each density is acceptable. *)
Theorem C86_vanishing_density_refuted : forall T xi rho h r,
    length xi = ncomp -> 0 < h < 1 / 2 -> Forall (fun r => 0 <= r) rho -> In r rho -> r < 2 * eps ->
    press rho T xi h = Err ValueError.
  Proof.
    intros T xi rho h r Hx Hh Hn Hin Hr. unfold press, pressure. rewrite Hx, Nat.eqb_refl. cbn [negb].
    assert (check_rho rho = Ok rho) as ->. { unfold check_rho. destruct rho; [destruct Hin|]. rewrite nonneg_test by exact Hn. reflexivity. }
    cbn [rbind]. assert (helmholtz_energy eps ncomp massi method terms (cd_points eps h rho) T xi = Err ValueError) as ->; [|reflexivity].
    unfold helmholtz_energy. rewrite Hx, Nat.eqb_refl. cbn [negb].
    assert (check_rho (cd_points eps h rho) = Err ValueError) as ->; [|reflexivity].
    unfold check_rho. destruct (cd_points eps h rho) eqn:E; [reflexivity|]. rewrite <- E.
    assert (existsb (fun x => if Rlt_dec x 0 then true else false) (cd_points eps h rho) = true) as ->; [|reflexivity].
    apply existsb_exists. exists (r - cd_step eps true h r). split.
    - unfold cd_points. apply in_or_app. right. apply in_map_iff. exists r. split; [reflexivity|exact Hin].
    - rewrite Forall_forall in Hn. specialize (Hn r Hin). unfold cd_step. destruct (Rlt_dec (r * h) eps) as [L|L].
      + destruct (Rlt_dec (r - 2 * eps) 0); [reflexivity|lra].
      + exfalso. apply L. nra.
  Qed.
End Eos.
Print Assumptions C86_difference_quotient.
Print Assumptions C86_error_bound.
Print Assumptions C86_ideal_gas.
Print Assumptions C86_residual_part.
Print Assumptions C86_vanishing_density_refuted.

(** An instance: two components, a residual energy linear in the density. *)
Example C86_case : exists P, pressure (/ 10 ^ 15) 2 [1 / 10; 2 / 10] "Abroglie" (fun l _ _ => Ok (map (fun r => 3 * r) l)) [2] 300 [1 / 4; 3 / 4] (1 / 10 ^ 6) = Ok [P].
Proof.
  destruct (C86_residual_part (/ 10 ^ 15) 2 [1 / 10; 2 / 10] "Abroglie" (fun l _ _ => Ok (map (fun r => 3 * r) l)) ltac:(apply Rinv_0_lt_compat, pow_lt; lra) eq_refl
    300 [1 / 4; 3 / 4] (fun r => 3 * r) 2 (1 / 10 ^ 6)) as (P0 & H & _); try reflexivity; try (eexists; exact H); try lra.
  all: assert (/ 10 ^ 15 <= 1 / 10 ^ 8) by (unfold Rdiv; rewrite Rmult_1_l; apply Rinv_le_contravar; [apply pow_lt; lra|apply Rle_pow; [lra|lia]]).
  - unfold positive. apply Forall_cons; [lra|apply Forall_cons; [lra|constructor]].
  - apply Forall_cons; [lra|apply Forall_cons; [lra|constructor]].
  - cbn. lra.
Qed.

(** ** C87: fugacity coefficients *)
Section Fugacity.
  Variables (eps : R) (ncomp : nat) (ares : R -> R -> list R -> R).
  Let phi := fugacity_coefficient eps ncomp ares.

  Lemma phi_nth P rho xi T dy lg i : length xi = ncomp -> 0 <= rho -> (i < ncomp)%nat ->
    exists l, phi P rho xi T dy lg = Ok l /\ length l = ncomp /\
      nth i l 0 = exp (ares rho T xi + rho * nth i (partial_density_central_difference ares eps xi rho T dy true) 0 - ln (P / (rho * T * c_R))).
  Proof.
    intros Hx Hr Hi. eexists. unfold phi, fugacity_coefficient. rewrite Hx, Nat.eqb_refl. cbn [negb].
    unfold check_rho. cbn [existsb]. destruct (Rlt_dec rho 0); [exfalso; lra|]. cbn [orb rbind]. split; [reflexivity|].
    assert (L : length (partial_density_central_difference ares eps xi rho T dy true) = ncomp).
    { unfold partial_density_central_difference. rewrite map_length, seq_length. exact Hx. }
    split; [rewrite map_length; exact L|].
    set (f := fun q => exp (ares rho T xi + rho * q - ln (P / (rho * T * c_R)))).
    rewrite (nth_indep _ 0 (f 0)) by (rewrite map_length, L; exact Hi). rewrite map_nth. reflexivity.
  Qed.

  (** C87: for every component present the logarithm of its coefficient is A + rho q - ln Z, with q the
      difference quotient of the residual energy in the logarithm of that component's density. *)
Theorem C87_value : forall P rho xi T dy lg i, length xi = ncomp -> 0 < rho -> (i < ncomp)%nat -> nth i xi 0 <> 0 ->
    let rhos := map (fun x => rho * x) xi in let r := rho * nth i xi 0 in
    exists l, phi P rho xi T dy lg = Ok l /\ length l = ncomp /\
      nth i l 0 = exp (ares rho T xi
        + rho * ((along ares T rhos i (r * exp dy) - along ares T rhos i (r * exp (- dy))) / (2 * dy) / r)
        - ln (P / (rho * T * c_R))).
  Proof.
    intros P rho xi T dy lg i Hx Hr Hi Hn rhos r. destruct (phi_nth P rho xi T dy lg i Hx ltac:(lra) Hi) as (l & E & L & V).
    exists l. split; [exact E|]. split; [exact L|]. rewrite V.
    destruct (C68_difference_quotient ares eps xi rho T dy true i ltac:(lia) ltac:(lra)) as [_ Q]. rewrite (Q Hn). reflexivity.
  Qed.

  (** C87: against the exact partial derivative the logarithm is off by at most rho M dy^2 / (6 rho_i), M
      bounding the third derivative with respect to the logarithm of rho_i. *)
Theorem C87_error_bound : forall P rho xi T dy lg i H M, length xi = ncomp -> 0 < rho -> (i < ncomp)%nat -> 0 < nth i xi 0 ->
    let f := along ares T (map (fun x => rho * x) xi) i in let r := rho * nth i xi 0 in
    let g := fun u => f (exp u) in
    0 < dy < H -> ex_derive f r ->
    (forall t, ln r - H < t < ln r + H -> forall k, (k <= 3)%nat -> ex_derive_n g k t) ->
    (forall t, ln r - dy <= t <= ln r + dy -> Rabs (Derive_n g 3 t) <= M) ->
    exists l, phi P rho xi T dy lg = Ok l /\
      Rabs (ln (nth i l 0) - (ares rho T xi + rho * Derive f r - ln (P / (rho * T * c_R)))) <= rho * (M * dy ^ 2 / 6) / r.
  Proof.
    intros P rho xi T dy lg i H M Hx Hr Hi Hn f r g Hd Hf HD HM.
    destruct (C87_value P rho xi T dy lg i Hx Hr Hi ltac:(lra)) as (l & E & _ & V). exists l. split; [exact E|].
    rewrite V, ln_exp. fold f. fold r. assert (0 < r) by (unfold r; apply Rmult_lt_0_compat; assumption).
    pose proof (central_error g (ln r) dy H M Hd HD HM) as B.
    assert (Dg : Derive g (ln r) = r * Derive f r).
    { unfold g. rewrite Derive_comp. 2:{ rewrite exp_ln by assumption. exact Hf. } 2:{ auto_derive. exact I. }
      rewrite exp_ln by assumption. f_equal. apply is_derive_unique. auto_derive; [exact I|]. rewrite exp_ln by assumption. ring. }
    rewrite Dg in B.
    assert (G1 : g (ln r + dy) = f (r * exp dy)) by (unfold g; rewrite exp_plus, exp_ln by assumption; reflexivity).
    assert (G2 : g (ln r - dy) = f (r * exp (- dy))) by (unfold g, Rminus; rewrite exp_plus, exp_ln by assumption; reflexivity).
    rewrite G1, G2 in B. clear G1 G2.
    set (Q := (f (r * exp dy) - f (r * exp (- dy))) / (2 * dy)) in *.
    replace (ares rho T xi + rho * (Q / r) - ln (P / (rho * T * c_R)) - (ares rho T xi + rho * Derive f r - ln (P / (rho * T * c_R))))
      with (rho / r * (Q - r * Derive f r)) by (field; lra).
    assert (0 < rho / r) by (apply Rdiv_lt_0_compat; assumption).
    rewrite Rabs_mult, (Rabs_pos_eq (rho / r)) by lra.
    replace (rho * (M * dy ^ 2 / 6) / r) with (rho / r * (M * dy ^ 2 / 6)) by (field; lra). apply Rmult_le_compat_l; lra.
  Qed.

  (** C87: without residual energy all coefficients at the ideal-gas pressure are one. *)
Theorem C87_ideal_gas : forall P rho xi T dy lg, (forall r t x, ares r t x = 0) -> length xi = ncomp -> 0 < rho -> 0 < T ->
    Forall (fun x => x <> 0) xi -> P = rho * T * c_R -> phi P rho xi T dy lg = Ok (map (fun _ => 1) xi).
  Proof.
    intros P rho xi T dy lg H0 Hx Hr HT Hn ->.
    assert (HP : rho * T * c_R <> 0). { assert (0 < c_R) by (unfold c_R; lra). assert (0 < rho * T * c_R) by (repeat apply Rmult_lt_0_compat; lra). lra. }
    unfold phi, fugacity_coefficient. rewrite Hx, Nat.eqb_refl. cbn [negb]. unfold check_rho. cbn [existsb]. destruct (Rlt_dec rho 0); [lra|]. cbn [orb rbind].
    f_equal. unfold partial_density_central_difference. rewrite map_map.
    assert (E : forall i, (i < length xi)%nat -> exp (ares rho T xi + rho * pd_log ares eps xi rho T dy i - ln (rho * T * c_R / (rho * T * c_R))) = 1).
    { intros i Hi. assert (nth i xi 0 <> 0) by (rewrite Forall_forall in Hn; apply Hn, nth_In; exact Hi).
      unfold pd_log, wrapper. destruct (Req_EM_T (nth i xi 0) 0); [contradiction|]. rewrite !H0.
      replace (rho * T * c_R / (rho * T * c_R)) with 1 by (field; repeat split; intros E; apply HP; rewrite E; ring).
      rewrite ln_1. unfold Rdiv. rewrite Rminus_eq_0, !Rmult_0_l, Rmult_0_r, Rplus_0_r, Rminus_0_r. apply exp_0. }
    apply nth_ext with (d := 1) (d' := 1); [rewrite !map_length, seq_length; reflexivity|]. rewrite map_length, seq_length. intros i Hi.
    rewrite (nth_indep (map _ (seq 0 (length xi))) 1 (exp (ares rho T xi + rho * pd_log ares eps xi rho T dy 0 - ln (rho * T * c_R / (rho * T * c_R))))) by (rewrite map_length, seq_length; exact Hi).
    rewrite (map_nth (fun x => exp (ares rho T xi + rho * pd_log ares eps xi rho T dy x - ln (rho * T * c_R / (rho * T * c_R))))).
    rewrite seq_nth by exact Hi. cbn [Nat.add]. rewrite E by exact Hi.
    symmetry. exact (map_nth (fun _ : R => 1) xi 0 i).
  Qed.
End Fugacity.
Print Assumptions C87_value.
Print Assumptions C87_error_bound.
Print Assumptions C87_ideal_gas.

(** A residual energy whose derivative with respect to the second component's density is one. *)
Definition second_density (rho T : R) (xi : list R) : R := rho * nth 1 xi 0.

Lemma sinh_gt h : 0 < h -> 2 * h < exp h - exp (- h).
Proof.
  intros Hh. destruct (MVT_cor2 (fun t => exp t - exp (- t)) (fun t => exp t + exp (- t)) 0 h Hh) as (c & E & Hc).
  - intros t _. apply is_derive_Reals. auto_derive; [exact I|]. ring.
  - rewrite Ropp_0, exp_0 in E. assert (2 < exp c + exp (- c)).
    { replace (exp c) with (exp (c / 2) * exp (c / 2)) by (rewrite <- exp_plus; f_equal; field).
      replace (exp (- c)) with (exp (- (c / 2)) * exp (- (c / 2))) by (rewrite <- exp_plus; f_equal; field).
      assert (exp (c / 2) * exp (- (c / 2)) = 1) by (rewrite <- exp_plus, Rplus_opp_r; apply exp_0).
      assert (exp (- (c / 2)) < exp (c / 2)) by (apply exp_increasing; lra). nra. }
    assert (2 * h < (exp c + exp (- c)) * h) by nra. lra.
Qed.

Lemma along_second T x r : 0 < x < 1 -> 0 < r ->
  along second_density T (map (fun x => 1 * x) [1 - x; x]) 1 r = r.
Proof.
  intros Hx Hr. unfold along, second_density. cbn [map firstn skipn app fold_right nth]. field. lra.
Qed.

(** C87 fails for a component at mole fraction zero: its coefficient is not the limit of the coefficients at
    small fractions; here those are all larger than e^(1/2) times the value reported at zero. *)
Theorem C87_absent_refuted : exists ares, forall eps P T dy lg, 0 < eps <= 1 / 2 -> 0 < dy ->
  exists phi0, fugacity_coefficient eps 2 ares P 1 [1; 0] T dy lg = Ok phi0 /\
    forall x, 0 < x < 1 -> exists phix, fugacity_coefficient eps 2 ares P 1 [1 - x; x] T dy lg = Ok phix /\
      exp (1 / 2) * nth 1 phi0 0 < nth 1 phix 0.
Proof.
  exists second_density. intros eps P T dy lg He Hd.
  destruct (phi_nth eps 2 second_density P 1 [1; 0] T dy lg 1 eq_refl ltac:(lra) ltac:(lia)) as (phi0 & E0 & _ & V0).
  exists phi0. split; [exact E0|]. intros x Hx.
  destruct (C87_value eps 2 second_density P 1 [1 - x; x] T dy lg 1 eq_refl ltac:(lra) ltac:(lia) ltac:(cbn; lra)) as (phix & Ex & _ & Vx).
  exists phix. split; [exact Ex|]. rewrite V0, Vx.
  destruct (C68_difference_quotient second_density eps [1; 0] 1 T dy true 1 ltac:(cbn; lia) ltac:(lra)) as [Q _]. rewrite (Q eq_refl).
  pose proof (exp_pos dy). pose proof (exp_pos (- dy)). change (nth 1 [1 - x; x] 0) with x.
  rewrite !along_second; [|exact Hx|apply Rmult_lt_0_compat; lra|exact Hx|apply Rmult_lt_0_compat; lra].
  rewrite <- exp_plus. apply exp_increasing. unfold second_density. cbn [nth].
  pose proof (sinh_gt dy Hd). set (c := ln _).
  replace ((1 * x * exp dy - 1 * x * exp (- dy)) / (2 * dy) / (1 * x)) with ((exp dy - exp (- dy)) / (2 * dy)) by (field; lra).
  assert (1 < (exp dy - exp (- dy)) / (2 * dy)).
  { apply Rmult_lt_reg_r with (2 * dy); [lra|]. unfold Rdiv. rewrite Rmult_assoc, Rinv_l by lra. lra. }
  lra.
Qed.
Print Assumptions C87_absent_refuted.

(** C87 fails for log_method=False: the logarithmic differences are used all the same, and they differ from
    the plain ones. *)
Theorem C87_log_method_refuted :
  (forall eps n ares P rho xi T dy, fugacity_coefficient eps n ares P rho xi T dy false = fugacity_coefficient eps n ares P rho xi T dy true) /\
  exists ares, forall eps T dy, 0 < dy < 1 / 2 ->
    nth 1 (partial_density_central_difference ares eps [1 / 2; 1 / 2] 1 T dy false) 0
    <> nth 1 (partial_density_central_difference ares eps [1 / 2; 1 / 2] 1 T dy true) 0.
Proof.
  split; [reflexivity|]. exists second_density. intros eps T dy Hd.
  destruct (C68_difference_quotient second_density eps [1 / 2; 1 / 2] 1 T dy false 1 ltac:(cbn; lia) ltac:(lra)) as [_ Q0]. rewrite Q0 by (cbn; lra).
  destruct (C68_difference_quotient second_density eps [1 / 2; 1 / 2] 1 T dy true 1 ltac:(cbn; lia) ltac:(lra)) as [_ Q1]. rewrite Q1 by (cbn; lra).
  pose proof (exp_pos dy). pose proof (exp_pos (- dy)). change (nth 1 [1 / 2; 1 / 2] 0) with (1 / 2).
  replace [1 / 2; 1 / 2] with [1 - 1 / 2; 1 / 2] by (f_equal; field).
  rewrite !along_second by (try apply Rmult_lt_0_compat; lra). pose proof (sinh_gt dy ltac:(lra)).
  replace ((1 * (1 / 2) + dy - (1 * (1 / 2) - dy)) / (2 * dy)) with 1 by (field; lra).
  replace ((1 * (1 / 2) * exp dy - 1 * (1 / 2) * exp (- dy)) / (2 * dy) / (1 * (1 / 2))) with ((exp dy - exp (- dy)) / (2 * dy)) by (field; lra).
  assert (1 < (exp dy - exp (- dy)) / (2 * dy)).
  { apply Rmult_lt_reg_r with (2 * dy); [lra|]. unfold Rdiv. rewrite Rmult_assoc, Rinv_l by lra. lra. }
  lra.
Qed.
Print Assumptions C87_log_method_refuted.

(** ** C88: the ideal contribution *)
Section Ideal.
  Variable eps : R.
  Hypothesis eps_small : 0 < eps <= 1.
  Let A (rho T : R) (xi ms : list R) := Aideal_contribution eps [rho] T xi ms "Abroglie".

  Lemma A_value rho T xi ms : Forall (fun x => eps <= x) xi -> length xi = length ms ->
    A rho T xi ms = Ok [fold_right (fun xm acc => fst xm * ln (wavelength T (snd xm) ^ 3 * (rho * molecule_per_nm3 * fst xm)) + acc) 0 (combine xi ms) - 1].
  Proof.
    intros Hx Hl. unfold A, Aideal_contribution. cbn [String.eqb Ascii.eqb Bool.eqb]. unfold Abroglie. rewrite significant_all by assumption. reflexivity.
  Qed.

  (** C88: mixing at fixed density and temperature adds the sum of x ln x to the mean of the pure energies. *)
Theorem C88_mixing : forall rho T xi ms, 0 < rho -> 0 < T -> positive ms -> Forall (fun x => eps <= x) xi -> length xi = length ms -> total xi = 1 ->
    exists a pure, A rho T xi ms = Ok [a] /\ Forall2 (fun m p => A rho T [1] [m] = Ok [p]) ms pure /\
      a = total (map (fun p => fst p * snd p) (combine xi pure)) + total (map (fun x => x * ln x) xi).
  Proof.
    intros rho T xi ms Hr HT Hm Hx Hl H1.
    set (p := fun m => ln (wavelength T m ^ 3 * (rho * molecule_per_nm3 * 1)) - 1).
    eexists. exists (map p ms). split; [apply A_value; assumption|]. split.
    - clear Hl. induction Hm as [|m ms Hm0 Hm IH]; constructor; [|exact IH]. rewrite A_value; [|apply Forall_cons; [lra|constructor]|reflexivity].
      cbn [combine fold_right fst snd]. unfold p. do 2 f_equal. ring.
    - assert (E : forall s, total xi = s -> fold_right (fun xm acc => fst xm * ln (wavelength T (snd xm) ^ 3 * (rho * molecule_per_nm3 * fst xm)) + acc) 0 (combine xi ms) - s
                = total (map (fun q => fst q * snd q) (combine xi (map p ms))) + total (map (fun x => x * ln x) xi)).
      { clear H1. revert ms Hm Hl. induction Hx as [|x xi Hx0 Hx IH]; intros ms Hm Hl s Hs; [cbn in *; lra|].
        destruct ms as [|m ms]; [discriminate|]. inversion Hm; subst. injection Hl as Hl.
        specialize (IH ms H2 Hl (total xi) eq_refl). cbn [combine map fold_right fst snd total]. unfold total in IH |- *. cbn [fold_right] in *.
        assert (0 < molecule_per_nm3) by (unfold molecule_per_nm3; lra). pose proof (wavelength_pos T m HT H1).
        replace (wavelength T m ^ 3 * (rho * molecule_per_nm3 * x)) with (x * (wavelength T m ^ 3 * (rho * molecule_per_nm3 * 1))) by ring.
        rewrite ln_mult; [unfold p at 1; lra|lra|]. apply Rmult_lt_0_compat; [apply pow_lt; assumption|repeat apply Rmult_lt_0_compat; lra]. }
      apply E. exact H1.
  Qed.

  (** C88: density and temperature dependence: A(rho) - A(rho0) = ln(rho/rho0), A(T) - A(T0) = -3/2 ln(T/T0). *)
Theorem C88_state : forall rho rho0 T T0 xi ms, 0 < rho -> 0 < rho0 -> 0 < T -> 0 < T0 -> positive ms -> Forall (fun x => eps <= x) xi -> length xi = length ms -> total xi = 1 ->
    exists a a0, A rho T xi ms = Ok [a] /\ A rho0 T0 xi ms = Ok [a0] /\ a - a0 = ln (rho / rho0) - 3 / 2 * ln (T / T0).
  Proof.
    intros rho rho0 T T0 xi ms Hr Hr0 HT HT0 Hm Hx Hl H1. eexists. eexists. split; [apply A_value; assumption|]. split; [apply A_value; assumption|].
    assert (W : forall m, 0 < m -> ln (wavelength T m) - ln (wavelength T0 m) = - (1 / 2) * ln (T / T0)).
    { intros m Hm0. pose proof (wavelength_pos T m HT Hm0). pose proof (wavelength_pos T0 m HT0 Hm0).
      rewrite <- ln_div by assumption. assert (wavelength T m / wavelength T0 m = sqrt (T0 / T)) as ->.
      { unfold wavelength. set (c := c_h * c_Nav * c_m2nm * (c_h / c_kb * c_m2nm)).
        assert (0 < c).
        { unfold c. assert (0 < c_h) by (unfold c_h; apply Rdiv_lt_0_compat; [lra|apply pow_lt; lra]).
          assert (0 < c_Nav) by (unfold c_Nav; apply Rmult_lt_0_compat; [lra|apply pow_lt; lra]).
          assert (0 < c_kb) by (unfold c_kb; apply Rdiv_lt_0_compat; [lra|apply pow_lt; lra]).
          assert (0 < c_m2nm) by (unfold c_m2nm; apply pow_lt; lra).
          clear -H2 H3 H4 H5. generalize dependent c_h. generalize dependent c_Nav. generalize dependent c_kb. generalize dependent c_m2nm. intros a Ha b Hb c Hc d Hd.
          apply Rmult_lt_0_compat; [|apply Rmult_lt_0_compat; [apply Rdiv_lt_0_compat|]]; repeat (assumption || lra || apply Rmult_lt_0_compat). }
        pose proof PI_RGT_0. clearbody c.
        rewrite <- sqrt_div; [|apply Rlt_le, Rdiv_lt_0_compat; [assumption|repeat (assumption || lra || apply Rmult_lt_0_compat)]|apply Rdiv_lt_0_compat; [assumption|repeat (assumption || lra || apply Rmult_lt_0_compat)]].
        f_equal. field. repeat split; lra. }
      assert (0 < T0 / T) by (apply Rdiv_lt_0_compat; assumption).
      assert (E : ln (T0 / T) = ln (sqrt (T0 / T)) + ln (sqrt (T0 / T))).
      { rewrite <- ln_mult by (apply sqrt_lt_R0; assumption). rewrite sqrt_sqrt by lra. reflexivity. }
      assert (ln (T0 / T) = - ln (T / T0)). { rewrite !ln_div by assumption. ring. } lra. }
    assert (E : forall s, total xi = s ->
       fold_right (fun xm acc => fst xm * ln (wavelength T (snd xm) ^ 3 * (rho * molecule_per_nm3 * fst xm)) + acc) 0 (combine xi ms)
       - fold_right (fun xm acc => fst xm * ln (wavelength T0 (snd xm) ^ 3 * (rho0 * molecule_per_nm3 * fst xm)) + acc) 0 (combine xi ms)
       = s * (ln (rho / rho0) - 3 / 2 * ln (T / T0))).
    { clear H1. revert ms Hm Hl. induction Hx as [|x xi Hx0 Hx IH]; intros ms Hm Hl s Hs; [cbn in *; subst; ring|].
      destruct ms as [|m ms]; [discriminate|]. inversion Hm; subst. injection Hl as Hl. specialize (IH ms H2 Hl (total xi) eq_refl).
      cbn [combine fold_right fst snd total]. fold (total xi).
      assert (HN : 0 < molecule_per_nm3) by (unfold molecule_per_nm3; lra).
      pose proof (wavelength_pos T m HT H1). pose proof (wavelength_pos T0 m HT0 H1). specialize (W m H1).
      assert (L : forall w r, 0 < w -> 0 < r -> ln (w ^ 3 * (r * molecule_per_nm3 * x)) = 3 * ln w + ln r + ln (molecule_per_nm3 * x)).
      { intros w r Hw Hr'. assert (0 < molecule_per_nm3 * x) by (apply Rmult_lt_0_compat; lra). assert (0 < w * w) by (apply Rmult_lt_0_compat; assumption).
        replace (w ^ 3 * (r * molecule_per_nm3 * x)) with (w * (w * w) * (r * (molecule_per_nm3 * x))) by ring.
        rewrite (ln_mult (w * (w * w))) by (apply Rmult_lt_0_compat; assumption). rewrite (ln_mult w (w * w)), (ln_mult w w), (ln_mult r) by assumption. ring. }
      rewrite !L by assumption. rewrite ln_div in IH |- * by assumption. nra. }
    specialize (E 1 H1). lra.
  Qed.

  (** C88: a component with a mole fraction below machine epsilon has no influence, and an unknown method is
      refused with ValueError. *)
Theorem C88_absent : forall rho T xi1 x xi2 ms1 m ms2 r1 , length xi1 = length ms1 -> x < eps ->
    Aideal_contribution eps rho T (xi1 ++ xi2) (ms1 ++ ms2) "Abroglie" = r1 ->
    Aideal_contribution eps rho T (xi1 ++ x :: xi2) (ms1 ++ m :: ms2) "Abroglie" = r1 /\
    (forall method, method <> "Abroglie"%string -> Aideal_contribution eps rho T xi1 ms1 method = Err ValueError).
  Proof.
    intros rho T xi1 x xi2 ms1 m ms2 r1 Hl Hx <-. split.
    - unfold Aideal_contribution. cbn [String.eqb Ascii.eqb Bool.eqb]. unfold Abroglie.
      assert (significant eps (xi1 ++ x :: xi2) (ms1 ++ m :: ms2) = significant eps (xi1 ++ xi2) (ms1 ++ ms2)) as ->; [|reflexivity].
      revert ms1 Hl. induction xi1 as [|y xi1 IH]; intros ms1 Hl; destruct ms1 as [|m1 ms1]; try discriminate.
      + cbn [app significant tl]. destruct (Rlt_dec x eps); [reflexivity|contradiction].
      + injection Hl as Hl. cbn [app significant tl]. rewrite (IH ms1 Hl). reflexivity.
    - intros method Hm. unfold Aideal_contribution. destruct (String.eqb_spec method "Abroglie"); [contradiction|reflexivity].
  Qed.
End Ideal.
(** C88: the thermal wavelength of the ideal term is the de Broglie wavelength h / sqrt(2 pi (m / N_A) k T) of a molecule
    of molar mass [m], in nanometres. *)
Theorem C88_wavelength : forall T m, 0 < T -> 0 < m ->
  wavelength T m = c_m2nm * (c_h / sqrt (2 * PI * (m / c_Nav) * c_kb * T)).
Proof.
  intros T m HT Hm. unfold wavelength. pose proof PI_RGT_0 as Hpi.
  assert (Hh : 0 < c_h) by (unfold c_h; lra). assert (HN : 0 < c_Nav) by (unfold c_Nav; lra).
  assert (Hk : 0 < c_kb) by (unfold c_kb; lra). assert (H9 : 0 < c_m2nm) by (unfold c_m2nm; lra).
  assert (HmN : 0 < m / c_Nav) by (apply Rdiv_lt_0_compat; assumption).
  assert (HD : 0 < 2 * PI * (m / c_Nav) * c_kb * T).
  { repeat (apply Rmult_lt_0_compat; [|assumption]). lra. }
  assert (HS := sqrt_lt_R0 _ HD).
  apply sqrt_lem_1.
  - apply Rlt_le, Rdiv_lt_0_compat; [|repeat (apply Rmult_lt_0_compat; [|assumption]); lra].
    assert (0 < c_h / c_kb) by (apply Rdiv_lt_0_compat; assumption).
    assert (0 < c_h / c_kb * c_m2nm) by (apply Rmult_lt_0_compat; assumption). repeat (apply Rmult_lt_0_compat; [|assumption]). assumption.
  - apply Rlt_le, Rmult_lt_0_compat; [assumption|]. apply Rdiv_lt_0_compat; assumption.
  - set (s := sqrt _) in *. assert (Es : s * s = 2 * PI * (m / c_Nav) * c_kb * T) by (apply sqrt_sqrt; lra).
    replace (c_m2nm * (c_h / s) * (c_m2nm * (c_h / s))) with (c_m2nm * c_h * (c_m2nm * c_h) / (s * s)) by (field; lra).
    rewrite Es. field. repeat split; lra.
Qed.
Print Assumptions C88_wavelength.

(** The 2014 CODATA values in SI units. *)
Definition planck : R := 662607004 / 10 ^ 8 / 10 ^ 34.
Definition avogadro : R := 602214086 / 10 ^ 8 * 10 ^ 23.
Definition boltzmann : R := 138064852 / 10 ^ 8 / 10 ^ 23.
(** De Broglie wavelength in metres of a molecule of molar mass [m] kg/mol. *)
Definition de_broglie (T m : R) : R := planck / sqrt (2 * PI * (m / avogadro) * boltzmann * T).

(** C88: the value in SI units: the sum of x ln(n x L^3), less one, with n the number of molecules per
    cubic metre at [rho] mol/m^3 and L the de Broglie wavelength of each component. *)
Theorem C88_value : forall eps rho T xi ms, 0 < T -> positive ms -> Forall (fun x => eps <= x) xi -> length xi = length ms ->
  Aideal_contribution eps [rho] T xi ms "Abroglie" =
  Ok [total (map (fun p => fst p * ln (avogadro * rho * fst p * de_broglie T (snd p) ^ 3)) (combine xi ms)) - 1].
Proof.
  intros eps rho T xi ms HT Hm Hx Hl. rewrite A_value by assumption. do 3 f_equal. clear Hx.
  revert ms Hm Hl. induction xi as [|x xi IH]; intros ms Hm Hl; [reflexivity|]. destruct ms as [|m ms]; [discriminate|].
  injection Hl as Hl. inversion Hm as [|m' ms' Hm0 Hms]; subst. cbn [combine fold_right map fst snd total]. rewrite (IH ms Hms Hl). fold (total (map (fun p => fst p * ln (avogadro * rho * fst p * de_broglie T (snd p) ^ 3)) (combine xi ms))).
  f_equal. f_equal. f_equal. rewrite C88_wavelength by assumption.
  assert (E : c_h / sqrt (2 * PI * (m / c_Nav) * c_kb * T) = de_broglie T m).
  { unfold de_broglie. assert (planck = c_h) as -> by (unfold planck, c_h; field; lra).
    assert (avogadro = c_Nav) as -> by (unfold avogadro, c_Nav; field; lra).
    assert (boltzmann = c_kb) as -> by (unfold boltzmann, c_kb; field; lra). reflexivity. }
  rewrite E. set (d := de_broglie T m). unfold c_m2nm, molecule_per_nm3, avogadro. field.
Qed.
Print Assumptions C88_value.

(** C88: the gas constant of the pressure is not the product of the two constants above, which calc.py:3316
    uses instead, but they agree to four parts in ten million. *)
Theorem C88_gas_constant : avogadro * boltzmann < c_R < avogadro * boltzmann * (1 + 4 / 10 ^ 7).
Proof. unfold avogadro, boltzmann, c_R. lra. Qed.
Print Assumptions C88_gas_constant.

Example C88_value_nonvacuous : exists a, Aideal_contribution (1 / 2 ^ 52) [1000] 300 [1 / 4; 3 / 4] [16 / 1000; 44 / 1000] "Abroglie" = Ok [a].
Proof.
  eexists. apply C88_value; [lra| | |reflexivity]; repeat (apply Forall_cons; [lra|]); constructor.
Qed.
Print Assumptions C88_mixing.
Print Assumptions C88_state.
Print Assumptions C88_absent.

(** ** C89: association after a refresh *)
Section AssocLife.
  Variables (P M : Type) (sites : bool) (mats : P -> result M) (none : M -> bool).
  Definition refresh_all (s : astate M) (l : list P) : result (astate M) := foldM (assoc_refresh P M mats) s l.
  (** C89: a new object associates exactly if some component has a bead with sites and some energy differs from zero. *)
Theorem C89_new : forall p m, mats p = Ok m -> exists s, assoc_init P M sites mats none p = Ok s /\ a_mats M s = m /\
    (a_flag M s = true <-> sites = true /\ none m = false).
  Proof.
    intros p m H. unfold assoc_init. rewrite H. eexists. split; [reflexivity|]. split; [reflexivity|]. cbn [a_flag].
    rewrite andb_true_iff, negb_true_iff. reflexivity.
  Qed.
  (** the flag never changes after construction *)
Theorem C89_flag_is_kept : forall l s s', refresh_all s l = Ok s' -> a_flag M s' = a_flag M s.
  Proof.
    unfold refresh_all. induction l as [|p l IH]; intros s s' H; cbn [foldM] in H; [injection H as <-; reflexivity|].
    destruct (assoc_refresh P M mats s p) as [s1|] eqn:E; [|discriminate]. cbn [rbind] in H. rewrite (IH _ _ H).
    unfold assoc_refresh in E. destruct (a_flag M s) eqn:F; [|injection E as <-; exact F].
    destruct (mats p); [|discriminate]. injection E as <-. reflexivity.
  Qed.
  (** C89: an object that associates when it is built holds, after every refresh, the matrices a new object
      would compute; *)
Theorem C89_refreshed_partial : forall p0 s0 l p s, assoc_init P M sites mats none p0 = Ok s0 -> a_flag M s0 = true ->
    refresh_all s0 (l ++ [p]) = Ok s -> exists m, mats p = Ok m /\ s = AState M true m.
  Proof.
    intros p0 s0 l p s H0 F H. unfold refresh_all in H. 
    assert (forall l s0, a_flag M s0 = true -> foldM (assoc_refresh P M mats) s0 (l ++ [p]) = Ok s -> exists m, mats p = Ok m /\ s = AState M true m) as G.
    { clear. induction l as [|q l IH]; intros s0 F H; cbn [app foldM] in H; unfold assoc_refresh in H at 1; rewrite F in H.
      - destruct (mats p) as [m|]; [|discriminate]. cbn [rbind foldM] in H. injection H as <-. exists m. split; reflexivity.
      - destruct (mats q) as [m|]; [|discriminate]. cbn [rbind] in H. eapply IH; [|exact H]. reflexivity. }
    eapply G; eassumption.
  Qed.
  (** an object without association energies when it is built never associates, whatever the parameters
      become, although a new object would. *)
Theorem C89_never_switched_on_refuted : forall p0 s0 l p s m, assoc_init P M sites mats none p0 = Ok s0 -> a_flag M s0 = false ->
    sites = true -> mats p = Ok m -> none m = false ->
    refresh_all s0 (l ++ [p]) = Ok s ->
    a_flag M s = false /\ a_mats M s = a_mats M s0 /\ exists s', assoc_init P M sites mats none p = Ok s' /\ a_flag M s' = true.
  Proof.
    intros p0 s0 l p s m H0 F Hs Hm Hn H. assert (E : s = s0).
    { clear H0 Hm. unfold refresh_all in H. revert H. generalize (l ++ [p])%list. intros k. induction k as [|q k IH]; cbn [foldM]; intros H; [congruence|].
      unfold assoc_refresh in H at 1. rewrite F in H. cbn [rbind] in H. apply IH, H. }
    subst s. split; [exact F|]. split; [reflexivity|]. eexists. unfold assoc_init. rewrite Hm. cbn [rbind]. split; [reflexivity|]. cbn. rewrite Hs, Hn. reflexivity.
  Qed.
End AssocLife.
Print Assumptions C89_new.
Print Assumptions C89_flag_is_kept.
Print Assumptions C89_refreshed_partial.
Print Assumptions C89_never_switched_on_refuted.

(** The same with the matrices of Aassoc.py: one bead with two sites whose energy is fitted from zero. *)
Definition one_bead (e : Z) : result (amat Z) :=
  calc_assoc_matrices Z 0%Z (Z.eqb 0) (fun v => (- Z.abs v)%Z) (fun _ _ _ _ => 0%Z) (fun _ _ => 0%Z) (fun _ _ => 0%Z)
    ["W"%string] [("W"%string, [("epsilonHB-H-e"%string, e); ("K-H-e"%string, 7%Z)])] [] ["H"%string; "e"%string] (fun _ _ => 1%Z).
Definition no_energy (m : amat Z) : bool :=
  forallb (fun a => forallb (fun b => Z.eqb 0 (AssocModel.eps Z m 0%nat 0%nat a b)) (seq 0 2)) (seq 0 2).
Definition energy_01 (s : astate (amat Z)) : Z := AssocModel.eps Z (a_mats _ s) 0%nat 0%nat 0%nat 1%nat.
Example C89_case :
  rbind (assoc_init Z (amat Z) true one_bead no_energy 0%Z) (fun s0 =>
    rbind (refresh_all Z (amat Z) one_bead s0 [1000%Z]) (fun s => Ok (a_flag _ s, energy_01 s))) = Ok (false, 0%Z) /\
  rbind (assoc_init Z (amat Z) true one_bead no_energy 1000%Z) (fun s => Ok (a_flag _ s, energy_01 s)) = Ok (true, 1000%Z).
Proof. split; vm_compute; reflexivity. Qed.

(** ** C90: the factory *)
Section FactoryProps.
  Variable module_exists has_class : string -> string -> bool.
  Let init := initiate_eos module_exists has_class.
  Lemma no_dot_split s : (forall a b, s <> (a ++ "." ++ b)%string) -> split_dot s = [s].
  Proof.
    induction s as [|c s IH]; intros H; [reflexivity|]. cbn [split_dot]. destruct (Ascii.eqb_spec c "."%char) as [->|].
    - exfalso. apply (H ""%string s). reflexivity.
    - rewrite IH; [reflexivity|]. intros a b E. apply (H (String c a) b). cbn. rewrite E. reflexivity.
  Qed.
  Lemma split_dot_app a b : (forall x y, a <> (x ++ "." ++ y)%string) -> split_dot (a ++ "." ++ b) = a :: split_dot b.
  Proof.
    induction a as [|c a IH]; intros H; [reflexivity|]. cbn [String.append split_dot]. destruct (Ascii.eqb_spec c "."%char) as [->|].
    - exfalso. apply (H ""%string a). reflexivity.
    - change (String "." b) with ("." ++ b)%string. rewrite IH; [reflexivity|]. intros x y E. apply (H (String c x) y). cbn. rewrite E. reflexivity.
  Qed.
  Definition dotless (s : string) : Prop := forall a b, s <> (a ++ "." ++ b)%string.
  (** C90: with every switch off, or a name that is not family.name, the request is refused with ValueError;
      otherwise the SAFT family knows exactly two names and refuses the others with ValueError, and other
      families give the class of the module, or ImportError when there is none. *)
Theorem C90_factory : forall numba cython python, 
    (forall eos, numba = false -> cython = false -> python = false -> init eos numba cython python = Err ValueError) /\
    (forall eos, dotless eos -> init eos numba cython python = Err ValueError) /\
    (forall a b c, dotless a -> dotless b -> init (a ++ "." ++ b ++ "." ++ c)%string numba cython python = Err ValueError) /\
    (numba || cython || python = true ->
       (forall v, dotless v -> init ("saft." ++ v)%string numba cython python
           = if String.eqb v "gamma_mie" || String.eqb v "gamma_sw" then Ok (SaftClass v) else Err ValueError) /\
       (forall f v, dotless f -> dotless v -> f <> "saft"%string ->
           init (f ++ "." ++ v)%string numba cython python = if module_exists f v && has_class f v then Ok (OtherClass f v) else Err ImportError)).
  Proof.
    intros numba cython python. unfold init, initiate_eos. split; [|split; [|split]].
    - intros eos -> -> ->. reflexivity.
    - intros eos H. destruct (negb _); [reflexivity|]. rewrite no_dot_split by exact H. reflexivity.
    - intros a b c Ha Hb. destruct (negb _); [reflexivity|]. rewrite split_dot_app by exact Ha. rewrite split_dot_app by exact Hb.
      destruct (split_dot c) eqn:E; [|reflexivity]. exfalso. destruct c; cbn in E; [discriminate|]. destruct (Ascii.eqb a0 "."); [discriminate|]. destruct (split_dot c); discriminate.
    - intros S. rewrite S. cbn [negb]. split.
      + intros v Hv. change ("saft." ++ v)%string with ("saft" ++ "." ++ v)%string. rewrite split_dot_app, (no_dot_split v Hv).
        * reflexivity.
        * intros x y E. apply (f_equal (fun s => split_dot s)) in E. 
          assert (forall x y, length (split_dot (x ++ "." ++ y)) <> 1%nat) as L.
          { clear. intros x. induction x as [|c x IH]; intros y; cbn [String.append split_dot].
            - cbn. destruct (split_dot y) eqn:E; [|discriminate]. exfalso. destruct y; cbn in E; [discriminate|]. destruct (Ascii.eqb a "."); [discriminate|]. destruct (split_dot y); discriminate.
            - destruct (Ascii.eqb c "."); [cbn [length]; specialize (IH y); change (String "." y) with ("." ++ y)%string; destruct (split_dot (x ++ "." ++ y)) eqn:E; [|discriminate]|].
              + exfalso. clear IH. destruct x; cbn in E; [discriminate|]. destruct (Ascii.eqb a "."); [discriminate|]. destruct (split_dot _); discriminate.
              + specialize (IH y). change (String "." y) with ("." ++ y)%string. destruct (split_dot (x ++ "." ++ y)) eqn:E; [|exact IH].
                exfalso. destruct x; cbn in E; [discriminate|]. destruct (Ascii.eqb a "."); [discriminate|]. destruct (split_dot _); discriminate. }
          apply (L x y). rewrite <- E. reflexivity.
      + intros f v Hf Hv Hn. rewrite split_dot_app by exact Hf. rewrite (no_dot_split v Hv).
        destruct (String.eqb_spec f "saft"); [contradiction|]. destruct (module_exists f v); [|reflexivity]. destruct (has_class f v); reflexivity.
  Qed.
End FactoryProps.
Print Assumptions C90_factory.
Example C90_case : initiate_eos (fun f v => String.eqb f "cubic" && String.eqb v "peng_robinson") (fun _ _ => true) "cubic.peng_robinson" true false false
  = Ok (OtherClass "cubic" "peng_robinson").
Proof. reflexivity. Qed.
