(** Property theorems C83 (hard spheres of one size) and C85 (vanishing density) for both
    SAFT variants. *)
From Coq Require Import Reals Lra Lia.
From Coquelicot Require Import Coquelicot.
From Verif Require Import Base BaseFacts RSum CombiningModel EosToolboxModel SaftToolboxModel SaftToolboxProps
  SwModel SwProps MieExtModel MieExtProps MieModel MieProofs MieProps.
Open Scope R_scope.

(** * C83 *)

(** Specification: the Carnahan-Starling energy of one hard sphere, and the packing
    fraction of spheres of diameter [d] at a number density of [c] spheres per molecule. *)
Definition carnahan_starling (eta : R) : R := (4 * eta - 3 * eta ^ 2) / (1 - eta) ^ 2.
Definition sphere_packing (rho c d : R) : R := rho * molecule_per_nm3 * c * (PI / 6 * d ^ 3).

Section OneSize.
  Variables (n m : nat) (xi : nat -> R) (nu : nat -> nat -> R) (V Sk : nat -> R).
  Hypothesis Hxi : forall i, (i < n)%nat -> 0 <= xi i.
  Hypothesis Hnu : forall i k, (i < n)%nat -> (k < m)%nat -> 0 <= nu i k.
  Hypothesis HV : forall k, (k < m)%nat -> 0 < V k /\ 0 < Sk k.
  Hypothesis Hex : exists i k, (i < n)%nat /\ (k < m)%nat /\ 0 < xi i /\ 0 < nu i k.
  Notation X := (xskl n m xi nu V Sk). Notation C := (Cmol2seg n m xi nu V Sk).

  Lemma moment_one (d : nat -> nat -> R) d0 rho p : (forall k, (k < m)%nat -> d k k = d0) ->
    rho * molecule_per_nm3 * C * (sumn m (fun k => sqrt (X k k) * d k k ^ p) * (PI / 6)) = rho * molecule_per_nm3 * C * (PI / 6) * d0 ^ p.
  Proof.
    intros E. rewrite (sumn_ext m _ (fun k => xsk n m xi nu V Sk k * d0 ^ p)).
    - rewrite sumn_scal_r, (x_sum n m xi nu V Sk Hxi Hnu HV Hex). ring.
    - intros k Hk. rewrite E by exact Hk. unfold xskl. rewrite sqrt_square by (apply (x_nonneg n m xi nu V Sk Hxi Hnu HV Hex); exact Hk). reflexivity.
  Qed.

  Lemma cs_algebra (b d rho L : R) : 0 < d -> 0 < rho -> b = rho * molecule_per_nm3 * C * (PI / 6) -> b * d ^ 3 < 1 ->
    6 / (PI * rho * molecule_per_nm3) *
      (L * ((b * d ^ 2) ^ 3 / (b * d ^ 3) ^ 2 - b * d ^ 0) + 3 * (b * d ^ 2) / (1 - b * d ^ 3) * (b * d ^ 1)
       + (b * d ^ 2) ^ 3 / (b * d ^ 3 * (1 - b * d ^ 3) ^ 2)) = C * carnahan_starling (b * d ^ 3).
  Proof.
    intros Hd Hr Eb Hb. pose proof PI_RGT_0 as PP. pose proof (C_pos n m xi nu V Sk Hxi Hnu HV Hex) as CP.
    assert (M : 0 < molecule_per_nm3) by (unfold molecule_per_nm3; lra).
    assert (B : 0 < b). { rewrite Eb. repeat (assumption || lra || apply Rmult_lt_0_compat). }
    assert (Q : 6 / (PI * rho * molecule_per_nm3) = C / b) by (rewrite Eb; field; repeat split; lra).
    rewrite Q. unfold carnahan_starling. field. repeat split; lra.
  Qed.

  Definition one_size_spec (d0 rho value : R) : Prop :=
    value = C * carnahan_starling (sphere_packing rho C d0).
End OneSize.

(** Segments of one diameter: the hard-sphere contribution per molecule is that of
    Carnahan and Starling for its segments, in mixtures and pure fluids of any number of
    components and kinds of segment; and the packing fraction the perturbation terms work
    with is that of the spheres. *)
Theorem C83_one_size : forall n m xi nu V Sk d0 rho,
  (forall i, (i < n)%nat -> 0 <= xi i) ->
  (forall i k, (i < n)%nat -> (k < m)%nat -> 0 <= nu i k) ->
  (forall k, (k < m)%nat -> 0 < V k /\ 0 < Sk k) ->
  (exists i k, (i < n)%nat /\ (k < m)%nat /\ 0 < xi i /\ 0 < nu i k) ->
  let C := Cmol2seg n m xi nu V Sk in let X := xskl n m xi nu V Sk in
  0 < d0 -> 0 < rho -> sphere_packing rho C d0 < 1 ->
  (forall mats : matrices R, (forall k l, (k < m)%nat -> (l < m)%nat -> mats "sigma"%string k l = d0) ->
     Ahard_sphere m mats C X rho = C * carnahan_starling (sphere_packing rho C d0) /\
     zeta m mats C X rho 3 = sphere_packing rho C d0) /\
  (forall t comps, (forall k l, (k < m)%nat -> (l < m)%nat -> t_dkl t k l = d0) ->
     mie_hard_sphere comps m t C X rho = C * carnahan_starling (sphere_packing rho C d0) /\
     zetax m t C X rho = sphere_packing rho C d0 /\ eta_m m t C X rho 3 = sphere_packing rho C d0).
Proof.
  intros n m xi nu V Sk d0 rho Hxi Hnu HV Hex C X Hd Hr Hp.
  assert (SP : sphere_packing rho C d0 = rho * molecule_per_nm3 * C * (PI / 6) * d0 ^ 3) by (unfold sphere_packing; ring).
  rewrite SP in *. split.
  - intros mats E. 
    assert (Z : forall p, zeta m mats C X rho p = rho * molecule_per_nm3 * C * (PI / 6) * d0 ^ p).
    { intros p. apply (moment_one n m xi nu V Sk Hxi Hnu HV Hex (mats "sigma"%string) d0 rho p). intros k Hk. apply E; exact Hk. }
    split; [|apply Z]. unfold Ahard_sphere. rewrite !Z.
    apply (cs_algebra n m xi nu V Sk Hxi Hnu HV Hex _ d0 rho _ Hd Hr eq_refl Hp).
  - intros t comps E.
    assert (Z : forall p, eta_m m t C X rho p = rho * molecule_per_nm3 * C * (PI / 6) * d0 ^ p).
    { intros p. apply (moment_one n m xi nu V Sk Hxi Hnu HV Hex (t_dkl t) d0 rho p). intros k Hk. apply E; exact Hk. }
    split; [|split; [|apply Z]].
    + unfold mie_hard_sphere. rewrite !Z. set (b := rho * molecule_per_nm3 * C * (PI / 6)) in *.
      pose proof (fun L => cs_algebra n m xi nu V Sk Hxi Hnu HV Hex b d0 rho L Hd Hr eq_refl Hp) as A.
      destruct (Nat.eqb comps 1); [|apply A]. etransitivity; [|apply (A 0)]. f_equal. f_equal. f_equal. ring.
    + unfold zetax, packing.
      rewrite (sumn_ext m _ (fun k => xsk n m xi nu V Sk k * (d0 ^ 3 * molecule_per_nm3))).
      * rewrite sumn_scal_r, (x_sum n m xi nu V Sk Hxi Hnu HV Hex). ring.
      * intros k Hk. rewrite (sumn_ext m _ (fun l => xsk n m xi nu V Sk l * (xsk n m xi nu V Sk k * (d0 ^ 3 * molecule_per_nm3)))).
        -- rewrite sumn_scal_r, (x_sum n m xi nu V Sk Hxi Hnu HV Hex). ring.
        -- intros l Hl. rewrite E by assumption. unfold X, xskl. ring.
Qed.
Print Assumptions C83_one_size.
(** a pure monomer of 0.3 nm at 10000 mol/m3 *)
Example C83_case :
  let one (_ : nat) := 1 in let nu (_ _ : nat) := 1 in
  sphere_packing 10000 (Cmol2seg 1 1 one nu one one) (3 / 10) < 1 /\ carnahan_starling (1 / 2) = 5.
Proof.
  cbn zeta. split; [|unfold carnahan_starling; field]. unfold sphere_packing, Cmol2seg, molecule_per_nm3. cbn [sumn].
  pose proof PI_4. lra.
Qed.

(** * C85 *)
Definition to0 (f : R -> R) (l : R) : Prop := filterlim f (at_right 0) (locally l).

Lemma to0_smooth (f : R -> R) : ex_derive f 0 -> to0 f (f 0).
Proof.
  intros D P HP. pose proof (ex_derive_continuous f 0 D P HP) as [e He]. exists e. intros y By _. exact (He y By).
Qed.
Lemma to0_ext (f g : R -> R) l : (forall x, 0 < x -> f x = g x) -> to0 f l -> to0 g l.
Proof.
  intros E. apply filterlim_ext_loc. unfold at_right, within. apply filter_forall. exact E.
Qed.
Lemma to0_plus f g a b : to0 f a -> to0 g b -> to0 (fun x => f x + g x) (a + b).
Proof. intros F G. apply (filterlim_comp_2 _ _ Rplus F G). apply (filterlim_plus (V := R_NormedModule) a b). Qed.
Lemma to0_scal c f a : to0 f a -> to0 (fun x => c * f x) (c * a).
Proof. intros F. apply (filterlim_comp _ _ _ f (fun y => c * y) _ _ _ F). apply (filterlim_scal_r (V := R_NormedModule) c a). Qed.
Lemma to0_sumn n (f : nat -> R -> R) (a : nat -> R) :
  (forall k, (k < n)%nat -> to0 (f k) (a k)) -> to0 (fun x => sumn n (fun k => f k x)) (sumn n a).
Proof.
  induction n as [|n IH]; intros H; cbn [sumn].
  - apply filterlim_const.
  - apply to0_plus; [apply IH; intros; apply H; lia|apply H; lia].
Qed.
Lemma to0_opp f a : to0 f a -> to0 (fun x => - f x) (- a).
Proof. intros F. apply (filterlim_comp _ _ _ f Ropp _ _ _ F). apply (filterlim_opp (V := R_NormedModule) a). Qed.
Lemma to0_eq f a b : a = b -> to0 f a -> to0 f b.
Proof. intros ->. exact (fun H => H). Qed.

(** Hard spheres: [a p] are the moments per density. *)
Lemma hard_sphere_limit (a0 a1 a2 a3 c : R) : 0 < a3 ->
  to0 (fun rho => 6 / (PI * rho * molecule_per_nm3) *
       (c * (ln (1 - rho * a3) * ((rho * a2) ^ 3 / (rho * a3) ^ 2 - rho * a0)) +
        3 * (rho * a2) / (1 - rho * a3) * (rho * a1) + (rho * a2) ^ 3 / (rho * a3 * (1 - rho * a3) ^ 2))) 0.
Proof.
  intros H3. pose proof PI_RGT_0 as PP. assert (M : 0 < molecule_per_nm3) by (unfold molecule_per_nm3; lra).
  set (h := fun rho => 6 / (PI * molecule_per_nm3) *
     (c * (ln (1 - rho * a3) * (a2 ^ 3 / a3 ^ 2 - a0)) + rho * (3 * a2 * a1 / (1 - rho * a3) + a2 ^ 3 / (a3 * (1 - rho * a3) ^ 2)))).
  assert (H0 : h 0 = 0). { unfold h. rewrite !Rmult_0_l, Rminus_0_r, ln_1. ring. }
  assert (L : to0 h 0).
  { apply (to0_eq h (h 0) 0 H0). apply to0_smooth. unfold h. auto_derive.
    rewrite !Rmult_0_l, Ropp_0, Rplus_0_r. repeat split; try lra; try (apply Rmult_integral_contrapositive_currified; lra);
      apply Rgt_not_eq; repeat apply Rmult_lt_0_compat; lra. }
  refine (filterlim_ext_loc h _ _ L). assert (P : 0 < / a3) by (apply Rinv_0_lt_compat; exact H3).
  exists (mkposreal _ P). intros y By Hy. cbn in By. unfold ball in By; cbn in By. unfold AbsRing_ball, abs, minus, plus, opp in By; cbn in By.
  apply Rabs_def2 in By. assert (y * a3 < 1). { apply Rmult_lt_reg_r with (/ a3); [exact P|]. rewrite Rmult_assoc, Rinv_r by lra. lra. }
  unfold h. field. repeat split; lra.
Qed.

(** square well: terms of first and second order *)
Lemma zeta_eff_smooth l a (g : R -> R) : ex_derive g 0 -> ex_derive (fun rho => g (zeta_eff l (rho * a))) 0.
Proof.
  intros D. assert (Z0 : zeta_eff l (0 * a) = 0). { unfold zeta_eff. destruct (Req_EM_T l 0); [reflexivity|ring]. }
  apply (ex_derive_comp g (fun rho => zeta_eff l (rho * a))).
  - rewrite Z0. exact D.
  - unfold zeta_eff. destruct (Req_EM_T l 0); auto_derive; exact I.
Qed.
Lemma zeta_eff_0 l a : zeta_eff l (0 * a) = 0.
Proof. unfold zeta_eff. destruct (Req_EM_T l 0); [reflexivity|ring]. Qed.

Section SquareWell.
  Variables (n m : nat) (mats avg : matrices R) (alpha : nat -> nat -> R) (C : R) (X : nat -> nat -> R).
  Definition mom (p : nat) : R := molecule_per_nm3 * C * (sumn m (fun k => sqrt (X k k) * sigma_kl mats k k ^ p) * (PI / 6)).
  Lemma zeta_mom rho p : zeta m mats C X rho p = rho * mom p.
  Proof. unfold zeta, mom. ring. Qed.

  Lemma sw_hard_limit : 0 < mom 3 -> to0 (Ahard_sphere m mats C X) 0.
  Proof.
    intros H. apply (to0_ext (fun rho => 6 / (PI * rho * molecule_per_nm3) *
       (1 * (ln (1 - rho * mom 3) * ((rho * mom 2) ^ 3 / (rho * mom 3) ^ 2 - rho * mom 0)) +
        3 * (rho * mom 2) / (1 - rho * mom 3) * (rho * mom 1) + (rho * mom 2) ^ 3 / (rho * mom 3 * (1 - rho * mom 3) ^ 2)))).
    - intros x _. unfold Ahard_sphere. rewrite !zeta_mom, Rmult_1_l. reflexivity.
    - apply hard_sphere_limit. exact H.
  Qed.

  Lemma g0HS_smooth : ex_derive g0HS 0.
  Proof. unfold g0HS. auto_derive. rewrite ?Ropp_0, ?Rplus_0_r. lra. Qed.

  Lemma sw_first_limit T : to0 (fun rho => Afirst_order m mats alpha C X rho T) 0.
  Proof.
    apply (to0_eq _ (- (C ^ 2 / T) * sumn m (fun k => sumn m (fun l => 0)))).
    { rewrite sumn_zero; [ring|]. intros. apply sumn_zero. reflexivity. }
    unfold Afirst_order. apply to0_scal. apply to0_sumn. intros k _. apply to0_sumn. intros l _.
    apply (to0_ext (fun rho => rho * (molecule_per_nm3 * (X k l * alpha k l)) * g0HS (zeta_eff (lambda_kl mats k l) (rho * mom 3)))).
    { intros x _. rewrite zeta_mom. ring. }
    apply (to0_eq _ (0 * (molecule_per_nm3 * (X k l * alpha k l)) * g0HS (zeta_eff (lambda_kl mats k l) (0 * mom 3)))); [ring|].
    apply (to0_smooth (fun rho => rho * (molecule_per_nm3 * (X k l * alpha k l)) * g0HS (zeta_eff (lambda_kl mats k l) (rho * mom 3)))).
    apply (ex_derive_mult (fun rho => rho * (molecule_per_nm3 * (X k l * alpha k l))) (fun rho => g0HS (zeta_eff (lambda_kl mats k l) (rho * mom 3)))).
    - auto_derive. exact I.
    - apply zeta_eff_smooth. exact g0HS_smooth.
  Qed.

  Lemma KHS_smooth a : ex_derive (fun rho => KHS (rho * a)) 0.
  Proof.
    unfold KHS. auto_derive.
    repeat split; try exact I. match goal with |- ?a <> 0 => replace a with 1 by ring end. lra.
  Qed.

  Lemma sw_second_limit T : to0 (fun rho => Asecond_order m mats alpha C X rho T) 0.
  Proof.
    apply (to0_eq _ (- (C / T ^ 2) * sumn m (fun k => sumn m (fun l => 0)))).
    { rewrite sumn_zero; [ring|]. intros. apply sumn_zero. reflexivity. }
    unfold Asecond_order. apply to0_scal. apply to0_sumn. intros k _. apply to0_sumn. intros l _.
    set (lam := lambda_kl mats k l). set (c := C * molecule_per_nm3 / 2 * (epsilon_kl mats k l * alpha k l * X k l)).
    set (h := fun rho => rho * c * KHS (rho * mom 3) *
       (g0HS (zeta_eff lam (rho * mom 3)) + rho * mom 3 * dzeta_eff lam (rho * mom 3) * dg0HS (zeta_eff lam (rho * mom 3)))).
    apply (to0_ext h).
    { intros x _. unfold h, c. rewrite zeta_mom. unfold dg0HS, lam, Rdiv. ring. }
    apply (to0_eq _ (h 0)); [unfold h; ring|]. apply to0_smooth. unfold h.
    apply (ex_derive_mult (fun rho => rho * c * KHS (rho * mom 3))).
    - apply (ex_derive_mult (fun rho => rho * c)); [auto_derive; exact I|apply KHS_smooth].
    - apply (ex_derive_plus (fun rho => g0HS (zeta_eff lam (rho * mom 3)))); [apply zeta_eff_smooth; exact g0HS_smooth|].
      apply (ex_derive_mult (fun rho => rho * mom 3 * dzeta_eff lam (rho * mom 3))).
      + unfold dzeta_eff. destruct (Req_EM_T lam 0); auto_derive; exact I.
      + apply zeta_eff_smooth. unfold dg0HS. auto_derive. rewrite ?Ropp_0, ?Rplus_0_r. lra.
  Qed.

  (** the radial distribution function at contact tends to 1 + epsilon / T *)
  Lemma sw_contact_limit T i : to0 (fun rho => gSW m mats avg C X rho T i i) (1 + epsilon_ij avg i i / T).
  Proof.
    set (l := lambda_ij avg i i). set (b := sigma_ij avg i i * sigma_ij avg i i / (sigma_ij avg i i + sigma_ij avg i i)).
    set (g1 := fun rho => 1 / (1 - rho * mom 3) + 3 * b * (rho * mom 2 / (1 - rho * mom 3) ^ 2)
                          + 2 * b ^ 2 * ((rho * mom 2) ^ 2 / (1 - rho * mom 3) ^ 3)).
    set (g2 := fun rho => g0HS (zeta_eff l (rho * mom 3)) + (l ^ 3 - 1) * dg0HS (zeta_eff l (rho * mom 3)) *
                 (l / 3 * dzeta_dlambda l (rho * mom 3) - rho * mom 3 * dzeta_eff l (rho * mom 3))).
    apply (to0_ext (fun rho => g1 rho + epsilon_ij avg i i / T * g2 rho)).
    { intros x _. unfold gSW, gHS, g1, g2. rewrite !zeta_mom. reflexivity. }
    apply (to0_eq _ (g1 0 + epsilon_ij avg i i / T * g2 0)).
    { unfold g1, g2. rewrite zeta_eff_0. unfold g0HS, dg0HS, dzeta_dlambda. rewrite !Rmult_0_l. generalize (epsilon_ij avg i i / T) b. intros e0 b0. clear. field. }
    apply to0_plus; [|apply to0_scal]; apply to0_smooth.
    - unfold g1. auto_derive. rewrite !Rmult_0_l, Ropp_0, Rplus_0_r. repeat split; lra.
    - unfold g2. apply (ex_derive_plus (fun rho => g0HS (zeta_eff l (rho * mom 3)))); [apply zeta_eff_smooth; exact g0HS_smooth|].
      apply (ex_derive_mult (fun rho => (l ^ 3 - 1) * dg0HS (zeta_eff l (rho * mom 3)))).
      + apply (ex_derive_scal (fun rho => dg0HS (zeta_eff l (rho * mom 3)))). apply zeta_eff_smooth. unfold dg0HS. auto_derive. rewrite ?Ropp_0, ?Rplus_0_r. lra.
      + unfold dzeta_dlambda, dzeta_eff. destruct (Req_EM_T l 0); auto_derive; exact I.
  Qed.
  Lemma sw_chain_limit nu V Sk rings xi T : (forall i, (i < n)%nat -> 0 < 1 + epsilon_ij avg i i / T) ->
    to0 (fun rho => Achain n m mats avg C X nu V Sk rings xi rho T)
        (- sumn n (fun i => xi i * (-1 + rings i + sumn m (fun k => nu i k * V k * Sk k)) * ln (1 + epsilon_ij avg i i / T))).
  Proof.
    intros P. unfold Achain. apply to0_opp. apply to0_sumn. intros i Hi. apply to0_scal.
    apply (filterlim_comp _ _ _ (fun rho => gSW m mats avg C X rho T i i) ln _ _ _ (sw_contact_limit T i)).
    apply (ex_derive_continuous ln). auto_derive. apply P; exact Hi.
  Qed.
End SquareWell.

(** C85 for the square-well variant: as the density vanishes the residual energy of an
    object tends to minus the sum of x_i (segments - 1 + rings) ln (1 + epsilon_ii / T),
    which is zero for fluids of single segments. *)
Theorem C85_square_well : forall mapsci rules beads lib cl n nu rings s xi T C X lim,
  sw_init mapsci rules beads lib cl n nu rings = Ok s -> composition s xi = Ok (C, X) ->
  length xi = n -> Forall (fun x => 0 <= x) xi ->
  snd (sw_density_max s xi (65 / 100)) = Ok lim -> 0 < lim ->
  0 < zeta (length beads) (sw_mats s) C X 1 3 ->
  (forall i, (i < n)%nat -> 0 < 1 + sw_avg s "epsilon"%string i i / T) ->
  let bonds i := -1 + rings i + sumn (length beads) (fun k => nu i k * arr (sw_Vks s) k * arr (sw_Sk s) k) in
  exists f, (forall rho, 0 < rho <= lim -> snd (residual s [rho] T xi) = Ok [f rho]) /\
    to0 f (- sumn n (fun i => arr xi i * bonds i * ln (1 + sw_avg s "epsilon"%string i i / T))) /\
    ((forall i, (i < n)%nat -> arr xi i = 0 \/ bonds i = 0) -> to0 f 0).
Proof.
  intros mapsci rules beads lib cl n nu rings s xi T C X lim I CO Hl Hx HM HL HZ HE bonds.
  destruct (SwProofs.init_ok mapsci _ _ _ _ _ _ _ _ I) as [_ St].
  assert (Fields : sbeads s = beads /\ sw_n s = n /\ sw_nu s = nu /\ sw_rings s = rings).
  { unfold sw_init in I. repeat match type of I with rbind ?Y _ = _ => destruct Y; cbn [rbind] in I; [|discriminate] end.
    injection I as <-. repeat split. }
  destruct Fields as [FB [FN [FU FR]]].
  rewrite (SwAbsent.density_max_settled mapsci s xi (65 / 100) C X St CO) in HM. rewrite FN, Hl, Nat.eqb_refl in HM. cbn [negb] in HM. injection HM as HM.
  exists (fun rho => monomer s C X rho T + chain s C X xi rho T).
  assert (L : to0 (fun rho => monomer s C X rho T + chain s C X xi rho T)
     (- sumn n (fun i => arr xi i * bonds i * ln (1 + sw_avg s "epsilon"%string i i / T)))).
  { apply (to0_eq _ (0 + 0 + 0 + - sumn n (fun i => arr xi i * bonds i * ln (1 + sw_avg s "epsilon"%string i i / T)))); [ring|].
    unfold monomer, chain. unfold sm. rewrite FB, FN, FU, FR. apply to0_plus; [apply to0_plus; [apply to0_plus|]|].
    - apply sw_hard_limit. rewrite zeta_mom, Rmult_1_l in HZ. exact HZ.
    - apply sw_first_limit.
    - apply sw_second_limit.
    - exact (sw_chain_limit n (length beads) (sw_mats s) (sw_avg s) C X nu (arr (sw_Vks s)) (arr (sw_Sk s)) rings (arr xi) T HE). }
  split; [|split; [exact L|]].
  - intros rho [R0 R1]. rewrite (SwAbsent.residual_settled mapsci s [rho] T xi C X St CO). rewrite FN, Hl, Nat.eqb_refl. cbn [negb existsb forallb map].
    destruct (Rlt_dec rho 0); [lra|]. cbn [orb].
    assert (EX : existsb (fun x => if Rlt_dec x 0 then true else false) xi = false).
    { clear - Hx. induction Hx as [|x l Hx _ IH]; [reflexivity|]. cbn. destruct (Rlt_dec x 0); [lra|exact IH]. }
    rewrite EX. rewrite HM. destruct (Rgt_dec rho lim); [lra|]. reflexivity.
  - intros B. refine (to0_eq _ _ _ _ L). rewrite sumn_zero; [ring|]. intros i Hi. destruct (B i Hi) as [->| ->]; ring.
Qed.
Print Assumptions C85_square_well.

(** Refuted for chains: for a pure dimer of beads of any size and range, at the temperature
    equal to the depth of the well, the residual energy tends to - ln 2. *)
Lemma dimer_init e l sg : exists s, sw_init None sw_default_rules ["A"%string] (one_bead e l sg) [] 1 (fun _ _ => 2) (fun _ => 0) = Ok s /\
  sw_avg s "epsilon"%string 0%nat 0%nat = e /\
  composition s [1] = Ok (Cmol2seg 1 1 (arr [1]) (fun _ _ => 2) (arr [1]) (arr [1]), xskl 1 1 (arr [1]) (fun _ _ => 2) (arr [1]) (arr [1])) /\
  sw_mats s "sigma"%string 0%nat 0%nat = sg /\ sbeads s = ["A"%string] /\ sw_n s = 1%nat /\ sw_Vks s = [1] /\ sw_Sk s = [1].
Proof.
  eexists. split; [reflexivity|]. split; [|split; [reflexivity|split; [reflexivity|split; [reflexivity|split; [reflexivity|split; reflexivity]]]]].
  cbn -[sumn Rpower PI pow IZR Rdiv]. unfold mean_ii, zki. cbn [sumn arr nth]. unfold mset. cbn. field.
Qed.
Theorem C85_square_well_refuted : forall e l sg, 0 < e -> 0 < sg -> exists s lim f,
  sw_init None sw_default_rules ["A"%string] (one_bead e l sg) [] 1 (fun _ _ => 2) (fun _ => 0) = Ok s /\
  0 < lim /\ (forall rho, 0 < rho <= lim -> snd (residual s [rho] e [1]) = Ok [f rho]) /\
  to0 f (- ln 2) /\ - ln 2 < 0.
Proof.
  intros e l sg He Hs. destruct (dimer_init e l sg) as [s [I [AV [CO [MS [FB [FN [FV FS]]]]]]]].
  pose proof PI_RGT_0 as PP. assert (SP : 0 < sg ^ 3) by (apply pow_lt; exact Hs).
  assert (EC : Cmol2seg 1 1 (arr [1]) (fun _ _ => 2) (arr [1]) (arr [1]) = 2) by (unfold Cmol2seg, arr; cbn [sumn nth]; ring).
  assert (EX : xsk 1 1 (arr [1]) (fun _ _ => 2) (arr [1]) (arr [1]) 0 = 1) by (unfold xsk; rewrite EC; unfold arr; cbn [sumn nth]; field).
  destruct (SwProofs.init_ok None _ _ _ _ _ _ _ _ I) as [_ St].
  set (lim := 65 / 100 * 6 / (2 * PI * sg ^ 3) / molecule_per_nm3).
  assert (LP : 0 < lim).
  { unfold lim, molecule_per_nm3. apply Rdiv_lt_0_compat; [|lra]. apply Rdiv_lt_0_compat; [lra|]. apply Rmult_lt_0_compat; lra. }
  assert (DM : snd (sw_density_max s [1] (65 / 100)) = Ok lim).
  { rewrite (SwAbsent.density_max_settled None s [1] (65 / 100) _ _ St CO). rewrite FN. cbn [length Nat.eqb negb]. f_equal.
    unfold rho_max, sm. rewrite FB. unfold sigma_kl, xskl. cbn [length sumn]. rewrite EC, EX, MS. unfold lim, molecule_per_nm3. field. lra. }
  destruct (C85_square_well None _ _ _ _ _ _ _ s [1] e _ _ lim I CO eq_refl ltac:(repeat constructor; lra) DM LP) as [f [F1 [F2 _]]].
  - unfold zeta, sigma_kl, xskl. cbn [length sumn]. rewrite EC, EX, MS, sqrt_square by lra. unfold molecule_per_nm3.
    repeat (lra || apply Rmult_lt_0_compat).
  - intros [|i] Hi; [|lia]. rewrite AV. unfold Rdiv. rewrite Rinv_r by lra. lra.
  - exists s, lim, f. split; [exact I|]. split; [exact LP|]. split; [exact F1|]. split.
    + refine (to0_eq _ _ _ _ F2). rewrite FV, FS. cbn [sumn length]. rewrite AV. unfold arr. cbn [nth].
      replace (1 + e / e) with 2 by (field; lra). ring.
    + assert (0 < ln 2) by (rewrite <- ln_1; apply ln_increasing; lra). lra.
Qed.
Print Assumptions C85_square_well_refuted.

(** ** Mie *)
Section MieSmooth.
  Variables (d e x0 : R).
  Definition A_of (l z : R) : R := - (1 - eta_eff l z / 2) / (1 - eta_eff l z) ^ 3 * 2 * PI * (e * (d ^ 3 * molecule_per_nm3 ^ 2) / (l - 3)).
  Definition B_of (l z : R) : R := 2 * PI * (d ^ 3 * molecule_per_nm3 ^ 2 * e)
    * ((1 - z / 2) / (1 - z) ^ 3 * Ikl x0 l - 9 * z * (1 + z) / (2 * (1 - z) ^ 3) * Jkl x0 l).
  Definition S_of (l z : R) : R := A_of l z + B_of l z.
  Definition D_of (l z : R) : R := da1s_drhos l z e d + dBkl_drhos l d e x0 z.
  Lemma a1s_A rho C l z : a1s rho C l z e d = rho * C * A_of l z.
  Proof. unfold a1s, A_of. ring. Qed.
  Lemma Bkl_B rho C l z : Bkl rho l C d e x0 z = rho * C * B_of l z.
  Proof. unfold Bkl, B_of. ring. Qed.
  Lemma eta_0 l : eta_eff l 0 = 0.
  Proof. unfold eta_eff. ring. Qed.
  Lemma eta_smooth l : ex_derive (eta_eff l) 0.
  Proof. unfold eta_eff. auto_derive. exact I. Qed.
  Lemma comp_eta (g : R -> R) l : ex_derive g 0 -> ex_derive (fun z => g (eta_eff l z)) 0.
  Proof. intros G. apply (ex_derive_comp g (eta_eff l)); [rewrite eta_0; exact G|apply eta_smooth]. Qed.
  Lemma S_smooth l : ex_derive (S_of l) 0.
  Proof.
    unfold S_of. apply (ex_derive_plus (A_of l) (B_of l)).
    - unfold A_of. apply (comp_eta (fun y => - (1 - y / 2) / (1 - y) ^ 3 * 2 * PI * (e * (d ^ 3 * molecule_per_nm3 ^ 2) / (l - 3)))).
      auto_derive. rewrite ?Ropp_0, ?Rplus_0_r. repeat split; lra.
    - unfold B_of. auto_derive. rewrite ?Ropp_0, ?Rplus_0_r. repeat split; lra.
  Qed.
  Lemma D_smooth l : ex_derive (D_of l) 0.
  Proof.
    unfold D_of. apply (ex_derive_plus (fun z => da1s_drhos l z e d) (fun z => dBkl_drhos l d e x0 z)).
    - unfold da1s_drhos.
      apply (ex_derive_mult (fun z => (1 - eta_eff l z / 2) / (1 - eta_eff l z) ^ 3 + (5 - 2 * eta_eff l z) / (2 * (1 - eta_eff l z) ^ 4) * rhos_deta l z)
               (fun _ => - 2 * PI * (e * (d ^ 3 * molecule_per_nm3 ^ 2) / (l - 3)))); [|apply ex_derive_const].
      apply (ex_derive_plus (fun z => (1 - eta_eff l z / 2) / (1 - eta_eff l z) ^ 3)).
      + apply (comp_eta (fun y => (1 - y / 2) / (1 - y) ^ 3)). auto_derive. rewrite ?Ropp_0, ?Rplus_0_r. repeat split; lra.
      + apply (ex_derive_mult (fun z => (5 - 2 * eta_eff l z) / (2 * (1 - eta_eff l z) ^ 4)) (rhos_deta l)).
        * apply (comp_eta (fun y => (5 - 2 * y) / (2 * (1 - y) ^ 4))). auto_derive. rewrite ?Ropp_0, ?Rplus_0_r. repeat split; lra.
        * unfold rhos_deta. auto_derive. exact I.
    - unfold dBkl_drhos. auto_derive. rewrite ?Ropp_0, ?Rplus_0_r. repeat split; lra.
  Qed.
  (** both are the same integral of the potential beyond contact at zero density *)
  Lemma S_zero l : l <> 3 -> S_of l 0 = - 2 * PI * e * d ^ 3 * molecule_per_nm3 ^ 2 * (Rpower x0 (3 - l) / (l - 3)).
  Proof. intros H. unfold S_of, A_of, B_of, Ikl. rewrite eta_0. field. lra. Qed.
  Lemma D_zero l : D_of l 0 = S_of l 0.
  Proof. unfold D_of, S_of, A_of, B_of, da1s_drhos, dBkl_drhos, rhos_deta. rewrite eta_0. unfold Rdiv. generalize (/ (l - 3)). intros q. field. Qed.
  Lemma S_contact l : 0 < x0 -> l <> 3 ->
    Rpower x0 l * S_of l 0 = - 2 * PI * e * d ^ 3 * molecule_per_nm3 ^ 2 * Rpower x0 3 / (l - 3).
  Proof.
    intros Hx Hl. rewrite S_zero by exact Hl. replace (Rpower x0 3) with (Rpower x0 l * Rpower x0 (3 - l)) by (rewrite <- Rpower_plus; f_equal; ring).
    field. lra.
  Qed.
End MieSmooth.

Lemma line_smooth (g : R -> R) a : ex_derive g 0 -> ex_derive (fun rho => g (rho * a)) 0.
Proof. intros G. apply (ex_derive_comp g (fun rho => rho * a)); [rewrite Rmult_0_l; exact G|]. auto_derive. exact I. Qed.
Lemma const_mult_smooth c (g : R -> R) : ex_derive g 0 -> ex_derive (fun x => c * g x) 0.
Proof. intros G. exact (ex_derive_scal g c 0 G). Qed.

Section MieLimit.
  Variables (n m : nat) (mats : matrices R) (avg : string -> nat -> R) (Ckl alpha : nat -> nat -> R)
            (t : mie_tables) (C : R) (X : nat -> nat -> R).
  Definition mmom (p : nat) : R := molecule_per_nm3 * C * (sumn m (fun k => sqrt (X k k) * t_dkl t k k ^ p) * (PI / 6)).
  Definition px : R := packing m 1 C X (t_dkl t).
  Definition ps : R := packing m 1 C X (m_sigma mats).
  Lemma eta_mmom rho p : eta_m m t C X rho p = rho * mmom p.
  Proof. unfold eta_m, mmom. ring. Qed.
  Lemma zetax_px rho : zetax m t C X rho = rho * px.
  Proof. unfold zetax, px, packing. ring. Qed.
  Lemma zetas_ps rho : zetaxstar m mats C X rho = rho * ps.
  Proof. unfold zetaxstar, ps, packing. ring. Qed.

  Lemma mie_hard_limit : 0 < mmom 3 -> to0 (mie_hard_sphere n m t C X) 0.
  Proof.
    intros H. set (c := if Nat.eqb n 1 then 0 else 1).
    apply (to0_ext (fun rho => 6 / (PI * rho * molecule_per_nm3) *
       (c * (ln (1 - rho * mmom 3) * ((rho * mmom 2) ^ 3 / (rho * mmom 3) ^ 2 - rho * mmom 0)) +
        3 * (rho * mmom 2) / (1 - rho * mmom 3) * (rho * mmom 1) + (rho * mmom 2) ^ 3 / (rho * mmom 3 * (1 - rho * mmom 3) ^ 2)))).
    - intros x _. unfold mie_hard_sphere. rewrite !eta_mmom. unfold c. destruct (Nat.eqb n 1); [rewrite Rmult_0_l|rewrite Rmult_1_l]; reflexivity.
    - apply hard_sphere_limit. exact H.
  Qed.

  Lemma pair_sum (F : nat -> nat -> R -> R) K : (forall k l, to0 (F k l) 0) -> to0 (fun rho => K * sumn m (fun k => sumn m (fun l => F k l rho * X k l))) 0.
  Proof.
    intros H. apply (to0_eq _ (K * sumn m (fun k => sumn m (fun l => 0)))).
    { rewrite sumn_zero; [ring|]. intros. apply sumn_zero. reflexivity. }
    apply to0_scal. apply to0_sumn. intros k _. apply to0_sumn. intros l _.
    apply (to0_ext (fun rho => X k l * F k l rho)); [intros; ring|]. apply (to0_eq _ (X k l * 0)); [ring|]. apply to0_scal. apply H.
  Qed.

  Lemma mie_first_limit T : to0 (fun rho => mie_first_order m mats t C X rho T) 0.
  Proof.
    unfold mie_first_order. apply pair_sum. intros k l.
    set (d := t_dkl t k l). set (la := m_la mats k l). set (lr := m_lr mats k l). set (x0 := t_x0kl t k l). set (e := m_eps mats k l).
    set (h := fun rho => rho * C * (prefactor_value lr la / molecule_per_nm3 *
        (Rpower x0 la * S_of d e x0 la (rho * px) - Rpower x0 lr * S_of d e x0 lr (rho * px)))).
    apply (to0_ext h).
    { intros rho _. unfold a1ii. rewrite zetax_px, !a1s_A, !Bkl_B. unfold h, S_of. unfold Rdiv. ring. }
    apply (to0_eq _ (h 0)); [unfold h; ring|]. apply to0_smooth. unfold h.
    apply (ex_derive_mult (fun rho => rho * C)); [auto_derive; exact I|]. apply const_mult_smooth.
    apply (ex_derive_minus (fun rho => Rpower x0 la * S_of d e x0 la (rho * px))); apply const_mult_smooth; apply line_smooth; apply S_smooth.
  Qed.

  Lemma mie_second_limit T : to0 (fun rho => mie_second_order m mats Ckl alpha t C X rho T) 0.
  Proof.
    unfold mie_second_order. apply pair_sum. intros k l.
    set (d := t_dkl t k l). set (la := m_la mats k l). set (lr := m_lr mats k l). set (x0 := t_x0kl t k l). set (e := m_eps mats k l).
    set (br := fun rho => Rpower x0 (2 * la) * S_of d e x0 (2 * la) (rho * px) - 2 * Rpower x0 (la + lr) * S_of d e x0 (la + lr) (rho * px)
                          + Rpower x0 (2 * lr) * S_of d e x0 (2 * lr) (rho * px)).
    set (ch := fun z => z * fm1 (alpha k l) + z ^ 5 * fm2 (alpha k l) + z ^ 8 * fm3 (alpha k l)).
    set (h := fun rho => rho * (C / 2 / molecule_per_nm3 * e * Ckl k l ^ 2) * KHS (rho * px) * (br rho * (1 + ch (rho * ps)))).
    apply (to0_ext h).
    { intros rho _. unfold a2kl, chi. rewrite zetax_px, zetas_ps, !a1s_A, !Bkl_B. fold d la lr x0 e. unfold h, br, ch, S_of. unfold Rdiv. ring. }
    apply (to0_eq _ (h 0)); [unfold h; ring|]. apply to0_smooth. unfold h.
    apply (ex_derive_mult (fun rho => rho * (C / 2 / molecule_per_nm3 * e * Ckl k l ^ 2) * KHS (rho * px))).
    - apply (ex_derive_mult (fun rho => rho * (C / 2 / molecule_per_nm3 * e * Ckl k l ^ 2))); [auto_derive; exact I|apply KHS_smooth].
    - apply (ex_derive_mult br).
      + unfold br. apply (ex_derive_plus (fun rho => Rpower x0 (2 * la) * S_of d e x0 (2 * la) (rho * px) - 2 * Rpower x0 (la + lr) * S_of d e x0 (la + lr) (rho * px)));
          [apply (ex_derive_minus (fun rho => Rpower x0 (2 * la) * S_of d e x0 (2 * la) (rho * px)))|];
          apply const_mult_smooth; apply line_smooth; apply S_smooth.
      + unfold ch. auto_derive. exact I.
  Qed.

  Lemma mie_third_limit T : to0 (fun rho => mie_third_order m mats alpha C X rho T) 0.
  Proof.
    unfold mie_third_order. cbv zeta. apply pair_sum. intros k l.
    set (h := fun rho => rho * ps * (- m_eps mats k l ^ 3 * fm4 (alpha k l)) * exp (rho * ps * fm5 (alpha k l) + (rho * ps) ^ 2 * fm6 (alpha k l))).
    apply (to0_ext h); [intros rho _; unfold h; rewrite zetas_ps; reflexivity|].
    apply (to0_eq _ (h 0)); [unfold h; ring|]. apply to0_smooth. unfold h. auto_derive. exact I.
  Qed.

  (** contact values of a component *)
  Section Contact.
    Variables (T : R) (i : nat).
    Let la := v_la avg i. Let lr := v_lr avg i. Let d := t_dii t i. Let e := v_eps avg i. Let x0 := t_x0ii t i.
    Hypothesis HC : C <> 0.
    Hypothesis He : e <> 0.
    Hypothesis Hd : d <> 0.
    Hypothesis Hx : 0 < x0.
    Hypothesis Hr : lr <> 0.
    Hypothesis H3a : la <> 3.
    Hypothesis H3r : lr <> 3.
    Hypothesis H2a : 2 * la <> 3.
    Hypothesis H2r : 2 * lr <> 3.
    Hypothesis Har : la + lr <> 3.
    Let Cii := prefactor_value lr la.
    Let K1 := 1 / (2 * PI * e * d ^ 3 * molecule_per_nm3 ^ 2).
    Let K2 := 1 / (2 * PI * e ^ 2 * d ^ 3 * molecule_per_nm3 ^ 2).
    Let S := S_of d e x0. Let D := D_of d e x0.

    Definition g1_fun (z : R) : R :=
      K1 * (3 * (Cii * (Rpower x0 la * D la z - Rpower x0 lr * D lr z))
            - Cii * la * Rpower x0 la * S la z + Cii * lr * Rpower x0 lr * S lr z).
    Lemma g1_value rho : 0 < rho -> mie_g1 m avg t C X rho i = Ok (g1_fun (rho * px)).
    Proof.
      intros Hp. unfold mie_g1. rewrite zetax_px. fold la lr d e x0. unfold da1ii_drhos.
      rewrite (prefactor_ok lr la Hr). cbn [rbind]. f_equal. unfold g1_fun. rewrite !a1s_A, !Bkl_B. fold K1 Cii. f_equal.
      unfold S, D, S_of, D_of. field. split; [exact HC|lra].
    Qed.
    Lemma g1_smooth : ex_derive g1_fun 0.
    Proof.
      unfold g1_fun. apply const_mult_smooth.
      apply (ex_derive_plus (fun z => 3 * (Cii * (Rpower x0 la * D la z - Rpower x0 lr * D lr z)) - Cii * la * Rpower x0 la * S la z));
        [apply (ex_derive_minus (fun z => 3 * (Cii * (Rpower x0 la * D la z - Rpower x0 lr * D lr z))))|]; try (apply const_mult_smooth; apply S_smooth).
      do 2 apply const_mult_smooth. apply (ex_derive_minus (fun z => Rpower x0 la * D la z)); apply const_mult_smooth; apply D_smooth.
    Qed.
    Lemma g1_zero : g1_fun 0 = 0.
    Proof.
      unfold g1_fun, S, D. rewrite !D_zero. replace (Cii * la * Rpower x0 la * S_of d e x0 la 0) with (Cii * la * (Rpower x0 la * S_of d e x0 la 0)) by ring.
      replace (Cii * lr * Rpower x0 lr * S_of d e x0 lr 0) with (Cii * lr * (Rpower x0 lr * S_of d e x0 lr 0)) by ring.
      rewrite !S_contact by assumption. generalize K1. intros k. field. split; lra.
    Qed.

    Definition dKHS_of (z : R) : R := 4 * (z ^ 2 - 5 * z - 2) * (1 - z) ^ 3 / (z ^ 4 - 4 * z ^ 3 + 4 * z ^ 2 + 4 * z + 1) ^ 2.
    Definition br_of (F : R -> R -> R) (z : R) : R :=
      Rpower x0 (2 * la) * F (2 * la) z - 2 * Rpower x0 (la + lr) * F (la + lr) z + Rpower x0 (2 * lr) * F (2 * lr) z.
    Definition gam (rho : R) : R :=
      10 * (- tanh (10 * (57 / 100 - Cii * (1 / (la - 3) - 1 / (lr - 3)))) + 1) * (rho * ps) * (exp (e / T) - 1)
      * exp (- 67 / 10 * (rho * ps) + - 8 * (rho * ps) ^ 2).
    Definition g2_fun (z : R) : R :=
      K2 * (3 * (1 / 2 * e * Cii ^ 2 * br_of D z * KHS z + 1 / 2 * e * Cii ^ 2 * br_of S z * (z * dKHS_of z))
            - KHS z * (e * Cii ^ 2) * lr * Rpower x0 (2 * lr) * S (2 * lr) z
            + KHS z * (e * Cii ^ 2) * (lr + la) * Rpower x0 (lr + la) * S (la + lr) z
            - KHS z * (e * Cii ^ 2) * la * Rpower x0 (2 * la) * S (2 * la) z).
    Lemma g2_value rho : 0 < rho -> mie_g2 m mats avg t C X rho T i = Ok ((1 + gam rho) * g2_fun (rho * px)).
    Proof.
      intros Hp. unfold mie_g2. rewrite zetax_px. fold la lr d e x0. unfold da2_1pchi_drhos.
      rewrite (prefactor_ok lr la Hr). cbn [rbind]. f_equal. fold Cii. f_equal.
      - unfold gammac, gam. rewrite zetas_ps. reflexivity.
      - unfold g2_fun. fold K2. f_equal. unfold a2_bracket, da2_bracket, dKHS_drhos. rewrite !a1s_A, !Bkl_B.
        unfold br_of, S, D, S_of, D_of. change KHS_mie with KHS. unfold dKHS_of.
        generalize (KHS (rho * px)). intros kh. unfold Rdiv. generalize (/ ((rho * px) ^ 4 - 4 * (rho * px) ^ 3 + 4 * (rho * px) ^ 2 + 4 * (rho * px) + 1) ^ 2).
        intros q. field. split; [exact HC|lra].
    Qed.
    Lemma br_smooth F : (forall l, ex_derive (F l) 0) -> ex_derive (br_of F) 0.
    Proof.
      intros HF. unfold br_of. apply (ex_derive_plus (fun z => Rpower x0 (2 * la) * F (2 * la) z - 2 * Rpower x0 (la + lr) * F (la + lr) z));
        [apply (ex_derive_minus (fun z => Rpower x0 (2 * la) * F (2 * la) z))|]; apply const_mult_smooth; apply HF.
    Qed.
    Lemma KHS_smooth0 : ex_derive KHS 0.
    Proof. unfold KHS. auto_derive. repeat split; try exact I. match goal with |- ?a <> 0 => replace a with 1 by ring end. lra. Qed.
    Lemma kterm_smooth c l : ex_derive (fun z => KHS z * (e * Cii ^ 2) * c * Rpower x0 l * S l z) 0.
    Proof.
      apply (ex_derive_mult (fun z => KHS z * (e * Cii ^ 2) * c * Rpower x0 l) (S l)); [|apply S_smooth].
      apply (ex_derive_ext (fun z => (e * Cii ^ 2 * c * Rpower x0 l) * KHS z)); [intros; cbn; ring|]. apply const_mult_smooth. apply KHS_smooth0.
    Qed.
    Lemma kterm_smooth' c l l' : ex_derive (fun z => KHS z * (e * Cii ^ 2) * c * Rpower x0 l' * S l z) 0.
    Proof.
      apply (ex_derive_mult (fun z => KHS z * (e * Cii ^ 2) * c * Rpower x0 l') (S l)); [|apply S_smooth].
      apply (ex_derive_ext (fun z => (e * Cii ^ 2 * c * Rpower x0 l') * KHS z)); [intros; cbn; ring|]. apply const_mult_smooth. apply KHS_smooth0.
    Qed.
    Lemma g2_smooth : ex_derive g2_fun 0.
    Proof.
      unfold g2_fun. apply const_mult_smooth.
      apply (ex_derive_minus (fun z => 3 * (1 / 2 * e * Cii ^ 2 * br_of D z * KHS z + 1 / 2 * e * Cii ^ 2 * br_of S z * (z * dKHS_of z))
            - KHS z * (e * Cii ^ 2) * lr * Rpower x0 (2 * lr) * S (2 * lr) z
            + KHS z * (e * Cii ^ 2) * (lr + la) * Rpower x0 (lr + la) * S (la + lr) z)); [|apply kterm_smooth].
      apply (ex_derive_plus (fun z => 3 * (1 / 2 * e * Cii ^ 2 * br_of D z * KHS z + 1 / 2 * e * Cii ^ 2 * br_of S z * (z * dKHS_of z))
            - KHS z * (e * Cii ^ 2) * lr * Rpower x0 (2 * lr) * S (2 * lr) z)); [|apply kterm_smooth'].
      apply (ex_derive_minus (fun z => 3 * (1 / 2 * e * Cii ^ 2 * br_of D z * KHS z + 1 / 2 * e * Cii ^ 2 * br_of S z * (z * dKHS_of z)))); [|apply kterm_smooth].
      apply const_mult_smooth.
      apply (ex_derive_plus (fun z => 1 / 2 * e * Cii ^ 2 * br_of D z * KHS z)).
      - apply (ex_derive_mult (fun z => 1 / 2 * e * Cii ^ 2 * br_of D z)); [|apply KHS_smooth0]. apply const_mult_smooth. apply br_smooth. intros l. apply D_smooth.
      - apply (ex_derive_mult (fun z => 1 / 2 * e * Cii ^ 2 * br_of S z)); [apply const_mult_smooth; apply br_smooth; intros l; apply S_smooth|].
        unfold dKHS_of. auto_derive. repeat split; try exact I. match goal with |- ?a <> 0 => replace a with 1 by ring end. lra.
    Qed.
    Lemma g2_zero : g2_fun 0 = 0.
    Proof.
      unfold g2_fun, br_of, S, D. rewrite !D_zero. replace (KHS 0) with 1 by (unfold KHS; field).
      assert (Q1 : Rpower x0 (2 * la) * S_of d e x0 (2 * la) 0 = _) by (apply S_contact; assumption).
      assert (Q2 : Rpower x0 (2 * lr) * S_of d e x0 (2 * lr) 0 = _) by (apply S_contact; assumption).
      assert (Q3 : Rpower x0 (la + lr) * S_of d e x0 (la + lr) 0 = _) by (apply S_contact; assumption).
      replace (lr + la) with (la + lr) by ring.
      set (P1 := Rpower x0 (2 * la)) in *. set (P2 := Rpower x0 (2 * lr)) in *. set (P3 := Rpower x0 (la + lr)) in *.
      set (s1 := S_of d e x0 (2 * la) 0) in *. set (s2 := S_of d e x0 (2 * lr) 0) in *. set (s3 := S_of d e x0 (la + lr) 0) in *.
      transitivity (K2 * (e * Cii ^ 2) * (3 / 2 * (P1 * s1 - 2 * (P3 * s3) + P2 * s2) - lr * (P2 * s2) + (la + lr) * (P3 * s3) - la * (P1 * s1))).
      { field. }
      rewrite Q1, Q2, Q3. generalize K2. intros k. field. repeat split; lra.
    Qed.

    Definition gii_fun (rho : R) : R :=
      let gd := mie_gdHS t (rho * px) i in
      gd * exp (e * g1_fun (rho * px) / (T * gd) + (e / T) ^ 2 * ((1 + gam rho) * g2_fun (rho * px)) / gd).
    Lemma gii_value rho : 0 < rho -> mie_gii m mats avg t C X rho T i = Ok (gii_fun rho).
    Proof. intros Hp. unfold mie_gii. rewrite g1_value, g2_value by exact Hp. cbn [rbind]. rewrite zetax_px. reflexivity. Qed.
    Lemma gdHS_smooth : ex_derive (fun z => mie_gdHS t z i) 0.
    Proof. unfold mie_gdHS. auto_derive. rewrite ?Ropp_0, ?Rplus_0_r. repeat split; try lra. Qed.
    Lemma gdHS_zero : mie_gdHS t 0 i = 1.
    Proof.
      unfold mie_gdHS. etransitivity; [|apply exp_0]. f_equal. rewrite Rminus_0_r, ln_1. field.
    Qed.
    Lemma gii_limit : T <> 0 -> to0 (fun rho => ln (gii_fun rho)) 0.
    Proof.
      intros HT. apply (to0_eq _ (ln (gii_fun 0))).
      { unfold gii_fun. rewrite Rmult_0_l, g1_zero, g2_zero, gdHS_zero. unfold Rdiv. rewrite !Rmult_0_r, !Rmult_0_l, Rplus_0_r, exp_0, Rmult_1_l. apply ln_1. }
      apply (to0_smooth (fun rho => ln (gii_fun rho))).
      assert (P : forall rho, 0 < mie_gdHS t (rho * px) i) by (intros; apply exp_pos).
      assert (G0 : 0 < gii_fun 0) by (unfold gii_fun; apply Rmult_lt_0_compat; [apply P|apply exp_pos]).
      apply (ex_derive_comp ln gii_fun); [auto_derive; exact G0|]. unfold gii_fun.
      pose proof (line_smooth _ px gdHS_smooth) as SG. pose proof (line_smooth _ px g1_smooth) as S1. pose proof (line_smooth _ px g2_smooth) as S2.
      assert (SM : ex_derive gam 0) by (unfold gam; auto_derive; exact I).
      assert (N0 : mie_gdHS t (0 * px) i <> 0) by (pose proof (P 0); lra).
      apply (ex_derive_mult (fun rho => mie_gdHS t (rho * px) i)); [exact SG|].
      apply (ex_derive_comp exp); [auto_derive; exact I|].
      apply (ex_derive_plus (fun rho => e * g1_fun (rho * px) / (T * mie_gdHS t (rho * px) i))).
      - apply (ex_derive_div (fun rho => e * g1_fun (rho * px)) (fun rho => T * mie_gdHS t (rho * px) i)).
        + apply const_mult_smooth. exact S1.
        + apply const_mult_smooth. exact SG.
        + apply Rmult_integral_contrapositive_currified; assumption.
      - apply (ex_derive_div (fun rho => (e / T) ^ 2 * ((1 + gam rho) * g2_fun (rho * px))) (fun rho => mie_gdHS t (rho * px) i)); [|exact SG|exact N0].
        apply const_mult_smooth. apply (ex_derive_mult (fun rho => 1 + gam rho)); [|exact S2].
        apply (ex_derive_plus (fun _ => 1) gam); [apply ex_derive_const|exact SM].
    Qed.
  End Contact.
End MieLimit.

(** C85 for the Mie variant: the residual energy vanishes with the density, for chains as
    well.  The exponents of the components avoid the poles of the formulas. *)
Lemma mapM_map {A B} (f : A -> result B) (g : A -> B) l : (forall x, In x l -> f x = Ok (g x)) -> mapM f l = Ok (map g l).
Proof.
  induction l as [|x l IH]; intros H; [reflexivity|]. cbn [mapM map]. rewrite (H x (or_introl eq_refl)), IH by (intros y Hy; apply H; right; exact Hy). reflexivity.
Qed.
Definition regular_exponents (la lr : R) : Prop :=
  lr <> 0 /\ la <> 3 /\ lr <> 3 /\ 2 * la <> 3 /\ 2 * lr <> 3 /\ la + lr <> 3.
Theorem C85_mie : forall mapsci rules beads lib cl n nu rings s xi T t C X lim,
  mie_init mapsci rules beads lib cl n nu rings = Ok s -> mie_tables_at s T = Ok t -> mie_composition s xi = Ok (C, X) ->
  length xi = n -> Forall (fun x => 0 <= x) xi -> T <> 0 -> C <> 0 ->
  snd (mie_density_max s xi T 1) = Ok lim -> 0 < lim ->
  0 < eta_m (length beads) t C X 1 3 ->
  (forall i, (i < n)%nat -> mi_avg s "epsilon"%string i <> 0 /\ t_dii t i <> 0 /\ 0 < t_x0ii t i /\
     regular_exponents (mi_avg s "lambdaa"%string i) (mi_avg s "lambdar"%string i)) ->
  exists f, (forall rho, 0 < rho < lim -> snd (mie_residual s [rho] T xi) = Ok [f rho]) /\ to0 f 0.
Proof.
  intros mapsci rules beads lib cl n nu rings s xi T t C X lim I Ht CO Hl Hx HT HC HM HL HZ HR.
  destruct (mie_init_ok mapsci _ _ _ _ _ _ _ _ I) as [MP [MS TO]].
  assert (Fields : mbeads s = beads /\ mi_n s = n).
  { unfold mie_init in I. repeat match type of I with rbind ?Y _ = _ => destruct Y; cbn [rbind] in I; [|discriminate] end.
    injection I as <-. repeat split. }
  destruct Fields as [FB FN].
  set (gi := fun i rho => gii_fun (length beads) (mi_mats s) (mi_avg s) t C X T i rho).
  set (ch := fun rho => - sumn n (fun i => arr xi i * (-1 + mi_rings s i + sumn (length beads) (fun k => mi_nu s i k * arr (mi_Vks s) k * arr (mi_Sk s) k)) * ln (gi i rho))).
  assert (CH : forall s', mi_n s' = n -> mbeads s' = beads -> mi_mats s' = mi_mats s -> mi_avg s' = mi_avg s -> mi_nu s' = mi_nu s ->
     mi_Vks s' = mi_Vks s -> mi_Sk s' = mi_Sk s -> mi_rings s' = mi_rings s ->
     forall rho, 0 < rho -> mie_chain_of s' t C X xi rho T = Ok (ch rho)).
  { intros s' E1 E2 E3 E4 E5 E6 E7 E8 rho Hp. unfold mie_chain_of, mie_chain, mm. rewrite E1, E2, E3, E4, E5, E6, E7, E8.
    assert (MM : mapM (mie_gii (length beads) (mi_mats s) (mi_avg s) t C X rho T) (seq 0 n) = Ok (map (fun i => gi i rho) (seq 0 n))).
    { apply mapM_map. intros i Hi. apply in_seq in Hi. destruct (HR i ltac:(lia)) as [R1 [R2 [R3 [R4 [R5 [R6 [R7 [R8 R9]]]]]]]].
      apply gii_value; assumption. }
    rewrite MM. cbn [rbind]. f_equal. unfold ch. f_equal. apply sumn_ext. intros i Hi. f_equal. f_equal.
    unfold arr. rewrite (nth_indep _ 0 (gi 0%nat rho)) by (rewrite map_length, seq_length; exact Hi).
    rewrite (map_nth (fun i => gi i rho)). rewrite seq_nth by exact Hi. reflexivity. }
  exists (fun rho => mie_monomer s t C X rho T + ch rho). split.
  - intros rho [R0 R1]. unfold mie_residual. rewrite FN, Hl, Nat.eqb_refl. cbn [negb existsb].
    destruct (Rlt_dec rho 0); [lra|]. cbn [orb].
    assert (EX : existsb (fun x => if Rlt_dec x 0 then true else false) xi = false).
    { clear - Hx. induction Hx as [|x l Hx _ IH]; [reflexivity|]. cbn. destruct (Rlt_dec x 0); [lra|exact IH]. }
    rewrite EX.
    unfold mie_density_max in HM. rewrite FN, Hl, Nat.eqb_refl in HM. cbn [negb] in HM.
    destruct (refreshed_spec mapsci s T xi (fun s t C X => Ok (mie_rho_max (mm s) t C X 1)) MP MS (or_introl TO)) as [t1 [Ht1 RS1]].
    rewrite RS1, CO in HM. cbn [snd] in HM. injection HM as HM. assert (t1 = t) by congruence. subst t1.
    match goal with |- snd (refreshed s T xi ?F) = _ => destruct (refreshed_spec mapsci s T xi F MP MS (or_introl TO)) as [t2 [Ht2 RS2]] end.
    assert (t2 = t) by congruence. subst t2. rewrite RS2, CO. cbv zeta. cbn [snd].
    unfold mm in HM |- *. change (mbeads (with_mcomp (with_T s (Some T) (Some t)) (Some (xi, (C, X))))) with (mbeads s) in *.
    rewrite HM. cbn [forallb]. destruct (Rge_dec rho lim); [lra|]. cbn [andb mapM].
    rewrite (CH (with_mcomp (with_T s (Some T) (Some t)) (Some (xi, (C, X)))) FN FB eq_refl eq_refl eq_refl eq_refl eq_refl eq_refl rho R0). reflexivity.
  - apply (to0_eq _ (0 + 0 + 0 + 0 + - sumn n (fun i => arr xi i * (-1 + mi_rings s i + sumn (length beads) (fun k => mi_nu s i k * arr (mi_Vks s) k * arr (mi_Sk s) k)) * 0))).
    { rewrite sumn_zero; [ring|]. intros; ring. }
    unfold mie_monomer, mm. rewrite FB. apply to0_plus; [apply to0_plus; [apply to0_plus; [apply to0_plus|]|]|].
    + apply mie_hard_limit. rewrite eta_mmom, Rmult_1_l in HZ. exact HZ.
    + apply mie_first_limit.
    + apply mie_second_limit.
    + apply mie_third_limit.
    + unfold ch. apply to0_opp. apply to0_sumn. intros i Hi. apply to0_scal.
      destruct (HR i Hi) as [R1 [R2 [R3 [R4 [R5 [R6 [R7 [R8 R9]]]]]]]]. apply gii_limit; assumption.
Qed.
Print Assumptions C85_mie.
(** the exponents 6 and 12 are regular *)
Example C85_mie_case : regular_exponents 6 12 /\ forall la lr, 3 < la -> la < lr -> regular_exponents la lr.
Proof. split; [|intros la lr H1 H2]; unfold regular_exponents; repeat split; lra. Qed.
(** a dimer of argon-like beads meets the hypotheses at every temperature *)
Lemma mie_dimer_matrices e lr la sg : exists m,
  mie_matrices None mie_default_rules ["A"%string] (mie_full e lr la sg) [] = Ok m /\ m "lambdar"%string 0%nat 0%nat = lr /\
  m "lambdaa"%string 0%nat 0%nat = la /\ m "epsilon"%string 0%nat 0%nat = e /\ m "sigma"%string 0%nat 0%nat = sg.
Proof. eexists. split; [reflexivity|]. repeat split; reflexivity. Qed.
Lemma cube_root_one nu V Sk d i : 0 < d 0%nat 0%nat -> nu i 0%nat * V 0%nat * Sk 0%nat <> 0 -> cube_mean 1 nu V Sk d i = d 0%nat 0%nat.
Proof.
  intros Hd Hn. unfold cube_mean, zki. cbn [sumn]. rewrite !Rplus_0_l.
  assert (Z : nu i 0%nat * V 0%nat * Sk 0%nat / (nu i 0%nat * V 0%nat * Sk 0%nat) = 1) by (apply Rinv_r; exact Hn).
  rewrite Z, !Rmult_1_l. replace (d 0%nat 0%nat ^ 3) with (Rpower (d 0%nat 0%nat) (INR 3)) by (apply Rpower_pow; exact Hd).
  rewrite Rpower_mult. replace (INR 3 * (1 / 3)) with 1 by (cbn; field). apply Rpower_1. exact Hd.
Qed.
Lemma mean_one nu V Sk e i : nu i 0%nat * V 0%nat * Sk 0%nat <> 0 -> mean_ii 1 nu V Sk e i = e 0%nat 0%nat.
Proof.
  intros Hn. unfold mean_ii, zki. cbn [sumn]. rewrite !Rplus_0_l.
  assert (Z : nu i 0%nat * V 0%nat * Sk 0%nat / (nu i 0%nat * V 0%nat * Sk 0%nat) = 1) by (apply Rinv_r; exact Hn).
  rewrite Z. ring.
Qed.
Example C85_mie_dimer : forall e sg T, 0 < e -> 0 < sg -> 0 < T -> exists s f lim,
  mie_init None mie_default_rules ["A"%string] (mie_bead e 12 6 sg) [] 1 (fun _ _ => 2) (fun _ => 0) = Ok s /\ 0 < lim /\
  (forall rho, 0 < rho < lim -> snd (mie_residual s [rho] T [1]) = Ok [f rho]) /\ to0 f 0.
Proof.
  intros e sg T He Hs HT.
  assert (Z12 : (12 : R) <> 0) by lra.
  destruct (mie_dimer_matrices e 12 6 sg) as [m [Em [M1 [M2 [M3 M4]]]]].
  destruct (mie_one_prefactor m) as [c Ec]; [rewrite M1; exact Z12|].
  assert (I : exists s, mie_init None mie_default_rules ["A"%string] (mie_bead e 12 6 sg) [] 1 (fun _ _ => 2) (fun _ => 0) = Ok s /\
     mi_avg s = mie_averages 1 (fun _ _ => 2) (arr [1]) (arr [1]) m /\ mlib s = mie_full e 12 6 sg /\ mbeads s = ["A"%string] /\
     mi_n s = 1%nat /\ mi_nu s = (fun _ _ => 2) /\ mi_Vks s = [1] /\ mi_Sk s = [1]).
  { unfold mie_init.
    change (snd (check_bead_parameters R (mie_bead e 12 6 sg) mie_defaults)) with (Ok (mie_full e 12 6 sg)). cbn [rbind].
    change (extract_property R "Vks" (mie_full e 12 6 sg) ["A"%string] (Some 1)) with (Ok [1]).
    change (extract_property R "Sk" (mie_full e 12 6 sg) ["A"%string] (Some 1)) with (Ok [1]). cbn [rbind].
    rewrite Em. cbn [rbind length]. rewrite Ec. cbn [rbind]. eexists. split; [reflexivity|]. repeat split. }
  destruct I as [s [I [AV [FL [FB [FN [FU [FV FS]]]]]]]].
  destruct (mie_one_tables s T e 12 6 sg Z12 FL FB) as [t [Et Dt]].
  assert (PF : 0 < prefactor_value 12 6).
  { unfold prefactor_value. apply Rmult_lt_0_compat; [lra|apply exp_pos]. }
  destruct (C71_diameter e sg T (prefactor_value 12 6) 12 6 He Hs HT PF ltac:(lra)) as [[Dpos _] _]. rewrite <- Dt in Dpos.
  set (d := t_dkl t 0%nat 0%nat) in *.
  assert (CO : mie_composition s [1] = Ok (Cmol2seg 1 1 (arr [1]) (fun _ _ => 2) (arr [1]) (arr [1]), xskl 1 1 (arr [1]) (fun _ _ => 2) (arr [1]) (arr [1]))).
  { unfold mie_composition, mm. rewrite FL, FB, FN, FU. reflexivity. }
  assert (EC : Cmol2seg 1 1 (arr [1]) (fun _ _ => 2) (arr [1]) (arr [1]) = 2) by (unfold Cmol2seg, arr; cbn [sumn nth]; ring).
  assert (EX : xsk 1 1 (arr [1]) (fun _ _ => 2) (arr [1]) (arr [1]) 0 = 1) by (unfold xsk; rewrite EC; unfold arr; cbn [sumn nth]; field).
  assert (DP3 : 0 < d ^ 3) by (apply pow_lt; exact Dpos). pose proof PI_RGT_0 as PP.
  assert (TT : t_dii t 0%nat = d /\ t_x0ii t 0%nat = sg / d).
  { assert (DII : t_dii t 0%nat = d).
    { pose proof Et as Et'. unfold mie_tables_at in Et'. destruct (mapM _ _) as [dkk|] in Et'; cbn [rbind] in Et'; [|discriminate]. injection Et' as Et'.
      rewrite <- Et'. cbn [t_dii]. unfold mm. rewrite FB, FU, FV, FS. cbn [length].
      rewrite cube_root_one.
      - unfold d. rewrite <- Et'. reflexivity.
      - replace (dkl_of (arr dkk) 0%nat 0%nat) with d; [exact Dpos|unfold d; rewrite <- Et'; reflexivity].
      - unfold arr; cbn [nth]. lra. }
    split; [exact DII|]. pose proof Et as Et'. unfold mie_tables_at in Et'. destruct (mapM _ _) as [dkk|] in Et'; cbn [rbind] in Et'; [|discriminate].
    injection Et' as Et'. rewrite <- DII, <- Et'. cbn [t_x0ii t_dii]. rewrite AV. unfold mie_averages. cbn [String.eqb Ascii.eqb Bool.eqb].
    rewrite (cube_root_one (fun _ _ => 2) (arr [1]) (arr [1]) (m "sigma"%string) 0%nat); [rewrite M4; reflexivity|rewrite M4; exact Hs|unfold arr; cbn [nth]; lra]. }
  destruct TT as [T1 T2].
  set (lim := 1 * 6 / (2 * PI * d ^ 3) / molecule_per_nm3).
  assert (LP : 0 < lim).
  { unfold lim, molecule_per_nm3. apply Rdiv_lt_0_compat; [|lra]. apply Rdiv_lt_0_compat; [lra|]. apply Rmult_lt_0_compat; lra. }
  destruct (mie_init_ok None _ _ _ _ _ _ _ _ I) as [MP [MS TO]].
  assert (DM : snd (mie_density_max s [1] T 1) = Ok lim).
  { unfold mie_density_max. rewrite FN. cbn [length Nat.eqb negb].
    destruct (refreshed_spec None s T [1] (fun s t C X => Ok (mie_rho_max (mm s) t C X 1)) MP MS (or_introl TO)) as [t1 [Ht1 RS1]].
    assert (t1 = t) by congruence. subst t1. rewrite RS1, CO. cbv zeta. cbn [snd]. f_equal. unfold mm.
    change (mbeads (with_mcomp (with_T s (Some T) (Some t)) (Some ([1], (Cmol2seg 1 1 (arr [1]) (fun _ _ => 2) (arr [1]) (arr [1]), xskl 1 1 (arr [1]) (fun _ _ => 2) (arr [1]) (arr [1])))))) with (mbeads s).
    rewrite FB. unfold mie_rho_max, xskl. cbn [length sumn]. rewrite EC, EX. fold d. unfold lim, molecule_per_nm3. field. lra. }
  destruct (C85_mie None _ _ _ _ _ _ _ s [1] T t _ _ lim I Et CO eq_refl ltac:(repeat constructor; lra) ltac:(lra) ltac:(rewrite EC; lra) DM LP) as [f [F1 F2]].
  - unfold eta_m, xskl. cbn [length sumn]. rewrite EC, EX, sqrt_square by lra. fold d. unfold molecule_per_nm3. repeat (lra || apply Rmult_lt_0_compat).
  - intros [|i] Hi; [|lia]. rewrite T1, T2, AV. unfold mie_averages.
    change (String.eqb "epsilon" "sigma") with false. change (String.eqb "lambdaa" "sigma") with false. change (String.eqb "lambdar" "sigma") with false. cbv iota.
    rewrite !mean_one by (unfold arr; cbn [nth]; lra). rewrite M1, M2, M3.
    split; [lra|]. split; [lra|]. split; [apply Rdiv_lt_0_compat; assumption|]. exact (proj1 C85_mie_case).
  - exists s, f, lim. repeat split; assumption.
Qed.
