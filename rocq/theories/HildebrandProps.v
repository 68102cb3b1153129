(** C48: the solubility parameter. *)
From Verif Require Import Base HildebrandModel.
From Coq Require Import Reals Lra.
Open Scope R_scope.

Section S.
  Variable D : Type.
  Variable isotherm : R -> dict D -> R -> result (list R * list ext).
  Variable smooth : list ext -> list ext.
  Variable integral : list R -> list ext -> R -> R -> ext.
  Variable polyfit : list R -> list ext -> ext * ext.
  Variable Rgas : R.
  Let delta := hildebrand D isotherm smooth integral polyfit Rgas.

  (** The residual energy [U] of a state point: the isotherms at T-dT, T+dT and T exist, with as many
      points each, and U comes from their integrand. *)
  Definition has_energy (rhol T dT tol : R) (opts : dict D) (U : ext) : Prop :=
    exists v1 P1 v2 P2 v P, dget opts "max_density" = None /\
      isotherm (T - dT) opts rhol = Ok (v1, P1) /\ isotherm (T + dT) opts rhol = Ok (v2, P2) /\ isotherm T opts rhol = Ok (v, P) /\
      length P2 = length P1 /\ length P = length P1 /\ v <> [] /\
      U = residual_energy integral polyfit Rgas T tol rhol v (smooth (integrand Rgas T dT P1 P2 P)).

  Lemma delta_energy rhol T dT tol opts U : has_energy rhol T dT tol opts U ->
    delta rhol T dT tol opts = if egt U (RF 0) then Err ValueError else Ok (esqrt (emul (eneg U) (RF rhol))).
  Proof.
    intros (v1 & P1 & v2 & P2 & v & P & Hm & H1 & H2 & H3 & L2 & L0 & Hv & ->). unfold delta, hildebrand, dmem. rewrite Hm.
    rewrite H1, H2, H3. cbn [rbind fst snd]. rewrite L2, L0, Nat.eqb_refl. cbn [andb negb]. destruct v; [congruence|reflexivity].
  Qed.

  (** C48: where the residual energy is a number and not positive, the parameter is the non-negative root of
      minus the energy density; a positive energy is refused with ValueError. *)
Theorem C48_value : forall rhol T dT tol opts U, has_energy rhol T dT tol opts (RF U) -> 0 < rhol ->
    (U <= 0 -> exists d, delta rhol T dT tol opts = Ok (RF d) /\ 0 <= d /\ d * d = - U * rhol) /\
    (0 < U -> delta rhol T dT tol opts = Err ValueError).
  Proof.
    intros rhol T dT tol opts U H Hr. rewrite (delta_energy _ _ _ _ _ _ H). cbn [egt eneg emul]. split; intros HU.
    - destruct (Rlt_dec 0 U); [lra|]. assert (0 <= - U * rhol) by nra. cbn [esqrt]. destruct (Rle_dec 0 (- U * rhol)); [|contradiction].
      exists (sqrt (- U * rhol)). split; [reflexivity|]. split; [apply sqrt_pos|apply sqrt_sqrt; assumption].
    - destruct (Rlt_dec 0 U); [reflexivity|lra].
  Qed.

  (** Conversely, a finite parameter is never negative, and a result is returned only for a point with an
      energy that is not positive or is undefined. *)
Theorem C48_returned : forall rhol T dT tol opts d, 0 < rhol -> delta rhol T dT tol opts = Ok d ->
    exists U, has_energy rhol T dT tol opts U /\
      ((exists u x, U = RF u /\ u <= 0 /\ d = RF x /\ 0 <= x /\ x * x = - u * rhol) \/ (U = RNInf /\ d = RPInf) \/ (U = RNaN /\ d = RNaN)).
  Proof.
    intros rhol T dT tol opts d Hr H. unfold delta, hildebrand, dmem in H. destruct (dget opts "max_density") eqn:Em; [discriminate|].
    destruct (isotherm (T - dT) opts rhol) as [[v1 P1]|] eqn:E1; [|discriminate]. cbn [rbind] in H.
    destruct (isotherm (T + dT) opts rhol) as [[v2 P2]|] eqn:E2; [|discriminate]. cbn [rbind] in H.
    destruct (isotherm T opts rhol) as [[v P]|] eqn:E0; [|discriminate]. cbn [rbind fst snd] in H.
    destruct (Nat.eqb_spec (length P2) (length P1)) as [L2|]; [|discriminate].
    destruct (Nat.eqb_spec (length P) (length P1)) as [L0|]; [|discriminate]. cbn [andb negb] in H.
    destruct v as [|v0 v]; [discriminate|]. set (U := residual_energy _ _ _ _ _ _ _ _) in H.
    destruct (egt U (RF 0)) eqn:Eg; [discriminate|]. injection H as <-. exists U. split.
    - exists v1, P1, v2, P2, (v0 :: v), P. repeat (split; [first [assumption|reflexivity|discriminate]|]). reflexivity.
    - clearbody U. destruct U as [u| | |]; cbn [egt] in Eg; [|discriminate| |].
      + left. destruct (Rlt_dec 0 u); [discriminate|]. assert (0 <= - u * rhol) by nra. cbn [eneg emul esqrt]. destruct (Rle_dec 0 (- u * rhol)); [|contradiction].
        exists u, (sqrt (- u * rhol)). repeat split; [lra|apply sqrt_pos|apply sqrt_sqrt; assumption].
      + right; left. split; [reflexivity|]. cbn [eneg emul]. unfold inf_times. destruct (total_order_T rhol 0) as [[|]|]; [lra|lra|reflexivity].
      + right; right. split; reflexivity.
  Qed.

  (** C48 fails for an undefined energy: it is neither refused nor a number. *)
Theorem C48_undefined_refuted : forall rhol T dT tol opts, has_energy rhol T dT tol opts RNaN ->
    delta rhol T dT tol opts = Ok RNaN.
  Proof. intros rhol T dT tol opts H. rewrite (delta_energy _ _ _ _ _ _ H). reflexivity. Qed.

  (** A density option max_density of the user is never accepted. *)
Theorem C48_max_density_refuted : forall rhol T dT tol opts, dget opts "max_density" <> None ->
    delta rhol T dT tol opts = Err TypeError.
  Proof. intros rhol T dT tol opts H. unfold delta, hildebrand, dmem. destruct (dget opts "max_density"); [reflexivity|congruence]. Qed.

  (** *** The energy *)
  (** A fluid whose pressure is linear in the temperature at every volume: P = T a(v) + g(v) (an ideal gas, a
      van der Waals fluid).  Then the temperature derivative is exact and the integrand is -g/(R T). *)
  Definition linear_isotherm (v : list R) (a g : R -> R) (opts : dict D) (rhol : R) : Prop :=
    forall t, isotherm t opts rhol = Ok (v, map (fun x => RF (t * a x + g x)) v).

  Lemma integrand_linear (v : list R) (a g : R -> R) (T dT : R) : dT <> 0 -> Rgas <> 0 -> T <> 0 ->
    integrand Rgas T dT (map (fun x => RF ((T - dT) * a x + g x)) v) (map (fun x => RF ((T + dT) * a x + g x)) v) (map (fun x => RF (T * a x + g x)) v)
    = map (fun x => RF (- (g x / (T * Rgas)))) v.
  Proof.
    intros Hd HR HT. unfold integrand, map2. induction v as [|x v IH]; [reflexivity|].
    cbn [map combine fst snd]. f_equal; [|exact IH]. cbn [esub eadd eneg ediv].
    destruct (Req_EM_T (2 * dT) 0); [lra|]. cbn [ediv]. destruct (Req_EM_T Rgas 0); [contradiction|].
    destruct (Req_EM_T (T * Rgas) 0) as [E|]; [exfalso; apply Rmult_integral in E; tauto|]. cbn [eneg esub eadd]. f_equal. field. repeat split; assumption.
  Qed.

  (** C48, the energy: when smoothing keeps the values and the integral of the spline is homogeneous, the
      solubility parameter of such a fluid is given by the integral of -g, the attractive part of the pressure. *)
Theorem C48_linear_fluid : forall rhol T dT tol opts v a g I,
    dT <> 0 -> 0 < Rgas -> 0 < T -> 0 < rhol -> dget opts "max_density" = None -> v <> [] ->
    linear_isotherm v a g opts rhol ->
    (forall l, smooth l = l) ->
    (forall c f x y s, integral v (map (fun z => RF (f z)) v) x y = RF s -> integral v (map (fun z => RF (c * f z)) v) x y = RF (c * s)) ->
    integral v (map (fun z => RF (g z)) v) (1 / rhol) (List.last v 0) = RF I ->
    (- (g (List.last v 0) / (T * Rgas)) <= tol) ->
    has_energy rhol T dT tol opts (RF I) /\
    (I <= 0 -> exists d, delta rhol T dT tol opts = Ok (RF d) /\ 0 <= d /\ d * d = - I * rhol).
  Proof.
    intros rhol T dT tol opts v a g I Hd HR HT Hr Hm Hv HL HS HI HG Htol.
    assert (HE : has_energy rhol T dT tol opts (RF I)).
    { exists v, (map (fun x => RF ((T - dT) * a x + g x)) v), v, (map (fun x => RF ((T + dT) * a x + g x)) v), v, (map (fun x => RF (T * a x + g x)) v).
      rewrite !map_length. split; [exact Hm|]. do 3 (split; [apply HL|]). do 2 (split; [reflexivity|]). split; [exact Hv|].
      rewrite HS, integrand_linear by lra. unfold residual_energy.
      assert (List.last (map (fun x => RF (- (g x / (T * Rgas)))) v) RNaN = RF (- (g (List.last v 0) / (T * Rgas)))) as ->.
      { clear -Hv. induction v as [|x v IH]; [congruence|]. destruct v as [|y v]; [reflexivity|].
        change (List.last (map (fun x0 => RF (- (g x0 / (T * Rgas)))) (y :: v)) RNaN = RF (- (g (List.last (y :: v) 0) / (T * Rgas)))). apply IH. discriminate. }
      cbn [egt]. destruct (Rlt_dec tol (- (g (List.last v 0) / (T * Rgas)))); [lra|].
      assert (HTR : T * Rgas <> 0) by nra.
      assert (map (fun x => RF (- (g x / (T * Rgas)))) v = map (fun x => RF (- / (T * Rgas) * g x)) v) as ->.
      { apply map_ext. intros x. f_equal. field. repeat split; lra. }
      rewrite (HI (- / (T * Rgas)) g _ _ I HG). cbn [emul]. f_equal. field. repeat split; lra. }
    split; [exact HE|]. intros Hn. apply (C48_value _ _ _ _ _ _ HE Hr). exact Hn.
  Qed.
End S.
Print Assumptions C48_value.
Print Assumptions C48_returned.
Print Assumptions C48_undefined_refuted.
Print Assumptions C48_max_density_refuted.
Print Assumptions C48_linear_fluid.

(** An instance: two volumes, the trapezoidal rule as integral, P = T/v - 4. *)
Definition ex_iso (t : R) (opts : dict nat) (rhol : R) : result (list R * list ext) :=
  Ok ([1; 3], map (fun x => RF (t * (/ x) + (-4))) [1; 3]).
Definition ex_trapez (v : list R) (l : list ext) (x y : R) : ext :=
  match l with [a; b] => emul (RF (y - x)) (ediv (eadd a b) (RF 2)) | _ => RNaN end.
Example C48_example :
  exists d, hildebrand nat ex_iso (fun l => l) ex_trapez (fun _ _ => (RNaN, RNaN)) 8 1 300 (1 / 10) 1 [] = Ok (RF d) /\ 0 <= d /\ d * d = 8.
Proof.
  destruct (C48_linear_fluid nat ex_iso (fun l => l) ex_trapez (fun _ _ => (RNaN, RNaN)) 8 1 300 (1 / 10) 1 [] [1; 3] (fun x => / x) (fun _ => -4) (-8)) as [_ H];
    try lra; try reflexivity; try discriminate.
  - intros t. reflexivity.
  - intros c f x y s. unfold ex_trapez. cbn [map eadd ediv emul]. destruct (Req_EM_T 2 0); [lra|]. cbn [emul]. intros H. injection H as <-. f_equal. field.
  - unfold ex_trapez. cbn [map eadd ediv List.last]. destruct (Req_EM_T 2 0); [lra|]. cbn [emul]. f_equal. field.
  - destruct H as (d & H1 & H2 & H3); [lra|]. exists d. split; [exact H1|]. split; [exact H2|]. rewrite H3. ring.
Qed.
