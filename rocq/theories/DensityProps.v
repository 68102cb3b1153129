(** C40: the density searches. *)
From Coq Require Import Sorting.Sorted Lqa Lia.
From Verif Require Import Base BaseFacts Num NumFacts PhaseEqModel DensityModel.
Open Scope Q_scope.

(** How a density [rho] comes from a root with reciprocal volume [start]: the root itself,
    a bracketed root of the equation of state between 0.99 and 1.01 times it, or a least-squares fit started there. *)
Inductive refined (err : num -> result num) (lsq : num -> num -> num -> result num) (brentq : num -> num -> result num)
  (start rho : num) : Prop :=
| from_root : rho = start -> refined err lsq brentq start rho
| from_bracket : forall hi elo ehi,
    nle hi (nmul start (Fin (101 # 100))) = true \/ hi = nmul start (Fin (101 # 100)) ->
    err (nmul start (Fin (99 # 100))) = Ok elo -> err hi = Ok ehi -> nlt (nmul elo ehi) (Fin 0) = true ->
    brentq (nmul start (Fin (99 # 100))) hi = Ok rho -> refined err lsq brentq start rho
| from_fit : forall lo hi, lsq start lo hi = Ok rho -> refined err lsq brentq start rho.

Section C40.
  Variable P : num.
  Variable dmax : result num.
  Variable err : num -> result num.
  Variable lsq : num -> num -> num -> result num.
  Variable brentq : num -> num -> result num.
  Variable vroot : list num -> list num -> result num.
  Variable eps : num.
  Notation vapor := (calc_vapor_density P dmax err lsq brentq vroot eps).
  Notation liquid := (calc_liquid_density P dmax err lsq brentq vroot eps).

  Lemma extrapolate_flags iso rho f : extrapolate lsq vroot eps iso = Ok (rho, f) -> f = 0%nat \/ f = 4%nat /\ rho = NaN.
  Proof.
    unfold extrapolate. destruct (vroot (vlist iso) (Plist iso)); [|discriminate]. cbn [rbind]. unfold or_else. intros E.
    destruct (let* r := last_of (roots iso) in _) as [[x g]|] eqn:E2.
    - injection E as <- <-. left. destruct (last_of (roots iso)); [|discriminate]. cbn [rbind] in E2.
      destruct (lsq _ _ _); [|discriminate]. cbn in E2. congruence.
    - injection E as <- <-. right. auto.
  Qed.

  Lemma one_root_flags iso rho f : one_root P iso = Ok (rho, f) -> f = 0%nat \/ f = 1%nat \/ f = 2%nat.
  Proof.
    unfold one_root. intros E. destruct (first_of (roots iso)); [|discriminate]. cbn [rbind] in E.
    destruct (extrema iso) as [|e es] eqn:Ee; [injection E as _ <-; auto|].
    destruct (py_max (e :: es)); [|discriminate]. cbn [rbind] in E.
    destruct (ngt _ _); [injection E as _ <-; auto|]. destruct (Nat.ltb _ _); [injection E as _ <-; auto|discriminate].
  Qed.

  Lemma vapor_select_flags iso rho f b : vapor_select P dmax lsq vroot eps iso = Ok (rho, f, b) ->
    f = 0%nat \/ f = 1%nat \/ f = 2%nat \/ (f = 3%nat \/ f = 4%nat) /\ rho = NaN.
  Proof.
    unfold vapor_select. destruct (existsb is_nan (roots iso)); [intros E; injection E as <- <- <-; tauto|].
    destruct (length (roots iso)) as [|[|[|n]]].
    - destruct (last_of (vlist iso)); [|discriminate]. cbn [rbind]. destruct (nlt _ _).
      + destruct (first_of (vlist iso)); [|discriminate]. cbn [rbind]. destruct dmax; [|discriminate]. cbn [rbind].
        destruct (lsq _ _ _); cbn [rbind]; intros E; injection E as <- <- <-; [|tauto]. destruct (extrema iso); tauto.
      + destruct (py_min (Plist iso)); [|discriminate]. cbn [rbind]. destruct (ngt _ _).
        * destruct (extrapolate lsq vroot eps iso) as [[x g]|] eqn:Ex; [|discriminate]. cbn [rbind]. intros E; injection E as <- <- <-.
          apply extrapolate_flags in Ex. tauto.
        * intros E; injection E as <- <- <-; tauto.
    - destruct (one_root P iso) as [[x g]|] eqn:Ex; [|discriminate]. cbn [rbind]. intros E; injection E as <- <- <-.
      apply one_root_flags in Ex. tauto.
    - destruct (first_of (roots iso)); [|discriminate]. cbn [rbind]. destruct (nlt _ _); [intros E; injection E as <- <- <-; tauto|].
      destruct (extrapolate lsq vroot eps iso) as [[x g]|] eqn:Ex; [|discriminate]. cbn [rbind]. intros E; injection E as <- <- <-.
      apply extrapolate_flags in Ex. tauto.
    - destruct (at_ (roots iso) 2); [|discriminate]. cbn [rbind]. intros E; injection E as <- <- <-; tauto.
  Qed.

  Lemma liquid_select_flags iso rho f b : liquid_select P dmax lsq vroot eps iso = Ok (rho, f, b) ->
    f = 0%nat \/ f = 1%nat \/ f = 2%nat \/ (f = 3%nat \/ f = 4%nat) /\ rho = NaN.
  Proof.
    unfold liquid_select. destruct (existsb is_nan (roots iso)); [intros E; injection E as <- <- <-; tauto|].
    destruct (length (roots iso)) as [|[|n]].
    - destruct (last_of (vlist iso)); [|discriminate]. cbn [rbind]. destruct (negb _).
      + destruct (first_of (vlist iso)); cbn [rbind]; (destruct dmax; cbn [rbind]; [|discriminate]).
        * destruct (lsq _ _ _); cbn [rbind]; intros E; injection E as <- <- <-; [|tauto]. destruct (extrema iso); tauto.
        * intros E; injection E as <- <- <-; tauto.
      + destruct (py_min (Plist iso)); [|discriminate]. cbn [rbind]. destruct (ngt _ _).
        * destruct (extrapolate lsq vroot eps iso) as [[x g]|] eqn:Ex; [|discriminate]. cbn [rbind]. intros E; injection E as <- <- <-.
          apply extrapolate_flags in Ex. tauto.
        * intros E; injection E as <- <- <-; tauto.
    - destruct (one_root P iso) as [[x g]|] eqn:Ex; [|discriminate]. cbn [rbind]. intros E; injection E as <- <- <-.
      apply one_root_flags in Ex. tauto.
    - destruct (first_of (roots iso)); [|discriminate]. cbn [rbind]. intros E; injection E as <- <- <-; tauto.
  Qed.

(** C40, failed and ideal-gas flags: the flag is one of five values and no density comes with
    the failed (3) or the ideal-gas (4) flag. *)
Theorem C40_no_density_when_failed : forall iso rho flag,
  (vapor iso = Ok (rho, flag) \/ liquid iso = Ok (rho, flag)) ->
  (flag <= 4)%nat /\ (flag = 3%nat \/ flag = 4%nat -> rho = NaN).
Proof.
  intros iso rho flag [E|E].
  - unfold calc_vapor_density in E. destruct (vapor_select P dmax lsq vroot eps iso) as [[[r f] b]|] eqn:Es; [|discriminate].
    cbn [rbind] in E. apply vapor_select_flags in Es.
    destruct (Nat.eqb f 0 || Nat.eqb f 2) eqn:Ef.
    + destruct (vapor_refine dmax err lsq brentq eps iso r b); [|discriminate]. cbn in E. injection E as <- <-.
      apply orb_true_iff in Ef. rewrite !Nat.eqb_eq in Ef. split; [lia|]. intros. lia.
    + injection E as <- <-. split; [intuition lia|]. intros [-> | ->]; intuition lia.
  - unfold calc_liquid_density in E. destruct (liquid_select P dmax lsq vroot eps iso) as [[[r f] b]|] eqn:Es; [|discriminate].
    cbn [rbind] in E. apply liquid_select_flags in Es.
    destruct (Nat.eqb f 1 || Nat.eqb f 2) eqn:Ef.
    + destruct (liquid_refine dmax err lsq brentq eps r b); [|discriminate]. cbn in E. injection E as <- <-.
      apply orb_true_iff in Ef. rewrite !Nat.eqb_eq in Ef. split; [lia|]. intros. lia.
    + injection E as <- <-. split; [intuition lia|]. intros [-> | ->]; intuition lia.
Qed.

  Lemma fin_not_nan a b c : existsb is_nan [Fin a; Fin b; Fin c] = false.
  Proof. reflexivity. Qed.

(** C40, three roots v1 < v2 < v3: the vapor search starts from the largest volume and is flagged vapor,
    the liquid search starts from the smallest volume and is flagged liquid. *)
Theorem C40_three_roots : forall iso v1 v2 v3,
  roots iso = [Fin v1; Fin v2; Fin v3] -> 0 < v1 -> v1 < v2 -> v2 < v3 ->
  (forall rho flag, vapor iso = Ok (rho, flag) ->
     flag = 0%nat /\ refined err lsq brentq (ndiv (Fin 1) (Fin v3)) rho) /\
  (forall rho flag, liquid iso = Ok (rho, flag) ->
     flag = 1%nat /\ refined err lsq brentq (ndiv (Fin 1) (Fin v1)) rho).
Proof.
  intros iso v1 v2 v3 Hr H1 H2 H3. split; intros rho flag E.
  - unfold calc_vapor_density, vapor_select in E. rewrite Hr, fin_not_nan in E. cbn [length at_ nth_error rbind Nat.eqb orb] in E.
    set (start := ndiv (Fin 1) (Fin v3)) in *.
    destruct (vapor_refine dmax err lsq brentq eps iso start false) as [r|] eqn:Er; [|discriminate].
    cbn in E. injection E as <- <-. split; [reflexivity|].
    unfold vapor_refine in Er. destruct dmax as [d|] eqn:Ed; [|discriminate]. cbn [rbind] in Er.
    destruct (err (nmul start q099)) as [elo|] eqn:E1; [|discriminate]. cbn [rbind] in Er.
    set (hi := if ngt (nmul start q101) d then d else nmul start q101) in *.
    destruct (err hi) as [ehi|] eqn:E2; [|discriminate]. cbn [rbind] in Er.
    destruct (nlt (nmul elo ehi) (Fin 0)) eqn:En.
    + eapply from_bracket with (hi := hi); eauto. unfold hi. fold q101.
      destruct (ngt (nmul start q101) d) eqn:Eg; [left; now apply nlt_le|right; reflexivity].
    + destruct (first_of (Plist iso)) as [p0|]; [|discriminate]. cbn [rbind] in Er.
      destruct (nlt p0 (Fin 0)); [injection Er as <-; now apply from_root|]. eapply from_fit; eauto.
  - unfold calc_liquid_density, liquid_select in E. rewrite Hr, fin_not_nan in E.
    cbn [length first_of at_ nth_error rbind Nat.eqb orb] in E. set (start := ndiv (Fin 1) (Fin v1)) in *.
    destruct (liquid_refine dmax err lsq brentq eps start false) as [r|] eqn:Er; [|discriminate].
    cbn in E. injection E as <- <-. split; [reflexivity|].
    unfold liquid_refine in Er.
    destruct (err (nmul start q099)) as [elo|] eqn:E1; [|discriminate]. cbn [rbind] in Er.
    destruct (err (nmul start q101)) as [ehi|] eqn:E2; [|discriminate]. cbn [rbind] in Er.
    destruct (nlt (nmul elo ehi) (Fin 0)) eqn:En.
    + eapply from_bracket with (hi := nmul start q101); eauto.
    + destruct (nlt elo (Fin 0)); [injection Er as <-; now apply from_root|].
      destruct dmax; [|discriminate]. eapply from_fit; eauto.
Qed.

(** C40, one root and no extremum: both searches report a critical fluid starting from that root. *)
Theorem C40_critical : forall iso v,
  roots iso = [Fin v] -> extrema iso = [] -> 0 < v ->
  forall rho flag, (vapor iso = Ok (rho, flag) \/ liquid iso = Ok (rho, flag)) ->
  flag = 2%nat /\ refined err lsq brentq (ndiv (Fin 1) (Fin v)) rho.
Proof.
  intros iso v Hr Hx Hv rho flag [E|E].
  - unfold calc_vapor_density, vapor_select, one_root in E. rewrite Hr, Hx in E. cbn [existsb is_nan orb length first_of at_ nth_error rbind Nat.eqb] in E.
    set (start := ndiv (Fin 1) (Fin v)) in *.
    destruct (vapor_refine dmax err lsq brentq eps iso start false) as [r|] eqn:Er; [|discriminate].
    cbn in E. injection E as <- <-. split; [reflexivity|].
    unfold vapor_refine in Er. destruct dmax as [d|] eqn:Ed; [|discriminate]. cbn [rbind] in Er.
    destruct (err (nmul start q099)) as [elo|] eqn:E1; [|discriminate]. cbn [rbind] in Er.
    set (hi := if ngt (nmul start q101) d then d else nmul start q101) in *.
    destruct (err hi) as [ehi|] eqn:E2; [|discriminate]. cbn [rbind] in Er.
    destruct (nlt (nmul elo ehi) (Fin 0)) eqn:En.
    + eapply from_bracket with (hi := hi); eauto. unfold hi. fold q101.
      destruct (ngt (nmul start q101) d) eqn:Eg; [left; now apply nlt_le|right; reflexivity].
    + destruct (first_of (Plist iso)) as [p0|]; [|discriminate]. cbn [rbind] in Er.
      destruct (nlt p0 (Fin 0)); [injection Er as <-; now apply from_root|]. eapply from_fit; eauto.
  - unfold calc_liquid_density, liquid_select, one_root in E. rewrite Hr, Hx in E.
    cbn [existsb is_nan orb length first_of at_ nth_error rbind Nat.eqb] in E. set (start := ndiv (Fin 1) (Fin v)) in *.
    destruct (liquid_refine dmax err lsq brentq eps start false) as [r|] eqn:Er; [|discriminate].
    cbn in E. injection E as <- <-. split; [reflexivity|].
    unfold liquid_refine in Er.
    destruct (err (nmul start q099)) as [elo|] eqn:E1; [|discriminate]. cbn [rbind] in Er.
    destruct (err (nmul start q101)) as [ehi|] eqn:E2; [|discriminate]. cbn [rbind] in Er.
    destruct (nlt (nmul elo ehi) (Fin 0)) eqn:En.
    + eapply from_bracket with (hi := nmul start q101); eauto.
    + destruct (nlt elo (Fin 0)); [injection Er as <-; now apply from_root|].
      destruct dmax; [|discriminate]. eapply from_fit; eauto.
Qed.

Lemma vapor_refined iso noopt start r : vapor_refine dmax err lsq brentq eps iso start noopt = Ok r -> refined err lsq brentq start r.
Proof.
  intros Er. unfold vapor_refine in Er. destruct dmax as [d|] eqn:Ed; [|discriminate]. cbn [rbind] in Er.
  destruct (err (nmul start q099)) as [elo|] eqn:E1; [|discriminate]. cbn [rbind] in Er.
  set (hi := if ngt (nmul start q101) d then d else nmul start q101) in *.
  destruct (err hi) as [ehi|] eqn:E2; [|discriminate]. cbn [rbind] in Er.
  destruct (nlt (nmul elo ehi) (Fin 0)) eqn:En.
  - eapply from_bracket with (hi := hi); eauto. unfold hi. fold q101.
    destruct (ngt (nmul start q101) d) eqn:Eg; [left; now apply nlt_le|right; reflexivity].
  - destruct (first_of (Plist iso)) as [p0|]; [|discriminate]. cbn [rbind] in Er.
    destruct (nlt p0 (Fin 0)); [injection Er as <-; now apply from_root|].
    destruct noopt; [injection Er as <-; now apply from_root|]. eapply from_fit; eauto.
Qed.
Lemma liquid_refined noopt start r : liquid_refine dmax err lsq brentq eps start noopt = Ok r -> refined err lsq brentq start r.
Proof.
  intros Er. unfold liquid_refine in Er.
  destruct (err (nmul start q099)) as [elo|] eqn:E1; [|discriminate]. cbn [rbind] in Er.
  destruct (err (nmul start q101)) as [ehi|] eqn:E2; [|discriminate]. cbn [rbind] in Er.
  destruct (nlt (nmul elo ehi) (Fin 0)) eqn:En.
  - eapply from_bracket with (hi := nmul start q101); eauto.
  - destruct (nlt elo (Fin 0)); [injection Er as <-; now apply from_root|].
    destruct noopt; [injection Er as <-; now apply from_root|]. destruct dmax; [|discriminate]. eapply from_fit; eauto.
Qed.
Lemma nlt_Fin a b : nlt (Fin a) (Fin b) = negb (Qle_bool b a).
Proof. reflexivity. Qed.
Lemma max_fold (top : Q) : forall t a, (exists q, a = Fin q /\ (q < top \/ a = Fin top)) ->
  (forall e, In e t -> exists q, e = Fin q /\ (q < top \/ e = Fin top)) -> a = Fin top \/ In (Fin top) t ->
  fold_left (fun m x => if ngt x m then x else m) t a = Fin top.
Proof.
  induction t as [|x t IH]; intros a Ha Ht Hin; cbn [fold_left].
  - destruct Hin as [H|[]]. exact H.
  - destruct (Ht x (or_introl eq_refl)) as [q [-> Hq]]. destruct Ha as [b [-> Hb]].
    assert (Ht' : forall e, In e t -> exists q, e = Fin q /\ (q < top \/ e = Fin top)) by (intros e He; apply Ht; right; exact He).
    rewrite nlt_Fin. destruct (Qle_bool q b) eqn:E; cbn [negb]; apply IH; eauto.
    + destruct Hin as [H|[H|H]]; [now left| |now right]. injection H as ->. apply Qle_bool_iff in E.
      destruct Hb as [Hb|Hb]; [lra|now left].
    + destruct Hin as [H|[H|H]]; [|now left|now right]. injection H as ->. destruct Hq as [Hq|Hq]; [|now left].
      exfalso. assert (q <= top) by lra. apply Qle_bool_iff in H. congruence.
Qed.

(** C40, one root, extrema: the root belongs to the vapor unless the isotherm at the last
    extremum lies below the requested pressure; then it belongs to the liquid.  Each search
    refines the density only when it is of its own phase. *)
Theorem C40_one_root : forall iso v top p s,
  P = Fin p -> roots iso = [Fin v] -> spline iso (Fin v) = Fin 0 ->
  In (Fin top) (extrema iso) -> (forall e, In e (extrema iso) -> exists q, e = Fin q /\ (q < top \/ e = Fin top)) ->
  spline iso (Fin top) = Fin s ->
  (s < 0 ->
     (forall rho flag, vapor iso = Ok (rho, flag) -> flag = 1%nat /\ rho = ndiv (Fin 1) (Fin v)) /\
     (forall rho flag, liquid iso = Ok (rho, flag) -> flag = 1%nat /\ refined err lsq brentq (ndiv (Fin 1) (Fin v)) rho)) /\
  (0 <= s ->
     (forall rho flag, vapor iso = Ok (rho, flag) -> flag = 0%nat /\ refined err lsq brentq (ndiv (Fin 1) (Fin v)) rho) /\
     (forall rho flag, liquid iso = Ok (rho, flag) -> flag = 0%nat /\ rho = ndiv (Fin 1) (Fin v))).
Proof.
  intros iso v top p s EP Hr H0 Hin Hall Hs.
  assert (M : py_max (extrema iso) = Ok (Fin top)).
  { unfold py_max. destruct (extrema iso) as [|a t]; [destruct Hin|]. f_equal. apply max_fold.
    - apply Hall. left; reflexivity.
    - intros e He. apply Hall. right; exact He.
    - destruct Hin as [->|H]; auto. }
  assert (O : one_root P iso = if negb (Qle_bool (0 + p) (s + p)) then Ok (ndiv (Fin 1) (Fin v), 1%nat)
     else if Nat.ltb 1 (length (extrema iso)) then Ok (ndiv (Fin 1) (Fin v), 0%nat) else Err UnboundLocalError).
  { unfold one_root. rewrite Hr. cbn [first_of at_ nth_error rbind]. destruct (extrema iso) as [|a t] eqn:Ee; [destruct Hin|].
    rewrite M. cbn [rbind]. rewrite H0, Hs, EP. reflexivity. }
  unfold calc_vapor_density, calc_liquid_density, vapor_select, liquid_select. rewrite Hr.
  cbn [existsb is_nan orb length]. set (start := ndiv (Fin 1) (Fin v)) in *. rewrite O. clear O.
  split; intros Sg.
  - assert (Q : Qle_bool (0 + p) (s + p) = false).
    { destruct (Qle_bool (0 + p) (s + p)) eqn:Q; [|reflexivity]. apply Qle_bool_iff in Q. lra. }
    rewrite Q. cbn [negb rbind Nat.eqb orb]. split; intros rho flag E.
    + injection E as <- <-. auto.
    + destruct (liquid_refine dmax err lsq brentq eps start false) as [r|] eqn:Er; [|discriminate]. cbn in E. injection E as <- <-.
      split; [reflexivity|]. eapply liquid_refined; exact Er.
  - assert (Q : Qle_bool (0 + p) (s + p) = true) by (apply Qle_bool_iff; lra).
    rewrite Q. cbn [negb]. destruct (Nat.ltb 1 (length (extrema iso))); cbn [rbind Nat.eqb orb]; [|split; discriminate]. split; intros rho flag E.
    + destruct (vapor_refine dmax err lsq brentq eps iso start false) as [r|] eqn:Er; [|discriminate]. cbn in E. injection E as <- <-.
      split; [reflexivity|]. eapply vapor_refined; exact Er.
    + injection E as <- <-. auto.
Qed.

(** C40, two roots v1 < v2: the liquid search starts from the smaller volume.  At a negative pressure the vapor search
    reports that liquid under tension; otherwise the sampled volumes stop short of the vapor, and its density is fitted
    from the extrapolated volume, below the density of the larger root, or the gas is called ideal. *)
Theorem C40_two_roots : forall iso v1 v2 p,
  P = Fin p -> roots iso = [Fin v1; Fin v2] -> spline iso (Fin v1) = Fin 0 -> 0 < v1 -> v1 < v2 ->
  (forall rho flag, liquid iso = Ok (rho, flag) -> flag = 1%nat /\ refined err lsq brentq (ndiv (Fin 1) (Fin v1)) rho) /\
  (p < 0 -> vapor iso = Ok (Fin (1 / v1), 1%nat)) /\
  (0 <= p -> forall rho flag, vapor iso = Ok (rho, flag) ->
     exists far, vroot (vlist iso) (Plist iso) = Ok far /\
     (flag = 0%nat /\ (exists fit, lsq (ndiv (Fin 1) far) eps (ndiv (Fin 1) (Fin ((11 # 10) * v2))) = Ok fit /\
                       refined err lsq brentq fit rho)
      \/ flag = 4%nat /\ rho = NaN /\
         exists e, lsq (ndiv (Fin 1) far) eps (ndiv (Fin 1) (Fin ((11 # 10) * v2))) = Err e)).
Proof.
  intros iso v1 v2 p EP Hr H0 H1 H2.
  assert (Z : Qeq_bool v1 0 = false) by (destruct (Qeq_bool v1 0) eqn:Z; [apply Qeq_bool_iff in Z; lra|reflexivity]).
  split; [|split].
  - intros rho flag E. unfold calc_liquid_density, liquid_select in E. rewrite Hr in E.
    cbn [existsb is_nan orb length first_of at_ nth_error rbind Nat.eqb] in E.
    destruct (liquid_refine _ _ _ _ _ _ _) as [r|] eqn:Er; [|discriminate]. cbn in E. injection E as <- <-.
    split; [reflexivity|]. eapply liquid_refined; exact Er.
  - intros Hp. unfold calc_vapor_density, vapor_select. rewrite Hr. cbn [existsb is_nan orb length first_of at_ nth_error rbind].
    rewrite H0, EP. cbn [nadd]. rewrite nlt_Fin.
    assert (Q : Qle_bool 0 (0 + p) = false) by (destruct (Qle_bool 0 (0 + p)) eqn:Q; [apply Qle_bool_iff in Q; lra|reflexivity]).
    rewrite Q. cbn [negb rbind Nat.eqb orb ndiv]. rewrite Z. reflexivity.
  - intros Hp rho flag E. unfold calc_vapor_density, vapor_select in E. rewrite Hr in E.
    cbn [existsb is_nan orb length first_of at_ nth_error rbind] in E. rewrite H0, EP in E. cbn [nadd] in E. rewrite nlt_Fin in E.
    assert (Q : Qle_bool 0 (0 + p) = true) by (apply Qle_bool_iff; lra). rewrite Q in E. cbn [negb] in E.
    unfold extrapolate in E. destruct (vroot (vlist iso) (Plist iso)) as [far|]; [|discriminate]. exists far. split; [reflexivity|].
    rewrite Hr in E. cbn [rbind] in E. change (last_of [Fin v1; Fin v2]) with (@Ok num (Fin v2)) in E. cbn [rbind nmul] in E.
    destruct (lsq (ndiv (Fin 1) far) eps (ndiv (Fin 1) (Fin ((11 # 10) * v2)))) as [fit|e] eqn:El; cbn [rbind or_else Nat.eqb orb] in E.
    + left. destruct (vapor_refine _ _ _ _ _ _ _ _) as [r|] eqn:Er; [|discriminate]. cbn in E. injection E as <- <-.
      split; [reflexivity|]. exists fit. split; [reflexivity|]. eapply vapor_refined; exact Er.
    + right. injection E as <- <-. split; [reflexivity|]. split; [reflexivity|]. exists e. reflexivity.
Qed.

(** C40, no root and the isotherm, as probed, on the side where only denser states can meet the pressure: the density is
    fitted between the limits stated, and the flag is critical without extrema and liquid with them; if the fit fails both
    searches report failure. *)
Theorem C40_no_root_fitted : forall iso far near d,
  roots iso = [] -> last_of (vlist iso) = Ok far -> at_ (vlist iso) 0 = Ok near -> dmax = Ok d ->
  let phase := match extrema iso with [] => 2%nat | _ => 1%nat end in
  (nlt (spline iso (ndiv (Fin 1) far)) (Fin 0) = true -> forall rho flag, vapor iso = Ok (rho, flag) ->
     (exists fit, lsq (ndiv (Fin 1) near) eps d = Ok fit /\ flag = phase /\ (phase = 1%nat -> rho = fit) /\ refined err lsq brentq fit rho)
     \/ rho = NaN /\ flag = 3%nat /\ exists e, lsq (ndiv (Fin 1) near) eps d = Err e) /\
  (neqb (spline iso (ndiv (Fin 1) far)) (Fin 0) = false -> forall rho flag, liquid iso = Ok (rho, flag) ->
     let low := ndiv (Fin 1) near in let middle := ndiv (nadd low d) (Fin 2) in
     (exists fit, lsq middle low d = Ok fit /\ flag = phase /\ refined err lsq brentq fit rho)
     \/ rho = NaN /\ flag = 3%nat /\ exists e, lsq middle low d = Err e).
Proof.
  intros iso far near d Hr Hf Hn Hd phase. split; intros Hs rho flag E.
  - unfold calc_vapor_density, vapor_select in E. rewrite Hr, Hf in E. cbn [existsb length rbind] in E. rewrite Hs in E.
    unfold first_of in E. rewrite Hn, Hd in E. cbn [rbind] in E.
    destruct (lsq (ndiv (Fin 1) near) eps d) as [fit|e]; cbn [rbind] in E.
    + left. exists fit. split; [reflexivity|]. fold phase in E. unfold phase in *. destruct (extrema iso); cbn [Nat.eqb orb] in E.
      * destruct (vapor_refine _ _ _ _ _ _ _ _) as [r|] eqn:Er; [|discriminate]. cbn in E. injection E as <- <-.
        split; [reflexivity|]. split; [discriminate|]. eapply vapor_refined; rewrite ?Hd; exact Er.
      * injection E as <- <-. split; [reflexivity|]. split; [reflexivity|]. apply from_root. reflexivity.
    + right. cbn in E. injection E as <- <-. split; [reflexivity|]. split; [reflexivity|]. exists e. reflexivity.
  - intros low middle. unfold calc_liquid_density, liquid_select in E. rewrite Hr, Hf in E. cbn [existsb length rbind] in E. rewrite Hs in E.
    cbn [negb] in E. unfold first_of in E. rewrite Hn, Hd in E. cbn [rbind] in E. fold low in E. fold middle in E.
    destruct (lsq middle low d) as [fit|e]; cbn [rbind] in E.
    + left. exists fit. split; [reflexivity|]. fold phase in E. assert (Ph : Nat.eqb phase 1 || Nat.eqb phase 2 = true) by (unfold phase; destruct (extrema iso); reflexivity).
      rewrite Ph in E. destruct (liquid_refine _ _ _ _ _ _ _) as [r|] eqn:Er; [|discriminate]. cbn in E. injection E as <- <-.
      split; [reflexivity|]. eapply liquid_refined; rewrite ?Hd; exact Er.
    + right. cbn in E. injection E as <- <-. split; [reflexivity|]. split; [reflexivity|]. exists e. reflexivity.
Qed.

(** C40, an isotherm with an undefined pressure: both searches report failure. *)
Theorem C40_undefined_isotherm : forall iso, In NaN (roots iso) ->
  vapor iso = Ok (NaN, 3%nat) /\ liquid iso = Ok (NaN, 3%nat).
Proof.
  intros iso H. assert (E : existsb is_nan (roots iso) = true) by (apply existsb_exists; exists NaN; auto).
  unfold calc_vapor_density, calc_liquid_density, vapor_select, liquid_select. rewrite E. split; reflexivity.
Qed.
End C40.

(** C40 fails for the vapor when the isotherm has a fourth root: the third one is taken,
    although it is not the one with the largest volume. *)
Definition iso4 := {| vlist := [Fin 1; Fin 5]; Plist := [Fin 1; Fin (-1)]; spline := fun _ => Fin 0;
                      roots := [Fin 1; Fin 2; Fin 3; Fin 4]; extrema := [Fin (3#2); Fin (5#2)] |}.
Theorem C40_largest_root_refuted :
  calc_vapor_density (Fin 100) (Ok (Fin 10)) (fun r => Ok (nsub r (Fin (1#3)))) (fun x _ _ => Ok x)
    (fun _ _ => Ok (Fin (1#3))) (fun _ _ => Ok (Fin 6)) (Fin 0) iso4 = Ok (Fin (1#3), 0%nat) /\
  In (Fin 4) (roots iso4) /\ 3 < 4.
Proof. split; [vm_compute; reflexivity|]. split; [cbn; auto|lra]. Qed.

(** C40 fails with one root and one extremum that is not below it: no flag is ever set, for
    any equation of state and either phase. *)
Theorem C40_one_extremum_refuted : forall P dmax err lsq brentq vroot eps iso r e,
  roots iso = [Fin r] -> extrema iso = [e] ->
  ngt (nadd (spline iso (Fin r)) P) (nadd (spline iso e) P) = false ->
  calc_vapor_density P dmax err lsq brentq vroot eps iso = Err UnboundLocalError /\
  calc_liquid_density P dmax err lsq brentq vroot eps iso = Err UnboundLocalError.
Proof.
  intros P dmax err lsq brentq vroot eps iso r e Hr He Hn.
  unfold calc_vapor_density, calc_liquid_density, vapor_select, liquid_select, one_root. rewrite Hr, He. cbn.
  rewrite Hn. split; reflexivity.
Qed.

(** C40: with no root and every sampled pressure above zero, the extrapolated vapor density
    is never used: its upper bound needs a root, so the flag is always ideal gas. *)
Theorem C40_no_root_always_ideal : forall P dmax err lsq brentq vroot eps iso vl m v,
  roots iso = [] -> last_of (vlist iso) = Ok vl ->
  nlt (spline iso (ndiv (Fin 1) vl)) (Fin 0) = false ->
  py_min (Plist iso) = Ok m -> ngt (nadd m P) (Fin 0) = true -> vroot (vlist iso) (Plist iso) = Ok v ->
  calc_vapor_density P dmax err lsq brentq vroot eps iso = Ok (NaN, 4%nat).
Proof.
  intros P dmax err lsq brentq vroot eps iso vl m v Hr Hl Hs Hm Hg Hv.
  unfold calc_vapor_density, vapor_select, extrapolate. rewrite Hr, Hl. cbn [existsb length rbind]. rewrite Hs, Hm.
  cbn [rbind]. rewrite Hg, Hv. reflexivity.
Qed.

(** one root beyond two extrema, the isotherm below the pressure at the last of them, then above it *)
Definition iso1 (s : Q) := {| vlist := [Fin 1; Fin 5]; Plist := [Fin 1; Fin (-1)];
  spline := fun x => if neqb x (Fin 4) then Fin 0 else Fin s; roots := [Fin 4]; extrema := [Fin (3#2); Fin (5#2)] |}.
Example C40_one_root_example :
  calc_liquid_density (Fin 100) (Ok (Fin 10)) (fun r => Ok (nsub r (Fin (1#4)))) (fun x _ _ => Ok x)
    (fun _ _ => Ok (Fin (1#4))) (fun _ _ => Ok (Fin 6)) (Fin 0) (iso1 (-3)) = Ok (Fin (1#4), 1%nat) /\
  calc_vapor_density (Fin 100) (Ok (Fin 10)) (fun r => Ok (nsub r (Fin (1#4)))) (fun x _ _ => Ok x)
    (fun _ _ => Ok (Fin (1#4))) (fun _ _ => Ok (Fin 6)) (Fin 0) (iso1 3) = Ok (Fin (1#4), 0%nat).
Proof. split; vm_compute; reflexivity. Qed.
Definition iso2 := {| vlist := [Fin 1; Fin 5]; Plist := [Fin 1; Fin (-1)]; spline := fun _ => Fin 0;
                      roots := [Fin 1; Fin 4]; extrema := [Fin 2; Fin 3] |}.
Example C40_two_roots_example :
  calc_vapor_density (Fin (-1)) (Ok (Fin 10)) (fun r => Ok (nsub r (Fin 1))) (fun x _ _ => Ok x)
    (fun _ _ => Ok (Fin 1)) (fun _ _ => Ok (Fin 6)) (Fin 0) iso2 = Ok (Fin (1 / 1), 1%nat) /\
  calc_vapor_density (Fin 100) (Ok (Fin 10)) (fun r => Ok (nsub r (Fin (1#6)))) (fun x _ _ => Ok x)
    (fun _ _ => Ok (Fin (1#6))) (fun _ _ => Ok (Fin 6)) (Fin 0) iso2 = Ok (Fin (1#6), 0%nat) /\
  calc_liquid_density (Fin 100) (Ok (Fin 10)) (fun r => Ok (nsub r (Fin 1))) (fun x _ _ => Ok x)
    (fun _ _ => Ok (Fin 1)) (fun _ _ => Ok (Fin 6)) (Fin 0) iso2 = Ok (Fin 1, 1%nat).
Proof. repeat split; vm_compute; reflexivity. Qed.
Definition iso0 := {| vlist := [Fin 1; Fin 5]; Plist := [Fin 1; Fin (-1)]; spline := fun _ => Fin (-2); roots := []; extrema := [Fin 2] |}.
Example C40_no_root_example :
  calc_vapor_density (Fin 100) (Ok (Fin 10)) (fun r => Ok (Fin 1)) (fun x _ _ => Ok (nadd x (Fin 1)))
    (fun _ _ => Ok (Fin 1)) (fun _ _ => Ok (Fin 6)) (Fin 0) iso0 = Ok (Fin 2, 1%nat) /\
  calc_liquid_density (Fin 100) (Ok (Fin 10)) (fun r => Ok (nsub r (Fin 3))) (fun x _ _ => Ok x)
    (fun _ _ => Err RuntimeError) (fun _ _ => Ok (Fin 6)) (Fin 0) iso0 = Ok (Fin (11 # 2), 1%nat).
Proof. repeat split; vm_compute; reflexivity. Qed.
Definition iso3 := {| vlist := [Fin 1; Fin 5]; Plist := [Fin 1; Fin (-1)]; spline := fun _ => Fin 0;
                      roots := [Fin 1; Fin 2; Fin 4]; extrema := [Fin (3#2); Fin (5#2)] |}.
Example C40_example :
  calc_vapor_density (Fin 100) (Ok (Fin 10)) (fun r => Ok (nsub r (Fin (1#4)))) (fun x _ _ => Ok x)
    (fun _ _ => Ok (Fin (1#4))) (fun _ _ => Ok (Fin 6)) (Fin 0) iso3 = Ok (Fin (1#4), 0%nat) /\
  calc_liquid_density (Fin 100) (Ok (Fin 10)) (fun r => Ok (nsub r (Fin 1))) (fun x _ _ => Ok x)
    (fun _ _ => Ok (Fin 1)) (fun _ _ => Ok (Fin 6)) (Fin 0) iso3 = Ok (Fin 1, 1%nat).
Proof. split; vm_compute; reflexivity. Qed.

Print Assumptions C40_no_density_when_failed.
Print Assumptions C40_three_roots.
Print Assumptions C40_critical.
Print Assumptions C40_one_root.
Print Assumptions C40_undefined_isotherm.
Print Assumptions C40_largest_root_refuted.
Print Assumptions C40_one_extremum_refuted.
Print Assumptions C40_no_root_always_ideal.
Print Assumptions C40_two_roots.
Print Assumptions C40_no_root_fitted.
