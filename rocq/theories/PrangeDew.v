(** C121 for dew points: the search for a pressure bracket succeeds. *)
From Coq Require Import Lqa Lia.
From Verif Require Import Base BaseFacts Num NumFacts DensityModel PrangeModel PrangeProps PrangeFinds.
Open Scope Q_scope.

Section Dew.
  Context {G : Type}.
  Variable vap : num -> result (bool * nat).
  Variable liqc : G -> num -> result (G * found).
  Variable o : pr_opts.
  Variable draw : nat -> num.
  Variable Pw Pv : Q.
  Variable v : Q -> Q.
  Hypothesis F : dews vap liqc Pw Pv v.
  Variable mx mn : Q.
  Hypothesis FC : factors o mx mn.
  Hypothesis NoMax : o_Pmax o = None.

  (** one iteration of the upper search, by pressure *)
  Lemma turn2_above z prev (s : pr_state G) q : p s = Fin q -> 0 < q -> Pv < q ->
    exists s', dew_turn2 vap liqc o z prev s = (Go s', prev) /\ pa s' = pa s /\ oa s' = oa s /\ pb s' = Fin q /\ fvap s' = true /\
      p s' = midpoint (pa s) (Fin q).
  Proof.
    intros E Hq H. unfold dew_turn2. rewrite E. destruct (d_liq _ _ _ _ _ F q Hq H) as [l [-> Hl]].
    destruct (d_com _ _ _ _ _ F (g s) q Hq) as (g' & f & -> & _ & _ & Ef). rewrite (not_vapor l Hl). cbn [negb].
    eexists. split; [reflexivity|]. destruct (Nat.eqb z 0); sr; rewrite ?E; auto.
  Qed.
  Lemma turn2_found z prev (s : pr_state G) q : p s = Fin q -> 0 < q -> q <= Pv -> 0 < v q -> nlt (pb s) (p s) = false ->
    exists s', dew_turn2 vap liqc o z prev s = (Break s', prev) /\ pa s' = pa s /\ oa s' = oa s /\ pb s' = Fin q /\ ob s' = Fin (v q).
  Proof.
    intros E Hq H Hv L. unfold dew_turn2. rewrite E in L |- *. destruct (d_vap _ _ _ _ _ F q Hq H) as [l [-> Hl]].
    destruct (d_com _ _ _ _ _ F (g s) q Hq) as (g' & f & -> & _ & _ & Ef). rewrite (is_vapor l Hl), Ef. cbn [negb].
    rewrite (ltT 0 (v q)) by exact Hv. eexists. split; [reflexivity|].
    destruct (Nat.eqb z 0); sr; rewrite ?E, ?L; sr; rewrite ?E; auto.
  Qed.
  Lemma turn2_found_up z prev (s : pr_state G) b q : p s = Fin q -> pb s = Fin b -> b < q -> 0 < q -> q <= Pv -> 0 < v q -> z <> O ->
    exists s', dew_turn2 vap liqc o z prev s = (Break s', prev) /\ pa s' = Fin b /\ oa s' = ob s /\ pb s' = Fin q /\ ob s' = Fin (v q).
  Proof.
    intros E B L Hq H Hv Hz. unfold dew_turn2. rewrite E. destruct (d_vap _ _ _ _ _ F q Hq H) as [l [-> Hl]].
    destruct (d_com _ _ _ _ _ F (g s) q Hq) as (g' & f & -> & _ & _ & Ef). rewrite (is_vapor l Hl), Ef. cbn [negb].
    rewrite (ltT 0 (v q)) by exact Hv. eexists. split; [reflexivity|].
    destruct (Nat.eqb z 0) eqn:E0; [apply Nat.eqb_eq in E0; contradiction|]. sr. rewrite E, B, (ltT b q L). sr. rewrite ?E, ?B. auto.
  Qed.
  Lemma turn2_bisect z prev (s : pr_state G) q : p s = Fin q -> 0 < q -> q <= Pv -> v q <= 0 -> fvap s = true ->
    exists s', dew_turn2 vap liqc o z prev s = (Go s', prev) /\ pa s' = Fin q /\ oa s' = Fin (v q) /\ pb s' = pb s /\ fvap s' = true /\
      p s' = midpoint (Fin q) (pb s).
  Proof.
    intros E Hq H Hv Fv. unfold dew_turn2. rewrite E. destruct (d_vap _ _ _ _ _ F q Hq H) as [l [-> Hl]].
    destruct (d_com _ _ _ _ _ F (g s) q Hq) as (g' & f & -> & _ & _ & Ef). rewrite (is_vapor l Hl), Ef. cbn [negb].
    rewrite (ltF 0 (v q)) by exact Hv. destruct (Nat.eqb z 0); sr; rewrite Fv; (eexists; split; [reflexivity|]); sr; rewrite ?E, ?Fv; auto.
  Qed.
  Lemma tenth r : r <= 0 -> (11 # 10) * r <= r. Proof. intros. lra. Qed.
  Lemma turn2_up z prev (s : pr_state G) a b q : p s = Fin q -> 0 < q -> q <= Pv -> v q <= 0 -> fvap s = false ->
    pa s = Fin a -> oa s = Fin (v a) -> 0 < a -> a < q -> pb s = Fin b ->
    (z = O /\ b = q \/ z <> O /\ b < q /\ 0 < b /\ prev = Fin (v b) /\ ob s = Fin (v b) /\ v b <= 0) ->
    exists s' r, dew_turn2 vap liqc o z prev s = (Go s', Fin (v q)) /\ fvap s' = false /\
      (pa s' = Fin (if z then a else b) /\ oa s' = Fin (v (if z then a else b))) /\ pb s' = Fin q /\ ob s' = Fin (v q) /\ p s' = Fin r /\ mx * q <= r.
  Proof.
    intros E Hq H Hv Fv A OA Ha La B Z. unfold dew_turn2. rewrite E. destruct (d_vap _ _ _ _ _ F q Hq H) as [l [-> Hl]].
    destruct (d_com _ _ _ _ _ F (g s) q Hq) as (g' & f & -> & _ & _ & Ef). rewrite (is_vapor l Hl), Ef. cbn [negb].
    rewrite (ltF 0 (v q)) by exact Hv. destruct FC as (Emx & Hmx & _ & _ & _). rewrite NoMax, Emx. cbn [is_some].
    destruct Z as [[-> ->]|(Hz & Lb & Hb & -> & OB & Vb)].
    - cbn [Nat.eqb Nat.ltb Nat.leb andb]. sr. rewrite Fv, B, E, (ltF q q) by lra. sr. unfold guess. sr. rewrite A, OA, E.
      pose proof (d_inc _ _ _ _ _ F a q Ha La).
      destruct (root_fin a (v a) q (v q) La) as [t ->]; [lra|]. cbn [nmul]. destruct (nanmax_fin t (mx * q)) as [r [-> Hr]].
      eexists. exists r. split; [reflexivity|]. sr. rewrite ?A, ?OA. repeat (split; [solve [auto]|]). exact Hr.
    - destruct z as [|z]; [contradiction|]. cbn [Nat.eqb Nat.ltb Nat.leb andb]. sr.
      pose proof (d_inc _ _ _ _ _ F b q Hb Lb) as I. cbn [nmul]. rewrite Fv, (ltF (v q)) by (pose proof (tenth (v b) Vb); lra).
      rewrite B, E, (ltT b q Lb). sr. unfold guess. sr. rewrite ?B, ?OB, ?E.
      destruct (root_fin b (v b) q (v q) Lb) as [t ->]; [lra|]. cbn [nmul]. destruct (nanmax_fin t (mx * q)) as [r [-> Hr]].
      eexists. exists r. split; [reflexivity|]. sr. rewrite ?B, ?OB. repeat (split; [solve [auto]|]). exact Hr.
  Qed.

  Definition dew_found (b : bracket G) : Prop := exists lo hi, brackets b lo hi /\ v lo <= 0 /\ 0 < v hi /\ hi <= Pv.

  Lemma bisects : forall n rest z prev (s : pr_state G) a b, (n + 2 <= rest)%nat -> pa s = Fin a -> oa s = Fin (v a) -> 0 < a -> v a <= 0 ->
    pb s = Fin b -> Pv < b -> b - a <= two n * (Pv - Pw) -> fvap s = true -> p s = midpoint (Fin a) (Fin b) ->
    exists br, dew_loop2 vap liqc o rest z prev s = Ok br /\ dew_found br.
  Proof.
    destruct (d_win _ _ _ _ _ F) as (Hw & Hwv & Vw).
    induction n as [|n IH]; intros [|[|rest]] z prev s a b HR A OA Ha Va B Hb W Fv Ep; try lia;
      destruct (mid_fin a b) as [m [Em Hm]]; rewrite Em in Ep.
    - exfalso. cbn [two] in W. destruct (Qlt_le_dec Pw a) as [L|L]; [pose proof (d_inc _ _ _ _ _ F Pw a Hw L); lra|lra].
    - assert (Hpos : 0 < m) by lra. assert (Lam : a < m).
      { destruct (Qlt_le_dec Pw a) as [L|L]; [pose proof (d_inc _ _ _ _ _ F Pw a Hw L); lra|lra]. }
      change (dew_loop2 vap liqc o (S (S rest)) z prev s) with
        (match dew_turn2 vap liqc o z prev s with (Raise e, _) => Err e | (Go s0, prev0) => dew_loop2 vap liqc o (S rest) (S z) prev0 s0
         | (Break s0, _) => Ok {| br_lo := pa s0; br_hi := pb s0; br_guess := guess s0; br_global := None |} end).
      destruct (Qlt_le_dec Pv m) as [Hv|Hv].
      + destruct (turn2_above z prev s m Ep Hpos Hv) as (s' & -> & A' & OA' & B' & F' & P'). rewrite A in A', P'. rewrite OA in OA'.
        apply (IH (S rest) (S z) prev s' a m); auto; try lia; cbn [two] in W; lra.
      + destruct (Qlt_le_dec 0 (v m)) as [Hs|Hs].
        * destruct (turn2_found z prev s m Ep Hpos Hv Hs) as (s' & -> & A' & OA' & B' & OB').
          { rewrite B, Ep. apply ltF. lra. }
          eexists. split; [reflexivity|]. exists a, m. split; [|auto]. unfold brackets, guess. cbn [br_lo br_hi br_guess].
          rewrite A', OA', B', OB', A, OA. repeat (split; [solve [auto]|]).
          destruct (root_inside a (v a) m (v m) Lam) as (r & -> & R1 & R2); [left; split; assumption|]. exists r. split; [reflexivity|]. lra.
        * destruct (turn2_bisect z prev s m Ep Hpos Hv Hs Fv) as (s' & -> & A' & OA' & B' & F' & P'). rewrite B in B', P'.
          apply (IH (S rest) (S z) prev s' m b); auto; try lia; cbn [two] in W; lra.
  Qed.

  (** raising the pressure: there is a number of iterations that suffices, from a given state on *)
  Lemma raises d : 0 < d -> forall n z prev (s : pr_state G) a b q, pa s = Fin a -> oa s = Fin (v a) -> 0 < a -> v a <= 0 -> a < q -> d <= (mx - 1) * q ->
    pb s = Fin b -> p s = Fin q -> fvap s = false -> Pv - q <= inject_Z (Z.of_nat n) * d ->
    (z = O /\ b = q \/ z <> O /\ b < q /\ 0 < b /\ prev = Fin (v b) /\ ob s = Fin (v b) /\ v b <= 0) ->
    exists N, forall rest, (N <= rest)%nat -> exists br, dew_loop2 vap liqc o rest z prev s = Ok br /\ dew_found br.
  Proof.
    intros Hd. destruct (d_win _ _ _ _ _ F) as (Hw & Hwv & Vw). destruct FC as (_ & Hmx & _).
    induction n as [|n IH]; intros z prev s a b q A OA Ha Va La Dq B Ep Fv M Z; assert (Hq : 0 < q) by lra;
      assert (ABOVE : Pv < q -> exists N, forall rest, (N <= rest)%nat -> exists br, dew_loop2 vap liqc o rest z prev s = Ok br /\ dew_found br).
    1, 3: intros Hv; destruct (halvings (q - a) (Pv - Pw) ltac:(lra)) as [k Hk]; exists (k + 3)%nat; intros [|rest] HR; [lia|]; cbn [dew_loop2];
      destruct (turn2_above z prev s q Ep Hq Hv) as (s' & -> & A' & OA' & B' & F' & P'); rewrite A in A', P'; rewrite OA in OA';
      apply (bisects k rest (S z) prev s' a q); auto; lia.
    all: assert (FOUND : q <= Pv -> 0 < v q -> exists N, forall rest, (N <= rest)%nat -> exists br, dew_loop2 vap liqc o rest z prev s = Ok br /\ dew_found br).
    1, 3: intros Hv Hs; exists 2%nat; intros [|[|rest]] HR; try lia;
      change (dew_loop2 vap liqc o (S (S rest)) z prev s) with
        (match dew_turn2 vap liqc o z prev s with (Raise e, _) => Err e | (Go s0, prev0) => dew_loop2 vap liqc o (S rest) (S z) prev0 s0
         | (Break s0, _) => Ok {| br_lo := pa s0; br_hi := pb s0; br_guess := guess s0; br_global := None |} end);
      destruct Z as [[-> ->]|(Hz & Lb & Hb & -> & OB & Vb)];
      [ destruct (turn2_found 0 prev s q Ep Hq Hv Hs) as (s' & -> & A' & OA' & B' & OB');
        [rewrite B, Ep; apply ltF; lra|];
        eexists; split; [reflexivity|]; exists a, q; split; [|auto]; unfold brackets, guess; cbn [br_lo br_hi br_guess];
        rewrite A', OA', B', OB', A, OA; repeat (split; [solve [auto]|]);
        destruct (root_inside a (v a) q (v q) La) as (r & -> & R1 & R2); [left; split; assumption|]; exists r; split; [reflexivity|]; lra
      | destruct (turn2_found_up z (Fin (v b)) s b q Ep B Lb Hq Hv Hs Hz) as (s' & -> & A' & OA' & B' & OB');
        eexists; split; [reflexivity|]; exists b, q; split; [|auto]; unfold brackets, guess; cbn [br_lo br_hi br_guess];
        rewrite A', OA', B', OB', OB; repeat (split; [solve [auto]|]);
        destruct (root_inside b (v b) q (v q) Lb) as (r & -> & R1 & R2); [left; split; assumption|]; exists r; split; [reflexivity|]; lra ].
    - destruct (Qlt_le_dec Pv q) as [Hv|Hv]; [exact (ABOVE Hv)|]. apply FOUND; [exact Hv|].
      change (inject_Z (Z.of_nat 0)) with 0 in M. pose proof (d_inc _ _ _ _ _ F Pw q Hw ltac:(lra)). lra.
    - destruct (Qlt_le_dec Pv q) as [Hv|Hv]; [exact (ABOVE Hv)|]. destruct (Qlt_le_dec 0 (v q)) as [Hs|Hs]; [exact (FOUND Hv Hs)|].
      destruct (turn2_up z prev s a b q Ep Hq Hv Hs Fv A OA Ha La B Z) as (s' & r & ET & F' & [A' OA'] & B' & OB' & P' & Hr).
      assert (Hqr : q + d <= r) by lra. rewrite inject_S in M.
      set (a' := if z then a else b) in *.
      assert (H' : 0 < a' /\ v a' <= 0 /\ a' < r).
      { subst a'. destruct Z as [[-> ->]|(Hz & Lb & Hb & _ & _ & Vb)]; [repeat split; [exact Ha|exact Va|lra]|].
        destruct z; [contradiction|]. repeat split; [exact Hb|exact Vb|lra]. }
      destruct H' as (Ha' & Va' & La').
      assert (Dr : d <= (mx - 1) * r). { apply Qle_trans with (1 := Dq). rewrite (Qmult_comm _ q), (Qmult_comm _ r). apply Qmult_le_compat_r; lra. }
      destruct (IH (S z) (Fin (v q)) s' a' q r A' OA' Ha' Va' La' Dr B' P' F') as [N HN]; [lra| |].
      { right. repeat split; auto; lra. }
      exists (S N). intros [|rest] HR; [lia|]. cbn [dew_loop2]. rewrite ET. apply HN. lia.
  Qed.

  Lemma dew_success P0 P1 g0 : starts o P0 P1 -> P0 <= Pv -> v P0 < 0 ->
    exists N, forall maxiter, (N <= maxiter)%nat -> exists br, calc_Prange_yi vap liqc o draw maxiter g0 = Ok br /\ dew_found br.
  Proof.
    intros [I H0] HV V0. set (P1' := if Qlt_le_dec P0 P1 then P1 else P0 * (11 # 10)). pose proof FC as (_ & Hmx & _).
    assert (L1 : P0 < P1') by (unfold P1'; destruct (Qlt_le_dec P0 P1); lra).
    assert (Hd : 0 < (mx - 1) * P1') by (apply Qmult_lt_0_compat; lra).
    destruct (archimedes (Pv - P1') ((mx - 1) * P1') Hd) as [n Hn].
    pose proof (d_com _ _ _ _ _ F g0 P0 H0) as (g' & f & Ec & Nn & Sm & Ef). pose proof (d_vap _ _ _ _ _ F P0 H0 HV) as (l & El & Hl).
    set (s := {| pa := Fin P0; pb := Fin P1'; oa := Fin (v P0); ob := Fin 0; fmin := false; fmax := false; fcrit := false;
                 fliq := false; fvap := false; obj := Some (Fin (v P0)); g := g'; p := Fin P1' |}).
    destruct (raises _ Hd n 0 (Fin 0) s P0 P1' P1') as [N HN]; try reflexivity; try lra; [left; split; reflexivity|].
    exists (S (S N)). intros [|[|m]] Hm; try lia. unfold calc_Prange_yi. rewrite I. cbn [rbind].
    match goal with |- context [dew_loop1 ?ww ?ll ?oo ?dd ?aa ?bb (S (S m)) 0 ?x] =>
      assert (ET : dew_turn1 ww ll oo dd aa bb 0 x = Break (set_lo (set_obj x g' (Fin (v P0))) (Fin P0) (Fin (v P0)))) end.
    { unfold dew_turn1. sr. rewrite El, (is_vapor l Hl), Ec, Nn, Sm, Ef. cbn [andb]. rewrite (ltT _ _ V0). reflexivity. }
    cbn [dew_loop1]. rewrite ET. cbn [rbind]. sr.
    replace (dew_loop2 vap liqc o (S (S m)) 0 _ _) with (dew_loop2 vap liqc o (S (S m)) 0 (Fin 0) s); [apply HN; lia|].
    unfold s, P1'. destruct (Qlt_le_dec P0 P1) as [L|L]; [rewrite (leF P1 P0 L)|rewrite (leT P1 P0 L)]; reflexivity.
  Qed.

  (** a first pressure above the dew pressure, where the vapor is still found *)
  Lemma dew_stuck P0 : 0 < P0 -> Pw < P0 -> P0 <= Pv -> o_Pmin o = None -> forall rest z P1 (s : pr_state G) q,
    p s = Fin q -> q == P0 -> pa s = Fin P0 -> fmin s = false -> (rest = O -> z <> O) ->
    dew_loop1 vap liqc o draw (Fin P0) P1 rest z s = Err ValueError.
  Proof.
    intros H0 Hw HV NM. destruct (d_win _ _ _ _ _ F) as (Hpw & _ & Vw). pose proof FC as (_ & _ & Emn & _ & _).
    induction rest as [|rest IH]; intros z P1 s q Ep Eq A Fm HZ; [cbn; destruct z; [exfalso; exact (HZ eq_refl eq_refl)|reflexivity]|].
    cbn [dew_loop1]. assert (Hq : 0 < q) by lra.
    destruct (d_vap _ _ _ _ _ F q Hq ltac:(lra)) as (l & El & Hl). destruct (d_com _ _ _ _ _ F (g s) q Hq) as (g' & f & Ec & Nn & Sm & Ef).
    pose proof (d_inc _ _ _ _ _ F Pw q Hpw ltac:(lra)) as Vq.
    assert (ET : exists s', dew_turn1 vap liqc o draw (Fin P0) P1 z s = Go s' /\ pa s' = Fin P0 /\ fmin s' = false /\ exists q', p s' = Fin q' /\ q' == P0).
    { unfold dew_turn1. rewrite Ep, El, (is_vapor l Hl), Ec, Nn, Sm, Ef. cbn [andb]. rewrite (ltF (v q) 0), (ltT 0 (v q)) by lra.
      unfold dew_checks, between, nsub. sr. rewrite A, Fm, NM, Emn, Ep. cbn [is_some negb andb orb nneg nadd nmul]. rewrite (ltF q P0) by lra. sr.
      assert (Z : (q + - P0) * mn + P0 == P0) by (rewrite Eq; ring).
      rewrite Fm. cbn [orb]. rewrite andb_false_r. cbn [andb]. sr. rewrite leF by lra. eexists. split; [reflexivity|]. sr. rewrite A.
      split; [reflexivity|]. split; [exact Fm|]. eexists. split; [reflexivity|exact Z]. }
    destruct ET as (s' & -> & A' & Fm' & q' & Ep' & Eq'). apply (IH (S z) P1 s' q'); auto.
  Qed.
  Lemma dew_low P0 P1 g0 maxiter : starts o P0 P1 -> o_Pmin o = None -> Pw < P0 -> P0 <= Pv -> (0 < maxiter)%nat ->
    calc_Prange_yi vap liqc o draw maxiter g0 = Err ValueError.
  Proof.
    intros [I H0] NM Hw HV HM. unfold calc_Prange_yi. rewrite I. cbn [rbind].
    erewrite (dew_stuck P0 H0 Hw HV NM); [reflexivity|reflexivity|reflexivity|reflexivity|reflexivity|lia].
  Qed.
  (** a first pressure where the vapor is not found *)
  Lemma dew_liquid P0 P1 g0 maxiter : starts o P0 P1 -> Pv < P0 -> (0 < maxiter)%nat ->
    calc_Prange_yi vap liqc o draw maxiter g0 = Err UnboundLocalError.
  Proof.
    intros [I H0] HV HM. unfold calc_Prange_yi. rewrite I. cbn [rbind]. destruct maxiter as [|m]; [lia|]. cbn [dew_loop1]. unfold dew_turn1. sr.
    destruct (d_liq _ _ _ _ _ F P0 H0 HV) as (l & -> & Hl). rewrite (not_vapor l Hl).
    destruct (is_some (o_Pmin o) && nle (Fin P0) (Fin P0)); sr; reflexivity.
  Qed.
End Dew.
