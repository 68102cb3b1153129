(** C42: a reported bracket contains a sign change. *)
From Coq Require Import Lqa Lia.
From Verif Require Import Base BaseFacts Num NumFacts DensityModel PrangeModel.
Open Scope Q_scope.

(** ** Vocabulary *)
(** The objective of the equilibrium was evaluated at pressure [q], with value [v]. *)
Definition evaluated {G} (phase : G -> num -> result (G * found)) (q v : num) : Prop :=
  exists g g' f, phase g q = Ok (g', f) /\ f_obj f = v.
(** Sensible options: pressure limits are not negative, a pressure that is too low is raised
    by a factor of at least one, one that is too high is scaled by a factor that is not
    negative. *)
Definition sensible (o : pr_opts) : Prop :=
  (forall q, o_Pmin o = Some q -> nle (Fin 0) q = true) /\
  (forall q, o_Pmax o = Some q -> nle (Fin 0) q = true) /\
  (exists m, o_maxfactor o = Fin m /\ 1 <= m) /\ (exists m, o_minfactor o = Fin m /\ 0 <= m).
Definition reports_none {G} (b : bracket G) : Prop := br_lo b = NaN /\ br_hi b = NaN.

(** ** Order with undefined numbers *)
Definition le_ (x y : num) : Prop := nlt y x = false.
Definition nn (x : num) : Prop := le_ (Fin 0) x.

Lemma le_refl x : le_ x x. Proof. apply nlt_irrefl. Qed.
Lemma lt_le_ x y : nlt x y = true -> le_ x y. Proof. apply nlt_asym. Qed.
Lemma le_fin x y : le_ (Fin x) (Fin y) <-> x <= y. Proof. apply nlt_fin_false. Qed.
Lemma le_trans_ x y z : y <> NaN -> le_ x y -> le_ y z -> le_ x z.
Proof.
  unfold le_. intros Hy H1 H2. destruct (nlt z x) eqn:E; [|reflexivity].
  destruct (nlt_not_nan _ _ E) as [Nz Nx].
  assert (A := nlt_false_nle _ _ Hy Nx H1). assert (B := nlt_false_nle _ _ Nz Hy H2).
  assert (C := nle_trans _ _ _ A B). assert (D := nlt_nle_trans _ _ _ E C). rewrite nlt_irrefl in D. discriminate.
Qed.
Lemma nle_nn q : nle (Fin 0) q = true -> nn q.
Proof.
  unfold nn, le_. intros H. destruct (nlt q (Fin 0)) eqn:E; [|reflexivity].
  assert (D := nlt_nle_trans _ _ _ E H). rewrite nlt_irrefl in D. discriminate.
Qed.

Lemma half r : r / 2 == (1#2) * r. Proof. field. Qed.

Lemma mid_ge a b : le_ a b -> le_ a (midpoint a b).
Proof.
  unfold midpoint, nsub. destruct a as [a| | |], b as [b| | |]; cbn [nneg nadd ndiv]; try reflexivity; try discriminate.
  intros H. apply le_fin in H. change (Qeq_bool 2 0) with false. cbn [nadd]. apply le_fin. rewrite half. lra.
Qed.
Lemma mid_le a b : le_ a b -> le_ (midpoint a b) b.
Proof.
  unfold midpoint, nsub. destruct a as [a| | |], b as [b| | |]; cbn [nneg nadd ndiv]; try reflexivity; try discriminate.
  intros H. apply le_fin in H. change (Qeq_bool 2 0) with false. cbn [nadd]. apply le_fin. rewrite half. lra.
Qed.
Lemma mid_nn a b : nn a -> nn b -> nn (midpoint a b).
Proof.
  unfold nn, midpoint, nsub. destruct a as [a| | |], b as [b| | |]; cbn [nneg nadd ndiv]; try reflexivity; try discriminate.
  intros Ha Hb. apply le_fin in Ha, Hb. change (Qeq_bool 2 0) with false. cbn [nadd]. apply le_fin. rewrite half. lra.
Qed.
Lemma mul_nn x m : 0 <= m -> nn x -> nn (nmul (Fin m) x) /\ nn (nmul x (Fin m)).
Proof.
  intros Hm. unfold nn. destruct x as [x| | |]; cbn [nmul]; try discriminate; try (split; reflexivity).
  - intros H. apply le_fin in H. split; apply le_fin; apply Qmult_le_0_compat; assumption.
  - intros _. unfold inf_of_sign. destruct (m ?= 0) eqn:E; try (split; reflexivity); apply Qlt_alt in E; lra.
Qed.
Lemma mul_ge x m : 1 <= m -> nn x -> le_ x (nmul (Fin m) x) /\ le_ x (nmul x (Fin m)).
Proof.
  intros Hm. unfold nn. destruct x as [x| | |]; cbn [nmul]; try discriminate; try (split; reflexivity).
  - intros H. apply le_fin in H. assert (0 <= (m - 1) * x) by (apply Qmult_le_0_compat; lra).
    split; apply le_fin; assert (E : (m - 1) * x == m * x - x) by ring; [lra|].
    assert (E' : x * m == m * x) by ring. lra.
  - intros _. unfold inf_of_sign. destruct (m ?= 0) eqn:E; try (split; reflexivity); apply Qlt_alt in E; lra.
Qed.
Lemma between_in a b r : 0 <= r -> r <= 1 -> le_ a b ->
  let q := nadd (nmul (nsub b a) (Fin r)) a in le_ a q /\ le_ q b.
Proof.
  intros H0 H1 H. cbv zeta. unfold nsub. destruct a as [a| | |], b as [b| | |]; cbn [nneg nadd nmul]; try (split; reflexivity); try discriminate.
  - apply le_fin in H. assert (0 <= (b - a) * r) by (apply Qmult_le_0_compat; lra).
    assert (0 <= (b - a) * (1 - r)) by (apply Qmult_le_0_compat; lra).
    assert (E : (b - a) * (1 - r) == (b - a) - (b - a) * r) by ring.
    assert (E' : (b + - a) * r == (b - a) * r) by ring.
    split; apply le_fin; lra.
  - unfold inf_of_sign. destruct (r ?= 0) eqn:E; cbn; try (split; reflexivity); apply Qlt_alt in E; lra.
  - unfold inf_of_sign. destruct (r ?= 0) eqn:E; cbn; try (split; reflexivity); apply Qlt_alt in E; lra.
  - unfold inf_of_sign. destruct (r ?= 0) eqn:E; cbn; try (split; reflexivity); apply Qlt_alt in E; lra.
Qed.

Lemma nanmax_ge x y : le_ y (nanmax2 x y).
Proof.
  unfold nanmax2, le_. destruct (is_nan x) eqn:Ex; [apply nlt_irrefl|].
  destruct (is_nan y) eqn:Ey; [destruct y; try discriminate; destruct x; reflexivity|].
  destruct (nlt x y) eqn:E; [apply nlt_irrefl|exact E].
Qed.

(** ** The initial range *)
Lemma fold_min_nan l : fold_left (fun m x => if nlt x m then x else m) l NaN = NaN.
Proof. induction l as [|a l IH]; [reflexivity|]. cbn [fold_left]. replace (nlt a NaN) with false by (destruct a; reflexivity). exact IH. Qed.
Lemma fold_max_nan l : fold_left (fun m x => if ngt x m then x else m) l NaN = NaN.
Proof. induction l as [|a l IH]; [reflexivity|]. cbn [fold_left]. replace (nlt NaN a) with false by (destruct a; reflexivity). exact IH. Qed.
Lemma fold_min_nnan l : forall a, a <> NaN -> fold_left (fun m x => if nlt x m then x else m) l a <> NaN.
Proof.
  induction l as [|b l IH]; intros a Ha; [exact Ha|]. cbn [fold_left]. apply IH.
  destruct (nlt b a) eqn:E; [apply nlt_not_nan in E; tauto|exact Ha].
Qed.

Lemma initial_nn o P0 P1 : sensible o -> initial_range o = Ok (P0, P1) ->
  nn P0 /\ nn P1 /\ (o_Pmin o = Some P0 \/ o_Pmin o = None).
Proof.
  intros (H1 & H2 & (m & Em & Hm) & _) E. unfold initial_range in E.
  set (lo := match o_Pmin o with Some q => Ok q | None => _ end) in *.
  destruct lo as [l|] eqn:El; [|discriminate]. cbn [rbind] in E. subst lo.
  set (hi := match o_Pmax o with Some q => Ok q | None => _ end) in *.
  destruct hi as [h|] eqn:Eh; [|discriminate]. cbn [rbind] in E. subst hi. injection E as <- <-.
  assert (Hl : nn l).
  { destruct (o_Pmin o) as [q|].
    - injection El as <-. apply nle_nn. apply H1. reflexivity.
    - destruct (o_ext o) as [|e es]; [injection El as <-; reflexivity|]. cbn [py_min rbind] in El.
      injection El as <-. destruct (nlt (fold_left _ es e) (Fin 0)) eqn:En; [reflexivity|exact En]. }
  split; [exact Hl|]. split.
  - destruct (nlt h l) eqn:Ehl; [rewrite Em; apply mul_nn; [lra|exact Hl]|].
    destruct (o_Pmax o) as [q|]; [injection Eh as <-; apply nle_nn; apply H2; reflexivity|].
    destruct (is_nan l) eqn:Nl.
    + destruct l; try discriminate. destruct (o_Pmin o) as [q|].
      * injection El as ->. specialize (H1 _ eq_refl). discriminate H1.
      * destruct (o_ext o) as [|e es]; [discriminate El|]. cbn [py_min rbind] in El. injection El as El.
        destruct (nlt (fold_left _ es e) (Fin 0)); [discriminate El|].
        cbn [py_max] in Eh. injection Eh as <-. destruct e as [e| | |];
          try (exfalso; revert El; apply fold_min_nnan; discriminate). rewrite fold_max_nan. reflexivity.
    + apply le_trans_ with l; [destruct l; discriminate|exact Hl|exact Ehl].
  - destruct (o_Pmin o); [injection El as ->; left; reflexivity|right; reflexivity].
Qed.

Ltac sr := cbn [set_lo set_hi set_p set_obj set_fmin set_fmax set_fcrit set_fliq set_fvap to_mid
                pa pb oa ob fmin fmax fcrit fliq fvap obj g p] in *.

(** pressures that are not negative *)
Definition wf {G} (s : pr_state G) : Prop := nn (pa s) /\ nn (pb s) /\ nn (p s).
Lemma wf_push_up {G} (s : pr_state G) q : wf s -> nn q -> wf (push_up s q).
Proof. intros (A & B & C) H. unfold push_up, wf. destruct (ngt q (pb (set_p s q))); sr; auto. Qed.
Lemma wf_push_down {G} (s : pr_state G) q : wf s -> nn q -> wf (push_down s q).
Proof. intros (A & B & C) H. unfold push_down, wf. destruct (nlt q (pa (set_p s q))); sr; auto. Qed.
Lemma wf_mid {G} (s : pr_state G) : nn (pa s) -> nn (pb s) -> wf (to_mid s).
Proof. intros A B. unfold wf. sr. split; [exact A|]. split; [exact B|]. apply mid_nn; assumption. Qed.

(** the zero of the line through two points with values of opposite sign lies between them *)
Lemma root_inside a va b vb : a < b -> (va <= 0 /\ 0 < vb) \/ (0 <= va /\ vb < 0) ->
  exists q, root_of_line (Fin a) (Fin va) (Fin b) (Fin vb) = Fin q /\ a <= q /\ q < b.
Proof.
  intros Hab Hv. unfold root_of_line, nsub. cbn [nneg nadd].
  assert (F : forall x y, ~ y == 0 -> ndiv (Fin x) (Fin y) = Fin (x / y)).
  { intros x y H. cbn. destruct (Qeq_bool y 0) eqn:E; [apply Qeq_bool_iff in E; contradiction|reflexivity]. }
  rewrite F by lra. cbn [nneg nadd nmul]. set (s := (vb + - va) / (b + - a)).
  assert (Es : s * (b - a) == vb - va) by (unfold s; field; lra).
  assert (Hs : ~ s == 0).
  { intros Z. rewrite Z in Es. lra. }
  rewrite F by exact Hs. eexists. split; [reflexivity|].
  set (q := - (vb + - (s * b)) / s).
  assert (Eq : s * (b - q) == vb) by (unfold q; field; exact Hs).
  assert (Ea : s * (q - a) == - va) by (unfold q; transitivity (s * (b - a) - vb); [field; exact Hs|rewrite Es; ring]).
  assert (W : (b - q) * (vb - va) == vb * (b - a)).
  { rewrite <- Es, <- Eq. ring. }
  assert (W' : (q - a) * (vb - va) == - va * (b - a)).
  { rewrite <- Es, <- Ea. ring. }
  destruct Hv as [[H1 H2]|[H1 H2]]; split; nra.
Qed.

Section Dew.
  Context {G : Type}.
  Variable vap : num -> result (bool * nat).
  Variable liqc : G -> num -> result (G * found).
  Variable o : pr_opts.
  Variable draw : nat -> num.
  Hypothesis Ho : sensible o.

  Lemma dew_checks_wf P0 z (s s' : pr_state G) : nn (pa s) -> nn (pb s) -> dew_checks o draw P0 z s = Go s' -> wf s'.
  Proof.
    destruct Ho as (_ & _ & (M & EM & HM) & (m & Em & Hm)).
    intros A B. unfold dew_checks. destruct (ngt (pa s) (pb s)).
    - destruct (fmax s && negb (fmin s) && negb (is_some (o_Pmin o))).
      + destruct (_ && _ && _); sr; destruct (_ && neqb _ _); try discriminate;
          destruct (nle _ (Fin 0)) eqn:E; try discriminate; intros X; injection X as <-; unfold wf; sr; rewrite Em;
          (split; [apply mul_nn; assumption|]); (split; [exact B|]); unfold nn, le_;
          match goal with |- ?l = false => destruct l eqn:Y; [apply nlt_le in Y; congruence|reflexivity] end.
      + destruct (negb (is_some (o_Pmax o))); [|discriminate].
        destruct (_ && _ && _); sr; destruct (_ && neqb _ _); try discriminate;
          destruct (nle _ (Fin 0)) eqn:E; try discriminate; intros X; injection X as <-; unfold wf; sr; rewrite EM;
          (split; [exact A|]); (split; [apply mul_nn; [lra|assumption]|]); unfold nn, le_;
          match goal with |- ?l = false => destruct l eqn:Y; [apply nlt_le in Y; congruence|reflexivity] end.
    - destruct (_ && _ && _); sr; destruct (_ && neqb _ _); try discriminate;
        destruct (nle _ (Fin 0)) eqn:E; try discriminate; intros X; injection X as <-; unfold wf; sr;
        (split; [exact A|]); (split; [exact B|]); unfold nn, le_;
        match goal with |- ?l = false => destruct l eqn:Y; [apply nlt_le in Y; congruence|reflexivity] end.
  Qed.

  Lemma dew_same_nn (s : pr_state G) P0 P1 v : nn P0 -> nn P1 -> wf s ->
    nn (pa (dew_same o s P0 P1 v)) /\ nn (pb (dew_same o s P0 P1 v)).
  Proof.
    destruct Ho as (_ & _ & (M & EM & HM) & (m & Em & Hm)). intros H0 H1 (A & B & C). unfold dew_same.
    set (s1 := if fcrit s then _ else _).
    assert (W : nn (pa s1) /\ nn (pb s1)).
    { unfold s1. destruct (fcrit s).
      - destruct (is_some (o_Pmax o)); [sr; auto|]. unfold push_up. destruct (ngt _ _); sr; split; auto.
        rewrite EM. apply mul_nn; [lra|assumption].
      - sr. destruct (fmin s || is_some (o_Pmin o)); sr; auto. }
    clearbody s1. destruct (nlt (p s1) (o_allowed o)); [|exact W].
    destruct (is_some (o_Pmax o)); [sr; auto|]. unfold push_up. destruct (ngt _ _); sr; split; auto.
    rewrite EM. apply mul_nn; [lra|assumption].
  Qed.

  Lemma dew_checks_no_break P0 z (s s' : pr_state G) : dew_checks o draw P0 z s <> Break s'.
  Proof.
    unfold dew_checks. destruct (ngt _ _); [destruct (_ && _ && _); [|destruct (negb _); [|discriminate]]|];
      destruct (_ && _ && _); destruct (_ && neqb _ _); try discriminate; destruct (nle _ _); discriminate.
  Qed.

  Lemma dew_checks_case P0 z (s : pr_state G) : nn (pa s) -> nn (pb s) ->
    match dew_checks o draw P0 z s with
    | Go s' => wf s'
    | Break s' => wf s' /\ evaluated liqc (pa s') (oa s') /\ nlt (oa s') (Fin 0) = true
    | Raise _ => True
    end.
  Proof.
    intros A B. destruct (dew_checks o draw P0 z s) as [s'|s'|] eqn:E; [|eapply dew_checks_wf; eassumption|exact I].
    exfalso. eapply dew_checks_no_break. exact E.
  Qed.

  Lemma dew_turn1_ok P0 P1 z (s : pr_state G) : nn P0 -> nn P1 -> wf s ->
    match dew_turn1 vap liqc o draw P0 P1 z s with
    | Go s' => wf s'
    | Break s' => wf s' /\ evaluated liqc (pa s') (oa s') /\ nlt (oa s') (Fin 0) = true
    | Raise _ => True
    end.
  Proof.
    pose proof Ho as (_ & _ & (M & EM & HM) & (m & Em & Hm)). intros H0 H1 W. pose proof W as (A & B & C).
    unfold dew_turn1. destruct (vap (p s)) as [[[|] flagv]|]; [| |exact I].
    - destruct (is_some (o_Pmin o)); [apply wf_mid; sr; assumption|].
      apply wf_push_down; [unfold wf; sr; auto|]. rewrite Em. apply mul_nn; assumption.
    - destruct (vapor_flag flagv).
      + destruct (liqc (g s) (p s)) as [[g' f]|] eqn:El; [|exact I].
        destruct (f_nan f); [apply dew_checks_case; destruct (is_some (o_Pmin o)); sr; assumption|].
        destruct (f_same f && Nat.eqb (f_flag f) 2).
        { apply dew_checks_case; apply dew_same_nn; try assumption; unfold wf; sr; auto. }
        destruct (nlt (f_obj f) (Fin 0)) eqn:Ev.
        { split; [unfold wf; sr; auto|]. sr. split; [|exact Ev]. exists (g s), g', f. auto. }
        destruct (ngt (f_obj f) (Fin 0)); apply dew_checks_case; sr; assumption.
      + set (s1 := if is_some (o_Pmin o) && nle (p s) P0 then _ else s).
        assert (W1 : wf s1) by (unfold s1; destruct (_ && _); [unfold wf; sr; auto|exact W]).
        clearbody s1. destruct W1 as (A1 & B1 & C1). destruct (obj s1) as [v|]; [|exact I].
        destruct (fcrit s1).
        * destruct (is_some (o_Pmax o)); [apply dew_checks_case; sr; assumption|].
          assert (X : wf (push_up (set_fmin (set_lo s1 (p s1) v) true) (nmul (p s1) (o_maxfactor o)))).
          { apply wf_push_up; [unfold wf; sr; auto|]. rewrite EM. apply mul_nn; [lra|assumption]. }
          destruct X as (X1 & X2 & _). apply dew_checks_case; assumption.
        * sr. destruct (fmin s1 || is_some (o_Pmin o)); [apply dew_checks_case; sr; assumption|].
          match goal with |- context [push_down ?t ?q] => assert (X : wf (push_down t q)) end.
          { apply wf_push_down; [unfold wf; sr; auto|]. rewrite Em. apply mul_nn; assumption. }
          destruct X as (X1 & X2 & _). apply dew_checks_case; assumption.
  Qed.

  Lemma dew_loop1_ok P0 P1 : nn P0 -> nn P1 -> forall rest z (s s' : pr_state G), wf s ->
    dew_loop1 vap liqc o draw P0 P1 rest z s = Ok s' ->
    wf s' /\ evaluated liqc (pa s') (oa s') /\ nlt (oa s') (Fin 0) = true.
  Proof.
    intros H0 H1. induction rest as [|rest IH]; intros z s s' W E; [discriminate|]. cbn [dew_loop1] in E.
    assert (T := dew_turn1_ok P0 P1 z s H0 H1 W).
    destruct (dew_turn1 vap liqc o draw P0 P1 z s) as [t|t|]; [| |discriminate].
    - destruct rest; [discriminate|]. injection E as <-. exact T.
    - exact (IH _ _ _ T E).
  Qed.

  (** The state while the upper end is sought in iteration [z]. *)
  Definition inv2 (z : nat) (s : pr_state G) : Prop :=
    wf s /\ evaluated liqc (pa s) (oa s) /\ ngt (oa s) (Fin 0) = false /\
    le_ (pa s) (pb s) /\ le_ (pa s) (p s) /\
    (z = 0%nat -> p s = pb s) /\
    ((fvap s || is_some (o_Pmax o))%bool = true -> le_ (p s) (pb s)) /\
    ((fvap s || is_some (o_Pmax o))%bool = false -> z <> 0%nat -> evaluated liqc (pb s) (ob s) /\ ngt (ob s) (Fin 0) = false).

  Definition good (s : pr_state G) : Prop :=
    evaluated liqc (pa s) (oa s) /\ ngt (oa s) (Fin 0) = false /\
    evaluated liqc (pb s) (ob s) /\ ngt (ob s) (Fin 0) = true /\ le_ (pa s) (pb s) /\
    exists b f, vap (pb s) = Ok (b, f) /\ vapor_flag f = true.

  Lemma nan_guess (s : pr_state G) : pb s = NaN -> guess s = NaN.
  Proof.
    intros H. unfold guess, root_of_line. rewrite H. unfold nsub. cbn [nneg nadd].
    replace (ndiv (nadd (ob s) (nneg (oa s))) NaN) with NaN by (destruct (nadd _ _); reflexivity).
    cbn [nmul nneg]. destruct (ob s); reflexivity.
  Qed.

  Lemma dew_turn2_ok z prev (s : pr_state G) : inv2 z s ->
    match fst (dew_turn2 vap liqc o z prev s) with
    | Go s' => inv2 (S z) s'
    | Break s' => good s'
    | Raise _ => True
    end.
  Proof.
    pose proof Ho as (_ & _ & (M & EM & HM) & (m & Em & Hm)).
    intros ((A & B & C) & Elo & Slo & Oab & Oap & Z0 & F1 & F0). unfold dew_turn2.
    destruct (vap (p s)) as [[nanv flagv]|] eqn:Ev; [|exact I].
    destruct (liqc (g s) (p s)) as [[g' f]|] eqn:El; [|exact I].
    assert (Ep : evaluated liqc (p s) (f_obj f)) by (exists (g s), g', f; auto).
    set (s1 := if Nat.eqb z 0 then _ else _).
    assert (S1 : pa s1 = pa s /\ pb s1 = pb s /\ p s1 = p s /\ oa s1 = oa s /\ fvap s1 = fvap s /\ (z <> 0%nat -> ob s1 = ob s)).
    { unfold s1. destruct (Nat.eqb_spec z 0); sr; repeat split; try reflexivity. contradiction. }
    destruct S1 as (Ea & Eb & Epp & Eoa & Ef & Eob). clearbody s1.
    destruct (vapor_flag flagv) eqn:Efl; cbn [negb].
    2:{ cbn [fst]. unfold inv2, wf. sr. rewrite Ea, Epp, Eoa. split; [split; [exact A|split; [exact C|apply mid_nn; assumption]]|].
        split; [exact Elo|]. split; [exact Slo|]. split; [exact Oap|]. split; [apply mid_ge; exact Oap|].
        split; [discriminate|]. split; [intros _; apply mid_le; exact Oap|discriminate]. }
    destruct (ngt (f_obj f) (Fin 0)) eqn:Es.
    { cbn [fst]. unfold good. rewrite Eb, Epp. destruct (nlt (pb s) (p s)) eqn:Ebp; sr.
      - rewrite Epp. destruct ((fvap s || is_some (o_Pmax o))%bool) eqn:Eh.
        + exfalso. specialize (F1 eq_refl). unfold le_ in F1. congruence.
        + destruct z as [|z]; [rewrite (Z0 eq_refl), nlt_irrefl in Ebp; discriminate|].
          destruct (F0 eq_refl) as [F2 F3]; [discriminate|]. rewrite Eob by discriminate.
          split; [exact F2|]. split; [exact F3|]. split; [exact Ep|]. split; [exact Es|].
          split; [apply lt_le_; exact Ebp|]. eauto.
      - rewrite Ea, Eoa, Epp. split; [exact Elo|]. split; [exact Slo|]. split; [exact Ep|]. split; [exact Es|].
        split; [exact Oap|]. eauto. }
    assert (Go_mid : forall s2, pa s2 = p s -> pb s2 = pb s -> oa s2 = f_obj f -> (fvap s2 || is_some (o_Pmax o))%bool = true ->
        le_ (p s) (pb s) -> inv2 (S z) (to_mid s2)).
    { intros s2 E1 E2 E3 E4 E5. unfold inv2, wf. sr. rewrite E1, E2, E3.
      split; [split; [exact C|split; [exact B|apply mid_nn; assumption]]|]. split; [exact Ep|]. split; [exact Es|].
      split; [exact E5|]. split; [apply mid_ge; exact E5|]. split; [discriminate|].
      split; [intros _; apply mid_le; exact E5|]. rewrite E4. discriminate. }
    rewrite Ef. destruct (fvap s) eqn:Efv.
    { cbn [fst]. apply Go_mid; sr; auto. rewrite Ef; reflexivity. }
    destruct (Nat.ltb 0 z && nlt (f_obj f) (nmul (Fin (11#10)) prev)); [exact I|].
    destruct (is_some (o_Pmax o)) eqn:Eh.
    { cbn [fst]. apply Go_mid; sr; auto. rewrite orb_true_r. reflexivity. }
    cbn [fst]. unfold inv2. rewrite Eb, Epp.
    set (s2 := if nlt (pb s) (p s) then _ else s1).
    assert (S2 : nn (pa s2) /\ evaluated liqc (pa s2) (oa s2) /\ ngt (oa s2) (Fin 0) = false /\ le_ (pa s2) (p s) /\ fvap s2 = false /\ p s2 = p s).
    { unfold s2. destruct (nlt (pb s) (p s)) eqn:Ebp; sr.
      - destruct z as [|z]; [rewrite (Z0 eq_refl), nlt_irrefl in Ebp; discriminate|].
        destruct (F0 eq_refl) as [F2 F3]; [discriminate|]. rewrite Eob by discriminate.
        split; [exact B|]. split; [exact F2|]. split; [exact F3|]. split; [apply lt_le_; exact Ebp|]. split; [exact Ef|exact Epp].
      - rewrite Ea, Eoa. repeat split; assumption. }
    destruct S2 as (T1 & T2 & T3 & T4 & T5 & T6). clearbody s2. rewrite T6.
    set (s3 := set_hi s2 (p s) (f_obj f)).
    assert (P : le_ (p s) (nanmax2 (guess s3) (nmul (o_maxfactor o) (pb s3)))).
    { destruct (is_nan (p s)) eqn:Np.
      - destruct (p s) eqn:X; try discriminate. unfold le_.
        destruct (nanmax2 _ _); reflexivity.
      - apply le_trans_ with (nmul (o_maxfactor o) (p s)).
        + rewrite EM. destruct (p s) as [x| | |]; try discriminate; cbn [nmul]; try discriminate.
          unfold inf_of_sign. destruct (M ?= 0) eqn:X; try discriminate. apply Qeq_alt in X. lra.
        + rewrite EM. apply mul_ge; assumption.
        + unfold s3. sr. apply nanmax_ge. }
    assert (Pn : p s = NaN -> nanmax2 (guess s3) (nmul (o_maxfactor o) (pb s3)) = NaN).
    { intros X. assert (Y : pb s3 = NaN) by (unfold s3; sr; exact X). rewrite (nan_guess s3 Y), Y, EM. reflexivity. }
    unfold wf. sr. fold s3. change (pb s3) with (p s) in P, Pn |- *. change (pa s3) with (pa s2). change (oa s3) with (oa s2).
    change (fvap s3) with (fvap s2). rewrite T5, Eh. cbn [orb].
    set (q := nanmax2 _ _) in *.
    assert (Hcase : p s = NaN \/ p s <> NaN) by (destruct (p s); [right|right|right|left]; try reflexivity; discriminate).
    split; [split; [exact T1|split; [exact C|]]|].
    { destruct Hcase as [X|X]; [rewrite (Pn X); reflexivity|]. apply le_trans_ with (p s); assumption. }
    split; [exact T2|]. split; [exact T3|]. split; [exact T4|].
    split. { destruct Hcase as [X|X]; [rewrite (Pn X); reflexivity|]. apply le_trans_ with (p s); assumption. }
    split; [discriminate|]. split; [discriminate|]. intros _ _. split; [exact Ep|exact Es].
  Qed.

  Lemma dew_loop2_ok : forall rest z prev (s : pr_state G) br, inv2 z s ->
    dew_loop2 vap liqc o rest z prev s = Ok br ->
    reports_none br \/ exists s', good s' /\ br_lo br = pa s' /\ br_hi br = pb s' /\ br_guess br = guess s'.
  Proof.
    induction rest as [|rest IH]; intros z prev s br W E; cbn [dew_loop2] in E.
    - destruct (Nat.eqb z 0); [discriminate|]. injection E as <-. left. split; reflexivity.
    - assert (T := dew_turn2_ok z prev s W). destruct (dew_turn2 vap liqc o z prev s) as [[t|t|] pv]; cbn [fst] in T; [| |discriminate].
      + destruct rest; injection E as <-; [left; split; reflexivity|]. right. exists t. split; [exact T|repeat split; reflexivity].
      + exact (IH _ _ _ _ T E).
  Qed.

  (** C42 for dew points: if the search reports a bracket, the objective was evaluated at both
      ends; it is positive at the upper end, where the phase is a vapor, and not positive at
      the lower one; the ends are in order. *)
Theorem C42_dew_partial : forall maxiter g0 br,
    calc_Prange_yi vap liqc o draw maxiter g0 = Ok br ->
    reports_none br \/
    exists vlo vhi, evaluated liqc (br_lo br) vlo /\ evaluated liqc (br_hi br) vhi /\
      nlt (Fin 0) vlo = false /\ nlt (Fin 0) vhi = true /\ nlt (br_hi br) (br_lo br) = false /\
      br_guess br = root_of_line (br_lo br) vlo (br_hi br) vhi /\
      exists b f, vap (br_hi br) = Ok (b, f) /\ (f = 0 \/ f = 2 \/ f = 4)%nat.
  Proof.
    intros maxiter g0 br E. unfold calc_Prange_yi in E.
    destruct (initial_range o) as [[P0 P1]|] eqn:Ei; [|discriminate]. cbn [rbind] in E.
    destruct (initial_nn o P0 P1 Ho Ei) as (N0 & N1 & _).
    destruct (dew_loop1 _ _ _ _ _ _ _ _ _) as [s|] eqn:E1; [|discriminate]. cbn [rbind] in E.
    apply dew_loop1_ok in E1; [|assumption|assumption|unfold wf; sr; auto].
    destruct E1 as ((A & B & C) & Ev & Sg).
    set (s1 := if nle (pb s) (pa s) then _ else s) in E.
    assert (S1 : pa s1 = pa s /\ oa s1 = oa s /\ nn (pb s1) /\ le_ (pa s) (pb s1)).
    { unfold s1. destruct (nle (pb s) (pa s)) eqn:X; sr.
      - split; [reflexivity|]. split; [reflexivity|]. split; [apply mul_nn; [discriminate|assumption]|].
        apply mul_ge; [discriminate|assumption].
      - split; [reflexivity|]. split; [reflexivity|]. split; [exact B|]. unfold le_.
        destruct (nlt (pb s) (pa s)) eqn:Y; [apply nlt_le in Y; congruence|reflexivity]. }
    destruct S1 as (Ea & Eo & Nb & Ol). clearbody s1.
    apply dew_loop2_ok in E.
    2:{ unfold inv2, wf. sr. rewrite Ea, Eo. split; [repeat split; assumption|]. split; [exact Ev|].
        split; [apply nlt_asym; exact Sg|]. split; [exact Ol|]. split; [exact Ol|]. split; [reflexivity|].
        split; [intros _; apply le_refl|]. intros _ X. contradiction. }
    destruct E as [E|(t & (G1 & G2 & G3 & G4 & G5 & (b & f & G6 & G7)) & Hlo & Hhi & Hg)]; [left; exact E|right].
    exists (oa t), (ob t). rewrite Hlo, Hhi, Hg. split; [exact G1|]. split; [exact G3|]. split; [exact G2|].
    split; [exact G4|]. split; [exact G5|]. split; [reflexivity|]. exists b, f. split; [exact G6|].
    unfold vapor_flag in G7. apply orb_true_iff in G7. rewrite orb_true_iff in G7.
    rewrite !Nat.eqb_eq in G7. tauto.
  Qed.
  (** C42: the pressure suggested with a dew-point bracket lies inside the bracket, for an objective that
      is finite everywhere. *)
Theorem C42_dew_guess : forall maxiter g0 br lo hi,
    calc_Prange_yi vap liqc o draw maxiter g0 = Ok br ->
    br_lo br = Fin lo -> br_hi br = Fin hi -> lo < hi -> (forall q v, evaluated liqc q v -> exists r, v = Fin r) ->
    exists q, br_guess br = Fin q /\ lo <= q /\ q < hi.
  Proof.
    intros maxiter g0 br lo hi E El Eh Hlt Hf. apply C42_dew_partial in E.
    destruct E as [[N _]|(vlo & vhi & V1 & V2 & S1 & S2 & _ & Gs & _)]; [congruence|].
    destruct (Hf _ _ V1) as [a ->]. destruct (Hf _ _ V2) as [b ->]. rewrite Gs, El, Eh.
    apply nlt_fin_false in S1. apply nlt_fin in S2. apply root_inside; [exact Hlt|]. left. split; assumption.
  Qed.
End Dew.

(** The objective of a demonstration fluid, without memory. *)
Definition at_pressure (objective : num -> num) (g : unit) (q : num) : result (unit * found) :=
  Ok (tt, {| f_nan := false; f_flag := 1; f_same := false; f_obj := objective q |}).
Definition at_pressure_v (objective : num -> num) (g : unit) (q : num) : result (unit * found) :=
  Ok (tt, {| f_nan := false; f_flag := 0; f_same := false; f_obj := objective q |}).
Definition opts (lo hi : option num) : pr_opts :=
  {| o_Pmin := lo; o_Pmax := hi; o_allowed := Fin 100; o_maxfactor := Fin 2; o_minfactor := Fin (1#2);
     o_ptol := Fin (1#100); o_ext := [] |}.
Example opts_sensible : sensible (opts (Some (Fin 1000)) (Some (Fin 9000))).
Proof.
  split; [intros q E; injection E as <-; reflexivity|]. split; [intros q E; injection E as <-; reflexivity|].
  split; [exists 2|exists (1#2)]; split; try reflexivity; discriminate.
Qed.

(** objective p - 5000: bracketed from 1000 *)
Example C42_dew_example :
  calc_Prange_yi (fun _ => Ok (false, 0%nat)) (at_pressure (fun q => nsub q (Fin 5000)))
    (opts (Some (Fin 1000)) (Some (Fin 9000))) (fun _ => Fin (1#2)) 200 tt
  = Ok {| br_lo := Fin 1000; br_hi := Fin 9000;
          br_guess := root_of_line (Fin 1000) (Fin (1000 - 5000)) (Fin 9000) (Fin (9000 - 5000)); br_global := None |}.
Proof. vm_compute. reflexivity. Qed.

(** C42 is false for dew points, first: the objective at the lower end can be undefined. *)
Theorem C42_dew_undefined_refuted : exists br,
  calc_Prange_yi (fun q => Ok (false, if nlt q (Fin 9000) then 0%nat else 1%nat))
    (at_pressure (fun q => if nlt q (Fin 5000) then Fin (-1) else if neqb q (Fin 5000) then NaN else Fin 1))
    (opts (Some (Fin 1000)) (Some (Fin 9000))) (fun _ => Fin (1#2)) 200 tt = Ok br /\
  neqb (br_lo br) (Fin 5000) = true /\ neqb (br_hi br) (Fin 7000) = true /\
  forall v, evaluated (at_pressure (fun q => if nlt q (Fin 5000) then Fin (-1) else if neqb q (Fin 5000) then NaN else Fin 1))
     (br_lo br) v -> v = NaN.
Proof.
  eexists. split; [vm_compute; reflexivity|]. split; [vm_compute; reflexivity|]. split; [vm_compute; reflexivity|].
  intros v (g & g' & f & E & <-). injection E as _ <-. vm_compute. reflexivity.
Qed.

(** C42 is false for dew points, second: the bracket exceeds the limit the user set. *)
Theorem C42_dew_limit_refuted : exists br,
  calc_Prange_yi (fun _ => Ok (false, 0%nat)) (at_pressure (fun q => nsub q (Fin 1050)))
    (opts (Some (Fin 1000)) (Some (Fin 1000))) (fun _ => Fin (1#2)) 200 tt = Ok br /\
  neqb (br_lo br) (Fin 1000) = true /\ neqb (br_hi br) (Fin 1100) = true.
Proof. eexists. split; [vm_compute; reflexivity|]. split; vm_compute; reflexivity. Qed.

(** A minimum of the objective between two pressures is never searched for: the objective
    function itself is negated, which is a TypeError. *)
Theorem C42_dew_well_refuted :
  calc_Prange_yi (fun _ => Ok (false, 0%nat)) (at_pressure (fun q => nneg q))
    (opts (Some (Fin 1000)) None) (fun _ => Fin (1#2)) 200 tt = Err TypeError.
Proof. vm_compute. reflexivity. Qed.

Section Bubble.
  Context {G : Type}.
  Variable liq : num -> result (bool * nat).
  Variable vapc : G -> num -> result (G * found).
  Variable well : num -> num -> result (num * num).
  Variable o : pr_opts.
  Variable draw : nat -> num.
  Hypothesis Ho : sensible o.
  Hypothesis draw_unit : forall i, exists r, draw i = Fin r /\ 0 <= r /\ r <= 1.
  (** The fluid is not supercritical: the vapor never coincides with the liquid as a critical
      fluid, and there is a vapor at the lower limit the user set. *)
  Hypothesis subcritical : forall g q g' f, vapc g q = Ok (g', f) -> f_nan f = false ->
    (f_same f = true -> f_flag f <> 2%nat) /\
    (vapor_flag (f_flag f) = false -> forall lo, o_Pmin o = Some lo -> nlt lo q = true).

  Definition wfb (s : pr_state G) : Prop := wf s /\ fcrit s = false.

  Lemma wfb_push_down (s : pr_state G) q : wfb s -> nn q -> wfb (push_down s q).
  Proof. intros [W F] H. split; [apply wf_push_down; assumption|]. unfold push_down. destruct (nlt _ _); exact F. Qed.

  Lemma bubble_checks_ok P0 (s s' : pr_state G) : nn (pa s) -> nn (pb s) -> fcrit s = false ->
    bubble_checks o P0 s = Go s' -> wfb s'.
  Proof.
    intros A B F. unfold bubble_checks.
    destruct (_ && _ && _); sr; destruct (nle _ (Fin 0)) eqn:E; try discriminate;
      destruct (_ && neqb _ _); try discriminate; intros X; injection X as <-; unfold wfb, wf; sr;
      (split; [|exact F]); (split; [exact A|]); (split; [exact B|]); unfold nn, le_;
      match goal with |- ?l = false => destruct l eqn:Y; [apply nlt_le in Y; congruence|reflexivity] end.
  Qed.
  Lemma bubble_checks_no_break P0 (s s' : pr_state G) : bubble_checks o P0 s <> Break s'.
  Proof. unfold bubble_checks. destruct (_ && _ && _); destruct (nle _ _); try discriminate; destruct (_ && neqb _ _); discriminate. Qed.

  Definition turn1_spec (t : turn G) : Prop :=
    match t with
    | Go s' => wfb s'
    | Break s' => wfb s' /\ evaluated vapc (pa s') (oa s') /\ nlt (Fin 0) (oa s') = true
    | Raise _ => True
    end.
  Lemma bubble_checks_case P0 (s : pr_state G) : nn (pa s) -> nn (pb s) -> fcrit s = false ->
    turn1_spec (bubble_checks o P0 s).
  Proof.
    intros A B F. destruct (bubble_checks o P0 s) as [s'|s'|] eqn:E; [|eapply bubble_checks_ok; eassumption|exact I].
    exfalso. eapply bubble_checks_no_break. exact E.
  Qed.

  Lemma bubble_turn1_ok P0 P1 (s : pr_state G) : nn P0 -> nn P1 -> (o_Pmin o = Some P0 \/ o_Pmin o = None) -> wfb s ->
    turn1_spec (bubble_turn1 liq vapc o P0 P1 s).
  Proof.
    pose proof Ho as (_ & _ & (M & EM & HM) & (m & Em & Hm)). intros H0 H1 HP W. pose proof W as ((A & B & C) & F).
    assert (D : forall t : pr_state G, wfb t -> turn1_spec (bubble_checks o P0 (push_down t (nmul (p s) (o_minfactor o))))).
    { intros t Wt. assert (X : wfb (push_down t (nmul (p s) (o_minfactor o)))).
      { apply wfb_push_down; [exact Wt|]. rewrite Em. apply mul_nn; assumption. }
      destruct X as ((X1 & X2 & _) & X3). apply bubble_checks_case; assumption. }
    unfold bubble_turn1. destruct (liq (p s)) as [[[|] flagl]|]; [| |exact I].
    - destruct (is_some (o_Pmin o)); [split; [apply wf_mid; sr; assumption|exact F]|].
      apply wfb_push_down; [split; [unfold wf; sr; auto|exact F]|]. rewrite Em. apply mul_nn; assumption.
    - destruct (liquid_flag flagl).
      + destruct (vapc (g s) (p s)) as [[g' f]|] eqn:El; [|exact I].
        destruct (f_nan f) eqn:Ef; [apply bubble_checks_case; sr; assumption|].
        destruct (subcritical _ _ _ _ El Ef) as [Hsame Hlow].
        destruct (f_same f && Nat.eqb (f_flag f) 2) eqn:Es.
        { exfalso. apply andb_true_iff in Es. destruct Es as [Es Es']. apply Nat.eqb_eq in Es'. apply (Hsame Es Es'). }
        destruct (vapor_flag (f_flag f)) eqn:Ev; cbn [negb].
        2:{ assert (X : is_some (o_Pmin o) && nle (p (set_obj s g' (f_obj f))) P0 = false).
            { destruct HP as [HP|HP]; rewrite HP; [|reflexivity]. cbn [is_some andb]. sr.
              destruct (nle (p s) P0) eqn:Y; [|reflexivity]. exfalso. specialize (Hlow eq_refl _ HP).
              assert (Z := nlt_nle_trans _ _ _ Hlow Y). rewrite nlt_irrefl in Z. discriminate. }
            rewrite X. sr. rewrite F.
            destruct (fmin s || is_some (o_Pmin o)); [apply bubble_checks_case; sr; assumption|].
            apply D. split; [unfold wf; sr; auto|exact F]. }
        destruct (ngt (f_obj f) (Fin 0)) eqn:Eo.
        { split; [split; [unfold wf; sr; auto|exact F]|]. sr. split; [|exact Eo]. exists (g s), g', f. auto. }
        destruct (nlt (f_obj f) (Fin 0)); [|exact I]. sr.
        destruct (fmin s || is_some (o_Pmin o)); [apply bubble_checks_case; sr; assumption|].
        apply D. split; [unfold wf; sr; auto|exact F].
      + sr. destruct (fmax s || is_some (o_Pmax o)); apply bubble_checks_case; sr; assumption.
  Qed.

  Lemma bubble_loop1_ok P0 P1 : nn P0 -> nn P1 -> (o_Pmin o = Some P0 \/ o_Pmin o = None) ->
    forall rest z (s s' : pr_state G), wfb s ->
    bubble_loop1 liq vapc o P0 P1 rest z s = Ok s' ->
    wfb s' /\ evaluated vapc (pa s') (oa s') /\ nlt (Fin 0) (oa s') = true.
  Proof.
    intros H0 H1 HP. induction rest as [|rest IH]; intros z s s' W E; [discriminate|]. cbn [bubble_loop1] in E.
    assert (T := bubble_turn1_ok P0 P1 s H0 H1 HP W).
    destruct (bubble_turn1 liq vapc o P0 P1 s) as [t|t|]; [| |discriminate].
    - destruct rest; [discriminate|]. injection E as <-. exact T.
    - exact (IH _ _ _ T E).
  Qed.

  Definition inv3 (z : nat) (s : pr_state G) : Prop :=
    wfb s /\ evaluated vapc (pa s) (oa s) /\ nlt (oa s) (Fin 0) = false /\
    le_ (pa s) (pb s) /\ le_ (pa s) (p s) /\
    (z = 0%nat -> p s = pb s) /\
    ((fmax s || is_some (o_Pmax o))%bool = true -> le_ (p s) (pb s)) /\
    ((fmax s || is_some (o_Pmax o))%bool = false -> z <> 0%nat -> evaluated vapc (pb s) (ob s) /\ nlt (ob s) (Fin 0) = false).

  (** what a bracket that was found is: a change of sign, or a minimum found in a "well" *)
  Definition good3 (s : pr_state G) : Prop :=
    evaluated vapc (pa s) (oa s) /\ nlt (oa s) (Fin 0) = false /\
    ((evaluated vapc (pb s) (ob s) /\ nlt (ob s) (Fin 0) = true /\ le_ (pa s) (pb s)) \/
     (exists b, well (pa s) b = Ok (pb s, ob s) /\ nlt (Fin 0) (ob s) = true)).

  Definition turn2_spec (z : nat) (u : upper) : Prop :=
    match u with Found s => good3 s | More s => inv3 z s | _ => True end.

  Lemma upper_checks_ok z (s : pr_state G) : (nn (p s) -> inv3 z s) -> turn2_spec z (more (upper_checks o s)).
  Proof.
    intros H. unfold upper_checks. destruct (nle (p s) (Fin 0)) eqn:E; [exact I|].
    destruct (nlt _ (o_ptol o)); [exact I|]. apply H. unfold nn, le_.
    match goal with |- ?l = false => destruct l eqn:Y; [apply nlt_le in Y; congruence|reflexivity] end.
  Qed.

  Lemma bubble_turn2_ok z prev (s : pr_state G) : inv3 z s -> turn2_spec (S z) (fst (bubble_turn2 liq vapc well o draw z prev s)).
  Proof.
    pose proof Ho as (_ & _ & (M & EM & HM) & (m & Em & Hm)).
    intros (((A & B & C) & Fc) & Elo & Slo & Oab & Oap & Z0 & F1 & F0). unfold bubble_turn2.
    assert (Hi : forall s2 : pr_state G, pa s2 = pa s -> oa s2 = oa s -> pb s2 = p s -> fmax s2 = true -> fcrit s2 = false ->
              inv3 (S z) (to_mid s2)).
    { intros s2 E1 E2 E3 E4 E5. unfold inv3, wfb, wf. sr. rewrite E1, E2, E3, E4.
      split; [split; [split; [exact A|split; [exact C|apply mid_nn; assumption]]|exact E5]|].
      split; [exact Elo|]. split; [exact Slo|]. split; [exact Oap|]. split; [apply mid_ge; exact Oap|].
      split; [discriminate|]. split; [intros _; apply mid_le; exact Oap|discriminate]. }
    destruct (liq (p s)) as [[[|] flagl]|]; [| |exact I].
    - destruct (obj s) as [v|]; [|exact I]. cbn [fst turn2_spec]. apply Hi; sr; auto.
    - destruct (vapc (g s) (p s)) as [[g' f]|] eqn:El; [|exact I].
      assert (Ep : evaluated vapc (p s) (f_obj f)) by (exists (g s), g', f; auto).
      destruct (negb (vapor_flag (f_flag f)) || f_nan f).
      { sr. rewrite Fc. apply upper_checks_ok. intros _. apply Hi; sr; auto. }
      destruct (f_same f); [apply upper_checks_ok; intros _; apply Hi; sr; auto|].
      destruct (nlt (f_obj f) (Fin 0)) eqn:Es.
      { cbn [fst turn2_spec]. unfold good3. sr. destruct (nlt (pb s) (p s)) eqn:Ebp; sr.
        - destruct ((fmax s || is_some (o_Pmax o))%bool) eqn:Eh.
          + exfalso. specialize (F1 eq_refl). unfold le_ in F1. congruence.
          + destruct z as [|z]; [rewrite (Z0 eq_refl), nlt_irrefl in Ebp; discriminate|].
            destruct (F0 eq_refl) as [F2 F3]; [discriminate|].
            split; [exact F2|]. split; [exact F3|]. left. split; [exact Ep|]. split; [exact Es|]. apply lt_le_; exact Ebp.
        - split; [exact Elo|]. split; [exact Slo|]. left. split; [exact Ep|]. split; [exact Es|exact Oap]. }
      sr. destruct (Nat.ltb 0 z && ngt (f_obj f) (nmul (Fin (11#10)) prev)).
      { destruct (well (pa s) (p s)) as [[q w]|] eqn:Ew; [|exact I]. cbn [fst].
        destruct (ngt w (Fin 0)) eqn:Ewp; [|exact I]. cbn [turn2_spec]. unfold good3. sr.
        split; [exact Elo|]. split; [exact Slo|]. right. exists (p s). auto. }
      destruct (fmax s) eqn:Efm.
      { apply upper_checks_ok. intros Hn. unfold inv3, wfb, wf. sr. specialize (F1 eq_refl). rewrite Efm.
        split; [split; [split; [exact C|split; [exact B|exact Hn]]|exact Fc]|]. split; [exact Ep|]. split; [exact Es|].
        split; [exact F1|]. split; [apply mid_ge; exact F1|]. split; [discriminate|].
        split; [intros _; apply mid_le; exact F1|discriminate]. }
      destruct (is_some (o_Pmax o)) eqn:Eh.
      { apply upper_checks_ok. intros Hn. destruct (draw_unit z) as (r & Er & Hr0 & Hr1).
        destruct (between_in (pa s) (pb s) r Hr0 Hr1 Oab) as [L1 L2].
        unfold inv3, wfb, wf, between in *. sr. rewrite Er in *. rewrite Efm, Eh.
        split; [split; [split; [exact A|split; [exact B|exact Hn]]|exact Fc]|]. split; [exact Elo|]. split; [exact Slo|].
        split; [exact Oab|]. split; [exact L1|]. split; [discriminate|]. split; [intros _; exact L2|discriminate]. }
      cbn [fst]. apply upper_checks_ok. intros Hn.
      set (s2 := if nlt (pb s) (p s) then _ else _) in *.
      assert (S2 : nn (pa s2) /\ evaluated vapc (pa s2) (oa s2) /\ nlt (oa s2) (Fin 0) = false /\ le_ (pa s2) (p s) /\ fmax s2 = false /\ p s2 = p s /\ fcrit s2 = false).
      { unfold s2. destruct (nlt (pb s) (p s)) eqn:Ebp; sr.
        - destruct z as [|z]; [rewrite (Z0 eq_refl), nlt_irrefl in Ebp; discriminate|].
          destruct (F0 eq_refl) as [F2 F3]; [discriminate|].
          split; [exact B|]. split; [exact F2|]. split; [exact F3|]. split; [apply lt_le_; exact Ebp|]. repeat split; assumption.
        - repeat split; assumption. }
      destruct S2 as (T1 & T2 & T3 & T4 & T5 & T6 & T7). clearbody s2. rewrite T6 in *.
      set (s3 := set_hi s2 (p s) (f_obj f)) in *.
      assert (P : p s <> NaN -> le_ (p s) (nanmax2 (guess s3) (nmul (o_maxfactor o) (pb s3)))).
      { intros Np. apply le_trans_ with (nmul (o_maxfactor o) (p s)).
        - rewrite EM. destruct (p s) as [x| | |]; try discriminate; try congruence; cbn [nmul]; try discriminate.
          unfold inf_of_sign. destruct (M ?= 0) eqn:X; try discriminate. apply Qeq_alt in X. lra.
        - rewrite EM. apply mul_ge; assumption.
        - unfold s3. sr. apply nanmax_ge. }
      assert (Pn : p s = NaN -> nanmax2 (guess s3) (nmul (o_maxfactor o) (pb s3)) = NaN).
      { intros X. assert (Y : pb s3 = NaN) by (unfold s3; sr; exact X).
        assert (Yg : guess s3 = NaN).
        { unfold guess, root_of_line. rewrite Y. unfold nsub. cbn [nneg nadd].
          replace (ndiv (nadd (ob s3) (nneg (oa s3))) NaN) with NaN by (destruct (nadd _ _); reflexivity).
          cbn [nmul nneg]. destruct (ob s3); reflexivity. }
        rewrite Yg, Y, EM. reflexivity. }
      unfold inv3, wfb, wf. sr. change (pb s3) with (p s) in P, Pn, Hn |- *. change (pa s3) with (pa s2). change (oa s3) with (oa s2).
      change (ob s3) with (f_obj f). change (fcrit s3) with (fcrit s2).
      change (fmax s3) with (fmax s2). rewrite T5, Eh. cbn [orb].
      set (q := nanmax2 _ _) in *.
      assert (Hcase : p s = NaN \/ p s <> NaN) by (destruct (p s); [right|right|right|left]; try reflexivity; discriminate).
      split; [split; [split; [exact T1|split; [exact C|exact Hn]]|exact T7]|].
      split; [exact T2|]. split; [exact T3|]. split; [exact T4|].
      split. { destruct Hcase as [X|X]; [rewrite (Pn X); reflexivity|]. apply le_trans_ with (p s); auto. }
      split; [discriminate|]. split; [discriminate|]. intros _ _. split; [exact Ep|exact Es].
  Qed.

  Lemma bubble_loop2_ok : forall rest z prev (s : pr_state G) br, inv3 z s ->
    bubble_loop2 liq vapc well o draw rest z prev s = Ok br ->
    reports_none br \/ exists s', good3 s' /\ br_lo br = pa s' /\ br_hi br = pb s' /\ br_guess br = guess s'.
  Proof.
    induction rest as [|rest IH]; intros z prev s br W E; cbn [bubble_loop2] in E.
    - destruct (Nat.eqb z 0); [discriminate|]. injection E as <-. left. split; reflexivity.
    - assert (T := bubble_turn2_ok z prev s W). destruct (bubble_turn2 liq vapc well o draw z prev s) as [[t| |t|] pv]; cbn [fst turn2_spec] in T; [| | |discriminate].
      + destruct rest; injection E as <-; [left; split; reflexivity|]. right. exists t. split; [exact T|repeat split; reflexivity].
      + injection E as <-. left. split; reflexivity.
      + exact (IH _ _ _ _ T E).
  Qed.

  (** C42 for bubble points of a subcritical fluid: if the search reports a bracket, the
      objective was evaluated at the lower end and is not negative there, and
      - either it was evaluated at the upper end, is negative there, and the ends are in order,
      - or the upper end is the minimum of a "well", and the objective is positive there. *)
Theorem C42_bubble_partial : forall maxiter g0 br,
    calc_Prange_xi liq vapc well o draw maxiter g0 = Ok br ->
    reports_none br \/
    exists vlo vhi, evaluated vapc (br_lo br) vlo /\ nlt vlo (Fin 0) = false /\
      br_guess br = root_of_line (br_lo br) vlo (br_hi br) vhi /\
      ((evaluated vapc (br_hi br) vhi /\ nlt vhi (Fin 0) = true /\ nlt (br_hi br) (br_lo br) = false) \/
       (exists b, well (br_lo br) b = Ok (br_hi br, vhi) /\ nlt (Fin 0) vhi = true)).
  Proof.
    intros maxiter g0 br E. unfold calc_Prange_xi in E.
    destruct (initial_range o) as [[P0 P1]|] eqn:Ei; [|discriminate]. cbn [rbind] in E.
    destruct (initial_nn o P0 P1 Ho Ei) as (N0 & N1 & HP).
    destruct (bubble_loop1 _ _ _ _ _ _ _ _) as [s|] eqn:E1; [|discriminate]. cbn [rbind] in E.
    apply bubble_loop1_ok in E1; [|assumption|assumption|assumption|unfold wfb, wf; sr; auto].
    destruct E1 as (((A & B & C) & Fc) & Ev & Sg).
    pose proof Ho as (_ & _ & (M & EM & HM) & _).
    set (s1 := if nle (pb s) (pa s) then _ else s) in E.
    assert (S1 : pa s1 = pa s /\ oa s1 = oa s /\ nn (pb s1) /\ le_ (pa s) (pb s1) /\ fcrit s1 = false).
    { unfold s1. destruct (nle (pb s) (pa s)) eqn:X; sr.
      - split; [reflexivity|]. split; [reflexivity|]. rewrite EM. split; [apply mul_nn; [lra|assumption]|].
        split; [apply mul_ge; assumption|exact Fc].
      - split; [reflexivity|]. split; [reflexivity|]. split; [exact B|]. split; [|exact Fc]. unfold le_.
        destruct (nlt (pb s) (pa s)) eqn:Y; [apply nlt_le in Y; congruence|reflexivity]. }
    destruct S1 as (Ea & Eo & Nb & Ol & Fc1). clearbody s1.
    apply bubble_loop2_ok in E.
    2:{ unfold inv3, wfb, wf. sr. rewrite Ea, Eo. split; [repeat split; assumption|]. split; [exact Ev|].
        split; [apply nlt_asym; exact Sg|]. split; [exact Ol|]. split; [exact Ol|]. split; [reflexivity|].
        split; [intros _; apply le_refl|]. intros _ X. contradiction. }
    destruct E as [E|(t & (G1 & G2 & G3) & Hlo & Hhi & Hg)]; [left; exact E|right].
    exists (oa t), (ob t). rewrite Hlo, Hhi, Hg. split; [exact G1|]. split; [exact G2|]. split; [reflexivity|exact G3].
  Qed.
  (** C42: likewise for bubble points, as long as no minimum is searched for in a "well". *)
Theorem C42_bubble_guess : forall maxiter g0 br lo hi,
    calc_Prange_xi liq vapc well o draw maxiter g0 = Ok br ->
    br_lo br = Fin lo -> br_hi br = Fin hi -> lo < hi -> (forall q v, evaluated vapc q v -> exists r, v = Fin r) ->
    (forall a b r, well a b <> Ok r) ->
    exists q, br_guess br = Fin q /\ lo <= q /\ q < hi.
  Proof.
    intros maxiter g0 br lo hi E El Eh Hlt Hf Hw. apply C42_bubble_partial in E.
    destruct E as [[N _]|(vlo & vhi & V1 & S1 & Gs & [(V2 & S2 & _)|(b & W & _)])]; [congruence| |exfalso; exact (Hw _ _ _ W)].
    destruct (Hf _ _ V1) as [a ->]. destruct (Hf _ _ V2) as [b ->]. rewrite Gs, El, Eh.
    apply nlt_fin_false in S1. apply nlt_fin in S2. apply root_inside; [exact Hlt|]. right. split; assumption.
  Qed.
End Bubble.

(** objective 5000 - p *)
Example C42_bubble_example :
  calc_Prange_xi (fun _ => Ok (false, 1%nat)) (at_pressure_v (fun q => nsub (Fin 5000) q)) (fun _ _ => Err ValueError)
    (opts (Some (Fin 1000)) (Some (Fin 9000))) (fun _ => Fin (1#2)) 200 tt
  = Ok {| br_lo := Fin 1000; br_hi := Fin 9000;
          br_guess := root_of_line (Fin 1000) (Fin (5000 - 1000)) (Fin 9000) (Fin (5000 - 9000)); br_global := Some tt |}.
Proof. vm_compute. reflexivity. Qed.

(** C42 is false for bubble points: for an objective that is positive everywhere and grows with
    the pressure, a bracket is reported, with a positive objective at both ends, provided the
    root finder called in the "well" returns a pressure inside its bounds. *)
Theorem C42_bubble_well_refuted : exists br,
  calc_Prange_xi (fun _ => Ok (false, 1%nat)) (at_pressure_v (fun q => q))
    (fun a b => Ok (midpoint a b, midpoint a b))
    (opts (Some (Fin 1000)) None) (fun _ => Fin (1#2)) 200 tt = Ok br /\
  neqb (br_lo br) (Fin 1000) = true /\ neqb (br_hi br) (Fin 100500) = true /\
  forall q v, nlt (Fin 0) q = true -> evaluated (at_pressure_v (fun q => q)) q v -> nlt (Fin 0) v = true.
Proof.
  eexists. split; [vm_compute; reflexivity|]. split; [vm_compute; reflexivity|]. split; [vm_compute; reflexivity|].
  intros q v H (g & g' & f & E & <-). injection E as _ <-. exact H.
Qed.

(** the demonstration objectives are finite at finite pressures; made finite everywhere, the brackets
    of the examples meet the hypotheses of the two theorems about the suggested pressure *)
Definition finite_part (f : num -> num) (q : num) : num := match f q with Fin r => Fin r | _ => Fin 0 end.
Example C42_guess_case :
  (exists br, calc_Prange_yi (fun _ => Ok (false, 0%nat)) (at_pressure (finite_part (fun q => nsub q (Fin 4000))))
      (opts (Some (Fin 1000)) (Some (Fin 9000))) (fun _ => Fin (1#2)) 200 tt = Ok br /\
    br_lo br = Fin 1000 /\ br_hi br = Fin 9000 /\ exists q, br_guess br = Fin q /\ q == 4000) /\
  (forall q v, evaluated (at_pressure (finite_part (fun q => nsub q (Fin 4000)))) q v -> exists r, v = Fin r).
Proof.
  split.
  - eexists. split; [vm_compute; reflexivity|]. split; [reflexivity|]. split; [reflexivity|].
    eexists. split; [vm_compute; reflexivity|]. reflexivity.
  - intros q v (g & g' & f & E & <-). injection E as _ <-. cbn [f_obj]. unfold finite_part. destruct (nsub q (Fin 4000)); eexists; reflexivity.
Qed.

Print Assumptions C42_dew_guess.
Print Assumptions C42_bubble_guess.
Print Assumptions C42_dew_partial.
Print Assumptions C42_bubble_partial.
Print Assumptions C42_dew_undefined_refuted.
Print Assumptions C42_dew_limit_refuted.
Print Assumptions C42_dew_well_refuted.
Print Assumptions C42_bubble_well_refuted.
